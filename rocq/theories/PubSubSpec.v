(** * Specification of the buses: what a client of pubsub.c is promised
    Independent of the code.  A world is the buses with their two values, the
    live subscriptions in order of creation, and the middlewares. *)
From Coq Require Import ZArith List Bool.
From Verif Require Import Word Prog PubSub PubSubPtr.
Import ListNotations.

Record world := mkW {
  w_bus : nat -> option (Word * Word);      (* current and next value *)
  w_buses : nat;                            (* buses ever created *)
  w_live : list (nat * (topic * nat));      (* id, topic, bus *)
  w_subs : nat;                             (* subscriptions ever made *)
  w_mids : list (topic * (Word -> bool))
}.
Definition world0 : world := mkW (fun _ => None) 0 [] 0 [].

Definition on_bus (a : nat) (x : nat * (topic * nat)) : bool := Nat.eqb (snd (snd x)) a.
Definition on_topic (t : topic) (x : nat * (topic * nat)) : bool := topic_eqb (fst (snd x)) t.
Definition has_id (i : nat) (x : nat * (topic * nat)) : bool := Nat.eqb (fst x) i.

(** What each call does and returns; [None]: the client may not make it (using a
    bus that does not exist, freeing one that is subscribed, naming a
    subscription that was never made). *)
Definition promised (e : event) (w : world) : option (world * Z) :=
  match e with
  | NewBus => Some (mkW (fun a => if Nat.eqb a (w_buses w) then Some (zero_word, zero_word) else w_bus w a)
                        (S (w_buses w)) (w_live w) (w_subs w) (w_mids w), Z.of_nat (w_buses w))
  | FreeBus a => match w_bus w a with
                 | Some _ => if existsb (on_bus a) (w_live w) then None
                             else Some (mkW (fun x => if Nat.eqb x a then None else w_bus w x) (w_buses w) (w_live w) (w_subs w) (w_mids w), 0%Z)
                 | None => None
                 end
  | Update a => match w_bus w a with
                | Some (_, n) => Some (mkW (fun x => if Nat.eqb x a then Some (n, n) else w_bus w x) (w_buses w) (w_live w) (w_subs w) (w_mids w), 0%Z)
                | None => None
                end
  | Subscribe t a => match w_bus w a with
                     | Some _ => Some (mkW (w_bus w) (w_buses w) (w_live w ++ [(w_subs w, (t, a))]) (S (w_subs w)) (w_mids w), Z.of_nat (w_subs w))
                     | None => None
                     end
  | Unsubscribe i => if Nat.ltb i (w_subs w)
                     then Some (mkW (w_bus w) (w_buses w) (filter (fun x => negb (has_id i x)) (w_live w)) (w_subs w) (w_mids w),
                                Z.b2z (existsb (has_id i) (w_live w)))
                     else None
  | Publish t v =>
      if existsb (fun m => topic_eqb (fst m) t && negb (snd m v)) (w_mids w)
      then Some (w, -1)%Z
      else Some (mkW (fun a => match w_bus w a with
                               | Some (c, n) => Some (c, if existsb (fun x => on_topic t x && on_bus a x) (w_live w) then v else n)
                               | None => None
                               end) (w_buses w) (w_live w) (w_subs w) (w_mids w),
                 Z.of_nat (length (filter (on_topic t) (w_live w))))
  | AddMiddleware t f => Some (mkW (w_bus w) (w_buses w) (w_live w) (w_subs w) (w_mids w ++ [(t, f)]), 0%Z)
  end.
Fixpoint promised_run (es : list event) (w : world) : option (world * list Z) :=
  match es with
  | [] => Some (w, [])
  | e :: es' => match promised e w with
                | None => None
                | Some (w1, r) => match promised_run es' w1 with
                                  | None => None
                                  | Some (w2, rs) => Some (w2, r :: rs)
                                  end
                end
  end.
