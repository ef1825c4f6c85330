(** * Buses, subscriptions, middlewares (electronic/bus.c, pubsub.c)
    Objects obtained from [malloc] live in heaps indexed by numbers; [None] in a
    heap is memory that is not allocated.  Operations return [None] when the C
    code would have undefined behaviour.  [malloc]/[realloc] are assumed to
    succeed.  The linked list of subscriptions is the Coq list [sl] of
    subscription pointers; [LinkedList.v] proves that linkedlist.c implements
    the operations used here (append, delete first occurrence, traversal). *)
From Coq Require Import ZArith List Bool Lia.
From Verif Require Import Word Prog LinkedList.
Import ListNotations.

(** [Bus_t], electronic/bus.h:18-21. *)
Record bus := mkBus { bcur : Word; bnxt : Word }.
(** [PubSubSubscription], pubsub.h:62-67.  Its [id] is the value of
    [subscription_count] when it was created, pubsub.c:39, and it is allocated at
    the same time and never freed (pubsub.c:112), so the id also serves as its
    address. *)
Record psub := mkSub { stop : topic; sbus : option nat; sact : bool }.

Record pstate := mkPS {
  hb : nat -> option bus;      (* heap of Bus_t objects *)
  hn : nat;                    (* next fresh bus address *)
  ss : nat -> option psub;     (* heap of PubSubSubscription objects *)
  sc : nat;                    (* subscription_count, pubsub.c:27 *)
  sl : list nat;               (* the list at subscriptions_head, pubsub.c:26 *)
  mids : list (topic * (Word -> bool))  (* topics_with_middleware[0..count-1], pubsub.c:22-23 *)
}.

Definition upd {A} (f : nat -> A) (a : nat) (v : A) : nat -> A := fun x => if Nat.eqb x a then v else f x.

(** Program start: static initialisers of pubsub.c:22-27. *)
Definition ps0 : pstate := mkPS (fun _ => None) 0 (fun _ => None) 0 [] [].

(** [create_bus_data], electronic/bus.c:36-42. *)
Definition create_bus_data (p : pstate) : pstate * nat :=
  (mkPS (upd (hb p) (hn p) (Some (mkBus zero_word zero_word))) (S (hn p)) (ss p) (sc p) (sl p) (mids p), hn p).

(** [destroy_bus_data], electronic/bus.c:49: [free] of NULL does nothing, [free] of
    memory that is not allocated is undefined. *)
Definition destroy_bus_data (a : option nat) (p : pstate) : option pstate :=
  match a with
  | None => Some p
  | Some a => match hb p a with
              | None => None
              | Some _ => Some (mkPS (upd (hb p) a None) (hn p) (ss p) (sc p) (sl p) (mids p))
              end
  end.

(** [update_bus_data], electronic/bus.c:51. *)
Definition update_bus_data (a : option nat) (p : pstate) : option pstate :=
  match a with
  | None => None
  | Some a => match hb p a with
              | None => None
              | Some b => Some (mkPS (upd (hb p) a (Some (mkBus (bnxt b) (bnxt b)))) (hn p) (ss p) (sc p) (sl p) (mids p))
              end
  end.

(** [subscribe_to], pubsub.c:30-51. *)
Definition subscribe_to (t : topic) (a : option nat) (p : pstate) : pstate * nat :=
  (mkPS (hb p) (hn p) (upd (ss p) (sc p) (Some (mkSub t a true))) (S (sc p)) (sl p ++ [sc p]) (mids p), sc p).

(** [add_topic_middleware], pubsub.c:53-72, with a non-NULL function
    (a NULL function only makes it return NULL). *)
Definition add_topic_middleware (t : topic) (f : Word -> bool) (p : pstate) : pstate :=
  mkPS (hb p) (hn p) (ss p) (sc p) (sl p) (mids p ++ [(t, f)]).

(** [rm_topic_middleware], pubsub.c:74-84: with a non-NULL argument it stores NULL
    one element past the end of [topics_with_middleware] (line 81): undefined. *)
Definition rm_topic_middleware (m : option nat) (p : pstate) : option (pstate * bool) :=
  match m with
  | None => Some (p, false)
  | Some _ => None
  end.

(** [unsubscribe_for], pubsub.c:86-115. *)
Definition unsubscribe_for (sub : option nat) (p : pstate) : option (pstate * bool) :=
  match sub with
  | None => Some (p, false)
  | Some i =>
    match sl p with
    | [] => Some (p, false)
    | _ =>
      match ss p i with
      | None => None
      | Some s =>
        if Nat.leb (sc p) i then Some (p, false)
        else if existsb (Nat.eqb i) (sl p)
             then Some (mkPS (hb p) (hn p) (upd (ss p) i (Some (mkSub (stop s) (sbus s) false))) (sc p)
                          (remove_first i (sl p)) (mids p), true)
             else Some (p, false)
      end
    end
  end.

(** The middleware loop, pubsub.c:128-136: false when one of the topic vetoes. *)
Definition middlewares_pass (t : topic) (w : Word) (p : pstate) : bool :=
  forallb (fun m => negb (topic_eqb (fst m) t) || snd m w) (mids p).

(** The delivery loop, pubsub.c:139-150: heap and number of deliveries. *)
Fixpoint deliver (t : topic) (w : Word) (subs : nat -> option psub) (l : list nat) (h : nat -> option bus) (sent : Z)
  : option ((nat -> option bus) * Z) :=
  match l with
  | [] => Some (h, sent)
  | i :: l' =>
    match subs i with
    | None => None
    | Some s =>
      if negb (sact s) then deliver t w subs l' h sent
      else if negb (topic_eqb (stop s) t) then deliver t w subs l' h sent
      else match sbus s with
           | None => None
           | Some a => match h a with
                       | None => None
                       | Some b => deliver t w subs l' (upd h a (Some (mkBus (bcur b) w))) (sent + 1)
                       end
           end
    end
  end.

(** [publish_message_to], pubsub.c:124-154. *)
Definition publish_message_to (t : topic) (w : Word) (p : pstate) : option (pstate * Z) :=
  if middlewares_pass t w p
  then match deliver t w (ss p) (sl p) (hb p) 0 with
       | None => None
       | Some (h, n) => Some (mkPS h (hn p) (ss p) (sc p) (sl p) (mids p), n)
       end
  else Some (p, -1)%Z.

(** [check_data_bus_overflow], [check_dir_bus_overflow], electronic/bus.c:20-34
    (DATA_BUS_SIZE_BITS = 8, DIR_BUS_SIZE_BITS = 16, constants.h). *)
Definition check_data_bus_overflow (w : Word) : bool := negb (get_used_bits w >? 8)%Z.
Definition check_dir_bus_overflow (w : Word) : bool := negb (get_used_bits w >? 16)%Z.
(** [init_buses], electronic/bus.c:53-62 (nothing in /repo calls it). *)
Definition init_buses (p : pstate) : pstate :=
  add_topic_middleware T_DIR2 check_dir_bus_overflow
    (add_topic_middleware T_DIR1 check_dir_bus_overflow
      (add_topic_middleware T_DATA check_data_bus_overflow p)).
