(** * pubsub.c and watcher.c down to list nodes and array cells
    [PubSub.v] keeps the subscriptions as a Coq list and the middlewares as
    a Coq list of functions.  Here both are the C data structures: the list nodes
    of [LinkedList.v] reached from [subscriptions_head], and the array
    [topics_with_middleware] of pointers to malloc'ed records.  [None] results are
    undefined behaviour.  [malloc] and [realloc] are assumed to succeed.  Loops
    over a list get [S lfresh] iterations: one more than there are nodes. *)
From Coq Require Import ZArith List Bool.
From Verif Require Import Word Prog LinkedList PubSub.
Import ListNotations.

(** The static variables of pubsub.c:22-27 and the heap. *)
Record pheap := mkPH {
  qb : nat -> option bus;             (* heap of Bus_t objects *)
  qn : nat;                           (* next fresh bus address *)
  qs : nat -> option psub;            (* heap of PubSubSubscription objects *)
  qc : nat;                           (* subscription_count *)
  ql : lheap;                         (* heap of LlNode objects *)
  qh : option nat;                    (* subscriptions_head *)
  qa : list (option nat);             (* the array topics_with_middleware points to *)
  qk : nat;                           (* topic_with_middleware_count *)
  qm : nat -> option (topic * (Word -> bool)); (* heap of PubSubMiddleware objects *)
  qmn : nat                           (* next fresh middleware address *)
}.
Definition ph0 : pheap := mkPH (fun _ => None) 0 (fun _ => None) 0 (mkLH (fun _ => None) 0) None [] 0 (fun _ => None) 0.

Definition loops (h : lheap) : nat := S (lfresh h).

(** [create_bus_data], electronic/bus.c:36-42. *)
Definition p_create_bus (q : pheap) : pheap * nat :=
  (mkPH (upd (qb q) (qn q) (Some (mkBus zero_word zero_word))) (S (qn q)) (qs q) (qc q) (ql q) (qh q) (qa q) (qk q) (qm q) (qmn q), qn q).

(** [destroy_bus_data], electronic/bus.c:49, of a non-NULL pointer. *)
Definition p_destroy_bus (a : nat) (q : pheap) : option pheap :=
  match qb q a with
  | None => None
  | Some _ => Some (mkPH (upd (qb q) a None) (qn q) (qs q) (qc q) (ql q) (qh q) (qa q) (qk q) (qm q) (qmn q))
  end.

(** [update_bus_data], electronic/bus.c:51. *)
Definition p_update_bus (a : nat) (q : pheap) : option pheap :=
  match qb q a with
  | None => None
  | Some b => Some (mkPH (upd (qb q) a (Some (mkBus (bnxt b) (bnxt b)))) (qn q) (qs q) (qc q) (ql q) (qh q) (qa q) (qk q) (qm q) (qmn q))
  end.

(** [subscribe_to], pubsub.c:30-51. *)
Definition p_subscribe (t : topic) (a : nat) (q : pheap) : option (pheap * nat) :=
  let i := qc q in
  let subs := upd (qs q) i (Some (mkSub t (Some a) true)) in
  match qh q with
  | None => let '(h, c) := create_ll_node i None (ql q) in
            Some (mkPH (qb q) (qn q) subs (S i) h (Some c) (qa q) (qk q) (qm q) (qmn q), i)
  | Some _ => match push_ll_node (loops (ql q)) (qh q) i (ql q) with
              | None => None
              | Some (h, _) => Some (mkPH (qb q) (qn q) subs (S i) h (qh q) (qa q) (qk q) (qm q) (qmn q), i)
              end
  end.

(** [add_topic_middleware], pubsub.c:53-72, with a non-NULL function: [realloc] to
    count+1 pointers, the last one set. *)
Definition p_add_middleware (t : topic) (f : Word -> bool) (q : pheap) : pheap :=
  mkPH (qb q) (qn q) (qs q) (qc q) (ql q) (qh q) (firstn (qk q) (qa q) ++ [Some (qmn q)]) (S (qk q))
    (upd (qm q) (qmn q) (Some (t, f))) (S (qmn q)).

(** [rm_topic_middleware], pubsub.c:74-84, of a non-NULL pointer, in two steps:
    the [free], and the store to [topics_with_middleware[topic_with_middleware_count]]. *)
Definition p_free_middleware (m : nat) (q : pheap) : option pheap :=
  match qm q m with
  | None => None
  | Some _ => Some (mkPH (qb q) (qn q) (qs q) (qc q) (ql q) (qh q) (qa q) (qk q) (upd (qm q) m None) (qmn q))
  end.
Fixpoint store_cell (l : list (option nat)) (i : nat) (v : option nat) : option (list (option nat)) :=
  match l, i with
  | [], _ => None
  | _ :: l', O => Some (v :: l')
  | x :: l', S i' => match store_cell l' i' v with Some l2 => Some (x :: l2) | None => None end
  end.
Definition p_rm_middleware (m : nat) (q : pheap) : option (pheap * bool) :=
  match p_free_middleware m q with
  | None => None
  | Some q1 => match store_cell (qa q1) (qk q1) None with
               | None => None
               | Some l => Some (mkPH (qb q1) (qn q1) (qs q1) (qc q1) (ql q1) (qh q1) l (qk q1) (qm q1) (qmn q1), true)
               end
  end.

(** [unsubscribe_for], pubsub.c:86-115, of a non-NULL pointer. *)
Definition p_unsubscribe (i : nat) (q : pheap) : option (pheap * bool) :=
  match qh q with
  | None => Some (q, false)
  | Some _ =>
    match qs q i with
    | None => None
    | Some s =>
      if Nat.leb (qc q) i then Some (q, false)
      else match delete_node_from_value (loops (ql q)) (qh q) i (ql q) with
           | None => None
           | Some (h, hd, true) =>
             Some (mkPH (qb q) (qn q) (upd (qs q) i (Some (mkSub (stop s) (sbus s) false))) (qc q) h hd (qa q) (qk q) (qm q) (qmn q), true)
           | Some (h, hd, false) => (* active is restored, line 107 *)
             Some (mkPH (qb q) (qn q) (qs q) (qc q) h hd (qa q) (qk q) (qm q) (qmn q), false)
           end
    end
  end.

(** The middleware loop of [publish_message_to], pubsub.c:128-136: [Some false]
    when one of them vetoes. *)
Fixpoint p_middlewares (t : topic) (w : Word) (objs : nat -> option (topic * (Word -> bool))) (l : list (option nat)) : option bool :=
  match l with
  | [] => Some true
  | None :: l' => p_middlewares t w objs l'
  | Some m :: l' =>
    match objs m with
    | None => None
    | Some (t', f) => if negb (topic_eqb t' t) then p_middlewares t w objs l'
                      else if f w then p_middlewares t w objs l' else Some false
    end
  end.

(** The delivery loop, pubsub.c:139-150.  Node values are never NULL. *)
Fixpoint p_deliver (fuel : nat) (t : topic) (w : Word) (subs : nat -> option psub) (h : lheap) (cur : option nat)
  (b : nat -> option bus) (sent : Z) : option ((nat -> option bus) * Z) :=
  match fuel with
  | O => None
  | S f =>
    match cur with
    | None => Some (b, sent)
    | Some c =>
      match lnode h c with
      | None => None
      | Some n =>
        match subs (nval n) with
        | None => None
        | Some s =>
          if negb (sact s) then p_deliver f t w subs h (nnext n) b sent
          else if negb (topic_eqb (stop s) t) then p_deliver f t w subs h (nnext n) b sent
          else match sbus s with
               | None => None
               | Some a => match b a with
                           | None => None
                           | Some x => p_deliver f t w subs h (nnext n) (upd b a (Some (mkBus (bcur x) w))) (sent + 1)
                           end
               end
        end
      end
    end
  end.

(** [publish_message_to], pubsub.c:124-154. *)
Definition p_publish (t : topic) (w : Word) (q : pheap) : option (pheap * Z) :=
  match p_middlewares t w (qm q) (firstn (qk q) (qa q)) with
  | None => None
  | Some false => Some (q, -1)%Z
  | Some true =>
    match p_deliver (loops (ql q)) t w (qs q) (ql q) (qh q) (qb q) 0 with
    | None => None
    | Some (b, n) => Some (mkPH b (qn q) (qs q) (qc q) (ql q) (qh q) (qa q) (qk q) (qm q) (qmn q), n)
    end
  end.

(** ** Histories of calls *)
Inductive event :=
| NewBus
| FreeBus (a : nat)
| Update (a : nat)
| Subscribe (t : topic) (a : nat)
| Unsubscribe (i : nat)
| Publish (t : topic) (w : Word)
| AddMiddleware (t : topic) (f : Word -> bool).

(** One call: the new state and the result as a number (addresses, ids, booleans
    and counts alike). *)
Definition p_event (e : event) (q : pheap) : option (pheap * Z) :=
  match e with
  | NewBus => let '(q', a) := p_create_bus q in Some (q', Z.of_nat a)
  | FreeBus a => option_map (fun q' => (q', 0%Z)) (p_destroy_bus a q)
  | Update a => option_map (fun q' => (q', 0%Z)) (p_update_bus a q)
  | Subscribe t a => option_map (fun r => (fst r, Z.of_nat (snd r))) (p_subscribe t a q)
  | Unsubscribe i => option_map (fun r => (fst r, Z.b2z (snd r))) (p_unsubscribe i q)
  | Publish t w => p_publish t w q
  | AddMiddleware t f => Some (p_add_middleware t f q, 0%Z)
  end.
Fixpoint p_run (es : list event) (q : pheap) : option (pheap * list Z) :=
  match es with
  | [] => Some (q, [])
  | e :: es' => match p_event e q with
                | None => None
                | Some (q1, r) => match p_run es' q1 with
                                  | None => None
                                  | Some (q2, rs) => Some (q2, r :: rs)
                                  end
                end
  end.

(** ** watcher.c
    A watcher is an object whose address is a number; [wtype] and [wreg] are its
    fields, watcher.h:39-42, fixed during the program (they are static structs). *)
Record wheap := mkWH { wlh : lheap; whead : option nat }.
Definition wh0 : wheap := mkWH (mkLH (fun _ => None) 0) None.
(** [register_watcher], watcher.c:22-34. *)
Definition register_watcher (x : nat) (q : wheap) : option wheap :=
  let '(h, c) := create_ll_node x None (wlh q) in
  match whead q with
  | None => Some (mkWH h (Some c))
  | Some a => match last_node (loops h) h a with
              | None => None
              | Some b => match lnode h b with
                          | None => None
                          | Some n => Some (mkWH (lput h b (Some (mkNode (nval n) (Some c)))) (whead q))
                          end
              end
  end.
(** [unregister_watcher], watcher.c:36-39. *)
Definition unregister_watcher (x : nat) (q : wheap) : option (wheap * bool) :=
  match whead q with
  | None => Some (q, false)
  | Some _ => match delete_node_from_value (loops (wlh q)) (whead q) x (wlh q) with
              | None => None
              | Some (h, hd, r) => Some (mkWH h hd, r)
              end
  end.
(** [get_register], watcher.c:41-51; the inner [None] is NULL. *)
Fixpoint find_watcher (fuel : nat) (wtype : nat -> regid) (h : lheap) (cur : option nat) (t : regid) : option (option nat) :=
  match fuel with
  | O => None
  | S f => match cur with
           | None => Some None
           | Some c => match lnode h c with
                       | None => None
                       | Some n => if regid_eqb (wtype (nval n)) t then Some (Some (nval n)) else find_watcher f wtype h (nnext n) t
                       end
           end
  end.
Definition get_register (wtype : nat -> regid) (t : regid) (q : wheap) : option (option nat) :=
  find_watcher (loops (wlh q)) wtype (wlh q) (whead q) t.
