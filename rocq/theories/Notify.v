(** * Model of a notification during which the callbacks subscribe and unsubscribe
    mpp-front/src/lib/core/index.ts:312-322.  [uiUpdatesSubscriptions.forEach] is
    the [forEach] of a JavaScript set (ECMAScript, Set.prototype.forEach): it goes by
    index over the slots of the set, deleting empties a slot, adding what is not
    there makes a slot at the end, and the number of slots is read again after every
    callback.  Simplified: a callback does not itself start a notification. *)
From Coq Require Import List Bool Arith.
From Verif Require Import Connect.
Import ListNotations.

(** The slots of the set, index.ts:9. *)
Definition slots := list (option nat).
Definition holds (f : nat) (x : option nat) : bool := match x with Some g => Nat.eqb f g | None => false end.
(** [Set.prototype.add] as called in [subscribeToUIUpdates], index.ts:312-314. *)
Definition slot_add (f : nat) (s : slots) : slots := if existsb (holds f) s then s else s ++ [Some f].
(** [Set.prototype.delete] as called in [unsubscribeToUIUpdates], index.ts:316-318. *)
Definition slot_delete (f : nat) (s : slots) : slots := map (fun x => if holds f x then None else x) s.
Definition slot_act (e : sub_event) (s : slots) : slots :=
  match e with Subscribe f => slot_add f s | Unsubscribe f => slot_delete f s end.
Definition slot_acts (l : list sub_event) (s : slots) : slots := fold_left (fun s e => slot_act e s) l s.

(** What is seen of a notification: a callback is called, it subscribes or
    unsubscribes something, it throws. *)
Inductive seen := Called (f : nat) | Did (e : sub_event) | Threw.

(** What the callbacks do: given everything seen so far and the callback that is
    called, the calls of [subscribeToUIUpdates] and [unsubscribeToUIUpdates] it makes
    and whether it then throws. *)
Definition behaviour := list seen -> nat -> list sub_event * bool.

(** [notifyUpdateToSubscribers], index.ts:320-322, from slot [i] on; [None]: not over
    after [fuel] slots.  An error thrown by a callback leaves [forEach]. *)
Fixpoint for_each (body : behaviour) (fuel i : nat) (s : slots) (tr : list seen) : option (slots * list seen) :=
  match fuel with
  | O => None
  | S n =>
      match nth_error s i with
      | None => Some (s, tr)
      | Some None => for_each body n (S i) s tr
      | Some (Some f) =>
          let '(es, thrown) := body tr f in
          let s' := slot_acts es s in
          let tr' := tr ++ Called f :: map Did es in
          if thrown then Some (s', tr' ++ [Threw]) else for_each body n (S i) s' tr'
      end
  end.
(** A notification after the history [l] of subscriptions. *)
Definition notification (body : behaviour) (fuel : nat) (l : list sub_event) : option (slots * list seen) :=
  for_each body fuel 0 (slot_acts l []) [].
