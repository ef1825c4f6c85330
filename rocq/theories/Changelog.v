(** * Model: the changelog of the information drawer
    mpp-front/src/pages/CPUTable/components/Changelog/index.tsx.  The page and the
    server of commits run side by side; answers come in any order.  Commits are named by
    their hashes; what the server says about a commit is that commit.
    Simplified: every handler sees the state of the last render, as React makes it when
    an event comes after the render; messages of errors are numbers. *)
From Coq Require Import List Bool Arith.
Import ListNotations.

(** Hashes, written as numbers.  [items] below: the hashes of [constants.json]. *)
Definition sha := nat.

(** One call of [Promise.all], lines 44-51: requests not answered yet; settled by an error. *)
Record batch := mkBatch { open : list sha; settled : bool }.
(** The component, lines 29-37, with its requests in flight. *)
Record log := mkLog {
  released : list sha; commits : list sha; loading_released : bool; loading_commits : bool;
  released_error : option nat; commits_error : option nat; batches : list batch; asked : nat }.

(** Lines 39-52, up to the first [await]. *)
Definition get_released (items : list sha) (s : log) : log :=
  match released s with
  | _ :: _ => s
  | [] => mkLog [] (commits s) true (loading_commits s) (released_error s) (commits_error s) (batches s ++ [mkBatch items false]) (asked s)
  end.
(** Lines 54-65. *)
Definition get_commits (s : log) : log :=
  match commits s with
  | _ :: _ => s
  | [] => mkLog [] [] (loading_released s) true (released_error s) None (batches s) (S (asked s))
  end.
(** The component appears, lines 67-70. *)
Definition appear (items : list sha) : log := get_released items (mkLog [] [] false false None None [] 0).

Fixpoint take (i : sha) (l : list sha) : option (list sha) :=
  match l with
  | [] => None
  | x :: r => if Nat.eqb x i then Some r else option_map (cons x) (take i r)
  end.
Fixpoint put (n : nat) (b : batch) (l : list batch) : list batch :=
  match n, l with
  | O, _ :: r => b :: r
  | S m, x :: r => x :: put m b r
  | _, [] => []
  end.
(** The answer about item [i] in batch [n] arrives: lines 45-46 and, when the batch has
    settled, 49-51.  [None]: there is no such request. *)
Definition answer (n : nat) (i : sha) (err : option nat) (s : log) : option log :=
  match nth_error (batches s) n with
  | None => None
  | Some b =>
    match take i (open b) with
    | None => None
    | Some rest =>
      match err with
      | None =>
        let done := match rest with [] => negb (settled b) | _ => false end in
        Some (mkLog (released s ++ [i]) (commits s) (if done then false else loading_released s) (loading_commits s)
               (released_error s) (commits_error s) (put n (mkBatch rest (settled b)) (batches s)) (asked s))
      | Some e =>
        Some (mkLog (released s) (commits s) (if settled b then loading_released s else false) (loading_commits s)
               (if settled b then released_error s else Some e) (commits_error s) (put n (mkBatch rest true) (batches s)) (asked s))
      end
    end
  end.
(** The answer about the history arrives: lines 61-64. *)
Definition answer_history (r : list sha + nat) (s : log) : option log :=
  match asked s with
  | O => None
  | S k =>
    match r with
    | inl l => Some (mkLog (released s) l (loading_released s) false (released_error s) (commits_error s) (batches s) k)
    | inr e => Some (mkLog (released s) (commits s) (loading_released s) false (released_error s) (Some e) (batches s) k)
    end
  end.
(** Lines 72-83, and the answers. *)
Inductive cevent := Tab_current | Tab_history | Item (n : nat) (i : sha) (err : option nat) | History (r : list sha + nat).
Definition cstep (items : list sha) (e : cevent) (s : log) : option log :=
  match e with
  | Tab_current => Some (get_released items s)
  | Tab_history => Some (get_commits s)
  | Item n i err => answer n i err s
  | History r => answer_history r s
  end.
Fixpoint csteps (items : list sha) (l : list cevent) (s : log) : option log :=
  match l with [] => Some s | e :: r => match cstep items e s with Some s' => csteps items r s' | None => None end end.
