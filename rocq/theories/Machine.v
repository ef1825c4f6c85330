(** * The machine seen as one value per topic
    Between [init] and [shutdown] every bus variable of a topic holds the same
    [next_value] (all start at 0 and [publish_message_to] writes all of them);
    [HeapSim.v] proves that.  Here a state has one [nx] word per topic and one
    [cv] word (current_value) per bus variable. *)
From Coq Require Import ZArith List Bool.
From Verif Require Import Word Prog Tables Components.
Import ListNotations.
Open Scope Z_scope.

Record mstate := mkM {
  nx : topic -> Word;      (* next_value of the buses of a topic *)
  cv : busid -> Word;      (* current_value of each bus variable *)
  rg : regid -> Word;      (* value of each register *)
  mm : Z -> Z;             (* mem.values[o].value *)
  lg : list msg            (* error notices emitted so far, newest first *)
}.

Definition tset {A} (f : topic -> A) (t : topic) (v : A) : topic -> A :=
  fun x => if topic_eqb x t then v else f x.
Definition bset {A} (f : busid -> A) (b : busid) (v : A) : busid -> A :=
  fun x => if busid_eqb x b then v else f x.
Definition rset {A} (f : regid -> A) (r : regid) (v : A) : regid -> A :=
  fun x => if regid_eqb x r then v else f x.
Definition mset {A} (f : Z -> A) (o : Z) (v : A) : Z -> A :=
  fun x => if x =? o then v else f x.

(** Meaning of the statements; [None] is undefined behaviour. *)
Fixpoint exec (p : prog) (s : mstate) : option mstate :=
  match p with
  | Done => Some s
  | Upd b k => exec k (mkM (nx s) (bset (cv s) b (nx s (topic_of b))) (rg s) (mm s) (lg s))
  | Cur b k => exec (k (cv s b)) s
  | Nxt b k => exec (k (nx s (topic_of b))) s
  | Pub t w k => exec k (mkM (tset (nx s) t w) (cv s) (rg s) (mm s) (lg s))
  | RdR r k => exec (k (rg s r)) s
  | WrR r w k => exec k (mkM (nx s) (cv s) (rset (rg s) r w) (mm s) (lg s))
  | LdM o k => exec (k (if valid_offset o then Some (mm s o) else None)) s
  | StM o v k => if valid_offset o
                 then exec k (mkM (nx s) (cv s) (rg s) (mset (mm s) o v) (lg s))
                 else None
  | Notice m k => exec k (mkM (nx s) (cv s) (rg s) (mm s) (m :: lg s))
  | Undef => None
  end.
