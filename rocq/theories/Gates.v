(** * electronic/and.c (nothing in /repo calls it) *)
From Coq Require Import ZArith List.
Import ListNotations.
Open Scope Z_scope.

(** [AND], electronic/and.c:13-20: starts from 1.  The array and its size are one
    list. *)
Definition AND_gate (numbers : list Z) : Z := fold_left Z.land numbers 1.
(** [OR], electronic/and.c:22-29. *)
Definition OR_gate (numbers : list Z) : Z := fold_left Z.lor numbers 0.
