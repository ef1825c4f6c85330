(** * Words and C integers
    Models [mpp-cpu/src/lib/definitions.c] / [definitions.h] and [get_bit]
    of [utils.c].  This file contains definitions only; lemmas are in
    [WordFacts.v]. *)
From Coq Require Import ZArith List Bool.
Import ListNotations.
Open Scope Z_scope.

(** [typedef struct { int bits[WORD_SIZE_BIT]; } Word] (definitions.h:15-17,
    WORD_SIZE_BIT = 32 at definitions.h:13).  Cell 0 is the head of the list.
    Simplification: a cell is a [bool] because every statement of the code
    base that writes a cell writes 0 or 1 ([get_bit], literals, copies of
    cells, the 0/1 entries of ROM and of the truth table). *)
Definition Word := list bool.
Definition WORD_SIZE_BIT : nat := 32.

(** The range of C's [int] (32 bits on both targets, wasm32 and x86-64). *)
Definition INT_MIN : Z := - 2147483648.
Definition INT_MAX : Z := 2147483647.
Definition in_int (z : Z) : bool := (INT_MIN <=? z) && (z <=? INT_MAX).

(** [get_bit], utils.c:38-40: [(n >> k) & 1].  Right shift of a negative [int]
    is implementation-defined; both gcc and clang shift arithmetically. *)
Definition get_bit (n : Z) (k : nat) : bool := Z.testbit n (Z.of_nat k).

(** Reading [w.bits[i]]; all indices used by the code are literals below 32. *)
Definition bit (w : Word) (i : nat) : bool := nth i w false.

(** Writing [w.bits[i] = b]. *)
Fixpoint setbit (w : Word) (i : nat) (b : bool) : Word :=
  match w, i with
  | [], _ => []
  | _ :: w', O => b :: w'
  | x :: w', S i' => x :: setbit w' i' b
  end.

(** [initialize_word(&w, 0)], definitions.c:53-57; the code base only ever
    passes 0. *)
Definition zero_word : Word := repeat false WORD_SIZE_BIT.

(** [int_to_word], definitions.c:26-34. *)
Definition int_to_word (v : Z) : Word := map (get_bit v) (seq 0 WORD_SIZE_BIT).

(** One iteration of the loop of [word_to_int], definitions.c:19-21:
    [value = (value << 1) | bit].  Left shift of a non-negative [int] whose
    result is not representable is undefined behaviour: [None]. *)
Definition w2i_step (acc : option Z) (b : bool) : option Z :=
  match acc with
  | None => None
  | Some v => if 2 * v <=? INT_MAX then Some (Z.lor (Z.shiftl v 1) (Z.b2z b)) else None
  end.

(** [word_to_int], definitions.c:17-24: starts from the top cell and goes down. *)
Definition word_to_int (w : Word) : option Z :=
  match rev w with
  | [] => None
  | b :: r => fold_left w2i_step r (Some (Z.b2z b))
  end.

(** [get_used_bits], definitions.c:36-44: index of the highest cell equal to 1,
    plus one; 0 if there is none. *)
Fixpoint used_bits_from (w : Word) (i : Z) (acc : Z) : Z :=
  match w with
  | [] => acc
  | b :: w' => used_bits_from w' (i + 1) (if b then i + 1 else acc)
  end.
Definition get_used_bits (w : Word) : Z := used_bits_from w 0 0.
