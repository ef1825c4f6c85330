(** * Specification: one component driven alone (C101)
    The unit tests of [mpp-cpu/test/unit/lib/components] publish values on the
    buses of one component, call its [run_*] function and look at the buses and
    registers.  The words used to say this for every value: what a bus carries,
    what a register holds, which control lines are up, and that nothing else has
    changed.  Nothing here refers to the code of a component. *)
From Coq Require Import ZArith List Bool.
From Verif Require Import Word Prog Components Machine.
Import ListNotations.
Open Scope Z_scope.

(** The value last published on a bus, and the value of a register. *)
Definition carries (s : mstate) (t : topic) (v : Z) : Prop := nx s t = int_to_word v.
Definition holds (s : mstate) (r : regid) (v : Z) : Prop := rg s r = int_to_word v.
(** A control line is up (constants.h:53-83 number the lines). *)
Definition up (s : mstate) (k : nat) : bool := nth k (nx s T_CONTROL) false.
Definition num2 (lo hi : bool) : Z := Z.b2z lo + 2 * Z.b2z hi.

Definition byte (v : Z) : Prop := 0 <= v <= 255.
Definition address (v : Z) : Prop := 0 <= v <= 65535.

(** Only these buses, registers and cells may differ; the notices are those given. *)
Definition only (ts : list topic) (rs : list regid) (cells : list Z) (es : list msg) (s s' : mstate) : Prop :=
  (forall t, ~ In t ts -> nx s' t = nx s t) /\ (forall r, ~ In r rs -> rg s' r = rg s r) /\
  (forall a, ~ In a cells -> mm s' a = mm s a) /\ lg s' = (es ++ lg s)%list.
(** Nothing differs. *)
Definition nothing (es : list msg) : mstate -> mstate -> Prop := only [] [] [] es.

(** The eight operations of the ALU (alu.h:14-25) on two bytes: result and carry. *)
Definition operation (n a b : Z) : Z * bool :=
  match n with
  | 0 => ((a + b) mod 256, 255 <? a + b)
  | 1 => ((a - b) mod 256, a <? b)
  | 2 => (Z.land a b, false)
  | 3 => (Z.lor a b, false)
  | 4 => (Z.lxor a b, false)
  | 5 => (255 - a, false)
  | 6 => (b, false)
  | _ => ((b + 1) mod 256, false)
  end.
Definition selected (s : mstate) : Z := num2 (up s SELALU_0) (up s SELALU_1) + 4 * Z.b2z (up s SELALU_2).

(** The four registers of the bank (greg.c:74-92). *)
Definition bank (n : Z) : regid := match n with 0 => R_B | 1 => R_C | 2 => R_D | _ => R_E end.
