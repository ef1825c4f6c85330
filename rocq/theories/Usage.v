(** * Specification: how a client uses the exported functions, and what it sees
    Small definitions the theorems are stated with.  [Api.v] is the model of the
    exported functions; [Isa.v] and [Rtl.v] are the processor specifications. *)
From Coq Require Import ZArith List Bool.
From Verif Require Import Prog Isa Rtl Api.
Import ListNotations.
Open Scope Z_scope.

(** What a client has to remember: is the machine initialised, is a callback
    registered. *)
Record use := mkUse { on : bool; cb : bool }.

(** The calls a client may make, and what they do to [use].  [rand] never
    returns a negative number. *)
Inductive allowed : use -> call -> use -> Prop :=
| A_init : forall u rnd, (forall i, 0 <= rnd i) -> allowed u (Init rnd) (mkUse true (cb u))
| A_shutdown : forall k, allowed (mkUse true k) Shutdown (mkUse false k)
| A_set_ui : forall u k, allowed u (SetUi k) (mkUse (on u) k)
| A_clock : forall u k, (u = true -> k = true) -> allowed (mkUse true k) (RunClock u) (mkUse true k)
| A_reset : forall k, allowed (mkUse true k) ResetControl (mkUse true k)
| A_set_mem : forall o v, 0 <= o < 65536 -> 0 <= v <= 255 ->
    allowed (mkUse true true) (SetMem o v) (mkUse true true)
| A_set_pc : forall v, 0 <= v <= 65535 -> allowed (mkUse true true) (SetPc v) (mkUse true true).

(** Histories made of allowed calls, from program start. *)
Inductive proper : list call -> use -> Prop :=
| P_start : proper [] (mkUse false false)
| P_call : forall l u c u', proper l u -> allowed u c u' -> proper (l ++ [c]) u'.

(** [h] is where the allowed history [l] leads, and the machine is initialised
    ([k]: a callback is registered). *)
Definition live (l : list call) (h : hstate) (k : bool) : Prop :=
  proper l (mkUse true k) /\ run_calls l boot = Some h.

(** The getters show the processor state [c]: all fifteen registers, all memory
    cells, and the notices printed so far. *)
Definition obs (h : hstate) (c : cpu) : Prop :=
  (forall r, get_register_value r h = Some (reg c r)) /\
  (forall a, 0 <= a < 65536 -> get_memory_value a h = Some (mem c a)) /\
  hl h = errs c.

(** The getters show the programmer-visible state [a]. *)
Definition shows (h : hstate) (a : arch) : Prop :=
  get_register_value R_AC h = Some (AC a) /\
  get_register_value R_FC h = Some (Z.b2z (FC a)) /\
  get_register_value R_FZ h = Some (Z.b2z (FZ a)) /\
  get_register_value R_B h = Some (Isa.B a) /\
  get_register_value R_C h = Some (Isa.C a) /\
  get_register_value R_D h = Some (Isa.D a) /\
  get_register_value R_E h = Some (Isa.E a) /\
  get_register_value R_PC h = Some (PC a) /\
  get_register_value R_SP h = Some (SP a) /\
  (forall i, 0 <= i < 65536 -> get_memory_value i h = Some (M a i)) /\
  hl h = log a.

(** Between two instructions: the next microstate is the fetch.  The second part
    only excludes [set_register_pc(65535)] just before, which leaves the half
    registers PCH and PCL stale (finding, see C35). *)
Definition boundary (h : hstate) : Prop :=
  get_next_state h = Some 0 /\
  (get_register_value R_PC h = Some 65535 ->
   get_register_value R_PCH h = Some 255 /\ get_register_value R_PCL h = Some 255).

(** The clock calls [us] (arguments of [run_clock_cycle]) take [h] to [h'], and
    [h'] is the first state after [h] in which the next microstate is the fetch. *)
Definition clocks (us : list bool) : list call := map RunClock us.
Definition instruction (h : hstate) (us : list bool) (h' : hstate) : Prop :=
  run_calls (clocks us) h = Some h' /\ us <> [] /\ get_next_state h' = Some 0 /\
  forall us1 us2 h1, us = us1 ++ us2 -> us1 <> [] -> us2 <> [] ->
    run_calls (clocks us1) h = Some h1 -> get_next_state h1 <> Some 0.

(** [n] instructions one after the other. *)
Inductive instructions : nat -> hstate -> list bool -> hstate -> Prop :=
| In_none : forall h, instructions 0 h [] h
| In_one : forall n h us h1 vs h',
    instruction h us h1 -> instructions n h1 vs h' -> instructions (S n) h (us ++ vs) h'.
(** The clock cycles [n] instructions take. *)
Fixpoint total_cycles (n : nat) (a : arch) : Z :=
  match n with O => 0 | S n' => cycles (M a (PC a)) (FC a) (FZ a) + total_cycles n' (step a) end.

(** The byte at PC. *)
Definition opcode (a : arch) : Z := M a (PC a).

(** Some machine reached through the exported functions, standing between two
    instructions and showing [a], ends in [h'] after one more instruction. *)
Definition executes (a : arch) (h' : hstate) : Prop :=
  exists l h k us, live l h k /\ boundary h /\ shows h a /\ instruction h us h'.
