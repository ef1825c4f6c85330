(** * Model of the user interface's uses of the machine
    mpp-front/src/pages/CPUTable/components/RunButtons.tsx and Coder/index.tsx.
    The loops run to their end; the stop button and what may happen between two
    iterations are in [Buttons.v].  Left out: rendering, timers ([sleep] only yields). *)
From Coq Require Import ZArith List Bool.
From Verif Require Import Prog Api.
Import ListNotations.
Open Scope Z_scope.

(** [handleRunState], RunButtons.tsx:68-72. *)
Definition run_state (h : hstate) : option hstate := do_call (RunClock true) h.

(** [handleRunInstruction], RunButtons.tsx:74-89: [run_instruction h h'] when the
    loop started in [h] ends in [h']. *)
Inductive run_instruction : hstate -> hstate -> Prop :=
| RI_break : forall h h',
    do_call (RunClock true) h = Some h' -> get_next_state h' = Some 0 -> run_instruction h h'
| RI_again : forall h h1 h' q,
    do_call (RunClock true) h = Some h1 -> get_next_state h1 = Some q -> q <> 0 ->
    run_instruction h1 h' -> run_instruction h h'.

(** [maxRepresentableValue], RunButtons.tsx:114-115. *)
Definition max_representable : Z := 2 ^ get_memory_value_size_bits - 1.

(** The loop of [handleRunProgram], RunButtons.tsx:119-124; [u] is
    [!isRuningInmediate], the second argument is [stoping]. *)
Inductive run_program (u : bool) : bool -> hstate -> hstate -> Prop :=
| RP_break : forall h h', do_call (RunClock u) h = Some h' -> run_program u true h h'
| RP_again : forall h h1 h' v,
    do_call (RunClock u) h = Some h1 -> get_register_value R_RI h1 = Some v ->
    run_program u (v =? max_representable) h1 h' -> run_program u false h h'.

(** [handleSaveToMemory], Coder/index.tsx:29-38, on already parsed slots. *)
Fixpoint store_from (o : Z) (bytes : list Z) : list call :=
  match bytes with [] => [] | b :: l => SetMem o b :: store_from (o + 1) l end.
Definition save_to_memory (offset : Z) (bytes : list Z) (h : hstate) : option hstate :=
  run_calls (ResetControl :: store_from offset bytes) h.
