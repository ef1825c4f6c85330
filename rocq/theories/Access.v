(** * Specification: which memory cells an instruction reads and writes
    From the instruction set (Isa.v).  A pointer at the end of memory stays there. *)
From Coq Require Import ZArith List Bool.
From Verif Require Import Prog Isa.
Import ListNotations.
Open Scope Z_scope.

Definition after (p : Z) : Z := Z.min 65535 (p + 1).
Definition before (p : Z) : Z := Z.max 0 (p - 1).
(** The address in the two bytes after the opcode. *)
Definition operand (s : arch) : Z := 256 * M s (after (PC s)) + M s (after (after (PC s))).
(** Read by the next instruction: its opcode, its operands, and the data it fetches. *)
Definition reads (s : arch) : list Z :=
  PC s ::
  match decode (M s (PC s)) with
  | MOV_i_r _ | MOV_i_ac | OP _ Imm | NOP_i => [after (PC s)]
  | LDA => [after (PC s); after (after (PC s)); operand s]
  | STA | JMP | BEQ | BC_ | INISP | CALL => [after (PC s); after (after (PC s))]
  | LDAX => [DE s]
  | POP => [SP s]
  | RET => [SP s; after (SP s)]
  | IRET => [SP s; after (SP s); after (after (SP s))]
  | _ => []
  end.
Definition writes (s : arch) : list Z :=
  match decode (M s (PC s)) with
  | STA => [operand s]
  | STAX => [DE s]
  | PUSH => [before (SP s)]
  | CALL => [before (SP s); before (before (SP s))]
  | _ => []
  end.
(** Written by the next [n] instructions. *)
Fixpoint written (n : nat) (s : arch) : list Z :=
  match n with O => [] | S n' => writes s ++ written n' (step s) end.
(** [relies K n s]: the next [n] instructions read only cells of [K] and cells they have
    written themselves. *)
Fixpoint relies (K : Z -> Prop) (n : nat) (s : arch) : Prop :=
  match n with
  | O => True
  | S n' => (forall x, In x (reads s) -> K x) /\ relies (fun x => K x \/ In x (writes s)) n' (step s)
  end.
(** [alike K s t]: equal registers and flags, equal cells in [K]; the other cells and the
    notices so far may differ. *)
Definition alike (K : Z -> Prop) (s t : arch) : Prop :=
  AC s = AC t /\ FC s = FC t /\ FZ s = FZ t /\ B s = B t /\ C s = C t /\ D s = D t /\ E s = E t /\ PC s = PC t /\ SP s = SP t /\
  forall x, K x -> M s x = M t x.
