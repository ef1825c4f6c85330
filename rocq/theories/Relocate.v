(** * Specification: a program put in another place of memory
    Independent of the simulator: two states of the instruction set (Isa.v), in the
    second of which a block of memory is somewhere else. *)
From Coq Require Import ZArith List Bool.
From Verif Require Import Prog Isa Access.
Import ListNotations.
Open Scope Z_scope.

(** The program is the [size] cells from [base]; it is moved by [shift] cells; [refs x]: the
    cells [x] and [x + 1] of it are an address written in it (high byte first). *)
Record place := mkPlace { base : Z; size : Z; shift : Z; refs : Z -> Prop }.
Definition inside (p : place) (x : Z) : Prop := base p <= x < base p + size p.
(** In memory before the last cell, here and there; addresses do not cross its ends. *)
Definition fits (p : place) : Prop :=
  0 <= base p /\ 0 <= base p + shift p /\ base p + size p <= 65535 /\ base p + size p + shift p <= 65535 /\
  forall x, refs p x -> inside p x /\ inside p (x + 1).
(** An address of the program is moved, any other is not. *)
Definition there (p : place) (x : Z) : Z :=
  if (base p <=? x) && (x <? base p + size p) then x + shift p else x.
(** The same for the program counter and for return addresses, which can also be right after
    the program. *)
Definition goes_on (p : place) (x : Z) : Z :=
  if (base p <=? x) && (x <=? base p + size p) then x + shift p else x.
(** Cells of the program that are not part of an address; cells neither here nor there. *)
Definition literal (p : place) (x : Z) : Prop := inside p x /\ ~ refs p x /\ ~ refs p (x - 1).
Definition aside (p : place) (x : Z) : Prop := ~ inside p x /\ ~ inside p (x - shift p).

(** What is known of a cell outside of the program: an ordinary value, or the low or the high
    half of a return address, which may differ. *)
Inductive kind := Plain | Low | High.
(** [t] is [s] with the program moved. *)
Record copied (p : place) (T : Z -> kind) (s t : arch) : Prop := {
  cp_regs : AC t = AC s /\ FC t = FC s /\ FZ t = FZ s /\ B t = B s /\ C t = C s /\ D t = D s /\ E t = E s /\ SP t = SP s;
  cp_pc : PC t = goes_on p (PC s);
  cp_code : forall x, literal p x -> M t (x + shift p) = M s x;
  cp_refs : forall x, refs p x -> 256 * M t (x + shift p) + M t (x + 1 + shift p) = there p (256 * M s x + M s (x + 1));
  cp_rest : forall x, aside p x -> T x = Plain -> M t x = M s x;
  cp_rets : forall x, T x = Low -> T (x + 1) = High -> aside p x /\ aside p (x + 1) /\
              256 * M t (x + 1) + M t x = goes_on p (256 * M s (x + 1) + M s x)
}.

(** Cells that can be read as data: a literal cell of the program, or an ordinary one aside. *)
Definition data (p : place) (T : Z -> kind) (x : Z) : Prop := literal p x \/ (aside p x /\ T x = Plain).
(** The next instruction is one of the program and keeps to the rules: operands that are addresses
    are among [refs]; what it reads is data; what it writes is a literal cell of the program or
    a cell aside; jumps and calls go into the program or elsewhere, not right after it; the
    stack is not set into the program; RET and IRET find a return address. *)
Definition tame (p : place) (T : Z -> kind) (s : arch) : Prop :=
  literal p (PC s) /\
  let jumps := refs p (PC s + 1) /\ operand s <> base p + size p in
  match decode (M s (PC s)) with
  | MOV_i_r _ | MOV_i_ac | OP _ Imm | NOP_i => literal p (PC s + 1)
  | LDA => refs p (PC s + 1) /\ data p T (operand s)
  | STA => refs p (PC s + 1) /\ (literal p (operand s) \/ aside p (operand s))
  | LDAX => aside p (DE s) /\ T (DE s) = Plain
  | STAX => aside p (DE s)
  | JMP | BEQ | BC_ => jumps
  | INISP => refs p (PC s + 1) /\ ~ inside p (operand s)
  | PUSH => aside p (before (SP s))
  | POP => aside p (SP s) /\ T (SP s) = Plain
  | CALL => jumps /\ 2 <= SP s /\ aside p (SP s - 1) /\ aside p (SP s - 2)
  | RET => T (SP s) = Low /\ T (SP s + 1) = High /\ SP s < 65535
  | IRET => T (SP s) = Low /\ T (SP s + 1) = High /\ SP s < 65534 /\ aside p (SP s + 2) /\ T (SP s + 2) = Plain
  | _ => True
  end.
(** What is known after the instruction: CALL leaves a return address, what is written over is
    an ordinary value. *)
Definition tags (T : Z -> kind) (s : arch) : Z -> kind :=
  match decode (M s (PC s)) with
  | STA => fun x => if x =? operand s then Plain else T x
  | STAX => fun x => if x =? DE s then Plain else T x
  | PUSH => fun x => if x =? before (SP s) then Plain else T x
  | CALL => fun x => if x =? SP s - 2 then Low else if x =? SP s - 1 then High else T x
  | _ => T
  end.
Fixpoint tames (p : place) (T : Z -> kind) (n : nat) (s : arch) : Prop :=
  match n with O => True | S n' => tame p T s /\ tames p (tags T s) n' (step s) end.
Fixpoint tagged (T : Z -> kind) (n : nat) (s : arch) : Z -> kind :=
  match n with O => T | S n' => tagged (tags T s) n' (step s) end.
(** At the beginning there are no return addresses. *)
Definition ordinary (x : Z) : kind := Plain.
