(** * Specification: the machine behind the exported functions
    A machine described only with the documented register transfers ([Rtl.v]), the
    documented microprograms ([PropsMicro.v], with the opcodes of [Isa.v]) and the
    bus rules ([BusSpec.v]); it does not mention the simulator code.  [mach l] is
    the machine after the calls [l]. *)
From Coq Require Import ZArith List Bool.
From Verif Require Import Prog Rtl Isa Api BusSpec PropsMicro.
Import ListNotations.
Open Scope Z_scope.

(** The microstates an opcode goes through, fetch included.  The bytes without a
    meaning end after decoding, except four that also read a register and two that
    also skip a byte. *)
Definition program (op : Z) (fc fz : bool) : list Z :=
  match microprogram (decode op) fc fz with
  | Some qs => qs
  | None => match decode op with
            | NOP_i => [0; 1; 15]
            | _ => if (0x14 <=? op) && (op <=? 0x17) then [0; 1; 2] else [0; 1]
            end
  end.
(** The microstate after [q] in a list; the fetch when [q] is the last one. *)
Fixpoint following (q : Z) (qs : list Z) : Z :=
  match qs with
  | x :: (y :: _) as r => if x =? q then y else following q r
  | _ => 0
  end.

(** [core]: registers, memory, notices.  [now] and [next]: the microstates shown.
    [adr], [dat]: the address and data buses.  [lit]: the microstate whose control
    lines are shown, if any. *)
Record machine := mkMachine { core : cpu; now : Z; next : Z; adr : Z; dat : Z; lit : option Z }.
Definition line_of (m : machine) (ln : line) : Z :=
  match lit m with Some q => if is_raised ln q then 1 else 0 | None => 0 end.
Definition alu_of (m : machine) : Z := match lit m with Some q => alu_selected q | None => 0 end.

(** One clock cycle: the next microstate is executed, and the one after it in the
    microprogram of the instruction in RI becomes the next. *)
Definition cycle (m : machine) : machine :=
  let q := next m in
  let c := rtl q (core m) in
  mkMachine c q
    (following q (program (reg (core m) R_RI) (reg (core m) R_FC =? 1) (reg (core m) R_FZ =? 1)))
    (address q c) (data q c (dat m)) (Some q).

Definition answer (c : call) (m : machine) : machine :=
  match c with
  | Init rnd => mkMachine (mkCpu (fun _ => 0) (fun i => rnd i mod 255) (errs (core m))) 0 0 0 0 None
  | Shutdown => m
  | SetUi _ => m
  | RunClock _ => cycle m
  | ResetControl => mkMachine (core m) 0 0 (adr m) (dat m) None
  | SetMem a v => mkMachine (store a v (core m)) (now m) (next m) (adr m) (dat m) (lit m)
  | SetPc v => mkMachine (set R_PC v (core m)) (now m) (next m) (adr m) (dat m) (lit m)
  end.
Definition off : machine := mkMachine (mkCpu (fun _ => 0) (fun _ => 0) []) 0 0 0 0 None.
Definition mach (l : list call) : machine := fold_left (fun m c => answer c m) l off.

(** The memory cell a microstate uses. *)
Definition cell (q : Z) (c : cpu) : option Z :=
  match q with
  | 0 | 15 | 16 | 17 => Some (reg c R_PC)
  | 18 | 19 => Some (HL c)
  | 27 | 28 | 29 | 32 | 33 | 34 | 36 | 37 => Some (reg c R_SP)
  | _ => None
  end.
(** None of the next [n] cycles uses the cell [a]. *)
Fixpoint unused (a : Z) (n : nat) (m : machine) : Prop :=
  match n with O => True | S n' => cell (next m) (core m) <> Some a /\ unused a n' (cycle m) end.
