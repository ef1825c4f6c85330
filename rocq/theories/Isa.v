(** * Specification: the M++ instruction set
    What a programmer relies on, written from the documentation
    ([mpp-front/src/lib/traslator/operations.json], [docs/]): programmer-visible state,
    decoding, effect of one instruction.  Independent of the simulator code and
    of the microstates.  Where the documentation is silent the behaviour chosen
    here is the one the simulator has, and the point is flagged. *)
From Coq Require Import ZArith List Bool.
From Verif Require Import Prog.
Import ListNotations.
Open Scope Z_scope.

(** Programmer-visible state. [log]: error notices, newest first. *)
Record arch := mkArch {
  AC : Z; FC : bool; FZ : bool;
  B : Z; C : Z; D : Z; E : Z;
  PC : Z; SP : Z;
  M : Z -> Z;
  log : list msg
}.

Inductive r8 := RB | RC | RD | RE.
Definition get (r : r8) (s : arch) : Z :=
  match r with RB => B s | RC => C s | RD => D s | RE => E s end.
Definition put (r : r8) (v : Z) (s : arch) : arch :=
  match r with
  | RB => mkArch (AC s) (FC s) (FZ s) v (C s) (D s) (E s) (PC s) (SP s) (M s) (log s)
  | RC => mkArch (AC s) (FC s) (FZ s) (B s) v (D s) (E s) (PC s) (SP s) (M s) (log s)
  | RD => mkArch (AC s) (FC s) (FZ s) (B s) (C s) v (E s) (PC s) (SP s) (M s) (log s)
  | RE => mkArch (AC s) (FC s) (FZ s) (B s) (C s) (D s) v (PC s) (SP s) (M s) (log s)
  end.
Definition put_ac (v : Z) (s : arch) : arch :=
  mkArch v (FC s) (FZ s) (B s) (C s) (D s) (E s) (PC s) (SP s) (M s) (log s).
Definition put_flags (c z : bool) (s : arch) : arch :=
  mkArch (AC s) c z (B s) (C s) (D s) (E s) (PC s) (SP s) (M s) (log s).
Definition put_pc (v : Z) (s : arch) : arch :=
  mkArch (AC s) (FC s) (FZ s) (B s) (C s) (D s) (E s) v (SP s) (M s) (log s).
Definition put_sp (v : Z) (s : arch) : arch :=
  mkArch (AC s) (FC s) (FZ s) (B s) (C s) (D s) (E s) (PC s) v (M s) (log s).
Definition write (a v : Z) (s : arch) : arch :=
  mkArch (AC s) (FC s) (FZ s) (B s) (C s) (D s) (E s) (PC s) (SP s)
         (fun x => if x =? a then v else M s x) (log s).
Definition note (m : msg) (s : arch) : arch :=
  mkArch (AC s) (FC s) (FZ s) (B s) (C s) (D s) (E s) (PC s) (SP s) (M s) (m :: log s).

(** Equality of every observable. *)
Definition arch_eq (s t : arch) : Prop :=
  AC s = AC t /\ FC s = FC t /\ FZ s = FZ t /\
  B s = B t /\ C s = C t /\ D s = D t /\ E s = E t /\
  PC s = PC t /\ SP s = SP t /\ (forall a, M s a = M t a) /\ log s = log t.

(** Values a state can hold: bytes, 16-bit pointers. *)
Definition valid (s : arch) : Prop :=
  0 <= AC s <= 255 /\ 0 <= B s <= 255 /\ 0 <= C s <= 255 /\ 0 <= D s <= 255 /\
  0 <= E s <= 255 /\ 0 <= PC s <= 65535 /\ 0 <= SP s <= 65535 /\
  (forall a, 0 <= a < 65536 -> 0 <= M s a <= 255).

(** The program counter and the stack pointer do not wrap: stepping past the
    end leaves them where they are and reports a notice. *)
Definition pc_next (s : arch) : arch :=
  if PC s =? 65535 then note E_PC s else put_pc (PC s + 1) s.
Definition sp_up (s : arch) : arch :=
  if SP s =? 65535 then note E_SP s else put_sp (SP s + 1) s.
Definition sp_down (s : arch) : arch :=
  if SP s =? 0 then note E_SP s else put_sp (SP s - 1) s.

(** The flags as a byte: FC is bit 7, FZ is bit 0. *)
Definition flags_byte (s : arch) : Z := (if FC s then 128 else 0) + (if FZ s then 1 else 0).
Definition load_flags (v : Z) (s : arch) : arch := put_flags (Z.testbit v 7) (Z.testbit v 0) s.

Inductive alu := ADD | SUB | CMP | AND | OR | XOR.
Inductive src := Reg (r : r8) | Acc | Imm.

Inductive instr :=
| MOV_rr (s d : r8)       (* MOV s, d *)
| MOV_r_ac (s : r8)       (* MOV s, AC *)
| MOV_ac_r (d : r8)       (* MOV AC, d *)
| MOV_ac_ac               (* MOV AC, AC *)
| MOV_i_r (d : r8)        (* MOV inm, d *)
| MOV_i_ac                (* MOV inm, AC *)
| OP (o : alu) (x : src)  (* ADD/SUB/CMP/AND/OR/XOR r | AC | inm *)
| INC_r (r : r8) | INC_ac
| CMA
| LDA | STA               (* dir *)
| LDAX | STAX             (* address D:E *)
| BEQ | BC_ | JMP         (* dir *)
| LFA | SFA
| INISP                   (* dir *)
| PUSH | POP | CALL | RET | IRET
| FIN
| NOP                     (* undocumented opcodes without effect *)
| NOP_i.                  (* undocumented, skips one operand byte *)

Definition reg_no (n : Z) : r8 :=
  if n =? 0 then RB else if n =? 1 then RC else if n =? 2 then RD else RE.

(** The documented opcodes, operations.json; [None] if undocumented. *)
Definition decode_documented (op : Z) : option instr :=
  let r := reg_no (op mod 4) in
  if (0x00 <=? op) && (op <=? 0x0F) then Some (MOV_rr r (reg_no (op / 4)))
  else if (0x10 <=? op) && (op <=? 0x13) then Some (MOV_r_ac r)
  else if (0x18 <=? op) && (op <=? 0x1B) then Some (OP SUB (Reg r))
  else if (0x1C <=? op) && (op <=? 0x1F) then Some (OP CMP (Reg r))
  else if (0x20 <=? op) && (op <=? 0x23) then Some (OP AND (Reg r))
  else if (0x24 <=? op) && (op <=? 0x27) then Some (OP OR (Reg r))
  else if (0x28 <=? op) && (op <=? 0x2B) then Some (OP XOR (Reg r))
  else if (0x2C <=? op) && (op <=? 0x2F) then Some (INC_r r)
  else if (0x30 <=? op) && (op <=? 0x33) then Some (OP ADD (Reg r))
  else if (0x40 <=? op) && (op <=? 0x43) then Some (MOV_ac_r r)
  else if op =? 0x44 then Some MOV_ac_ac
  else if op =? 0x45 then Some (OP ADD Acc)
  else if op =? 0x46 then Some (OP SUB Acc)
  else if op =? 0x47 then Some (OP CMP Acc)
  else if op =? 0x48 then Some (OP AND Acc)
  else if op =? 0x49 then Some (OP OR Acc)
  else if op =? 0x4A then Some (OP XOR Acc)
  else if op =? 0x4B then Some INC_ac
  else if (0x60 <=? op) && (op <=? 0x63) then Some (MOV_i_r r)
  else if op =? 0x64 then Some MOV_i_ac
  else if op =? 0x65 then Some (OP ADD Imm)
  else if op =? 0x66 then Some (OP SUB Imm)
  else if op =? 0x67 then Some (OP CMP Imm)
  else if op =? 0x68 then Some (OP AND Imm)
  else if op =? 0x69 then Some (OP OR Imm)
  else if op =? 0x6A then Some (OP XOR Imm)
  else if op =? 0x70 then Some LDA
  else if op =? 0x71 then Some STA
  else if op =? 0x72 then Some BEQ
  else if op =? 0x73 then Some BC_
  else if op =? 0x74 then Some JMP
  else if op =? 0x80 then Some CMA
  else if op =? 0x81 then Some LFA
  else if op =? 0x82 then Some SFA
  else if op =? 0x90 then Some STAX
  else if op =? 0xB0 then Some LDAX
  else if op =? 0xC0 then Some IRET
  else if op =? 0xC1 then Some PUSH
  else if op =? 0xC2 then Some POP
  else if op =? 0xC3 then Some INISP
  else if op =? 0xC4 then Some CALL
  else if op =? 0xC5 then Some RET
  else if op =? 0xFF then Some FIN
  else None.

(** What the remaining bytes do (not documented): aliases and no-operations. *)
Definition decode_undocumented (op : Z) : instr :=
  if (0x34 <=? op) && (op <=? 0x3F) then OP ADD (Reg (reg_no (op mod 4)))
  else if op =? 0x4C then OP AND Acc
  else if op =? 0x4D then OP OR Acc
  else if op =? 0x4E then OP XOR Acc
  else if op =? 0x4F then INC_ac
  else if op =? 0x6C then OP AND Imm
  else if op =? 0x6D then OP OR Imm
  else if op =? 0x6E then OP XOR Imm
  else if (op =? 0x6B) || (op =? 0x6F) then NOP_i
  else if (0x91 <=? op) && (op <=? 0x9F) then STAX
  else if (0xB1 <=? op) && (op <=? 0xBF) then LDAX
  else NOP.

Definition decode (op : Z) : instr :=
  match decode_documented op with Some i => i | None => decode_undocumented op end.

(** The arithmetic-logic operations on bytes: result, carry/borrow.  CMP and
    SUB compute the same; logic operations clear FC. *)
Definition alu_result (o : alu) (a b : Z) : Z :=
  match o with
  | ADD => (a + b) mod 256
  | SUB | CMP => (a - b) mod 256
  | AND => Z.land a b | OR => Z.lor a b | XOR => Z.lxor a b
  end.
Definition alu_carry (o : alu) (a b : Z) : bool :=
  match o with
  | ADD => 255 <? a + b
  | SUB | CMP => a <? b
  | _ => false
  end.
Definition alu_step (o : alu) (b : Z) (s : arch) : arch :=
  let v := alu_result o (AC s) b in
  let s' := match o with CMP => s | _ => put_ac v s end in
  put_flags (alu_carry o (AC s) b) (v =? 0) s'.

(** Operands follow the opcode; addresses are high byte first. *)
Definition imm (s : arch) : Z := M s (PC s).
Definition with_imm (k : Z -> arch -> arch) (s : arch) : arch := k (imm s) (pc_next s).
Definition with_dir (k : Z -> arch -> arch) (s : arch) : arch :=
  with_imm (fun h => with_imm (fun l => k (256 * h + l))) s.

Definition push (v : Z) (s : arch) : arch := let s' := sp_down s in write (SP s') v s'.
Definition pop (k : Z -> arch -> arch) (s : arch) : arch := k (M s (SP s)) (sp_up s).
Definition DE (s : arch) : Z := 256 * D s + E s.

(** Effect of an instruction, the PC being already past the opcode. *)
Definition exec_instr (i : instr) (s : arch) : arch :=
  match i with
  | MOV_rr a d => put d (get a s) s
  | MOV_r_ac a => put_ac (get a s) s
  | MOV_ac_r d => put d (AC s) s
  | MOV_ac_ac => s
  | MOV_i_r d => with_imm (put d) s
  | MOV_i_ac => with_imm put_ac s
  | OP o (Reg r) => alu_step o (get r s) s
  | OP o Acc => alu_step o (AC s) s
  | OP o Imm => with_imm (alu_step o) s
  | INC_r r => let v := (get r s + 1) mod 256 in put_flags false (v =? 0) (put r v s)
  | INC_ac => let v := (AC s + 1) mod 256 in put_flags false (v =? 0) (put_ac v s)
  | CMA => let v := 255 - AC s in put_flags false (v =? 0) (put_ac v s)
  | LDA => with_dir (fun a s' => put_ac (M s' a) s') s
  | STA => with_dir (fun a s' => write a (AC s') s') s
  | LDAX => put_ac (M s (DE s)) s
  | STAX => write (DE s) (AC s) s
  | JMP => with_dir put_pc s
  | BEQ => with_dir (fun a s' => if FZ s' then put_pc a s' else s') s
  | BC_ => with_dir (fun a s' => if FC s' then put_pc a s' else s') s
  | LFA => put_ac (flags_byte s) s
  | SFA => load_flags (AC s) s
  | INISP => with_dir put_sp s
  | PUSH => push (AC s) s
  | POP => pop put_ac s
  | CALL => with_dir (fun a s' => put_pc a (push (PC s' mod 256) (push (PC s' / 256) s'))) s
  | RET => pop (fun l => pop (fun h => put_pc (256 * h + l))) s
  | IRET => pop (fun l => pop (fun h => pop (fun f s' => load_flags f (put_pc (256 * h + l) s')))) s
  | FIN | NOP => s
  | NOP_i => with_imm (fun _ s' => s') s
  end.

(** One instruction: fetch, decode, execute. *)
Definition step (s : arch) : arch := exec_instr (decode (M s (PC s))) (pc_next s).

Fixpoint steps (n : nat) (s : arch) : arch :=
  match n with O => s | S n' => steps n' (step s) end.

(** Clock cycles an instruction takes, fetch included. *)
Definition cycles (op : Z) (fc fz : bool) : Z :=
  match decode op with
  | MOV_rr _ _ | MOV_r_ac _ | MOV_ac_r _ | MOV_ac_ac | MOV_i_r _ | MOV_i_ac | OP _ _
  | INC_r _ | INC_ac | PUSH | POP => 4
  | CMA | LFA | SFA | NOP_i => 3
  | LDA | STA | LDAX | STAX => 6
  | JMP | INISP => 5
  | BEQ => if fz then 5 else 4
  | BC_ => if fc then 5 else 4
  | CALL | IRET => 9
  | RET => 6
  | FIN => 2
  | NOP => if (0x14 <=? op) && (op <=? 0x17) then 3 else 2
  end.
