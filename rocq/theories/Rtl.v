(** * Specification: the register transfer of each microstate
    Independent of the simulator code: this is the table of
    [docs/src/pages/es/instructions/states.json] (S0..S43; S44 and the S39
    duplicate come from [mpp-front/.../StateTransition/constants.json]) made
    precise.  What that table leaves open is fixed as follows, and flagged:
    PC and SP do not wrap (an increment past 65535 or a decrement below 0
    leaves them unchanged and reports an error), the flags written by each
    arithmetic/logic state, PCH/PCL are the two halves of PC. *)
From Coq Require Import ZArith List Bool.
From Verif Require Import Prog.
Import ListNotations.
Open Scope Z_scope.

(** Registers, memory, error notices (newest first). *)
Record cpu := mkCpu { reg : regid -> Z; mem : Z -> Z; errs : list msg }.

Definition set (r : regid) (v : Z) (s : cpu) : cpu :=
  mkCpu (fun x => if regid_eqb x r then v else reg s x) (mem s) (errs s).
Definition store (a v : Z) (s : cpu) : cpu :=
  mkCpu (reg s) (fun x => if x =? a then v else mem s x) (errs s).
Definition report (m : msg) (s : cpu) : cpu := mkCpu (reg s) (mem s) (m :: errs s).

(** Two states are equal when every register, every cell and the notices are. *)
Definition same (s1 s2 : cpu) : Prop :=
  (forall r, reg s1 r = reg s2 r) /\ (forall a, mem s1 a = mem s2 a) /\ errs s1 = errs s2.

(** PC := v, which also refreshes the half registers. *)
Definition set_pc (v : Z) (s : cpu) : cpu :=
  set R_PCH (v / 256) (set R_PCL (v mod 256) (set R_PC v s)).
Definition pc_inc (s : cpu) : cpu :=
  if reg s R_PC =? 65535 then report E_PC s else set_pc (reg s R_PC + 1) s.
Definition sp_inc (s : cpu) : cpu :=
  if reg s R_SP =? 65535 then report E_SP s else set R_SP (reg s R_SP + 1) s.
Definition sp_dec (s : cpu) : cpu :=
  if reg s R_SP =? 0 then report E_SP s else set R_SP (reg s R_SP - 1) s.

Definition HL (s : cpu) : Z := 256 * reg s R_H + reg s R_L.

(** General registers by number: 0 B, 1 C, 2 D, 3 E. *)
Definition greg (n : Z) : regid :=
  match n with 0 => R_B | 1 => R_C | 2 => R_D | _ => R_E end.
(** Bits 1..0 and bits 3..2 of the instruction register. *)
Definition low2 (s : cpu) : regid := greg (reg s R_RI mod 4).
Definition high2 (s : cpu) : regid := greg (reg s R_RI / 4 mod 4).

Definition flag (b : bool) : Z := if b then 1 else 0.
(** FZ := (byte = 0), FC := carry *)
Definition set_flags (carry : bool) (byte : Z) (s : cpu) : cpu :=
  set R_FC (flag carry) (set R_FZ (flag (byte =? 0)) s).
(** The flags as a byte: FC in bit 7, FZ in bit 0. *)
Definition flags8 (s : cpu) : Z := 128 * reg s R_FC + reg s R_FZ.
Definition flags_of_byte (v : Z) (s : cpu) : cpu :=
  set R_FC (flag (Z.testbit v 7)) (set R_FZ (flag (Z.testbit v 0)) s).

Definition rtl (q : Z) (s : cpu) : cpu :=
  let r := reg s in
  let alu_ac v c := set_flags c v (set R_AC v s) in
  match q with
  | 0 => pc_inc (set R_RI (mem s (r R_PC)) s)                 (* RI <- (PC), PC+1 *)
  | 1 => s                                                    (* DECODE *)
  | 2 => set R_2OP (r (low2 s)) s                             (* 2OP <- RF *)
  | 3 => set (high2 s) (r R_2OP) s                            (* RD <- 2OP *)
  | 4 => set R_AC (r R_2OP) s                                 (* AC <- 2OP *)
  | 5 => alu_ac ((r R_AC + r R_2OP) mod 256) (255 <? r R_AC + r R_2OP)   (* AC <- AC+2OP *)
  | 6 => alu_ac ((r R_AC - r R_2OP) mod 256) (r R_AC <? r R_2OP)         (* AC <- AC-2OP *)
  | 7 => set_flags (r R_AC <? r R_2OP) ((r R_AC - r R_2OP) mod 256) s    (* AC-2OP *)
  | 8 => let v := (r R_2OP + 1) mod 256 in
         set_flags false v (set (low2 s) v s)                 (* RD <- 2OP+1 *)
  | 9 => alu_ac (Z.land (r R_AC) (r R_2OP)) false             (* AC <- AC and 2OP *)
  | 10 => alu_ac (Z.lor (r R_AC) (r R_2OP)) false             (* AC <- AC or 2OP *)
  | 11 => alu_ac (Z.lxor (r R_AC) (r R_2OP)) false            (* AC <- AC xor 2OP *)
  | 12 => set R_2OP (r R_AC) s                                (* 2OP <- AC *)
  | 13 => alu_ac ((r R_2OP + 1) mod 256) false                (* AC <- 2OP+1 *)
  | 14 => alu_ac (255 - r R_AC) false                         (* AC <- not(AC) *)
  | 15 => pc_inc (set R_2OP (mem s (r R_PC)) s)               (* 2OP <- (PC), PC+1 *)
  | 16 => pc_inc (set R_H (mem s (r R_PC)) s)                 (* H <- (PC), PC+1 *)
  | 17 => pc_inc (set R_L (mem s (r R_PC)) s)                 (* L <- (PC), PC+1 *)
  | 18 => set R_2OP (mem s (HL s)) s                          (* 2OP <- (HL) *)
  | 19 => store (HL s) (r R_2OP) s                            (* (HL) <- 2OP *)
  | 20 => set_pc (HL s) s                                     (* PC <- HL *)
  | 21 => set R_H (r R_D) s                                   (* H <- D *)
  | 22 => set R_L (r R_E) s                                   (* L <- E *)
  | 23 => set R_AC (flags8 s) s                           (* AC <- Flags *)
  | 24 => flags_of_byte (r R_AC) s                            (* Flags <- AC *)
  | 25 => s                                                   (* INTA_IN <- 1: no effect here *)
  | 26 | 40 | 42 => sp_dec s                                  (* SP <- SP-1 *)
  | 27 => store (r R_SP) (flags8 s) s                     (* (SP) <- Flags *)
  | 28 => store (r R_SP) (r R_PCH) s                          (* (SP) <- PCH *)
  | 29 => store (r R_SP) (r R_PCL) s                          (* (SP) <- PCL *)
  | 30 => set_pc 65532 s                                      (* PC <- Dir INT *)
  | 31 | 41 | 43 => sp_inc s                                  (* SP <- SP+1 *)
  | 32 => set R_PCL (mem s (r R_SP))
            (set R_PC (r R_PC / 256 * 256 + mem s (r R_SP)) s)   (* PCL <- (SP) *)
  | 33 => set R_PCH (mem s (r R_SP))
            (set R_PC (256 * mem s (r R_SP) + r R_PC mod 256) s) (* PCH <- (SP) *)
  | 34 => flags_of_byte (mem s (r R_SP)) s                    (* Flags <- (SP) *)
  | 35 => s                                                   (* EOI <- 1: no effect here *)
  | 36 => store (r R_SP) (r R_AC) s                           (* (SP) <- AC *)
  | 37 => set R_AC (mem s (r R_SP)) s                         (* AC <- (SP) *)
  | 38 => set R_SP (HL s) s                                   (* SP <- HL *)
  | 39 | 44 => set (low2 s) (r R_2OP) s                       (* RD <- 2OP *)
  | _ => s
  end.
