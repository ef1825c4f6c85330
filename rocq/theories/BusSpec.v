(** * Specification: what the buses show after a clock cycle
    Independent of the simulator code.  Which signal each microstate raises is
    read off the transfers of [Rtl.v] ("AC <- ..." raises the AC load line, and so
    on); the address and data buses are given by what drives them. *)
From Coq Require Import ZArith List Bool.
From Verif Require Import Prog Rtl.
Import ListNotations.
Open Scope Z_scope.

(** The control lines that can be read one by one through the API. *)
Inductive line := L_pccar | L_accar | L_acbus | L_spcar | L_2opcar | L_hcar | L_lcar | L_ricar | L_regcar | L_regbus | L_membus | L_le.

(** The microstates in which each line is 1. *)
Definition raised (l : line) : list Z :=
  match l with
  | L_pccar => [0; 15; 16; 17; 20; 30]                         (* PC <- ... as a whole *)
  | L_accar => [4; 5; 6; 9; 10; 11; 13; 14; 23; 37]            (* AC <- ... *)
  | L_acbus => [12; 24; 36]                                    (* ... <- AC *)
  | L_spcar => [26; 31; 38; 40; 41; 42; 43]                    (* SP <- ... *)
  | L_2opcar => [2; 12; 15; 18]                                (* 2OP <- ... *)
  | L_hcar => [16; 21]                                         (* H <- ... *)
  | L_lcar => [17; 22]                                         (* L <- ... *)
  | L_ricar => [0]                                             (* RI <- ... *)
  | L_regcar => [3; 8; 39; 44]                                 (* general register <- ... *)
  | L_regbus => [2; 21; 22]                                    (* ... <- general register *)
  | L_membus => [0; 15; 16; 17; 18; 32; 33; 34; 37]            (* ... <- (address) *)
  | L_le => [0; 1; 2; 3; 4; 5; 6; 7; 8; 9; 10; 11; 12; 13; 14; 15; 16; 17; 18;
             20; 21; 22; 23; 24; 25; 26; 30; 31; 32; 33; 34; 35; 37; 38; 39; 40; 41; 42; 43; 44]
                                                               (* 0 only when (address) <- ... *)
  end.
Definition is_raised (l : line) (q : Z) : bool := existsb (Z.eqb q) (raised l).

(** The operation selected in the ALU: 0 add, 1 subtract, 2 and, 3 or, 4 xor,
    5 not, 6 second operand, 7 second operand plus 1. *)
Definition alu_selected (q : Z) : Z :=
  match q with 6 | 7 => 1 | 9 => 2 | 10 => 3 | 11 => 4 | 14 => 5 | 3 | 4 | 19 | 39 | 44 => 6 | 8 | 13 => 7 | _ => 0 end.

(** Address bus after microstate [q], from the registers after it. *)
Definition address (q : Z) (c : cpu) : Z :=
  match q with
  | 18 | 19 | 20 | 38 => HL c
  | 26 | 27 | 28 | 29 | 31 | 32 | 33 | 34 | 36 | 37 | 40 | 41 | 42 | 43 => reg c R_SP
  | 30 => 65532
  | _ => reg c R_PC
  end.

(** Data bus after microstate [q], from the registers and the memory after it;
    [d] is what it showed before (kept when nothing drives it). *)
Definition data (q : Z) (c : cpu) (d : Z) : Z :=
  let r := reg c in
  match q with
  | 0 | 15 | 16 | 17 | 18 | 32 | 33 | 34 | 37 => mem c (address q c)
  | 2 => r (low2 c)
  | 21 => r R_D
  | 22 => r R_E
  | 3 | 4 | 19 | 39 | 44 => r R_2OP
  | 5 => (r R_AC + r R_2OP) mod 256
  | 6 => (r R_AC - r R_2OP) mod 256
  | 8 | 13 => (r R_2OP + 1) mod 256
  | 9 => Z.land (r R_AC) (r R_2OP)
  | 10 => Z.lor (r R_AC) (r R_2OP)
  | 11 => Z.lxor (r R_AC) (r R_2OP)
  | 14 => 255 - r R_AC
  | 12 | 24 | 36 => r R_AC
  | 23 | 27 => flags8 c
  | 28 => r R_PCH
  | 29 => r R_PCL
  | _ => d
  end.
