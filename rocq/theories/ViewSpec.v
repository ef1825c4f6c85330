(** * Specification: what the diagram on the main page should show
    Independent of the widgets' code; the signals are those of [BusSpec.v]. *)
From Coq Require Import ZArith List Bool String.
From Verif Require Import Prog Rtl BusSpec.
Import ListNotations.
Open Scope Z_scope.

(** The register boxes. *)
Definition boxes : list (string * regid) :=
  [("rb", R_B); ("rc", R_C); ("rd", R_D); ("re", R_E); ("acum", R_AC); ("2op", R_2OP); ("pc", R_PC); ("sp", R_SP);
   ("h", R_H); ("l", R_L); ("ri", R_RI)]%string.

(** The arrows from the data bus into a box, with the signal written on them. *)
Definition arrows_in : list (string * string * line) :=
  [("ri", "RICAR", L_ricar); ("registers-bank", "REGCAR", L_regcar); ("pc", "PCCAR", L_pccar); ("acum", "ACCAR", L_accar);
   ("sp", "SPCAR", L_spcar); ("2op", "2OPCAR", L_2opcar); ("h", "HCAR", L_hcar); ("l", "LCAR", L_lcar)]%string.
(** The arrows from a box to the data bus. *)
Definition arrows_out : list (string * string * line) :=
  [("registers-bank", "REGBUS", L_regbus); ("acum", "ACBUS", L_acbus); ("memory", "MEMBUS", L_membus)]%string.

(** The name of the operation done by the ALU in each microstate that uses it. *)
Definition operation_name (q : Z) : option string :=
  match q with
  | 5 => Some "SUM" | 6 | 7 => Some "SUB" | 9 => Some "AND" | 10 => Some "OR" | 11 => Some "XOR" | 14 => Some "NOT"
  | 3 | 4 | 19 | 39 | 44 => Some "TRANSPARENT" | 8 | 13 => Some "INCREMENT" | _ => None
  end%string.

(** The microstates that write to memory. *)
Definition writes (q : Z) : bool := existsb (Z.eqb q) [19; 27; 28; 29; 36].

(** The last [n] elements of a list. *)
Definition lastn {A} (n : nat) (l : list A) : list A := skipn (List.length l - n) l.

(** The box the arrow into a register ends at: the general registers share one. *)
Definition holder (box : string) : string :=
  if existsb (String.eqb box) ["rb"; "rc"; "rd"; "re"]%string then "registers-bank"%string else box.

(** The microstates marked as executed: all those listed but the last. *)
Definition executed {A} (l : list A) : list A := removelast l.
