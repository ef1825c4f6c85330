(** * Specification: what the label of a microstate says
    The texts of StateTransition/constants.json read as a person reads them, independently
    of the microprogram.  [20P] and [2OP] are the same register, spaces do not matter.  The documentation prints
    another arrow.
    RF and RD are the source and destination registers of the instruction in RI. *)
From Coq Require Import String Ascii ZArith List Bool.
From Verif Require Import Prog Rtl.
From Verif Require Isa.
Import ListNotations.
Open Scope Z_scope.

(** ** Reading *)
Inductive place :=
| Reg (r : regid)
| HL                        (* H and L together *)
| Cell (r : place)          (* the memory cell whose address is there *)
| RF | RD
| Flags.
Inductive expr :=
| Val (p : place)
| Inc (p : place) | Dec (p : place) | Not (p : place)
| Add (p q : place) | Sub (p q : place) | And (p q : place) | Or (p q : place) | Xor (p q : place).
(** One comma-separated part of a label. *)
Inductive part :=
| Nothing                   (* DECODE *)
| Signal                    (* EOI <- 1: a line to the outside *)
| Gets (p : place) (e : expr)
| Compare (p q : place)     (* an operation without a destination *)
| Count.                    (* PC + 1 *)

Fixpoint squeeze (s : string) : string :=
  match s with
  | EmptyString => EmptyString
  | String " " s' => squeeze s'
  | String "2" (String "0" (String "P" s')) => String "2" (String "O" (String "P" (squeeze s')))
  | String "225" (String "144" (String "138" s')) => "←" ++ squeeze s'   (* the documentation's arrow, U+140A *)
  | String c s' => String c (squeeze s')
  end%string.
(** What is left of [s] after the prefix [p]. *)
Fixpoint strip (p s : string) : option string :=
  match p, s with
  | EmptyString, _ => Some s
  | String a p', String b s' => if Ascii.eqb a b then strip p' s' else None
  | _, _ => None
  end.
(** [s] before and after the first [sep], if it contains one. *)
Fixpoint cut (sep s : string) : option (string * string) :=
  match strip sep s with
  | Some r => Some (EmptyString, r)
  | None => match s with
            | EmptyString => None
            | String c s' => match cut sep s' with Some (a, b) => Some (String c a, b) | None => None end
            end
  end.
Definition places : list (string * place) :=
 [ ("(PC)", Cell (Reg R_PC)); ("(HL)", Cell HL); ("(SP)", Cell (Reg R_SP)); ("Flags", Flags); ("PCH", Reg R_PCH); ("PCL", Reg R_PCL);
   ("2OP", Reg R_2OP); ("AC", Reg R_AC); ("RI", Reg R_RI); ("RF", RF); ("RD", RD); ("PC", Reg R_PC); ("SP", Reg R_SP); ("HL", HL);
   ("H", Reg R_H); ("L", Reg R_L); ("D", Reg R_D); ("E", Reg R_E) ]%string.
Definition the_place (s : string) : option place :=
  match find (fun x => String.eqb s (fst x)) places with Some x => Some (snd x) | None => None end.
Definition first_place (s : string) : option (place * string) :=
  fold_right (fun x o => match strip (fst x) s with Some r => Some (snd x, r) | None => o end) None places.
Definition operators : list (string * (place -> place -> expr)) :=
  [ ("+", Add); ("-", Sub); ("and", And); ("or", Or); ("⨁", Xor) ]%string.
Definition read_expr (s : string) : option expr :=
  match first_place s with
  | Some (p, rest) =>
    if String.eqb rest "" then Some (Val p) else
    if String.eqb rest "+1" then Some (Inc p) else
    if String.eqb rest "-1" then Some (Dec p) else
    fold_right (fun x o => match strip (fst x) rest with
                           | Some r => match the_place r with Some q => Some (snd x p q) | None => o end
                           | None => o end) None operators
  | None => match strip "not(" s with
            | Some r => match cut ")" r with
                        | Some (a, "") => match the_place a with Some p => Some (Not p) | None => None end
                        | _ => None
                        end
            | None => None
            end
  end%string.
(** "PC + 1", "PC <- PC+1" and the misprinted "PC+ PC+1" all say that PC counts. *)
Definition read_part (s : string) : option part :=
  if String.eqb s "DECODE" then Some Nothing else
  if String.eqb s "EOI←1" then Some Signal else
  if String.eqb s "PC+1" || String.eqb s "PC+PC+1" || String.eqb s "PC←PC+1" then Some Count else
  match cut "←" s with
  | Some (a, b) => match the_place a, read_expr b with Some p, Some e => Some (Gets p e) | _, _ => None end
  | None => match read_expr s with Some (Sub p q) => Some (Compare p q) | _ => None end
  end%string.
Definition read (s : string) : option (list part) :=
  match cut "," (squeeze s) with
  | Some (a, b) => match read_part a, read_part b with Some x, Some y => Some [x; y] | _, _ => None end
  | None => match read_part (squeeze s) with Some x => Some [x] | None => None end
  end%string.

(** ** Meaning *)
(** The registers an instruction names; for an undocumented opcode, which names none, the
    one its two lowest bits would. *)
Definition gr (r : Isa.r8) : regid := match r with Isa.RB => R_B | Isa.RC => R_C | Isa.RD => R_D | Isa.RE => R_E end.
Definition source (op : Z) : option regid :=
  match Isa.decode op with
  | Isa.MOV_rr s _ | Isa.MOV_r_ac s | Isa.OP _ (Isa.Reg s) | Isa.INC_r s => Some (gr s)
  | Isa.NOP => Some (gr (Isa.reg_no (op mod 4)))
  | _ => None
  end.
Definition destination (op : Z) : option regid :=
  match Isa.decode op with
  | Isa.MOV_rr _ d | Isa.MOV_ac_r d | Isa.MOV_i_r d | Isa.INC_r d => Some (gr d)
  | _ => None
  end.
(** [holds p c v]: in the state [c] the place [p] contains [v]. *)
Inductive holds : place -> cpu -> Z -> Prop :=
| H_reg : forall r c, holds (Reg r) c (reg c r)
| H_hl : forall c, holds HL c (256 * reg c R_H + reg c R_L)
| H_cell : forall p c a, holds p c a -> holds (Cell p) c (mem c a)
| H_rf : forall c r, source (reg c R_RI) = Some r -> holds RF c (reg c r)
| H_rd : forall c r, destination (reg c R_RI) = Some r -> holds RD c (reg c r)
| H_flags : forall c, holds Flags c (128 * reg c R_FC + reg c R_FZ).
(** The value of an expression; for 8-bit arithmetic also the carry, when it sets the flags. *)
Inductive yields : expr -> cpu -> Z -> option bool -> Prop :=
| Y_val : forall p c v, holds p c v -> yields (Val p) c v None
| Y_inc : forall p c v, p <> Reg R_SP -> holds p c v -> yields (Inc p) c ((v + 1) mod 256) (Some false)
| Y_sp_inc : forall c, yields (Inc (Reg R_SP)) c (Z.min 65535 (reg c R_SP + 1)) None
| Y_sp_dec : forall c, yields (Dec (Reg R_SP)) c (Z.max 0 (reg c R_SP - 1)) None
| Y_not : forall p c v, holds p c v -> yields (Not p) c (255 - v) (Some false)
| Y_add : forall p q c v w, holds p c v -> holds q c w -> yields (Add p q) c ((v + w) mod 256) (Some (255 <? v + w))
| Y_sub : forall p q c v w, holds p c v -> holds q c w -> yields (Sub p q) c ((v - w) mod 256) (Some (v <? w))
| Y_and : forall p q c v w, holds p c v -> holds q c w -> yields (And p q) c (Z.land v w) (Some false)
| Y_or : forall p q c v w, holds p c v -> holds q c w -> yields (Or p q) c (Z.lor v w) (Some false)
| Y_xor : forall p q c v w, holds p c v -> holds q c w -> yields (Xor p q) c (Z.lxor v w) (Some false).
(** After the cycle the place [p] of [c] contains [v]. *)
Inductive received : place -> cpu -> Z -> cpu -> Prop :=
| V_reg : forall r c v c', r <> R_PC -> r <> R_PCH -> r <> R_PCL -> reg c' r = v -> received (Reg r) c v c'
| V_pc : forall c v c', reg c' R_PC = v -> reg c' R_PCH = v / 256 -> reg c' R_PCL = v mod 256 -> received (Reg R_PC) c v c'
| V_pch : forall c v c', reg c' R_PCH = v -> reg c' R_PC = 256 * v + reg c R_PC mod 256 -> received (Reg R_PCH) c v c'
| V_pcl : forall c v c', reg c' R_PCL = v -> reg c' R_PC = 256 * (reg c R_PC / 256) + v -> received (Reg R_PCL) c v c'
| V_cell : forall p c a v c', holds p c a -> mem c' a = v -> received (Cell p) c v c'
| V_rd : forall c r v c', destination (reg c R_RI) = Some r -> reg c' r = v -> received RD c v c'
| V_flags : forall c v c', reg c' R_FC = Z.b2z (Z.testbit v 7) -> reg c' R_FZ = Z.b2z (Z.testbit v 0) -> received Flags c v c'.
Definition flags_tell (f : option bool) (v : Z) (c' : cpu) : Prop :=
  match f with Some k => reg c' R_FC = Z.b2z k /\ reg c' R_FZ = Z.b2z (v =? 0) | None => True end.
Definition part_done (x : part) (c c' : cpu) : Prop :=
  match x with
  | Nothing | Signal => True
  | Gets p e => exists v f, yields e c v f /\ received p c v c' /\ flags_tell f v c'
  | Compare p q => exists v f, yields (Sub p q) c v f /\ flags_tell f v c'
  | Count => (reg c R_PC < 65535 -> received (Reg R_PC) c (reg c R_PC + 1) c') /\ (reg c R_PC = 65535 -> reg c' R_PC = 65535)
  end.
(** The registers and cells a part is about. *)
Definition sets_flags (e : expr) : bool := match e with Val _ | Dec _ | Inc (Reg R_SP) => false | _ => true end.
Definition concerns (x : part) (c : cpu) (r : regid) : Prop :=
  match x with
  | Nothing | Signal => False
  | Gets p e =>
    match p with
    | Reg R_PC => r = R_PC \/ r = R_PCH \/ r = R_PCL
    | Reg R_PCH => r = R_PCH \/ r = R_PC
    | Reg R_PCL => r = R_PCL \/ r = R_PC
    | Reg y => r = y
    | RD => destination (reg c R_RI) = Some r
    | Flags => r = R_FC \/ r = R_FZ
    | _ => False
    end \/ (sets_flags e = true /\ (r = R_FC \/ r = R_FZ))
  | Compare _ _ => r = R_FC \/ r = R_FZ
  | Count => r = R_PC \/ r = R_PCH \/ r = R_PCL
  end.
Definition about_cell (x : part) (c : cpu) (a : Z) : Prop := match x with Gets (Cell p) _ => holds p c a | _ => False end.
(** A counter at its end: it stays, with a notice. *)
Definition at_end (x : part) (c : cpu) : bool :=
  match x with
  | Count => reg c R_PC =? 65535
  | Gets _ (Inc (Reg R_SP)) => reg c R_SP =? 65535
  | Gets _ (Dec (Reg R_SP)) => reg c R_SP =? 0
  | _ => false
  end.
(** [says t c c']: the label [t] is true of a cycle from [c] to [c'], and nothing it does
    not speak of has changed. *)
Definition says (t : string) (c c' : cpu) : Prop :=
  exists xs, read t = Some xs /\ (forall x, In x xs -> part_done x c c') /\
    (forall r, (forall x, In x xs -> ~ concerns x c r) -> reg c' r = reg c r) /\
    (forall a, 0 <= a < 65536 -> (forall x, In x xs -> ~ about_cell x c a) -> mem c' a = mem c a) /\
    (existsb (fun x => at_end x c) xs = false -> errs c' = errs c) /\ (existsb (fun x => at_end x c) xs = true -> length (errs c') = S (length (errs c))).

(** ** The documentation's labels
    docs/src/pages/es/instructions/states.json, whole file: the texts of S0 to S43. *)
Definition documented : list string :=
 [ "RI ᐊ (PC), PC + 1";
   "DECODE";
   "2OP ᐊ RF";
   "RD ᐊ 2OP";
   "AC ᐊ 2OP";
   "AC ᐊ AC+2OP";
   "AC ᐊ AC-2OP";
   "AC-2OP";
   "RD ᐊ 2OP+1";
   "AC ᐊ AC and 2OP";
   "AC ᐊ AC or 20P";
   "AC ᐊ AC ⨁ 20P";
   "20P ᐊ AC";
   "AC ᐊ 20P + 1";
   "AC ᐊ not(AC)";
   "20P ᐊ (PC), PC+ PC+1";
   "H ᐊ (PC), PC ᐊ PC+1";
   "L ᐊ (PC), PC ᐊ PC+1";
   "20P ᐊ (HL)";
   "(HL) ᐊ 20P";
   "PC ᐊ HL";
   "H ᐊ D";
   "L ᐊ E";
   "AC ᐊ Flags";
   "Flags ᐊ AC";
   "INTA_IN ᐊ 1";
   "SP ᐊ SP-1";
   "(SP) ᐊ Flags";
   "(SP) ᐊ PCH";
   "(SP) ᐊ PCL";
   "PC ᐊ Dir INT";
   "SP ᐊ SP+1";
   "PCL ᐊ (SP)";
   "PCH ᐊ (SP)";
   "Flags ᐊ (SP)";
   "EOI ᐊ 1";
   "(SP) ᐊ AC";
   "AC ᐊ (SP)";
   "SP ᐊ HL";
   "RD ᐊ 2OP";
   "SP ᐊ SP-1";
   "SP ᐊ SP+1";
   "SP ᐊ SP-1";
   "RD ᐊ 2OP" ]%string.
