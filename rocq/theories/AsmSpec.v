(** * Specification: the assembly language
    What a line of source text means and which bytes a program assembles to,
    written from the documentation (the instruction names of operations.json and
    docs/, the label help in CodeEditor.tsx:208-222) and the instruction set of
    [Isa.v].  It does not mention the regular expressions nor any function of the
    assembler. *)
From Coq Require Import String ZArith NArith List Bool.
From Verif Require Import JsStr Isa.
Import ListNotations.
Open Scope Z_scope.

(** ** Syntax of the instructions *)
Inductive arg := Name (s : string) | Value8 | Value16.
Inductive form := F0 (m : string) | F1 (m : string) (a : arg) | F2 (m : string) (a : arg) (d : string).

Open Scope string_scope.
Definition r8_name (r : r8) : string := match r with RB => "RB" | RC => "RC" | RD => "RD" | RE => "RE" end.
Definition alu_name (o : alu) : string :=
  match o with ADD => "ADD" | SUB => "SUB" | CMP => "CMP" | AND => "AND" | OR => "OR" | XOR => "XOR" end.
Definition syntax (i : instr) : option form :=
  match i with
  | MOV_rr s d => Some (F2 "MOV" (Name (r8_name s)) (r8_name d))
  | MOV_r_ac s => Some (F2 "MOV" (Name (r8_name s)) "AC")
  | MOV_ac_r d => Some (F2 "MOV" (Name "AC") (r8_name d))
  | MOV_ac_ac => Some (F2 "MOV" (Name "AC") "AC")
  | MOV_i_r d => Some (F2 "MOV" Value8 (r8_name d))
  | MOV_i_ac => Some (F2 "MOV" Value8 "AC")
  | OP o (Reg r) => Some (F1 (alu_name o) (Name (r8_name r)))
  | OP o Acc => Some (F1 (alu_name o) (Name "AC"))
  | OP o Imm => Some (F1 (alu_name o) Value8)
  | INC_r r => Some (F1 "INC" (Name (r8_name r)))
  | INC_ac => Some (F1 "INC" (Name "AC"))
  | CMA => Some (F0 "CMA")
  | LDA => Some (F1 "LDA" Value16)
  | STA => Some (F1 "STA" Value16)
  | LDAX => Some (F0 "LDAX")
  | STAX => Some (F0 "STAX")
  | BEQ => Some (F1 "BEQ" Value16)
  | BC_ => Some (F1 "BC" Value16)
  | JMP => Some (F1 "JMP" Value16)
  | LFA => Some (F0 "LFA")
  | SFA => Some (F0 "SFA")
  | INISP => Some (F1 "INISP" Value16)
  | PUSH => Some (F0 "PUSH")
  | POP => Some (F0 "POP")
  | CALL => Some (F1 "CALL" Value16)
  | RET => Some (F0 "RET")
  | IRET => Some (F0 "IRET")
  | FIN => Some (F0 "FIN")
  | NOP | NOP_i => None
  end.
Close Scope string_scope.

(** ** Text *)
(** [t] is [w] up to the case of ASCII letters. *)
Definition caseless (w : string) (t : str) : Prop := map up t = map up (s2l w).
(** A word: letters, digits, underscore. *)
Definition word (t : str) : Prop := t <> [] /\ forall c, In c t -> is_word c = true.
(** A hexadecimal numeral: any number of digits in either case. *)
Definition numeral (t : str) : Prop := t <> [] /\ forall c, In c t -> digit c <> None.
Fixpoint numeral_value (t : str) : Z :=      (* most significant digit first *)
  match t with
  | [] => 0
  | c :: r => match digit c with Some d => d * 16 ^ Z.of_nat (length r) | None => 0 end + numeral_value r
  end.
Definition is_name (t : str) : Prop :=
  caseless "RB" t \/ caseless "RC" t \/ caseless "RD" t \/ caseless "RE" t \/ caseless "AC" t.

(** How an argument is written; [t] is the text of the value, if it is one.  In
    the place of a byte the name of a register is that register: the byte 0xAC has
    to be written 0AC. *)
Definition arg_text (a : arg) (t : str) (x : str) : Prop :=
  match a with
  | Name s => t = [] /\ caseless s x
  | Value8 => t = x /\ word x /\ ~ is_name x
  | Value16 => t = x /\ word x
  end.
(** [parts i t body]: [body] is the instruction [i] with value text [t]: the name, one
    white space, the arguments; between two arguments a comma and at most one
    white space. *)
Definition parts (i : instr) (t : str) (body : str) : Prop :=
  match syntax i with
  | None => False
  | Some (F0 m) => t = [] /\ caseless m body
  | Some (F1 m a) => exists m' c x, body = m' ++ c :: x /\ caseless m m' /\ is_ws c = true /\ arg_text a t x
  | Some (F2 m a d) => exists m' c x sp d', body = m' ++ c :: x ++ 44%N :: sp ++ d' /\ caseless m m' /\ is_ws c = true /\
      arg_text a t x /\ (sp = [] \/ exists c', sp = [c'] /\ is_ws c' = true) /\ caseless d d'
  end.

(** A line of code: an instruction, or a label, one space and an instruction.  A
    label starts with T and has no space. *)
Record code := mkCode { lab : str; ins : instr; val : str }.
Definition label (l : str) : Prop := hd_error l = Some 84%N /\ ~ In 32%N l.
Definition code_line (line : str) (c : code) : Prop :=
  (lab c = [] /\ parts (ins c) (val c) line) \/
  (label (lab c) /\ exists body, line = lab c ++ 32%N :: body /\ parts (ins c) (val c) body).

(** A source line: white space, code, white space and a comment, each optional. *)
Definition stripped (raw core : str) : Prop :=
  exists w1 w2 rest, raw = w1 ++ core ++ w2 ++ rest /\
    (forall c, In c w1 \/ In c w2 -> is_ws c = true) /\
    (rest = [] \/ exists cs, rest = 35%N :: cs) /\
    ~ In 35%N core /\
    (forall c, hd_error core = Some c \/ hd_error (rev core) = Some c -> is_ws c = false).
(** No line end other than the newlines between the lines. *)
Definition single_line (core : str) : Prop := forall c, In c core -> is_lt c = false.
Definition written (raw : str) (c : option code) : Prop :=
  exists core, stripped raw core /\ single_line core /\
    match c with None => core = [] | Some c => code_line core c end.

(** ** Meaning *)
Definition value_kind (i : instr) : option arg :=
  match syntax i with
  | Some (F1 _ Value8) | Some (F2 _ Value8 _) => Some Value8
  | Some (F1 _ Value16) => Some Value16
  | _ => None
  end.
Definition size (i : instr) : Z :=
  match value_kind i with Some Value8 => 2 | Some Value16 => 3 | _ => 1 end.
Definition is_ref (t : str) : Prop := hd_error t = Some 84%N.

(** The value text is a numeral in range or the name of one of the labels [L]. *)
Definition value_ok (L : list str) (c : code) : Prop :=
  match value_kind (ins c) with
  | Some Value8 => (numeral (val c) /\ numeral_value (val c) <= 255) \/ (is_ref (val c) /\ In (val c) L)
  | Some Value16 => (numeral (val c) /\ numeral_value (val c) <= 65535) \/ (is_ref (val c) /\ In (val c) L)
  | _ => True
  end.
(** A label in the place of a byte (a label is an address: two bytes). *)
Definition byte_ref (c : code) : Prop := value_kind (ins c) = Some Value8 /\ is_ref (val c).

(** The address of the first line labelled [n] when the first instruction is at [a]. *)
Fixpoint address (p : list code) (a : Z) (n : str) : Z :=
  match p with
  | [] => 0
  | c :: p' => if str_eqb (lab c) n then a else address p' (a + size (ins c)) n
  end.
(** The opcode, from the decoding table of [Isa.v]. *)
Definition opcode (i : instr) (op : Z) : Prop := 0 <= op <= 255 /\ decode_documented op = Some i.
(** The bytes of one instruction, the high byte of an address first. *)
Definition encodes (p : list code) (a : Z) (c : code) (bytes : list Z) : Prop :=
  exists op, opcode (ins c) op /\
    bytes = op :: match value_kind (ins c) with
                  | Some Value8 => [numeral_value (val c)]
                  | Some Value16 =>
                      let v := match hd_error (val c) with
                               | Some 84%N => address p a (val c)
                               | _ => numeral_value (val c)
                               end in [v / 256; v mod 256]
                  | _ => []
                  end.
Definition total (p : list code) : Z := fold_right (fun c s => size (ins c) + s) 0 p.
Fixpoint somes {A} (l : list (option A)) : list A :=
  match l with [] => [] | Some x :: l' => x :: somes l' | None :: l' => somes l' end.
