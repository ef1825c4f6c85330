(** * Model: colours of the code editor
    mpp-front/src/pages/Coder/MppMode.js:8-39.  The rules are tried by the editor's
    tokenizer as one regular expression: at each place of the line the first rule that
    matches there gives the token; places where none matches are plain text.  One rule
    asks for no distinction of case, so all do.
    Simplified: the tokenizer of the editor (a library) joins neighbouring tokens of
    one kind; here they stay apart. *)
From Coq Require Import String ZArith NArith List Bool.
From Verif Require Import JsStr AsmTable Asm Completer.
Import ListNotations.
Open Scope list_scope.

Inductive kind := Plain | Label_ | Instruction | Register | Number | Comment.
Definition token : Type := kind * str.

(** Whether the character before a place, or at it, is part of a word: for [\b]. *)
Definition in_word (c : option N) : bool := match c with Some x => is_word x | None => false end.
(** [w] at the start of [s] in either case: its length. *)
Fixpoint same_letters (w s : str) : bool :=
  match w, s with
  | [], _ => true
  | x :: w', y :: s' => N.eqb (up x) (up y) && same_letters w' s'
  | _ :: _, [] => false
  end.
Fixpoint run (p : N -> bool) (s : str) : nat :=
  match s with c :: r => if p c then S (run p r) else O | [] => O end.
Definition is_hex_char (c : N) : bool := match digit c with Some _ => true | None => false end.

(** MppMode.js:15-19: [T\S*]. *)
Definition rule_label (s : str) : option nat :=
  match s with c :: r => if N.eqb (up c) 84 then Some (S (run (fun x => negb (is_ws x)) r)) else None | [] => None end.
(** MppMode.js:20-24: [\b(?:MOV|...)\b]; the words start and end with letters. *)
Definition rule_instruction (before : option N) (s : str) : option nat :=
  if in_word before then None else
  option_map (@List.length N) (find (fun w => same_letters w s && negb (in_word (hd_error (skipn (List.length w) s)))) all_instructions).
(** MppMode.js:25-28: [\b(?:AC|RB|RC|RD|RE)]. *)
Definition rule_register (before : option N) (s : str) : option nat :=
  if in_word before then None else option_map (@List.length N) (find (fun w => same_letters w s) all_registers).
(** MppMode.js:29-32: [[0-9A-F]+]. *)
Definition rule_number (s : str) : option nat := match run is_hex_char s with O => None | n => Some n end.
(** MppMode.js:33-36: [#.*$]. *)
Definition rule_comment (s : str) : option nat :=
  match s with c :: r => if N.eqb c 35 && forallb (fun x => negb (is_lt x)) r then Some (List.length s) else None | [] => None end.
Definition first_rule (before : option N) (s : str) : option (kind * nat) :=
  match rule_label s with Some n => Some (Label_, n) | None =>
  match rule_instruction before s with Some n => Some (Instruction, n) | None =>
  match rule_register before s with Some n => Some (Register, n) | None =>
  match rule_number s with Some n => Some (Number, n) | None =>
  match rule_comment s with Some n => Some (Comment, n) | None => None end end end end end.

Definition plain (gap : str) : list token := match gap with [] => [] | _ => [(Plain, gap)] end.
Definition last_of (s : str) (d : option N) : option N := match rev s with c :: _ => Some c | [] => d end.
(** The tokens of the rest [s] of a line, after the character [before] and the plain
    text [gap] that is not a token yet. *)
Fixpoint tokens (fuel : nat) (before : option N) (gap s : str) : list token :=
  match fuel, s with
  | S f, c :: r =>
    match first_rule before s with
    | Some (k, n) => plain gap ++ (k, firstn n s) :: tokens f (last_of (firstn n s) before) [] (skipn n s)
    | None => tokens f (Some c) (gap ++ [c]) r
    end
  | _, _ => plain (gap ++ s)
  end.
Definition highlight (line : str) : list token := tokens (List.length line) None [] line.
