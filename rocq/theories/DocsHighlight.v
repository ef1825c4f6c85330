(** * Model: colours of the programs in the documentation
    docs/src/components/Code/Code.tsx:8-51 (docs/src/components/Code/operations.json holds
    the same table as the one modelled in AsmTable.v).  The library tries the rules as
    one regular expression on the whole program: at each place the first rule that
    matches there gives the colour of the text it matches.
    Simplified: inside a comment the library also marks words such as TODO:. *)
From Coq Require Import String ZArith NArith List Bool.
From Verif Require Import JsStr AsmTable Asm Completer Highlight.
Import ListNotations.
Open Scope list_scope.

(** Code.tsx:26-29: [AC|RB|RC|RD|RE]. *)
Definition docs_register (s : str) : option nat := option_map (@List.length N) (find (fun w => same_letters w s) all_registers).
(** Code.tsx:13-15, 30: from [#] to the end of the line. *)
Definition docs_comment (s : str) : option nat :=
  match s with c :: r => if N.eqb c 35 then Some (S (run (fun x => negb (is_lt x)) r)) else None | [] => None end.
(** Code.tsx:31-40: [[#$=]?[0-9a-f]+]. *)
Definition docs_number (s : str) : option nat :=
  match s with
  | c :: r => if N.eqb c 35 || N.eqb c 36 || N.eqb c 61 then match run is_hex_char r with O => None | n => Some (S n) end else rule_number s
  | [] => None
  end.
(** Code.tsx:21-50: instructions (22-25) and labels (41-49) as in the editor, but labels last. *)
Definition docs_rule (before : option N) (s : str) : option (kind * nat) :=
  match rule_instruction before s with Some n => Some (Instruction, n) | None =>
  match docs_register s with Some n => Some (Register, n) | None =>
  match docs_comment s with Some n => Some (Comment, n) | None =>
  match docs_number s with Some n => Some (Number, n) | None =>
  match rule_label s with Some n => Some (Label_, n) | None => None end end end end end.
(** Every character of the program with its colour. *)
Fixpoint docs_from (fuel : nat) (before : option N) (s : str) : list (kind * N) :=
  match fuel, s with
  | S f, c :: r =>
    match docs_rule before s with
    | Some (k, n) => map (pair k) (firstn n s) ++ docs_from f (last_of (firstn n s) before) (skipn n s)
    | None => (Plain, c) :: docs_from f (Some c) r
    end
  | _, _ => map (pair Plain) s
  end.
(** [hljs.highlight(code, ...)], Code.tsx:67; its result is shown as it is, 90-92. *)
Definition docs_highlight (code : str) : list (kind * N) := docs_from (List.length code) None code.
