(** * Model of what the editor shows about a text
    mpp-front/src/lib/traslator/index.ts (columns of errors and labels) and
    pages/Coder/components/CodeEditor.tsx, TranslatedEditor.tsx.  A mark is given to the
    Ace editor as rows and columns; how Ace draws it is not modelled.  Both editors number
    their lines from 0 (CodeEditor.tsx firstLineNumber: 0, TranslatedEditor.tsx:24 with
    [initOffset], which stays 0). *)
From Coq Require Import String ZArith NArith List Bool.
From Verif Require Import JsStr AsmTable Asm.
Import ListNotations.
Open Scope Z_scope.

(** [Marker], index.ts:31-36; [lineTo] always equals [lineFrom]. *)
Record mark := mkMark { m_row : nat; m_from : Z; m_to : Z }.
(** [indexOf] of a string. *)
Definition js_index_of (p s : str) : Z := match index_of_str p s with Some k => Z.of_nat k | None => -1 end.
(** The entries of [errors], index.ts:88-97, and [errorMarkers], CodeEditor.tsx:149-158;
    [line] is the line without its spaces and comment. *)
Definition error_marks (text : str) (o : output) : list mark :=
  map (fun i => mkMark i 0 (Z.of_nat (List.length (nth i (input_lines text) [])))) (errors o).
(** [calculateEtiquetasPos], index.ts:281-311 (the columns), and [hightlightEtiMarkers],
    CodeEditor.tsx:160-167; from the rows before [post]. *)
Definition label_mark (r : row) : list mark :=
  match r_eti r with
  | [] => []
  | e => [mkMark (r_off r) (js_index_of e (r_line r)) (js_index_of e (r_line r) + Z.of_nat (List.length e))]
  end.
Definition label_marks (text : str) : list mark :=
  flat_map label_mark (snd (parse_lines (pre (input_lines text)) 0 (input_lines text))).
(** [annotations], CodeEditor.tsx:71-76: a note beside a row. *)
Definition notes (o : output) : list (nat * str) := map (fun r => (r_off r, join NEWLINE (r_result r))) (results o).
(** [str], CodeEditor.tsx:68, shown by TranslatedEditor.tsx. *)
Definition listing (o : output) : str := join NEWLINE (map (fun r => join NEWLINE (r_result r)) (results o)).
(** What the editor hands over, CodeEditor.tsx:78-80, with the join and the split that
    [new_translation] of Asm.v leaves out. *)
Definition handed_over (o : output) : option (list str) :=
  match errors o, listing o with
  | _ :: _, _ | _, [] => None
  | [], s => Some (split NEWLINE s)
  end.
