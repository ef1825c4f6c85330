(** * Model of the editor's Save button and of programs given in the URL
    mpp-front/src/pages/Coder/index.tsx and pages/Coder/components/CodeEditor.tsx.
    React runs the effects of a child before those of its parent, and an effect
    sees the values of the render it belongs to.  Left out: everything drawn
    (markers and annotations are in Marks.v; popovers), the file dialogs, local storage. *)
From Coq Require Import String ZArith NArith List Bool.
From Verif Require Import JsStr AsmTable Asm Prog Api Front.
Import ListNotations.
Open Scope list_scope.
Open Scope Z_scope.

(** The text in the editor (CodeEditor.tsx:46), [canSaveToMem] and [slots]
    (index.tsx:16, 18).  [initOffset] stays 0: its input is disabled
    (CodeEditor.tsx:186). *)
Record coder := mkCoder { text : str; can : bool; slots : list str }.

(** The effect on [slots], index.tsx:51-55; [get_memory_size] is 65536. *)
Definition fits (s : list str) : bool := 0 + Z.of_nat (List.length s) - 1 <=? 65536 - 1.
(** The effect on [code], CodeEditor.tsx:60-87, which calls [onNewTranslation],
    index.tsx:40-45.  A new array of slots triggers the effect of lines 51-55 in
    the next render, which overwrites [canSaveToMem]. *)
Definition translated (t : str) (c : coder) : option coder :=
  match parse_input t 0 with
  | None => None
  | Some out =>
    match new_translation out with
    | None => Some (mkCoder t false (slots c))
    | Some s => Some (mkCoder t (fits s) s)
    end
  end.
(** [setCode], CodeEditor.tsx:105-107, 127-129, 141-145: the effect runs if the text changed. *)
Definition edit (t : str) (c : coder) : option coder :=
  if str_eqb t (text c) then Some c else translated t c.
Fixpoint edits (l : list str) (c : coder) : option coder :=
  match l with
  | [] => Some c
  | t :: l' => match edit t c with Some c' => edits l' c' | None => None end
  end.
(** The page appears without the editor: index.tsx:16-18 and the effect of lines
    51-55; then the editor appears with text [t]. *)
Definition opened_later (t : str) : option coder := translated t (mkCoder t (fits []) []).
(** Page and editor appear together: the page's effect comes second and still sees
    no slots.  (Which of the two happens depends on the drawer component, which is
    not part of the repository; the theorems cover both.) *)
Definition opened_with_page (t : str) : option coder :=
  match parse_input t 0 with
  | None => None
  | Some out =>
    match new_translation out with
    | None => Some (mkCoder t (fits []) [])
    | Some s => Some (mkCoder t (fits s) s)
    end
  end.

(** [parseInt(slot, 16)] as the core receives it: the leading hexadecimal digits;
    NaN, when there is none, becomes 0.  (No slot starts with a sign, a space or 0x.) *)
Fixpoint leading_hex (s : str) : str :=
  match s with
  | c :: s' => match digit c with Some _ => c :: leading_hex s' | None => [] end
  | [] => []
  end.
Definition slot_int (s : str) : Z := parse_hex (leading_hex s).
(** The Save button, index.tsx:29-38 and 94-100. *)
Definition press_save (c : coder) (h : hstate) : option hstate :=
  if can c then save_to_memory 0 (map slot_int (slots c)) h else Some h.

(** ** A program in the URL, CodeEditor.tsx:36-45 *)
(** [/FIN(\s)$/i.test(code)]: the text ends with FIN and one white-space character. *)
Definition ends_with_fin (t : str) : bool :=
  match rev t with
  | w :: n :: i :: f :: _ => is_ws w && str_eqb (upper [f; i; n]) (s2l "FIN")
  | _ => false
  end.
Definition from_url (t : str) : str := if ends_with_fin t then t else t ++ s2l "
FIN".
