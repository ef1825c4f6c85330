(** * Model: completion and colours of the code editor
    mpp-front/src/pages/Coder/Completer.js and MppMode.js. *)
From Coq Require Import String ZArith NArith List Bool.
From Verif Require Import JsStr AsmTable Asm Disasm.
Import ListNotations.
Open Scope list_scope.
Open Scope Z_scope.

(** [[...new Set(l)]]: the first occurrence of each, in order. *)
Fixpoint distinct_from (seen l : list str) : list str :=
  match l with
  | [] => []
  | w :: r => if existsb (str_eqb w) seen then distinct_from seen r else w :: distinct_from (w :: seen) r
  end.
Definition distinct (l : list str) : list str := distinct_from [] l.
(** Completer.js:5 and MppMode.js:11. *)
Definition first_word (s : str) : str := hd [] (split 32%N s).
Definition all_instructions : list str := distinct (map (fun i => first_word (s2l (NEMO i))) operations).
(** Completer.js:6. *)
Definition all_registers : list str := [s2l "AC"; s2l "RB"; s2l "RC"; s2l "RD"; s2l "RE"].
(** Completer.js:7. *)
Definition all_constants : list str := map (fun i => hex_upper_text (Z.of_nat i)) (seq 0 (Z.to_nat (65535 + 1))).
(** Completer.js:8. *)
Definition all_completions : list str := distinct (all_instructions ++ all_registers ++ all_constants).
(** [c.startsWith(prefix)]. *)
Fixpoint starts_with (p c : str) : bool :=
  match p, c with
  | [], _ => true
  | x :: p', y :: c' => N.eqb x y && starts_with p' c'
  | _ :: _, [] => false
  end.
(** Completer.js:9: the words offered for a prefix (caption and inserted text are the word). *)
Definition completions (prefix : str) : list str := filter (starts_with prefix) all_completions.
