(** * Theorems: what counts as white space in a program (C46) *)
From Coq Require Import String ZArith NArith List Bool Lia ZifyBool ZifyN.
From Verif Require Import JsStr AsmTable Asm Isa AsmSpec AsmRe AsmLine AsmFacts AsmExec AsmProg AsmErr PropsAsm.
Import ListNotations.

(** ** Specification: ECMAScript's WhiteSpace (the space separators of Unicode, the
    tabs, form feed and byte-order mark) and LineTerminator *)
Definition space_separator (c : N) : Prop :=
  (c = 0x20 \/ c = 0xA0 \/ c = 0x1680 \/ 0x2000 <= c <= 0x200A \/ c = 0x202F \/ c = 0x205F \/ c = 0x3000)%N.
Definition line_terminator (c : N) : Prop := (c = 0x0A \/ c = 0x0D \/ c = 0x2028 \/ c = 0x2029)%N.
Definition white (c : N) : Prop := space_separator c \/ line_terminator c \/ (c = 0x09 \/ c = 0x0B \/ c = 0x0C \/ c = 0xFEFF)%N.

Lemma ws_white : forall c, is_ws c = true <-> white c.
Proof.
  intros c. split.
  - unfold is_ws. rewrite existsb_exists. intros (x & I & E). apply N.eqb_eq in E. subst x. unfold white, space_separator, line_terminator. cbn [In] in I.
    repeat (destruct I as [<-|I]; [first [left; repeat first [left; reflexivity|right; left; reflexivity|left; split; discriminate|right]; fail
      |right; left; repeat first [left; reflexivity|right]; reflexivity|right; right; repeat first [left; reflexivity|right]; reflexivity|left; do 3 right; left; split; discriminate|left; repeat first [left; reflexivity|right]; reflexivity]|]). destruct I.
  - intros [[H|[H|[H|[H|[H|[H|H]]]]]]|[[H|[H|[H|H]]]|[H|[H|[H|H]]]]]; try (rewrite H; reflexivity).
    assert (E : exists k, (k < 11)%nat /\ c = (0x2000 + N.of_nat k)%N) by (exists (N.to_nat (c - 0x2000)); lia).
    destruct E as (k & L & ->). do 11 (destruct k as [|k]; [reflexivity|]). exfalso. lia.
Qed.
(** A line is skipped exactly if it is white up to its end or to a comment. *)
Theorem C46_blank_lines : forall b, blank_line b <-> exists w rest, b = w ++ rest /\ Forall white w /\ (rest = [] \/ exists cs, rest = 35%N :: cs).
Proof.
  intros b. unfold blank_line, stripped. split.
  - intros (w1 & w2 & rest & -> & W & R & _). exists (w1 ++ w2), rest. rewrite <- app_assoc. split; [reflexivity|]. split; [|exact R].
    apply Forall_forall. intros c H. apply ws_white. apply W. apply in_app_or. exact H.
  - intros (w & rest & -> & W & R). exists w, [], rest. split; [reflexivity|]. split; [|split; [exact R|split; [intros []|intros c [H|H]; discriminate H]]].
    intros c [H|[]]. apply ws_white. rewrite Forall_forall in W. auto.
Qed.
(** White space before and after the lines changes nothing. *)
Definition padded (raw raw' : str) : Prop := exists w1 w2, Forall white w1 /\ Forall white w2 /\ raw' = w1 ++ raw ++ w2.
Lemma padded_core : forall raw raw' core, padded raw raw' -> stripped raw core -> stripped raw' core.
Proof.
  intros raw raw' core (w1 & w2 & W1 & W2 & ->) (a & b & rest & -> & W & R & C & E). rewrite Forall_forall in W1, W2.
  destruct R as [->|(cs & ->)].
  - exists (w1 ++ a), (b ++ w2), []. split; [rewrite !app_nil_r, <- !app_assoc; reflexivity|]. split; [|split; [auto|split; assumption]].
    intros c H. rewrite !in_app_iff in H. destruct H as [[H|H]|[H|H]]; [apply ws_white; auto|auto|auto|apply ws_white; auto].
  - exists (w1 ++ a), b, (35%N :: cs ++ w2). split; [rewrite <- !app_assoc; reflexivity|]. split; [|split; [eauto|split; assumption]].
    intros c H. rewrite in_app_iff in H. destruct H as [[H|H]|H]; [apply ws_white|..]; auto.
Qed.
Theorem C46_padded : forall lines lines' init, lines_ok lines -> lines_ok lines' -> Forall2 padded lines lines' ->
  parse_input (text_of lines') init = parse_input (text_of lines) init.
Proof.
  intros lines lines' init L L' F.
  assert (S : Forall2 stripped lines (map core_of lines)) by (clear; induction lines; constructor; [apply stripped_ex|assumption]).
  assert (S' : Forall2 stripped lines' (map core_of lines)).
  { clear -F. induction F as [|r r' l l' P F IH]; constructor; [|exact IH]. eapply padded_core; [exact P|apply stripped_ex]. }
  rewrite (C46_comments _ _ init L S), (C46_comments _ _ init L' S'). reflexivity.
Qed.
(** Tabs, no-break spaces, a byte-order mark, and the carriage returns of a text from Windows. *)
Example C46_padded_nonvacuous : Forall2 padded (map s2l ["LDA 0x10"; "FIN"]%string) [[0xFEFF%N; 9%N] ++ s2l "LDA 0x10" ++ [13%N]; [0xA0%N] ++ s2l "FIN" ++ [13%N]].
Proof.
  cbn [map]. constructor; [exists [0xFEFF%N; 9%N], [13%N]|constructor; [exists [0xA0%N], [13%N]|constructor]]; (split; [|split; [|reflexivity]]);
    repeat (apply Forall_cons; [apply ws_white; reflexivity|]); apply Forall_nil.
Qed.
(** A zero-width space is not white: such a line is reported. *)
Example C46_zero_width : ~ blank_line [0x200B%N].
Proof.
  intros H. apply C46_blank_lines in H. destruct H as (w & rest & E & W & R). destruct w as [|x w]; cbn in E.
  - destruct R as [->|(cs & ->)]; discriminate E.
  - injection E as <- _. inversion W as [|? ? Q]. unfold white, space_separator, line_terminator in Q. lia.
Qed.
Print Assumptions C46_blank_lines.
Print Assumptions C46_padded.
