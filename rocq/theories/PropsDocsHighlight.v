(** * Theorems: the colours of the programs in the documentation (C96) *)
From Coq Require Import String ZArith NArith List Bool Lia ZifyBool ZifyN.
From Verif Require Import Isa.
From Verif Require Import JsStr AsmTable Asm AsmSpec AsmRe AsmFacts Completer PropsCompleter Highlight PropsHighlight DocsHighlight.
Import ListNotations.
Open Scope list_scope.
Local Opaque operations all_instructions.

(** ** Specification *)
(** The colour of each character of a line in the editor. *)
Definition editor_colours (line : str) : list (kind * N) := concat (map (fun t => map (pair (fst t)) (snd t)) (highlight line)).
(** The same for a program of several lines. *)
Fixpoint editor_program (lines : list str) : list (kind * N) :=
  match lines with
  | [] => []
  | [l] => editor_colours l
  | l :: r => editor_colours l ++ (Plain, 10%N) :: editor_program r
  end.

(** ** Lemmas *)
Definition flat (ts : list token) : list (kind * N) := concat (map (fun t => map (pair (fst t)) (snd t)) ts).
Lemma letters_t : forall m c r, hd_error m <> Some 84%N -> m <> [] -> map up m = m -> up c = 84%N -> same_letters m (c :: r) = false.
Proof.
  intros [|x m] c r H N U Uc; [congruence|]. cbn. rewrite Uc. cbn in U. injection U as U _. rewrite U. apply andb_false_iff. left. apply N.eqb_neq. intros ->. apply H. reflexivity.
Qed.
Lemma hex_not : forall c, is_hex_char c = true -> N.eqb c 35 || N.eqb c 36 || N.eqb c 61 = false.
Proof.
  intros c H. destruct (N.eqb_spec c 35) as [->|]; [discriminate H|]. destruct (N.eqb_spec c 36) as [->|]; [discriminate H|]. destruct (N.eqb_spec c 61) as [->|]; [discriminate H|reflexivity].
Qed.
(** Where the character before is not part of a word, a word gets the colour the editor gives it. *)
Lemma same_rule : forall b s k n, in_word b = false -> first_rule b s = Some (k, n) -> k <> Comment -> docs_rule b s = Some (k, n).
Proof.
  intros b s k n Hb F Nc. unfold first_rule in F. unfold docs_rule. destruct (rule_label s) as [nl|] eqn:Rl.
  - injection F as <- <-. destruct s as [|c r]; [discriminate Rl|]. cbn in Rl. destruct (N.eqb_spec (up c) 84) as [Uc|]; [|discriminate Rl].
    assert (R1 : rule_instruction b (c :: r) = None).
    { unfold rule_instruction. rewrite Hb. rewrite find_false; [reflexivity|]. intros m Hm. apply instructions_are, mnemonic_list in Hm. destruct (mnemonic_shape _ Hm) as (Ne & _ & NT).
      rewrite letters_t by (try assumption; apply up_mnemonic; exact Hm). reflexivity. }
    assert (R2 : docs_register (c :: r) = None).
    { unfold docs_register. rewrite find_false; [reflexivity|]. intros m Hm. unfold all_registers in Hm. cbn [In] in Hm.
      repeat (destruct Hm as [<-|Hm]; [apply letters_t; [discriminate|discriminate|reflexivity|exact Uc]|]). destruct Hm. }
    assert (Nh : is_hex_char c = false) by (unfold is_hex_char; rewrite <- digit_up, Uc; reflexivity).
    assert (N35 : N.eqb c 35 = false /\ N.eqb c 36 = false /\ N.eqb c 61 = false) by (do 2 (split; [apply N.eqb_neq; intros ->; discriminate Uc|]); apply N.eqb_neq; intros ->; discriminate Uc).
    destruct N35 as (A1 & A2 & A3). rewrite R1, R2. cbn [docs_comment docs_number]. rewrite A1, A2, A3. cbn [orb]. unfold rule_number. cbn [run]. rewrite Nh. reflexivity.
  - destruct (rule_instruction b s) as [ni|] eqn:Ri; [injection F as <- <-; reflexivity|].
    replace (docs_register s) with (rule_register b s) by (unfold rule_register, docs_register; rewrite Hb; reflexivity).
    destruct (rule_register b s) as [nr|] eqn:Rr; [injection F as <- <-; reflexivity|].
    destruct (rule_number s) as [nn|] eqn:Rn; [injection F as <- <-|destruct (rule_comment s); [injection F as <- _; congruence|discriminate F]].
    destruct s as [|c r]; [discriminate Rn|]. assert (Hc : is_hex_char c = true) by (unfold rule_number in Rn; cbn [run] in Rn; destruct (is_hex_char c); [reflexivity|discriminate Rn]).
    pose proof (hex_not c Hc) as Hn. cbn [docs_comment docs_number]. rewrite Hn. destruct (N.eqb c 35); [discriminate Hn|]. rewrite Rn. reflexivity.
Qed.
Lemma docs_gap : forall b c r, is_word c = false -> c <> 35%N -> c <> 36%N -> c <> 61%N -> docs_rule b (c :: r) = None.
Proof.
  intros b c r W N1 N2 N3. destruct (rules_off_word b c r W) as (R1 & R2 & _ & R4). destruct (rules_off_word None c r W) as (_ & _ & R3 & _). unfold rule_register in R3. cbn [in_word] in R3.
  unfold docs_rule. rewrite R2. unfold docs_register. rewrite R3. cbn [docs_comment docs_number]. destruct (N.eqb_spec c 35); [contradiction|]. destruct (N.eqb_spec c 36); [contradiction|]. destruct (N.eqb_spec c 61); [contradiction|].
  cbn [orb]. rewrite R4, R1. reflexivity.
Qed.
Lemma docs_token : forall f b w s k, w <> [] -> docs_rule b (w ++ s) = Some (k, List.length w) -> (List.length (w ++ s) <= f)%nat ->
  exists f' b', (List.length s <= f')%nat /\ docs_from f b (w ++ s) = map (pair k) w ++ docs_from f' b' s.
Proof.
  intros f b w s k Ne R L. destruct w as [|c w]; [congruence|]. destruct f as [|f]; [cbn in L; lia|]. cbn [app] in *. cbn [docs_from]. rewrite R.
  exists f, (last_of (firstn (List.length (c :: w)) (c :: w ++ s)) b). split; [cbn [List.length] in L; rewrite app_length in L; lia|].
  change (c :: w ++ s) with ((c :: w) ++ s). rewrite firstn_app, firstn_all, Nat.sub_diag, skipn_app, skipn_all, Nat.sub_diag. cbn [firstn skipn app]. rewrite app_nil_r. reflexivity.
Qed.
Lemma docs_walk : forall g f b s, (forall c, In c g -> gap_char c /\ c <> 36%N /\ c <> 61%N) -> (List.length (g ++ s) <= f)%nat -> g <> [] ->
  exists f' c, (List.length s <= f')%nat /\ is_word c = false /\ docs_from f b (g ++ s) = map (pair Plain) g ++ docs_from f' (Some c) s.
Proof.
  induction g as [|c g IH]; intros f b s H L N; [congruence|]. destruct f as [|f]; [cbn in L; lia|]. cbn [app docs_from List.length map] in *.
  destruct (H c (or_introl eq_refl)) as ((Wc & N35) & N36 & N61). rewrite docs_gap by assumption. destruct g as [|d g].
  - exists f, c. cbn [app map]. split; [cbn in L; lia|]. split; [exact Wc|reflexivity].
  - destruct (IH f (Some c) s) as (f' & c' & L' & G' & E); [intros x Hx; apply H; right; exact Hx|lia|discriminate|]. exists f', c'. split; [exact L'|]. split; [exact G'|]. rewrite E. reflexivity.
Qed.
Definition new_line (rest : str) : Prop := rest = [] \/ exists r, rest = 10%N :: r.
Lemma ends_rest : forall s rest, ends s -> new_line rest -> ends (s ++ rest).
Proof. intros [|x s] rest E N c r X; [|injection X as <- _; exact (E x s eq_refl)]. cbn in X. destruct N as [->|(r' & ->)]; [discriminate X|]. injection X as <- _. reflexivity. Qed.
Lemma not_word_rest : forall s rest, ends s -> new_line rest -> in_word (hd_error (s ++ rest)) = false.
Proof. intros s rest E N. destruct (s ++ rest) as [|c r] eqn:X; [reflexivity|]. exact (ends_rest s rest E N c r X). Qed.
Lemma shown_docs : forall s ts, shown s ts -> tidy ts -> forall f b rest, new_line rest -> (in_word b = false \/ in_word (hd_error (s ++ rest)) = false) -> (List.length (s ++ rest) <= f)%nat ->
  exists f' b', (List.length rest <= f')%nat /\ docs_from f b (s ++ rest) = flat ts ++ docs_from f' b' rest.
Proof.
  induction 1 as [|g s ts Ng Gg Hs S IH|w s ts M Es S IH|w s ts Rg Es S IH|w s ts Pn Es S IH|c w s ts Uc Ww Ws S IH|t Ht]; intros T f b rest Nl Hb L.
  - exists f, b. split; [exact L|reflexivity].
  - rewrite <- app_assoc in *. destruct (docs_walk g f b (s ++ rest)) as (f1 & c & L1 & Wc & E); [|exact L|exact Ng|].
    { intros c Hc. split; [exact (Gg c Hc)|]. exact (T g c (or_introl eq_refl) Hc). }
    destruct (IH (fun g' c' H => T g' c' (or_intror H)) f1 (Some c) rest Nl (or_introl Wc) L1) as (f' & b' & L' & E'). exists f', b'. split; [exact L'|]. rewrite E, E'. cbn [flat map concat fst snd]. rewrite app_assoc. reflexivity.
  - rewrite <- app_assoc in *. pose proof (ends_rest s rest Es Nl) as Er.
    assert (Hb' : in_word b = false).
    { pose proof (mnemonic_shape _ M) as (Ne & Wd & _). destruct w as [|c w]; [exfalso; apply Ne; reflexivity|]. apply (not_in_word b c w (s ++ rest) Hb). apply (up_word _ Wd). left. reflexivity. }
    destruct (rule_at_instruction b w (s ++ rest) M Er Hb') as (Nw & _ & R). apply same_rule in R; [|exact Hb'|discriminate].
    destruct (docs_token f b w (s ++ rest) Instruction Nw R L) as (f1 & b1 & L1 & E).
    destruct (IH (fun g' c' H => T g' c' (or_intror H)) f1 b1 rest Nl (or_intror (not_word_rest s rest Es Nl)) L1) as (f' & b' & L' & E'). exists f', b'. split; [exact L'|]. rewrite E, E'. cbn [flat map concat fst snd]. rewrite app_assoc. reflexivity.
  - rewrite <- app_assoc in *. pose proof (ends_rest s rest Es Nl) as Er. destruct (register_letters w Rg) as (Lw & Ww). assert (Nw : w <> []) by (intros ->; discriminate Lw).
    assert (Hb' : in_word b = false) by (destruct w as [|c w]; [congruence|]; apply (not_in_word b c w (s ++ rest) Hb); apply Ww; left; reflexivity).
    pose proof (rule_at_register b w (s ++ rest) Rg Er Hb') as R. apply same_rule in R; [|exact Hb'|discriminate].
    destruct (docs_token f b w (s ++ rest) Register Nw R L) as (f1 & b1 & L1 & E).
    destruct (IH (fun g' c' H => T g' c' (or_intror H)) f1 b1 rest Nl (or_intror (not_word_rest s rest Es Nl)) L1) as (f' & b' & L' & E'). exists f', b'. split; [exact L'|]. rewrite E, E'. cbn [flat map concat fst snd]. rewrite app_assoc. reflexivity.
  - rewrite <- app_assoc in *. pose proof (ends_rest s rest Es Nl) as Er. destruct (number_shape w Pn) as (Nw & Ww).
    assert (Hb' : in_word b = false) by (destruct w as [|c w]; [congruence|]; apply (not_in_word b c w (s ++ rest) Hb); apply Ww; left; reflexivity).
    pose proof (rule_at_number b w (s ++ rest) Pn Er) as R. apply same_rule in R; [|exact Hb'|discriminate].
    destruct (docs_token f b w (s ++ rest) Number Nw R L) as (f1 & b1 & L1 & E).
    destruct (IH (fun g' c' H => T g' c' (or_intror H)) f1 b1 rest Nl (or_intror (not_word_rest s rest Es Nl)) L1) as (f' & b' & L' & E'). exists f', b'. split; [exact L'|]. rewrite E, E'. cbn [flat map concat fst snd]. rewrite app_assoc. reflexivity.
  - change (c :: w ++ s) with ((c :: w) ++ s) in *. rewrite <- app_assoc in *.
    assert (Wr : forall x r, s ++ rest = x :: r -> is_ws x = true). { intros x r X. destruct s as [|y s]; [|injection X as <- _; exact (Ws y s eq_refl)]. cbn in X. destruct Nl as [->|(r' & ->)]; [discriminate X|]. injection X as <- _. reflexivity. }
    assert (Wc : is_word c = true) by (rewrite <- is_word_up, Uc; reflexivity).
    pose proof (not_in_word b c w (s ++ rest) Hb Wc) as Hb'. pose proof (rule_at_label b c w (s ++ rest) Uc Ww Wr) as R. apply same_rule in R; [|exact Hb'|discriminate].
    destruct (docs_token f b (c :: w) (s ++ rest) Label_ ltac:(discriminate) R L) as (f1 & b1 & L1 & E).
    assert (Hn : in_word (hd_error (s ++ rest)) = false). { destruct (s ++ rest) as [|x r] eqn:X; [reflexivity|]. cbn. exact (proj1 (ws_gap x (Wr x r eq_refl))). }
    destruct (IH (fun g' c' H => T g' c' (or_intror H)) f1 b1 rest Nl (or_intror Hn) L1) as (f' & b' & L' & E'). exists f', b'. split; [exact L'|]. rewrite E, E'. cbn [flat map concat fst snd]. rewrite app_assoc. reflexivity.
  - assert (R : docs_rule b ((35%N :: t) ++ rest) = Some (Comment, List.length (35%N :: t))).
    { destruct (rules_off_word b 35%N (t ++ rest) eq_refl) as (_ & R2 & _ & _). destruct (rules_off_word None 35%N (t ++ rest) eq_refl) as (_ & _ & R3 & _). unfold rule_register in R3. cbn [in_word] in R3.
      unfold docs_rule, docs_register. cbn [app]. rewrite R2, R3. cbn [docs_comment]. change (N.eqb 35 35) with true. cbn iota. rewrite run_all; [reflexivity| |].
      - apply forallb_forall. intros x Hx. rewrite (Ht x Hx). reflexivity.
      - intros x r X. destruct Nl as [->|(r' & ->)]; [discriminate X|]. injection X as <- _. reflexivity. }
    destruct (docs_token f b (35%N :: t) rest Comment ltac:(discriminate) R L) as (f1 & b1 & L1 & E). exists f1, b1. split; [exact L1|]. rewrite E. unfold flat. cbn [map concat fst snd]. rewrite app_nil_r. reflexivity.
Qed.
Lemma docs_text_from : forall f b s, map snd (docs_from f b s) = s.
Proof.
  assert (P : forall (k : kind) (s : str), map snd (map (pair k) s) = s) by (intros k s; rewrite map_map; apply map_id).
  induction f as [|f IH]; intros b [|c r]; try reflexivity; try apply P. cbn [docs_from]. destruct (docs_rule b (c :: r)) as [(k & n)|].
  - rewrite map_app, P, IH. apply firstn_skipn.
  - cbn [map snd]. rewrite IH. reflexivity.
Qed.

(** ** C96 *)
(** The documentation shows the text of a program as it is. *)
Theorem C96_text : forall code, map snd (docs_highlight code) = code.
Proof. intros code. apply docs_text_from. Qed.
(** A program whose lines are made of words of the language, set apart by characters
    other than [$] and [=], has the colours in the documentation that it has in the editor. *)
Theorem C96_same : forall lines, (forall l, In l lines -> exists ts, shown l ts /\ tidy ts) -> docs_highlight (join 10%N lines) = editor_program lines.
Proof.
  intros lines H. unfold docs_highlight. assert (Hb : in_word None = false) by reflexivity. revert Hb. generalize (@None N) as b. assert (L : (List.length (join 10%N lines) <= List.length (join 10%N lines))%nat) by lia. revert L.
  generalize (List.length (join 10%N lines)) at 2 3. induction lines as [|l lines IH]; intros f L b Hb; [destruct f; reflexivity|].
  destruct (H l (or_introl eq_refl)) as (ts & S & T). assert (Ec : editor_colours l = flat ts) by (unfold editor_colours; rewrite (C81_colours l ts S); reflexivity).
  destruct lines as [|l2 lines].
  - cbn [join] in *. destruct (shown_docs l ts S T f b [] (or_introl eq_refl) (or_introl Hb)) as (f' & b' & _ & E); [rewrite app_nil_r; exact L|]. rewrite app_nil_r in E. rewrite E. cbn [editor_program]. rewrite Ec. destruct f'; cbn [docs_from map]; apply app_nil_r.
  - change (join 10%N (l :: l2 :: lines)) with (l ++ 10%N :: join 10%N (l2 :: lines)) in *.
    destruct (shown_docs l ts S T f b (10%N :: join 10%N (l2 :: lines)) (or_intror (ex_intro _ _ eq_refl)) (or_introl Hb) L) as (f' & b' & L' & E). rewrite E.
    change (editor_program (l :: l2 :: lines)) with (editor_colours l ++ (Plain, 10%N) :: editor_program (l2 :: lines)). rewrite Ec. f_equal.
    destruct f' as [|f']; [cbn in L'; lia|]. cbn [docs_from]. rewrite docs_gap by (try reflexivity; discriminate). f_equal. apply IH; [intros x Hx; apply H; right; exact Hx|cbn [List.length] in L'; lia|reflexivity].
Qed.
(** In particular every program of the language, with the exceptions of C81: values that
    look like something else and comments that touch a label. *)
Theorem C96_documented : forall lines, (forall l, In l lines -> exists w1 core w2 rest c, l = w1 ++ core ++ w2 ++ rest /\
    (forall x, In x w1 \/ In x w2 -> is_ws x = true) /\ (rest = [] \/ exists cs, rest = 35%N :: cs /\ forall x, In x cs -> is_lt x = false) /\
    code_line core c /\ clear_value c /\ (forall x, In x (lab c) -> is_ws x = false) /\ (is_ref (val c) -> rest = [] \/ w2 <> [])) ->
  docs_highlight (join 10%N lines) = editor_program lines.
Proof.
  intros lines H. apply C96_same. intros l Hl. destruct (H l Hl) as (w1 & core & w2 & rest & c & -> & W & R & C & V & Lw & Lr).
  destruct (documented_shown w1 core w2 rest c W R C V Lw Lr) as (ts & S & _ & T). eauto.
Qed.
(** The two differ for values that look like two registers, and for [$] before a number. *)
Theorem C96_other_refuted : docs_highlight (s2l "LDA ACAC") <> editor_program [s2l "LDA ACAC"] /\ code_line (s2l "LDA ACAC") (mkCode [] LDA (s2l "ACAC")) /\
  docs_highlight (s2l "LDA $1") <> editor_program [s2l "LDA $1"].
Proof.
  split; [vm_compute; discriminate|]. split; [|vm_compute; discriminate]. left. split; [reflexivity|]. exists (s2l "LDA"), 32%N, (s2l "ACAC"). repeat split; try discriminate. intros x [<-|[<-|[<-|[<-|[]]]]]; reflexivity.
Qed.
Example C96_nonvacuous : let lines := [s2l "TLOOP add 0f # MOV"; s2l "JMP TLOOP"] in
  (forall l, In l lines -> exists ts, shown l ts /\ tidy ts) /\
  docs_highlight (join 10%N lines) = map (pair Label_) (s2l "TLOOP") ++ (Plain, 32%N) :: map (pair Instruction) (s2l "add") ++ (Plain, 32%N) :: map (pair Number) (s2l "0f") ++ (Plain, 32%N) :: map (pair Comment) (s2l "# MOV")
    ++ (Plain, 10%N) :: map (pair Instruction) (s2l "JMP") ++ (Plain, 32%N) :: map (pair Label_) (s2l "TLOOP").
Proof.
  cbv zeta. split; [|vm_compute; reflexivity]. intros l [<-|[<-|[]]].
  - destruct C81_nonvacuous as (C & V & Lw & _). destruct (documented_shown [] (s2l "TLOOP add 0f") (s2l " ") (s2l "# MOV") (mkCode (s2l "TLOOP") (OP ADD Imm) (s2l "0f"))) as (ts & S & _ & T); [..|exists ts; exact (conj S T)]; try eassumption.
    + intros x [[]|[<-|[]]]. reflexivity.
    + right. exists (s2l " MOV"). split; [reflexivity|]. intros x [<-|[<-|[<-|[<-|[]]]]]; reflexivity.
    + intros _. right. discriminate.
  - exists [(Instruction, s2l "JMP"); (Plain, s2l " "); (Label_, s2l "TLOOP")]. split.
    + apply (S_instruction (s2l "JMP") (s2l " TLOOP")).
      * exists JMP, (F1 "JMP" Value16). split; reflexivity.
      * intros x r E. injection E as <- _. reflexivity.
      * apply (S_gap (s2l " ") (s2l "TLOOP")); [discriminate|intros x [<-|[]]; split; [reflexivity|discriminate]|intros x r E; injection E as <- _; intros (X & _); discriminate X|].
        apply (S_label 84%N (s2l "LOOP") []); [reflexivity|intros x [<-|[<-|[<-|[<-|[]]]]]; reflexivity|discriminate|constructor].
    + intros g c [E|[E|[E|[]]]] Hc; try discriminate E. injection E as <-. destruct Hc as [<-|[]]. split; discriminate.
Qed.
Print Assumptions C96_text.
Print Assumptions C96_same.
Print Assumptions C96_documented.
Print Assumptions C96_other_refuted.
Print Assumptions C96_nonvacuous.
