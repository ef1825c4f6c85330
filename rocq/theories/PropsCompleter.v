(** * Theorems: completion of words (C79) *)
From Coq Require Import String ZArith NArith List Bool Lia ZifyBool ZifyN.
From Verif Require Import Isa.
From Verif Require Import JsStr AsmTable Asm AsmSpec AsmRe AsmLine AsmFacts AsmExec AsmProg AsmErr PropsAsm Disasm DisasmFacts PropsDisasm PropsLoad Editor PropsEditor Completer.
Import ListNotations.
Open Scope list_scope.
Open Scope Z_scope.

(** ** Specification *)
Definition mnemonic (w : str) : Prop :=
  exists i f, syntax i = Some f /\ w = s2l (match f with F0 m => m | F1 m _ => m | F2 m _ _ => m end).
Definition register_name (w : str) : Prop := In w [s2l "AC"; s2l "RB"; s2l "RC"; s2l "RD"; s2l "RE"].
(** A number from 0 to FFFF in capitals without leading zeros. *)
Definition number (w : str) : Prop := exists v, 0 <= v <= 65535 /\ byte_text v w.

(** ** Canonical numerals *)
Definition good (t : str) : Prop := forall c, In c t -> digit c <> None /\ up c = c.
Lemma digit_char : forall c d, digit c = Some d -> up c = c -> 0 <= d <= 15 /\ c = Z.to_N (if d <? 10 then 48 + d else 55 + d).
Proof.
  intros c d H U. unfold digit in H. unfold up in U.
  repeat match type of H with (if ?b then _ else _) = _ => destruct b eqn:? end; try discriminate H; injection H as <-;
  destruct ((97 <=? c) && (c <=? 122))%N eqn:E; try lia; match goal with |- context [?a <? 10] => destruct (a <? 10) eqn:? end; lia.
Qed.
Lemma value_range : forall t, good t -> 0 <= numeral_value t < 16 ^ Z.of_nat (List.length t).
Proof.
  induction t as [|c t IH]; intros G; [cbn; lia|]. cbn [numeral_value List.length]. destruct (IH (fun x H => G x (or_intror H))) as (A & B).
  destruct (G c (or_introl eq_refl)) as (D & U). destruct (digit c) as [d|] eqn:E; [|congruence]. destruct (digit_char c d E U) as (R & _).
  rewrite Nat2Z.inj_succ, Z.pow_succ_r by lia. nia.
Qed.
Lemma same_length : forall t t', List.length t = List.length t' -> good t -> good t' -> numeral_value t = numeral_value t' -> t = t'.
Proof.
  induction t as [|c t IH]; intros [|c' t'] L G G' V; try discriminate L; [reflexivity|]. injection L as L. cbn [numeral_value] in V.
  assert (Gt : good t) by (intros x H; apply G; right; exact H). assert (Gt' : good t') by (intros x H; apply G'; right; exact H).
  pose proof (value_range t Gt) as R. pose proof (value_range t' Gt') as R'. rewrite <- L in V, R'.
  destruct (G c (or_introl eq_refl)) as (D & U). destruct (G' c' (or_introl eq_refl)) as (D' & U').
  destruct (digit c) as [d|] eqn:E; [|congruence]. destruct (digit c') as [d'|] eqn:E'; [|congruence].
  destruct (digit_char c d E U) as (B & ->). destruct (digit_char c' d' E' U') as (B' & ->).
  set (P := 16 ^ Z.of_nat (List.length t)) in *. assert (d = d') by nia. subst d'. f_equal. apply IH; auto. lia.
Qed.
Lemma canonical_length : forall v t n, byte_text v t -> List.length t = S n -> 0 < v -> 16 ^ Z.of_nat n <= v < 16 ^ Z.of_nat (S n).
Proof.
  intros v t n ((N & Dg) & V & U & H) L P. assert (G : good t) by (intros c Hc; split; [apply Dg; exact Hc|apply U; exact Hc]).
  pose proof (value_range t G) as R. rewrite V, L in R. split; [|lia]. destruct t as [|c t]; [discriminate L|]. injection L as L.
  destruct (G c (or_introl eq_refl)) as (D & Uc). cbn [numeral_value] in V. destruct (digit c) as [d|] eqn:E; [|congruence]. destruct (digit_char c d E Uc) as (B & Ec).
  pose proof (value_range t (fun x Hx => G x (or_intror Hx))) as Rt. rewrite L in *. destruct (Z.eq_dec d 0) as [->|Nd]; [|nia].
  exfalso. assert (c :: t = [48%N]) by (apply H; cbn [hd_error]; rewrite Ec; reflexivity). injection H0 as -> ->. cbn in V. lia.
Qed.
Lemma canonical_unique : forall v t t', byte_text v t -> byte_text v t' -> t = t'.
Proof.
  intros v t t' B B'. pose proof B as ((N & Dg) & V & U & H). pose proof B' as ((N' & Dg') & V' & U' & H').
  assert (G : good t) by (intros c Hc; split; [apply Dg; exact Hc|apply U; exact Hc]). assert (G' : good t') by (intros c Hc; split; [apply Dg'; exact Hc|apply U'; exact Hc]).
  apply same_length; auto; [|congruence].
  destruct t as [|c t]; [congruence|]. destruct t' as [|c' t']; [congruence|].
  destruct (Z.eq_dec v 0) as [->|Nv].
  - assert (A : forall c t, good (c :: t) -> numeral_value (c :: t) = 0 -> (hd_error (c :: t) = Some 48%N -> c :: t = [48%N]) -> List.length (c :: t) = 1%nat).
    { clear. intros c t G V H. rewrite H; [reflexivity|]. cbn [numeral_value hd_error] in *. destruct (G c (or_introl eq_refl)) as (D & U). destruct (digit c) as [d|] eqn:E; [|congruence].
      destruct (digit_char c d E U) as (B & ->). pose proof (value_range t (fun x Hx => G x (or_intror Hx))) as R. assert (0 < 16 ^ Z.of_nat (List.length t)) by (apply Z.pow_pos_nonneg; lia). assert (d = 0) by nia. subst d. reflexivity. }
    rewrite (A _ _ G V H), (A _ _ G' V' H'). reflexivity.
  - assert (P : 0 < v) by (pose proof (value_range _ G); lia).
    pose proof (canonical_length v _ _ B eq_refl P) as (X1 & X2). pose proof (canonical_length v _ _ B' eq_refl P) as (Y1 & Y2).
    cbn [List.length]. f_equal. fold (List.length t) in *. fold (List.length t') in *.
    assert (Z.of_nat (List.length t) < Z.of_nat (S (List.length t'))) by (apply (Z.pow_lt_mono_r_iff 16); lia).
    assert (Z.of_nat (List.length t') < Z.of_nat (S (List.length t))) by (apply (Z.pow_lt_mono_r_iff 16); lia). lia.
Qed.

(** ** Sets and prefixes *)
Lemma existsb_str : forall w l, existsb (str_eqb w) l = true <-> In w l.
Proof.
  intros w l. rewrite existsb_exists. split; [intros (x & Hx & E); apply str_eqb_eq in E; subst; exact Hx|intros H; exists w; split; [exact H|apply str_eqb_refl]].
Qed.
Lemma distinct_in : forall l seen w, In w (distinct_from seen l) <-> In w l /\ ~ In w seen.
Proof.
  induction l as [|x l IH]; intros seen w; cbn [distinct_from]; [cbn; tauto|]. destruct (existsb (str_eqb x) seen) eqn:E.
  - rewrite IH. apply existsb_str in E. cbn [In]. split; [tauto|]. intros ([<-|H] & N); [contradiction|tauto].
  - assert (N : ~ In x seen) by (rewrite <- existsb_str; congruence). cbn [In]. rewrite IH. cbn [In]. split.
    + intros [<-|(H & K)]; tauto.
    + intros ([<-|H] & K); [tauto|]. destruct (list_eq_dec N.eq_dec x w) as [->|D]; tauto.
Qed.
Lemma distinct_nodup : forall l seen, NoDup (distinct_from seen l).
Proof.
  induction l as [|x l IH]; intros seen; cbn [distinct_from]; [constructor|]. destruct (existsb (str_eqb x) seen); [apply IH|]. constructor; [|apply IH].
  rewrite distinct_in. cbn [In]. tauto.
Qed.
Lemma starts_spec : forall p c, starts_with p c = true <-> exists r, c = p ++ r.
Proof.
  induction p as [|x p IH]; intros c; cbn [starts_with]; [split; [intros _; exists c; reflexivity|reflexivity]|].
  destruct c as [|y c]; [split; [discriminate|intros (r & E); discriminate E]|]. rewrite andb_true_iff, N.eqb_eq, IH. split.
  - intros (-> & r & ->). exists r. reflexivity.
  - intros (r & E). injection E as -> ->. split; [reflexivity|exists r; reflexivity].
Qed.
(** ** The three kinds of words *)
Definition every_mnemonic : list str := map s2l ["MOV"; "ADD"; "SUB"; "CMP"; "AND"; "OR"; "XOR"; "INC"; "CMA"; "LDA"; "STA"; "LDAX"; "STAX"; "BEQ"; "BC"; "JMP"; "LFA"; "SFA"; "INISP"; "PUSH"; "POP"; "CALL"; "RET"; "IRET"; "FIN"]%string.
Lemma mnemonic_list : forall w, mnemonic w <-> In w every_mnemonic.
Proof.
  intros w. split.
  - intros (i & f & E & ->). destruct i; cbn in E; try discriminate E; try (match goal with o : alu |- _ => destruct o end); try (match goal with s : src |- _ => destruct s end); injection E as <-; cbn [In every_mnemonic map]; tauto.
  - intros H. unfold every_mnemonic in H. cbn [map In] in H.
    destruct H as [<-|H]; [exists MOV_ac_ac; eexists; split; reflexivity|].
    destruct H as [<-|H]; [exists (OP ADD Imm); eexists; split; reflexivity|].
    destruct H as [<-|H]; [exists (OP SUB Imm); eexists; split; reflexivity|].
    destruct H as [<-|H]; [exists (OP CMP Imm); eexists; split; reflexivity|].
    destruct H as [<-|H]; [exists (OP AND Imm); eexists; split; reflexivity|].
    destruct H as [<-|H]; [exists (OP OR Imm); eexists; split; reflexivity|].
    destruct H as [<-|H]; [exists (OP XOR Imm); eexists; split; reflexivity|].
    destruct H as [<-|H]; [exists INC_ac; eexists; split; reflexivity|].
    destruct H as [<-|H]; [exists CMA; eexists; split; reflexivity|].
    destruct H as [<-|H]; [exists LDA; eexists; split; reflexivity|].
    destruct H as [<-|H]; [exists STA; eexists; split; reflexivity|].
    destruct H as [<-|H]; [exists LDAX; eexists; split; reflexivity|].
    destruct H as [<-|H]; [exists STAX; eexists; split; reflexivity|].
    destruct H as [<-|H]; [exists BEQ; eexists; split; reflexivity|].
    destruct H as [<-|H]; [exists BC_; eexists; split; reflexivity|].
    destruct H as [<-|H]; [exists JMP; eexists; split; reflexivity|].
    destruct H as [<-|H]; [exists LFA; eexists; split; reflexivity|].
    destruct H as [<-|H]; [exists SFA; eexists; split; reflexivity|].
    destruct H as [<-|H]; [exists INISP; eexists; split; reflexivity|].
    destruct H as [<-|H]; [exists PUSH; eexists; split; reflexivity|].
    destruct H as [<-|H]; [exists POP; eexists; split; reflexivity|].
    destruct H as [<-|H]; [exists CALL; eexists; split; reflexivity|].
    destruct H as [<-|H]; [exists RET; eexists; split; reflexivity|].
    destruct H as [<-|H]; [exists IRET; eexists; split; reflexivity|].
    destruct H as [<-|H]; [exists FIN; eexists; split; reflexivity|]. destruct H.
Qed.
Lemma instructions_are : forall w, In w all_instructions <-> In w every_mnemonic.
Proof.
  intros w. assert (E : forallb (fun x => existsb (str_eqb x) every_mnemonic) all_instructions && forallb (fun x => existsb (str_eqb x) all_instructions) every_mnemonic = true) by (vm_compute; reflexivity).
  apply andb_true_iff in E. destruct E as (A & B). rewrite forallb_forall in A, B. split; intros H; apply existsb_str; auto.
Qed.
Lemma constants_are : forall w, In w all_constants <-> number w.
Proof.
  intros w. unfold all_constants. rewrite in_map_iff. split.
  - intros (i & <- & Hi). apply in_seq in Hi. exists (Z.of_nat i). split; [lia|]. apply byte_text_ok. lia.
  - intros (v & R & B). exists (Z.to_nat v). rewrite Z2Nat.id by lia. split; [apply (canonical_unique v); [apply byte_text_ok; lia|exact B]|]. apply in_seq. lia.
Qed.

(** ** C79: the words offered *)
Theorem C79_exact : forall prefix w, In w (completions prefix) <-> (mnemonic w \/ register_name w \/ number w) /\ exists rest, w = prefix ++ rest.
Proof.
  intros prefix w. unfold completions. rewrite filter_In, starts_spec. unfold all_completions, distinct. rewrite distinct_in, !in_app_iff, constants_are, mnemonic_list, <- instructions_are.
  unfold register_name, all_registers. cbn [In]. tauto.
Qed.
Theorem C79_once : forall prefix, NoDup (completions prefix).
Proof. intros prefix. unfold completions. apply NoDup_filter. apply distinct_nodup. Qed.
(** Every number offered can be used as an address as it stands. *)
Theorem C79_usable : forall v w, 0 <= v <= 65535 -> byte_text v w ->
  exists c, opened_later (s2l "LDA " ++ w) = Some c /\ can c = true /\ map slot_int (slots c) = [0x70; v / 256; v mod 256].
Proof.
  intros v w R B. pose proof B as ((Ne & Dg) & V & U & _).
  assert (Wd : forall c, In c w -> is_word c = true) by (intros c Hc; apply digit_word; apply Dg; exact Hc).
  assert (Ws : forall c, is_word c = true -> is_ws c = false /\ c <> 35%N /\ c <> 10%N /\ is_lt c = false).
  { intros c Hc. split; [|split; [|split]]; try (intros ->; discriminate Hc).
    - unfold is_ws. apply not_true_iff_false. intros X. apply existsb_exists in X. destruct X as (x & Hx & E). apply N.eqb_eq in E. subst x. cbn [In] in Hx. repeat (destruct Hx as [<-|Hx]; [discriminate Hc|]). destruct Hx.
    - unfold is_lt. apply not_true_iff_false. intros X. apply existsb_exists in X. destruct X as (x & Hx & E). apply N.eqb_eq in E. subst x. cbn [In] in Hx. repeat (destruct Hx as [<-|Hx]; [discriminate Hc|]). destruct Hx. }
  set (line := s2l "LDA " ++ w).
  assert (Hline : forall c, In c line -> c = 76%N \/ c = 68%N \/ c = 65%N \/ c = 32%N \/ In c w) by (intros c Hc; apply in_app_or in Hc; cbn in Hc; intuition congruence).
  set (cd := mkCode [] LDA w).
  assert (Wr : written line (Some cd)).
  { exists line. split; [|split].
    - exists [], [], []. cbn [app]. rewrite app_nil_r. split; [reflexivity|]. split; [intros c [[]|[]]|]. split; [left; reflexivity|]. split.
      + intros H. destruct (Hline _ H) as [X|[X|[X|[X|X]]]]; try discriminate X. apply (proj1 (proj2 (Ws _ (Wd _ X)))). reflexivity.
      + intros c [H|H]; [injection H as <-; reflexivity|]. destruct (exists_last Ne) as (w' & z & Ew). unfold line in H. rewrite Ew, app_assoc, rev_unit in H. injection H as <-. apply Ws. apply Wd. rewrite Ew. apply in_or_app. right. left. reflexivity.
    - intros c H. destruct (Hline _ H) as [->|[->|[->|[->|X]]]]; try reflexivity. apply (Ws _ (Wd _ X)).
    - left. split; [reflexivity|]. cbn. exists (s2l "LDA"), 32%N, w. split; [reflexivity|]. split; [reflexivity|]. split; [reflexivity|]. split; [reflexivity|]. split; [exact Ne|exact Wd]. }
  assert (NT : hd_error w <> Some 84%N) by (destruct w as [|c w']; [discriminate|]; intros X; injection X as ->; apply (Dg 84%N (or_introl eq_refl)); reflexivity).
  destruct (C44_image [line] [Some cd] 0) as (out & s & E1 & E2 & Im & Hx).
  - split; [discriminate|]. intros l [<-|[]] H. destruct (Hline _ H) as [X|[X|[X|[X|X]]]]; try discriminate X. apply (proj1 (proj2 (proj2 (Ws _ (Wd _ X))))). reflexivity.
  - constructor; [exact Wr|constructor].
  - intros c [<-|[]]. split; [left; split; [split; assumption|cbn [val cd]; lia]|intros (X & _); discriminate X].
  - discriminate.
  - lia.
  - cbn. lia.
  - change (text_of [line]) with line in E1. destruct Im as (b & bs & Eb & (op & Ho & Eo) & En). change (bs = []) in En. rewrite En, app_nil_r in Eb.
    assert (op = 0x70) by (apply (C43_opcode_unique LDA op 0x70); [discriminate|exact Ho|split; [lia|reflexivity]]). subst op.
    cbn [ins cd val value_kind syntax] in Eo. assert (Hv : match hd_error w with Some 84%N => address (somes [Some cd]) 0 w | _ => numeral_value w end = v).
    { rewrite <- V. destruct (hd_error w) as [u|]; [|reflexivity]. destruct (N.eq_dec u 84) as [->|Nu]; [congruence|].
      destruct u as [|u]; [reflexivity|]. repeat (destruct u as [u|u|]; try reflexivity). congruence. }
    cbv zeta in Eo. rewrite Hv in Eo. rewrite Eo in Eb.
    assert (Ev : map slot_int s = slot_values s).
    { unfold slot_values. apply map_ext_in. intros a Ha. rewrite Forall_forall in Hx. destruct (Hx a Ha) as (_ & X). apply numeral_check in X. unfold slot_int. rewrite leading_hex_all by apply X. reflexivity. }
    unfold opened_later, translated. rewrite E1, E2. eexists. split; [reflexivity|]. cbn [can slots]. rewrite Ev, Eb. split; [|reflexivity].
    unfold fits. assert (L : List.length (slot_values s) = 3%nat) by (rewrite Eb; reflexivity). unfold slot_values in L. rewrite map_length in L. rewrite L. reflexivity.
Qed.
(** But no word is offered for a prefix with a small letter, although the assembler reads
    small letters. *)
Lemma up_fixed : forall w, mnemonic w \/ register_name w \/ number w -> forall c, In c w -> up c = c.
Proof.
  assert (K : forall l w, forallb (forallb (fun c => N.eqb (up c) c)) l = true -> In w l -> forall c, In c w -> up c = c).
  { intros l w H Hw c Hc. rewrite forallb_forall in H. specialize (H w Hw). rewrite forallb_forall in H. apply N.eqb_eq. apply H. exact Hc. }
  intros w [H|[H|(v & _ & _ & _ & U & _)]].
  - apply mnemonic_list in H. apply (K every_mnemonic); [reflexivity|exact H].
  - apply (K [s2l "AC"; s2l "RB"; s2l "RC"; s2l "RD"; s2l "RE"]); [reflexivity|exact H].
  - exact U.
Qed.
Theorem C79_small_letters_refuted : (forall prefix c, In c prefix -> (97 <= c <= 122)%N -> completions prefix = []) /\
  exists e, opened_later (s2l "mov rb, ac") = Some e /\ can e = true.
Proof.
  split.
  - intros prefix c Hc R. destruct (completions prefix) as [|w l] eqn:E; [reflexivity|]. exfalso.
    assert (H : In w (completions prefix)) by (rewrite E; left; reflexivity). apply C79_exact in H. destruct H as (K & rest & ->).
    assert (X : up c = c) by (apply (up_fixed _ K); apply in_or_app; left; exact Hc). unfold up in X. destruct ((97 <=? c) && (c <=? 122))%N eqn:F; lia.
  - eexists. split; [vm_compute; reflexivity|reflexivity].
Qed.
(** Labels are never offered. *)
Theorem C79_labels_refuted : forall prefix w, In w (completions prefix) -> ~ is_ref w.
Proof.
  intros prefix w H R. apply C79_exact in H. destruct H as ([H|[H|(v & _ & (N & D) & _)]] & _).
  - apply mnemonic_list in H. unfold is_ref in R. cbn in H. repeat (destruct H as [<-|H]; [discriminate R|]). destruct H.
  - unfold is_ref in R. cbn in H. repeat (destruct H as [<-|H]; [discriminate R|]). destruct H.
  - destruct w as [|c w]; [congruence|]. unfold is_ref in R. injection R as ->. apply (D 84%N (or_introl eq_refl)). reflexivity.
Qed.
(** The words for A: the mnemonics, the register, then the numbers from A to AFFF. *)
Example C79_nonvacuous : In (s2l "ADD") (completions (s2l "A")) /\ In (s2l "AC") (completions (s2l "A")) /\ In (s2l "AB1") (completions (s2l "A")) /\
  ~ In (s2l "0A") (completions (s2l "0")) /\ mnemonic (s2l "ADD") /\ number (s2l "ADD").
Proof.
  assert (A : mnemonic (s2l "ADD")) by (apply mnemonic_list; cbn; tauto).
  split; [apply C79_exact; split; [left; exact A|exists (s2l "DD"); reflexivity]|].
  split; [apply C79_exact; split; [right; left; left; reflexivity|exists (s2l "C"); reflexivity]|].
  split; [apply C79_exact; split; [right; right; exists 0xAB1; split; [lia|]; apply (byte_text_ok 0xAB1); lia|exists (s2l "B1"); reflexivity]|].
  split; [|split; [exact A|exists 0xADD; split; [lia|apply (byte_text_ok 0xADD); lia]]].
  intros H. apply C79_exact in H. destruct H as ([H|[H|(v & _ & _ & _ & _ & H)]] & _).
  - apply mnemonic_list in H. cbn in H. repeat (destruct H as [H|H]; [discriminate H|]). destruct H.
  - cbn in H. repeat (destruct H as [H|H]; [discriminate H|]). destruct H.
  - discriminate (H eq_refl).
Qed.
Print Assumptions C79_exact.
Print Assumptions C79_once.
Print Assumptions C79_usable.
Print Assumptions C79_small_letters_refuted.
Print Assumptions C79_labels_refuted.
