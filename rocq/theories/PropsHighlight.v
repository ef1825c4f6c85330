(** * Theorems: the colours of the code editor (C81) *)
From Coq Require Import String ZArith NArith List Bool Lia ZifyBool ZifyN.
From Verif Require Import Isa.
From Verif Require Import JsStr AsmTable Asm AsmSpec AsmRe AsmFacts Completer PropsCompleter Highlight.
Import ListNotations.
Open Scope list_scope.
Local Opaque operations all_instructions.

(** ** Specification: how a line should look *)
Definition ends (s : str) : Prop := forall c r, s = c :: r -> is_word c = false.
Definition gap_char (c : N) : Prop := is_word c = false /\ c <> 35%N.
(** Numbers that do not look like something else: not ADD or BC, not starting with AC. *)
Definition plain_number (w : str) : Prop := numeral w /\ ~ mnemonic (map up w) /\ ~ exists r, map up w = s2l "AC" ++ r.
Inductive shown : str -> list token -> Prop :=
| S_end : shown [] []
| S_gap : forall g s ts, g <> [] -> (forall c, In c g -> gap_char c) -> (forall c r, s = c :: r -> ~ gap_char c) -> shown s ts -> shown (g ++ s) ((Plain, g) :: ts)
| S_instruction : forall w s ts, mnemonic (map up w) -> ends s -> shown s ts -> shown (w ++ s) ((Instruction, w) :: ts)
| S_register : forall w s ts, register_name (map up w) -> ends s -> shown s ts -> shown (w ++ s) ((Register, w) :: ts)
| S_number : forall w s ts, plain_number w -> ends s -> shown s ts -> shown (w ++ s) ((Number, w) :: ts)
| S_label : forall c w s ts, up c = 84%N -> (forall x, In x w -> is_ws x = false) -> (forall x r, s = x :: r -> is_ws x = true) -> shown s ts -> shown (c :: w ++ s) ((Label_, c :: w) :: ts)
| S_comment : forall t, (forall c, In c t -> is_lt c = false) -> shown (35%N :: t) [(Comment, 35%N :: t)].

(** ** Nothing is lost *)
Lemma tokens_text : forall f b g s, concat (map snd (tokens f b g s)) = g ++ s.
Proof.
  assert (P : forall g, concat (map snd (plain g)) = g) by (intros [|c g]; [reflexivity|cbn; rewrite app_nil_r; reflexivity]).
  induction f as [|f IH]; intros b g s; cbn [tokens]; [apply P|]. destruct s as [|c r]; [apply P|].
  destruct (first_rule b (c :: r)) as [(k & n)|]; [|rewrite IH, <- app_assoc; reflexivity].
  rewrite map_app, concat_app, P. f_equal. cbn [map concat snd]. rewrite IH. cbn [app]. apply firstn_skipn.
Qed.
Theorem C81_text : forall line, concat (map snd (highlight line)) = line.
Proof. intros line. unfold highlight. rewrite tokens_text. reflexivity. Qed.

(** ** Matching words *)
Lemma same_letters_spec : forall w s, same_letters w s = true <-> exists a r, s = a ++ r /\ map up a = map up w.
Proof.
  induction w as [|x w IH]; intros s; cbn [same_letters].
  - split; [intros _; exists [], s; auto|reflexivity].
  - destruct s as [|y s]; [split; [discriminate|intros (a & r & E & M); destruct a; [discriminate M|discriminate E]]|].
    rewrite andb_true_iff, N.eqb_eq, IH. split.
    + intros (E & a & r & -> & M). exists (y :: a), r. cbn. split; [reflexivity|]. congruence.
    + intros (a & r & E & M). destruct a as [|z a]; [discriminate M|]. cbn in E, M. injection E as -> ->. injection M as M1 M2. split; [congruence|]. exists a, r. auto.
Qed.
Lemma is_word_up : forall c, is_word (up c) = is_word c.
Proof. intros c. unfold is_word, up. destruct ((97 <=? c) && (c <=? 122))%N eqn:E; lia. Qed.
Lemma mnemonic_shape : forall w, mnemonic w -> w <> [] /\ (forall c, In c w -> is_word c = true) /\ hd_error w <> Some 84%N.
Proof.
  intros w H. apply mnemonic_list in H.
  assert (K : forallb (fun w => negb (match w with [] => true | _ => false end) && forallb is_word w && negb (match w with c :: _ => N.eqb c 84 | [] => false end)) every_mnemonic = true) by reflexivity.
  rewrite forallb_forall in K. specialize (K w H). apply andb_true_iff in K. destruct K as (K & K3). apply andb_true_iff in K. destruct K as (K1 & K2).
  split; [destruct w; [discriminate K1|discriminate]|]. split; [apply forallb_forall; exact K2|]. destruct w as [|c w]; [discriminate|]. cbn. intros X. injection X as ->. discriminate K3.
Qed.
Lemma up_word : forall w, (forall c, In c (map up w) -> is_word c = true) -> forall c, In c w -> is_word c = true.
Proof. intros w H c Hc. rewrite <- is_word_up. apply H. apply in_map. exact Hc. Qed.
Lemma up_mnemonic : forall m, mnemonic m -> map up m = m.
Proof.
  intros m H. rewrite <- (map_id m) at 2. apply map_ext_in. intros c Hc. apply (up_fixed m); [left; exact H|exact Hc].
Qed.
(** A mnemonic found at the start of the word [w] is [w]. *)
Lemma found_is : forall w s m, (forall c, In c w -> is_word c = true) -> ends s -> (forall c, In c m -> is_word c = true) ->
  same_letters m (w ++ s) && negb (in_word (hd_error (skipn (List.length m) (w ++ s)))) = true -> map up m = map up w.
Proof.
  intros w s m Hw Es Hm H. apply andb_true_iff in H. destruct H as (H1 & H2). apply same_letters_spec in H1. destruct H1 as (a & r & E & M).
  assert (La : List.length a = List.length m) by (rewrite <- (map_length up a), M, map_length; reflexivity).
  assert (Ha : forall c, In c a -> is_word c = true) by (apply up_word; intros c Hc; rewrite M in Hc; apply in_map_iff in Hc; destruct Hc as (x & <- & Hx); rewrite is_word_up; apply Hm; exact Hx).
  rewrite E, <- La, skipn_app, skipn_all, Nat.sub_diag in H2. cbn [app skipn] in H2.
  destruct (Nat.lt_trichotomy (List.length a) (List.length w)) as [L|[L|L]].
  - exfalso. assert (X : exists c w2, w = a ++ c :: w2 /\ r = c :: w2 ++ s).
    { clear - E L. revert w E L. induction a as [|x a IH]; intros [|y w] E L; cbn in *; try lia.
      - exists y, w. split; [reflexivity|]. symmetry. exact E.
      - injection E as -> E. destruct (IH w E ltac:(lia)) as (c & w2 & -> & ->). exists c, w2. auto. }
    destruct X as (c & w2 & -> & ->). cbn in H2. rewrite (Hw c) in H2 by (apply in_or_app; right; left; reflexivity). discriminate H2.
  - assert (X : a = w /\ r = s).
    { clear - E L. revert w E L. induction a as [|x a IH]; intros [|y w] E L; cbn in *; try lia; [auto|]. injection E as -> E. destruct (IH w E ltac:(lia)) as (-> & ->). auto. }
    destruct X as (-> & _). congruence.
  - exfalso. assert (X : exists c s2, s = c :: s2 /\ In c a).
    { clear - E L. revert w E L. induction a as [|x a IH]; intros [|y w] E L; cbn in *; try lia.
      - exists x, (a ++ r). auto.
      - injection E as -> E. destruct (IH w E ltac:(lia)) as (c & s2 & -> & Hc). exists c, s2. auto. }
    destruct X as (c & s2 & -> & Hc). specialize (Es c s2 eq_refl). rewrite (Ha c Hc) in Es. discriminate Es.
Qed.
Lemma not_t : forall c, is_word c = false -> N.eqb (up c) 84 = false.
Proof. intros c H. rewrite <- is_word_up in H. apply N.eqb_neq. intros E. rewrite E in H. discriminate H. Qed.
Lemma no_label : forall w s, (forall c r, w = c :: r -> up c <> 84%N) -> w <> [] -> rule_label (w ++ s) = None.
Proof. intros [|c w] s H N; [congruence|]. cbn. specialize (H c w eq_refl). destruct (N.eqb_spec (up c) 84); [contradiction|reflexivity]. Qed.
Lemma find_instruction : forall w s b, mnemonic (map up w) -> ends s -> in_word b = false -> rule_instruction b (w ++ s) = Some (List.length w).
Proof.
  intros w s b M Es Hb. unfold rule_instruction. rewrite Hb. pose proof (mnemonic_shape _ M) as (Ne & Wd & _). pose proof (up_word w Wd) as Ww.
  destruct (find _ all_instructions) as [m|] eqn:F.
  - apply find_some in F. destruct F as (Fi & Ft). apply instructions_are, mnemonic_list in Fi. pose proof (mnemonic_shape _ Fi) as (_ & Wm & _).
    apply found_is in Ft; auto. cbn [option_map]. f_equal. rewrite <- (map_length up m), Ft, map_length. reflexivity.
  - exfalso. assert (Fi : In (map up w) all_instructions) by (apply instructions_are, mnemonic_list; exact M). pose proof (find_none _ _ F _ Fi) as X. cbv beta in X.
    apply andb_false_iff in X. destruct X as [X|X].
    + apply not_true_iff_false in X. apply X. apply same_letters_spec. exists w, s. split; [reflexivity|]. rewrite (up_mnemonic (map up w) M). reflexivity.
    + rewrite map_length, skipn_app, skipn_all, Nat.sub_diag in X. cbn [app skipn] in X. destruct s as [|c s]; [discriminate X|]. cbn in X. rewrite (Es c s eq_refl) in X. discriminate X.
Qed.
Lemma no_instruction : forall w s b, (forall c, In c w -> is_word c = true) -> ends s -> ~ mnemonic (map up w) -> rule_instruction b (w ++ s) = None.
Proof.
  intros w s b Ww Es N. unfold rule_instruction. destruct (in_word b); [reflexivity|]. destruct (find _ all_instructions) as [m|] eqn:F; [|reflexivity].
  apply find_some in F. destruct F as (Fi & Ft). apply instructions_are, mnemonic_list in Fi. pose proof (mnemonic_shape _ Fi) as (_ & Wm & _).
  apply found_is in Ft; auto. exfalso. apply N. rewrite <- Ft, up_mnemonic by exact Fi. exact Fi.
Qed.
(** At a character that is not part of a word only a comment can start. *)
Lemma letters_word : forall m c r, (forall x, In x m -> is_word x = true) -> m <> [] -> is_word c = false -> same_letters m (c :: r) = false.
Proof.
  intros [|x m] c r H N W; [congruence|]. cbn. destruct (N.eqb_spec (up x) (up c)) as [E|]; [|reflexivity]. exfalso.
  specialize (H x (or_introl eq_refl)). rewrite <- is_word_up, E, is_word_up in H. congruence.
Qed.
Lemma find_false : forall A (p : A -> bool) l, (forall x, In x l -> p x = false) -> find p l = None.
Proof. intros A p l H. destruct (find p l) as [x|] eqn:E; [|reflexivity]. apply find_some in E. destruct E as (Hx & Px). rewrite H in Px by exact Hx. discriminate Px. Qed.
Lemma rules_off_word : forall b c r, is_word c = false -> rule_label (c :: r) = None /\ rule_instruction b (c :: r) = None /\ rule_register b (c :: r) = None /\ rule_number (c :: r) = None.
Proof.
  intros b c r W. split; [cbn; rewrite (not_t c W); reflexivity|]. split; [|split].
  - unfold rule_instruction. destruct (in_word b); [reflexivity|]. rewrite find_false; [reflexivity|]. intros m Hm. apply instructions_are, mnemonic_list in Hm.
    pose proof (mnemonic_shape _ Hm) as (Ne & Wm & _). rewrite letters_word by auto. reflexivity.
  - unfold rule_register. destruct (in_word b); [reflexivity|]. rewrite find_false; [reflexivity|]. intros m Hm.
    assert (K : forallb (fun m => negb (match m with [] => true | _ => false end) && forallb is_word m) all_registers = true) by reflexivity.
    rewrite forallb_forall in K. specialize (K m Hm). apply andb_true_iff in K. destruct K as (K1 & K2). apply letters_word; [apply forallb_forall; exact K2|destruct m; [discriminate K1|discriminate]|exact W].
  - unfold rule_number. cbn [run]. unfold is_hex_char. destruct (digit c) eqn:E; [|reflexivity]. exfalso.
    assert (X : is_word c = true) by (unfold digit, is_word in *; repeat match type of E with (if ?b then _ else _) = _ => destruct b eqn:? end; try discriminate E; lia). congruence.
Qed.
Lemma digit_is_word : forall c, digit c <> None -> is_word c = true.
Proof. intros c H. destruct (is_word c) eqn:E; [reflexivity|]. exfalso. destruct (rules_off_word None c [] E) as (_ & _ & _ & X). unfold rule_number in X. cbn [run] in X. unfold is_hex_char in X. destruct (digit c); [discriminate X|congruence]. Qed.

(** ** A token at the start *)
Lemma take_token : forall f b gap w s k, w <> [] -> first_rule b (w ++ s) = Some (k, List.length w) -> (List.length (w ++ s) <= f)%nat ->
  exists f' b', (List.length s <= f')%nat /\ tokens f b gap (w ++ s) = plain gap ++ (k, w) :: tokens f' b' [] s.
Proof.
  intros f b gap w s k Ne R L. destruct w as [|c w]; [congruence|]. destruct f as [|f]; [cbn in L; lia|]. cbn [app] in *. cbn [tokens]. rewrite R.
  exists f, (last_of (firstn (List.length (c :: w)) (c :: w ++ s)) b). split; [cbn [List.length] in L; rewrite app_length in L; lia|].
  change (c :: w ++ s) with ((c :: w) ++ s). rewrite firstn_app, firstn_all, Nat.sub_diag, skipn_app, skipn_all, Nat.sub_diag. cbn [firstn skipn app]. rewrite app_nil_r. reflexivity.
Qed.
Lemma walk_gap : forall g f b acc s, (forall c, In c g -> gap_char c) -> (List.length (g ++ s) <= f)%nat -> g <> [] ->
  exists f' c, (List.length s <= f')%nat /\ gap_char c /\ tokens f b acc (g ++ s) = tokens f' (Some c) (acc ++ g) s.
Proof.
  induction g as [|c g IH]; intros f b acc s H L N; [congruence|]. destruct f as [|f]; [cbn in L; lia|]. cbn [app tokens List.length] in *.
  assert (Gc : gap_char c) by (apply H; left; reflexivity). destruct Gc as (Wc & N35).
  assert (R : first_rule b (c :: g ++ s) = None).
  { destruct (rules_off_word b c (g ++ s) Wc) as (R1 & R2 & R3 & R4). unfold first_rule. rewrite R1, R2, R3, R4. cbn. destruct (N.eqb_spec c 35); [contradiction|reflexivity]. }
  rewrite R. destruct g as [|d g].
  - exists f, c. cbn [app]. split; [cbn in L; lia|]. split; [split; assumption|reflexivity].
  - destruct (IH f (Some c) (acc ++ [c]) s) as (f' & c' & L' & G' & E); [intros x Hx; apply H; right; exact Hx|lia|discriminate|].
    exists f', c'. split; [exact L'|]. split; [exact G'|]. rewrite E, <- app_assoc. reflexivity.
Qed.
Lemma run_all : forall p w s, forallb p w = true -> (forall c r, s = c :: r -> p c = false) -> run p (w ++ s) = List.length w.
Proof.
  intros p. induction w as [|c w IH]; intros s H Hs; cbn [app].
  - destruct s as [|c s]; [reflexivity|]. cbn. rewrite (Hs c s eq_refl). reflexivity.
  - cbn in H |- *. apply andb_true_iff in H. destruct H as (H1 & H2). rewrite H1, IH by assumption. reflexivity.
Qed.
Lemma not_in_word : forall b c w s, (in_word b = false \/ in_word (hd_error ((c :: w) ++ s)) = false) -> is_word c = true -> in_word b = false.
Proof. intros b c w s [H|H] W; [exact H|]. cbn in H. congruence. Qed.
Lemma rule_at_instruction : forall b w s, mnemonic (map up w) -> ends s -> in_word b = false -> w <> [] /\ (forall c, In c w -> is_word c = true) /\ first_rule b (w ++ s) = Some (Instruction, List.length w).
Proof.
  intros b w s M Es Hb. pose proof (mnemonic_shape _ M) as (Ne & Wd & NT). pose proof (up_word w Wd) as Ww. assert (Nw : w <> []) by (intros ->; apply Ne; reflexivity).
  split; [exact Nw|]. split; [exact Ww|]. unfold first_rule. rewrite no_label; [|intros c r ->; cbn in NT; congruence|exact Nw]. rewrite find_instruction by assumption. reflexivity.
Qed.
Lemma register_letters : forall w, register_name (map up w) -> List.length w = 2%nat /\ (forall c, In c w -> is_word c = true).
Proof.
  intros w Rg. split. { rewrite <- (map_length up w); unfold register_name in Rg; cbn [In] in Rg; repeat (destruct Rg as [<-|Rg]; [reflexivity|]); destruct Rg. }
  apply up_word. assert (K : forallb (forallb is_word) all_registers = true) by reflexivity. rewrite forallb_forall in K. specialize (K _ Rg). apply forallb_forall. exact K.
Qed.
Lemma rule_at_register : forall b w s, register_name (map up w) -> ends s -> in_word b = false -> first_rule b (w ++ s) = Some (Register, List.length w).
Proof.
  intros b w s Rg Es Hb. destruct (register_letters w Rg) as (Lw & Ww). assert (Nw : w <> []) by (intros ->; discriminate Lw).
  assert (NT : hd_error (map up w) <> Some 84%N) by (unfold register_name in Rg; cbn [In] in Rg; repeat (destruct Rg as [<-|Rg]; [discriminate|]); destruct Rg).
  assert (NM : ~ mnemonic (map up w)).
  { intros M. apply mnemonic_list in M. unfold register_name in Rg. cbn [In] in Rg. assert (K : forallb (fun r => negb (existsb (str_eqb r) every_mnemonic)) all_registers = true) by reflexivity.
    rewrite forallb_forall in K. specialize (K _ Rg). apply negb_true_iff in K. apply existsb_str in M. congruence. }
  unfold first_rule. rewrite no_label; [|intros c r ->; cbn in NT; congruence|exact Nw]. rewrite no_instruction by assumption.
  unfold rule_register. rewrite Hb, Lw. destruct (find (fun w0 => same_letters w0 (w ++ s)) all_registers) as [m|] eqn:F.
  - apply find_some in F. destruct F as (Fi & _). cbn [option_map]. replace (List.length m) with 2%nat; [reflexivity|]. unfold all_registers in Fi. cbn [In] in Fi. repeat (destruct Fi as [<-|Fi]; [reflexivity|]). destruct Fi.
  - exfalso. pose proof (find_none _ _ F _ Rg) as X. cbv beta in X. apply not_true_iff_false in X. apply X. apply same_letters_spec. exists w, s. split; [reflexivity|].
    rewrite map_map. apply map_ext. intros c. symmetry. unfold up. destruct ((97 <=? c) && (c <=? 122))%N eqn:E; [|rewrite E; reflexivity]. replace ((97 <=? c - 32) && (c - 32 <=? 122))%N with false by lia. reflexivity.
Qed.
Lemma number_shape : forall w, plain_number w -> w <> [] /\ (forall c, In c w -> is_word c = true).
Proof. intros w ((Nw & Dg) & _). split; [exact Nw|]. intros c Hc. apply digit_is_word. apply Dg. exact Hc. Qed.
Lemma rule_at_number : forall b w s, plain_number w -> ends s -> first_rule b (w ++ s) = Some (Number, List.length w).
Proof.
  intros b w s Pn Es. pose proof (number_shape w Pn) as (_ & Ww). destruct Pn as ((Nw & Dg) & NM & NA).
  unfold first_rule. rewrite no_label; [|intros c r ->; intros U; apply (Dg c (or_introl eq_refl)); rewrite <- digit_up, U; reflexivity|exact Nw]. rewrite no_instruction by assumption.
      replace (rule_register b (w ++ s)) with (@None nat).
      2:{ symmetry. unfold rule_register. destruct (in_word b); [reflexivity|]. rewrite find_false; [reflexivity|]. intros m Hm. apply not_true_iff_false. intros X. apply same_letters_spec in X. destruct X as (a & r & E & M).
          assert (Da : forall x y a', a = x :: y :: a' -> a' = [] -> digit x <> None \/ (exists s', s = x :: s')).
          { intros x y a' -> _. destruct w as [|x' w]; [congruence|]. cbn in E. injection E as <- _. left. apply Dg. left. reflexivity. }
          unfold all_registers in Hm. cbn [In] in Hm. destruct Hm as [<-|Hm].
          - apply NA. destruct a as [|x [|y [|z a]]]; try discriminate M. cbn in M. injection M as M1 M2. destruct w as [|x' [|y' w]]; [congruence| |].
            + cbn in E. injection E as -> E. destruct s as [|y' s]; [discriminate E|]. injection E as -> _. specialize (Es y s eq_refl). rewrite <- is_word_up, M2 in Es. discriminate Es.
            + cbn in E. injection E as -> -> _. exists (map up w). cbn. rewrite M1, M2. reflexivity.
          - destruct a as [|x a]; [repeat (destruct Hm as [<-|Hm]; [discriminate M|]); destruct Hm|]. destruct w as [|x' w]; [congruence|]. cbn in E. injection E as -> _.
            assert (Ux : up x = 82%N) by (repeat (destruct Hm as [<-|Hm]; [cbn in M; injection M as M _; exact M|]); destruct Hm).
            apply (Dg x (or_introl eq_refl)). rewrite <- digit_up, Ux. reflexivity. }
      unfold rule_number. rewrite run_all.
      - destruct w; [congruence|reflexivity].
      - apply forallb_forall. intros c Hc. unfold is_hex_char. specialize (Dg c Hc). destruct (digit c); [reflexivity|congruence].
      - intros c r ->. unfold is_hex_char. destruct (digit c) eqn:E; [|reflexivity]. exfalso. specialize (Es c r eq_refl). rewrite digit_is_word in Es by congruence. discriminate Es.
Qed.
Lemma rule_at_label : forall b c w s, up c = 84%N -> (forall x, In x w -> is_ws x = false) -> (forall x r, s = x :: r -> is_ws x = true) -> first_rule b ((c :: w) ++ s) = Some (Label_, List.length (c :: w)).
Proof.
  intros b c w s Uc Ww Ws. unfold first_rule. cbn [app rule_label]. rewrite Uc. change (N.eqb 84 84) with true. cbn iota. rewrite run_all; [reflexivity| |].
      - apply forallb_forall. intros x Hx. rewrite (Ww x Hx). reflexivity.
      - intros x r ->. rewrite (Ws x r eq_refl). reflexivity.
Qed.
Lemma shown_tokens : forall s ts, shown s ts -> forall f b gap, (in_word b = false \/ in_word (hd_error s) = false) -> (List.length s <= f)%nat ->
  (gap = [] \/ forall c r, s = c :: r -> ~ gap_char c) -> tokens f b gap s = plain gap ++ ts.
Proof.
  induction 1 as [|g s ts Ng Gg Hs S IH|w s ts M Es S IH|w s ts Rg Es S IH|w s ts Pn Es S IH|c w s ts Uc Ww Ws S IH|t Ht]; intros f b gap Hb L Hg.
  - destruct f; cbn [tokens]; rewrite !app_nil_r; reflexivity.
  - destruct Hg as [->|Hg].
    2:{ exfalso. destruct g as [|c g]; [congruence|]. apply (Hg c (g ++ s) eq_refl). apply Gg. left. reflexivity. }
    destruct (walk_gap g f b [] s Gg L Ng) as (f' & c & L' & (Wc & _) & E). rewrite E. cbn [app]. rewrite IH; [destruct g; [congruence|reflexivity]|left; exact Wc|exact L'|right; exact Hs].
  - assert (Hb' : in_word b = false).
    { pose proof (mnemonic_shape _ M) as (Ne & Wd & _). destruct w as [|c w]; [exfalso; apply Ne; reflexivity|]. apply (not_in_word b c w s Hb). apply (up_word _ Wd). left. reflexivity. }
    destruct (rule_at_instruction b w s M Es Hb') as (Nw & _ & R).
    destruct (take_token f b gap w s Instruction Nw R L) as (f' & b' & L' & E). rewrite E. rewrite IH; [reflexivity| |exact L'|left; reflexivity].
    right. destruct s as [|c s]; [reflexivity|]. cbn. apply (Es c s eq_refl).
  - destruct (register_letters w Rg) as (Lw & Ww). assert (Nw : w <> []) by (intros ->; discriminate Lw).
    assert (Hb' : in_word b = false) by (destruct w as [|c w]; [congruence|]; apply (not_in_word b c w s Hb); apply Ww; left; reflexivity).
    pose proof (rule_at_register b w s Rg Es Hb') as R.
    destruct (take_token f b gap w s Register Nw R L) as (f' & b' & L' & E). rewrite E. rewrite IH; [reflexivity| |exact L'|left; reflexivity].
    right. destruct s as [|c s]; [reflexivity|]. cbn. apply (Es c s eq_refl).
  - destruct (number_shape w Pn) as (Nw & Ww). pose proof (rule_at_number b w s Pn Es) as R.
    destruct (take_token f b gap w s Number Nw R L) as (f' & b' & L' & E). rewrite E. rewrite IH; [reflexivity| |exact L'|left; reflexivity].
    right. destruct s as [|c s]; [reflexivity|]. cbn. apply (Es c s eq_refl).
  - pose proof (rule_at_label b c w s Uc Ww Ws) as R.
    change (c :: w ++ s) with ((c :: w) ++ s) in *. destruct (take_token f b gap (c :: w) s Label_ ltac:(discriminate) R L) as (f' & b' & L' & E). rewrite E. rewrite IH; [reflexivity| |exact L'|left; reflexivity].
    right. destruct s as [|x s]; [reflexivity|]. cbn. specialize (Ws x s eq_refl). destruct (is_word x) eqn:W; [|reflexivity]. exfalso.
    unfold is_ws in Ws. apply existsb_exists in Ws. destruct Ws as (y & Hy & Ey). apply N.eqb_eq in Ey. subst y. cbn [In] in Hy. repeat (destruct Hy as [<-|Hy]; [discriminate W|]). destruct Hy.
  - assert (R : first_rule b ((35%N :: t) ++ []) = Some (Comment, List.length (35%N :: t))).
    { rewrite app_nil_r. destruct (rules_off_word b 35%N t eq_refl) as (R1 & R2 & R3 & R4). unfold first_rule. rewrite R1, R2, R3, R4. unfold rule_comment. change (N.eqb 35 35) with true. cbn [andb].
      replace (forallb (fun x => negb (is_lt x)) t) with true; [reflexivity|]. symmetry. apply forallb_forall. intros c Hc. rewrite (Ht c Hc). reflexivity. }
    destruct (take_token f b gap (35%N :: t) [] Comment ltac:(discriminate) R) as (f' & b' & L' & E); [rewrite app_nil_r; exact L|]. rewrite app_nil_r in E. rewrite E. destruct f'; reflexivity.
Qed.
Theorem C81_colours : forall line ts, shown line ts -> highlight line = ts.
Proof. intros line ts H. unfold highlight. rewrite (shown_tokens line ts H); [reflexivity|left; reflexivity|lia|left; reflexivity]. Qed.

(** ** Documented lines *)
Definition arg_token (a : arg) (t : str) : token :=
  match a with
  | Name s => (Register, s2l s)
  | _ => (match t with 84%N :: _ => Label_ | _ => Number end, t)
  end.
(** The words of a line of code with the colours they should have. *)
Definition expected (c : code) : list token :=
  match lab c with [] => [] | l => [(Label_, l)] end ++
  match syntax (ins c) with
  | Some (F0 m) => [(Instruction, s2l m)]
  | Some (F1 m a) => [(Instruction, s2l m); arg_token a (val c)]
  | Some (F2 m a d) => [(Instruction, s2l m); arg_token a (val c); (Register, s2l d)]
  | None => []
  end.
Definition coloured (t : token) : bool := match fst t with Plain => false | _ => true end.
(** Small letters count as capitals. *)
Definition capital (t : token) : token := (fst t, map up (snd t)).
Definition words (ts : list token) : list token := map capital (filter coloured ts).
Definition comment (rest : str) : list token := match rest with [] => [] | _ => [(Comment, rest)] end.

Lemma ws_gap : forall c, is_ws c = true -> gap_char c.
Proof.
  intros c H. unfold is_ws in H. apply existsb_exists in H. destruct H as (y & Hy & E). apply N.eqb_eq in E. subst y. cbn [In] in Hy. unfold gap_char.
  repeat (destruct Hy as [<-|Hy]; [split; [reflexivity|discriminate]|]). destruct Hy.
Qed.
(** The plain text between the words holds neither [$] nor [=]. *)
Definition tidy (ts : list token) : Prop := forall g c, In (Plain, g) ts -> In c g -> c <> 36%N /\ c <> 61%N.
Lemma tidy_word : forall k w ts, k <> Plain -> tidy ts -> tidy ((k, w) :: ts).
Proof. intros k w ts N T g c [E|H] Hc; [congruence|exact (T g c H Hc)]. Qed.
Lemma tidy_gap : forall g ts, (forall c, In c g -> is_ws c = true \/ c = 44%N) -> tidy ts -> tidy ((Plain, g) :: ts).
Proof. intros g ts G T g' c [E|H] Hc; [|exact (T g' c H Hc)]. injection E as <-. destruct (G c Hc) as [W| ->]; [|split; discriminate]. split; intros ->; discriminate W. Qed.
Lemma add_gap : forall g s ts, (forall c, In c g -> gap_char c) -> (forall c r, s = c :: r -> ~ gap_char c) -> shown s ts -> exists ts', shown (g ++ s) ts' /\ words ts' = words ts /\ ((forall c, In c g -> is_ws c = true) -> tidy ts -> tidy ts').
Proof.
  intros [|c g] s ts G H S; [exists ts; auto|]. exists ((Plain, c :: g) :: ts). split; [apply S_gap; auto; discriminate|]. split; [reflexivity|]. intros W T. apply tidy_gap; [intros x Hx; left; apply W; exact Hx|exact T].
Qed.
Lemma word_not_gap : forall w s, w <> [] -> (forall c, In c w -> is_word c = true) -> forall c r, w ++ s = c :: r -> ~ gap_char c.
Proof. intros [|x w] s N W c r E (G & _); [congruence|]. injection E as <- _. rewrite (W x (or_introl eq_refl)) in G. discriminate G. Qed.
Lemma ends_gap : forall g s, g <> [] -> (forall c, In c g -> gap_char c) -> ends (g ++ s).
Proof. intros [|x g] s N G c r E; [congruence|]. injection E as <- _. apply (G x (or_introl eq_refl)). Qed.
Lemma tail_shown : forall w2 rest, (forall c, In c w2 -> is_ws c = true) -> (rest = [] \/ exists cs, rest = 35%N :: cs /\ forall c, In c cs -> is_lt c = false) ->
  exists ts, shown (w2 ++ rest) ts /\ words ts = map capital (comment rest) /\ ends (w2 ++ rest) /\ tidy ts.
Proof.
  intros w2 rest W R. assert (G : forall c, In c w2 -> gap_char c) by (intros c Hc; apply ws_gap; apply W; exact Hc).
  assert (E : ends (w2 ++ rest)).
  { destruct w2 as [|c w2]; [|apply ends_gap; [discriminate|exact G]]. cbn [app]. intros c r ->. destruct R as [X|(cs & X & _)]; [discriminate X|]. injection X as -> _. reflexivity. }
  assert (S : exists ts, shown rest ts /\ words ts = map capital (comment rest) /\ tidy ts).
  { destruct R as [->|(cs & -> & H)]; [exists []; split; [constructor|]; split; [reflexivity|intros g c []]|]. exists [(Comment, 35%N :: cs)]. split; [apply S_comment; exact H|]. split; [reflexivity|]. apply tidy_word; [discriminate|intros g c []]. }
  destruct S as (ts & S & F & T). destruct (add_gap w2 rest ts G) as (ts' & S' & F' & T'); [|exact S|].
  - intros c r ->. destruct R as [X|(cs & X & _)]; [discriminate X|]. injection X as -> _. intros (_ & N). congruence.
  - exists ts'. split; [exact S'|]. split; [congruence|]. split; [exact E|exact (T' W T)].
Qed.
Lemma register_words : forall i, match syntax i with
  | Some (F1 _ (Name s)) => register_name (s2l s)
  | Some (F2 _ a d) => register_name (s2l d) /\ match a with Name s => register_name (s2l s) | _ => True end
  | _ => True end.
Proof.
  assert (K : forall r, register_name (s2l (r8_name r))) by (intros []; cbn; tauto). assert (A : register_name (s2l "AC")) by (left; reflexivity).
  intros i. destruct i; try match goal with x : src |- _ => destruct x end; cbn [syntax]; auto.
Qed.
Lemma up_register : forall w, register_name w -> map up w = w.
Proof. intros w H. rewrite <- (map_id w) at 2. apply map_ext_in. intros c Hc. apply (up_fixed w); [right; left; exact H|exact Hc]. Qed.
Lemma register_shape : forall w, register_name w -> w <> [] /\ forall c, In c w -> is_word c = true.
Proof.
  intros w H. split; [unfold register_name in H; cbn [In] in H; repeat (destruct H as [<-|H]; [discriminate|]); destruct H|].
  assert (K : forallb (forallb is_word) all_registers = true) by reflexivity. rewrite forallb_forall in K. specialize (K _ H). apply forallb_forall. exact K.
Qed.
(** An argument and what follows it. *)
Lemma arg_shown : forall a t x s ts, (match a with Name n => register_name (s2l n) | _ => True end) -> arg_text a t x ->
  (match a with Name _ => True | _ => plain_number t \/ (is_ref t /\ forall c r, s = c :: r -> is_ws c = true) end) ->
  ends s -> shown s ts -> exists ts', shown (x ++ s) ts' /\ words ts' = capital (arg_token a t) :: words ts /\ x <> [] /\ (forall c, In c x -> is_word c = true) /\ (tidy ts -> tidy ts').
Proof.
  intros a t x s ts Rn At V Es S. destruct a as [n| |].
  - destruct At as (_ & Cl). unfold caseless in Cl. rewrite (up_register _ Rn) in Cl. destruct (register_shape _ Rn) as (Ne & Wd). rewrite <- Cl in Rn, Ne, Wd.
    exists ((Register, x) :: ts). split; [apply S_register; assumption|]. split; [|split; [intros ->; apply Ne; reflexivity|split; [apply up_word; exact Wd|apply tidy_word; discriminate]]].
    unfold words. cbn [filter coloured fst map]. f_equal. unfold capital, arg_token. cbn [fst snd]. rewrite Cl. rewrite <- Cl at 2. rewrite map_map. f_equal. rewrite <- Cl. apply map_ext. intros c. symmetry.
    unfold up. destruct ((97 <=? c) && (c <=? 122))%N eqn:E; [|rewrite E; reflexivity]. replace ((97 <=? c - 32) && (c - 32 <=? 122))%N with false by lia. reflexivity.
  - destruct At as (-> & (Ne & Wd) & _). destruct V as [V|(R & Hs)].
    + exists ((Number, x) :: ts). split; [apply S_number; assumption|]. split; [|split; [assumption|split; [assumption|apply tidy_word; discriminate]]]. unfold words. cbn [filter coloured fst map]. f_equal. unfold arg_token. f_equal.
      destruct x as [|c x]; [congruence|]. destruct V as ((_ & Dg) & _). specialize (Dg c (or_introl eq_refl)). destruct (N.eq_dec c 84) as [->|Nc]; [exfalso; apply Dg; reflexivity|].
      destruct c as [|p]; [reflexivity|]. repeat (destruct p as [p|p|]; try reflexivity). congruence.
    + unfold is_ref in R. destruct x as [|c x]; [discriminate R|]. injection R as ->. exists ((Label_, 84%N :: x) :: ts). split; [|split; [reflexivity|split; [discriminate|split; [exact Wd|apply tidy_word; discriminate]]]].
      apply S_label; [reflexivity| |exact Hs|exact S]. intros y Hy. destruct (is_ws y) eqn:E; [|reflexivity]. exfalso. destruct (ws_gap y E) as (G & _). rewrite (Wd y (or_intror Hy)) in G. discriminate G.
  - destruct At as (-> & (Ne & Wd)). destruct V as [V|(R & Hs)].
    + exists ((Number, x) :: ts). split; [apply S_number; assumption|]. split; [|split; [assumption|split; [assumption|apply tidy_word; discriminate]]]. unfold words. cbn [filter coloured fst map]. f_equal. unfold arg_token. f_equal.
      destruct x as [|c x]; [congruence|]. destruct V as ((_ & Dg) & _). specialize (Dg c (or_introl eq_refl)). destruct (N.eq_dec c 84) as [->|Nc]; [exfalso; apply Dg; reflexivity|].
      destruct c as [|p]; [reflexivity|]. repeat (destruct p as [p|p|]; try reflexivity). congruence.
    + unfold is_ref in R. destruct x as [|c x]; [discriminate R|]. injection R as ->. exists ((Label_, 84%N :: x) :: ts). split; [|split; [reflexivity|split; [discriminate|split; [exact Wd|apply tidy_word; discriminate]]]].
      apply S_label; [reflexivity| |exact Hs|exact S]. intros y Hy. destruct (is_ws y) eqn:E; [|reflexivity]. exfalso. destruct (ws_gap y E) as (G & _). rewrite (Wd y (or_intror Hy)) in G. discriminate G.
Qed.
(** A value text that will be coloured properly: a number that does not look like
    anything else, or a label (the name of a label is an address, never a byte). *)
Definition clear_value (c : code) : Prop :=
  match value_kind (ins c) with
  | Some Value8 => plain_number (val c)
  | Some Value16 => plain_number (val c) \/ is_ref (val c)
  | _ => True
  end.
Lemma body_shown : forall c body tail ts, parts (ins c) (val c) body -> clear_value c -> ends tail -> shown tail ts ->
  (is_ref (val c) -> forall x r, tail = x :: r -> is_ws x = true) ->
  exists ts', shown (body ++ tail) ts' /\
    words ts' = map capital (match syntax (ins c) with
                             | Some (F0 m) => [(Instruction, s2l m)]
                             | Some (F1 m a) => [(Instruction, s2l m); arg_token a (val c)]
                             | Some (F2 m a d) => [(Instruction, s2l m); arg_token a (val c); (Register, s2l d)]
                             | None => [] end) ++ words ts /\
    (forall x r, body ++ tail = x :: r -> ~ gap_char x) /\ (tidy ts -> tidy ts').
Proof.
  intros c body tail ts P V Et St Lt. unfold parts in P. pose proof (register_words (ins c)) as Rw.
  assert (Mn : forall f m', syntax (ins c) = Some f -> caseless (match f with F0 m => m | F1 m _ => m | F2 m _ _ => m end) m' ->
    mnemonic (map up m') /\ capital (Instruction, m') = capital (Instruction, s2l (match f with F0 m => m | F1 m _ => m | F2 m _ _ => m end)) /\ m' <> [] /\ forall x, In x m' -> is_word x = true).
  { intros f m' Ef Cl. unfold caseless in Cl. assert (M : mnemonic (s2l (match f with F0 m => m | F1 m _ => m | F2 m _ _ => m end))) by (exists (ins c), f; auto).
    pose proof (up_mnemonic _ M) as U. destruct (mnemonic_shape _ M) as (Ne & Wd & _). rewrite U in Cl. split; [rewrite Cl; exact M|]. split; [unfold capital; cbn [fst snd]; rewrite Cl, U; reflexivity|].
    split; [intros ->; apply Ne; symmetry; exact Cl|]. apply up_word. rewrite Cl. exact Wd. }
  destruct (syntax (ins c)) as [f|] eqn:Ef; [|destruct P]. specialize (fun m' => Mn f m' eq_refl). destruct f as [m|m a|m a d]; cbn iota in Mn.
  - destruct P as (_ & Cl). destruct (Mn body Cl) as (M & Cp & Ne & Wd). exists ((Instruction, body) :: ts). split; [apply S_instruction; assumption|]. split; [cbn [map app]; rewrite <- Cp; reflexivity|].
    split; [apply word_not_gap; assumption|apply tidy_word; discriminate].
  - destruct P as (m' & sp & x & -> & Cl & Ws & At). destruct (Mn m' Cl) as (M & Cp & Ne & Wd).
    destruct (arg_shown a (val c) x tail ts) as (ts1 & S1 & F1_ & Nx & Wx & T1); [destruct a; auto|exact At| |exact Et|exact St|].
    + unfold clear_value, value_kind in V. rewrite Ef in V. destruct a; [exact I|left; exact V|]. destruct V as [V|V]; [left; exact V|right; exact (conj V (Lt V))].
    + assert (G : forall y, In y [sp] -> gap_char y) by (intros y [<-|[]]; apply ws_gap; exact Ws).
      exists ((Instruction, m') :: (Plain, [sp]) :: ts1). split; [|split; [|split]].
      * rewrite <- app_assoc. apply S_instruction; [exact M|apply (ends_gap [sp]); [discriminate|exact G]|]. apply (S_gap [sp]); [discriminate|exact G|apply word_not_gap; assumption|exact S1].
      * exact (f_equal2 cons Cp F1_).
      * rewrite <- app_assoc. apply word_not_gap; assumption.
      * intros T. apply tidy_word; [discriminate|]. apply tidy_gap; [intros y [<-|[]]; left; exact Ws|exact (T1 T)].
  - destruct P as (m' & sp & x & sp2 & d' & -> & Cl & Ws & At & Hsp & Cd). destruct (Mn m' Cl) as (M & Cp & Ne & Wd). destruct Rw as (Rd & Ra).
    unfold caseless in Cd. rewrite (up_register _ Rd) in Cd. destruct (register_shape _ Rd) as (Nd & Wdd). pose proof Rd as Rd'. rewrite <- Cd in Rd', Nd, Wdd.
    assert (Nd' : d' <> []) by (intros ->; apply Nd; reflexivity). pose proof (up_word d' Wdd) as Wd'.
    assert (G2 : forall y, In y (44%N :: sp2) -> gap_char y).
    { intros y [<-|Hy]; [split; [reflexivity|discriminate]|]. destruct Hsp as [->|(c' & -> & Wc)]; [destruct Hy|]. destruct Hy as [<-|[]]. apply ws_gap. exact Wc. }
    assert (S2 : shown ((44%N :: sp2) ++ d' ++ tail) ((Plain, 44%N :: sp2) :: (Register, d') :: ts)).
    { apply S_gap; [discriminate|exact G2|apply word_not_gap; assumption|]. apply S_register; assumption. }
    destruct (arg_shown a (val c) x ((44%N :: sp2) ++ d' ++ tail) ((Plain, 44%N :: sp2) :: (Register, d') :: ts)) as (ts1 & S1 & F1_ & Nx & Wx & T1); [exact Ra|exact At| | |exact S2|].
    + unfold clear_value, value_kind in V. rewrite Ef in V. destruct a; auto. exfalso. clear - Ef. destruct (ins c); try match goal with x : src |- _ => destruct x end; discriminate Ef.
    + apply ends_gap; [discriminate|exact G2].
    + assert (G : forall y, In y [sp] -> gap_char y) by (intros y [<-|[]]; apply ws_gap; exact Ws).
      assert (Eb : (m' ++ sp :: x ++ 44%N :: sp2 ++ d') ++ tail = m' ++ [sp] ++ x ++ (44%N :: sp2) ++ d' ++ tail) by (rewrite <- !app_assoc; cbn [app]; rewrite <- !app_assoc; cbn [app]; rewrite <- !app_assoc; reflexivity).
      rewrite Eb. exists ((Instruction, m') :: (Plain, [sp]) :: ts1). split; [|split; [|split]].
      * apply S_instruction; [exact M|apply ends_gap; [discriminate|exact G]|]. apply S_gap; [discriminate|exact G|apply word_not_gap; assumption|exact S1].
      * refine (eq_trans (f_equal2 cons Cp F1_) _). cbn [map app]. do 2 f_equal.
        refine (f_equal2 cons (_ : capital (Register, d') = capital (Register, s2l d)) eq_refl). unfold capital. cbn [fst snd]. rewrite Cd, (up_register _ Rd). reflexivity.
      * apply word_not_gap; assumption.
      * intros T. apply tidy_word; [discriminate|]. apply tidy_gap; [intros y [<-|[]]; left; exact Ws|]. apply T1. apply tidy_gap; [|apply tidy_word; [discriminate|exact T]].
        intros y [<-|Hy]; [right; reflexivity|]. destruct Hsp as [->|(c' & -> & Wc)]; [destruct Hy|]. destruct Hy as [<-|[]]. left. exact Wc.
Qed.
Lemma documented_shown : forall w1 core w2 rest c, (forall x, In x w1 \/ In x w2 -> is_ws x = true) ->
  (rest = [] \/ exists cs, rest = 35%N :: cs /\ forall x, In x cs -> is_lt x = false) ->
  code_line core c -> clear_value c -> (forall x, In x (lab c) -> is_ws x = false) -> (is_ref (val c) -> rest = [] \/ w2 <> []) ->
  exists ts, shown (w1 ++ core ++ w2 ++ rest) ts /\ words ts = map capital (expected c ++ comment rest) /\ tidy ts.
Proof.
  intros w1 core w2 rest c W R C V Lw Lr. destruct (tail_shown w2 rest) as (tt & St & Ft & Et & Tt); [intros x Hx; apply W; right; exact Hx|exact R|].
  assert (Lt : is_ref (val c) -> forall x r, w2 ++ rest = x :: r -> is_ws x = true).
  { intros I x r E. destruct w2 as [|y w2]; [destruct (Lr I) as [->|N]; [discriminate E|congruence]|]. injection E as <- _. apply W. right. left. reflexivity. }
  assert (S : exists ts, shown (core ++ w2 ++ rest) ts /\ words ts = map capital (expected c ++ comment rest) /\ (forall x r, core ++ w2 ++ rest = x :: r -> ~ gap_char x) /\ tidy ts).
  { destruct C as [(El & P)|((Hl & Nl) & body & -> & P)].
    - destruct (body_shown c core (w2 ++ rest) tt P V Et St Lt) as (ts & S & F & G & T). exists ts. split; [exact S|]. split; [|split; [exact G|exact (T Tt)]].
      rewrite F, Ft. unfold expected. rewrite El. cbn [app]. rewrite map_app. reflexivity.
    - destruct (body_shown c body (w2 ++ rest) tt P V Et St Lt) as (ts & S & F & G & T). destruct (lab c) as [|y l] eqn:El; [discriminate Hl|]. injection Hl as ->.
      exists ((Label_, 84%N :: l) :: (Plain, [32%N]) :: ts). split; [|split; [|split]].
      + cbn [app]. rewrite <- app_assoc. apply S_label; [reflexivity|intros x Hx; apply Lw; right; exact Hx|intros x r E; injection E as <- _; reflexivity|].
        apply (S_gap [32%N]); [discriminate|intros y [<-|[]]; apply ws_gap; reflexivity|exact G|exact S].
      + change (words ((Label_, 84%N :: l) :: (Plain, [32%N]) :: ts)) with (capital (Label_, 84%N :: l) :: words ts). rewrite F, Ft. unfold expected. rewrite El. cbn [app map]. rewrite map_app. reflexivity.
      + intros x r E. injection E as <- _. intros (X & _). discriminate X.
      + apply tidy_word; [discriminate|]. apply tidy_gap; [intros y [<-|[]]; left; reflexivity|exact (T Tt)]. }
  destruct S as (ts & S & F & G & T). destruct (add_gap w1 (core ++ w2 ++ rest) ts) as (ts' & S' & F' & T'); [intros x Hx; apply ws_gap; apply W; left; exact Hx|exact G|exact S|].
  exists ts'. split; [exact S'|]. split; [congruence|]. apply T'; [intros x Hx; apply W; left; exact Hx|exact T].
Qed.
(** Every line of a program (AsmSpec) is coloured as it should be, if its value does not
    look like something else and its comment does not touch a label. *)
Theorem C81_documented : forall w1 core w2 rest c, (forall x, In x w1 \/ In x w2 -> is_ws x = true) ->
  (rest = [] \/ exists cs, rest = 35%N :: cs /\ forall x, In x cs -> is_lt x = false) ->
  code_line core c -> clear_value c -> (forall x, In x (lab c) -> is_ws x = false) -> (is_ref (val c) -> rest = [] \/ w2 <> []) ->
  words (highlight (w1 ++ core ++ w2 ++ rest)) = map capital (expected c ++ comment rest).
Proof. intros w1 core w2 rest c W R C V Lw Lr. destruct (documented_shown w1 core w2 rest c W R C V Lw Lr) as (ts & S & F & _). rewrite (C81_colours _ _ S). exact F. Qed.
(** Numbers that are also names are coloured as names, and a comment that touches a label
    as the label; the assembler reads all of them as the user means. *)
Theorem C81_number_refuted : highlight (s2l "LDA BC") = [(Instruction, s2l "LDA"); (Plain, s2l " "); (Instruction, s2l "BC")] /\
  highlight (s2l "LDA ACB0") = [(Instruction, s2l "LDA"); (Plain, s2l " "); (Register, s2l "AC"); (Number, s2l "B0")] /\
  code_line (s2l "LDA BC") (mkCode [] LDA (s2l "BC")) /\ code_line (s2l "LDA ACB0") (mkCode [] LDA (s2l "ACB0")).
Proof.
  split; [vm_compute; reflexivity|]. split; [vm_compute; reflexivity|]. split; left; (split; [reflexivity|]).
  - exists (s2l "LDA"), 32%N, (s2l "BC"). repeat split; try discriminate. intros x [<-|[<-|[]]]; reflexivity.
  - exists (s2l "LDA"), 32%N, (s2l "ACB0"). repeat split; try discriminate. intros x [<-|[<-|[<-|[<-|[]]]]]; reflexivity.
Qed.
Theorem C81_comment_refuted : highlight (s2l "JMP T1#back") = [(Instruction, s2l "JMP"); (Plain, s2l " "); (Label_, s2l "T1#back")].
Proof. vm_compute. reflexivity. Qed.
Example C81_nonvacuous : let c := mkCode (s2l "TLOOP") (OP ADD Imm) (s2l "0f") in
  code_line (s2l "TLOOP add 0f") c /\ clear_value c /\ (forall x, In x (lab c) -> is_ws x = false) /\
  expected c ++ comment (s2l "# MOV") = [(Label_, s2l "TLOOP"); (Instruction, s2l "ADD"); (Number, s2l "0f"); (Comment, s2l "# MOV")].
Proof.
  cbv zeta. split.
  { right. split; [split; [reflexivity|cbn; lia]|]. exists (s2l "add 0f"). split; [reflexivity|]. cbn. exists (s2l "add"), 32%N, (s2l "0f"). repeat split; try discriminate.
    - intros x [<-|[<-|[]]]; reflexivity.
    - intros H. unfold is_name, caseless in H. cbn in H. intuition discriminate. }
  split.
  { split; [split; [discriminate|]; intros x [<-|[<-|[]]]; discriminate|]. split.
    - intros M. apply mnemonic_list in M. cbn in M. repeat (destruct M as [M|M]; [discriminate M|]). destruct M.
    - intros (r & E). discriminate E. }
  split; [intros x Hx; cbn in Hx; repeat (destruct Hx as [<-|Hx]; [reflexivity|]); destruct Hx|]. reflexivity.
Qed.
Print Assumptions C81_text.
Print Assumptions C81_colours.
Print Assumptions C81_documented.
Print Assumptions C81_number_refuted.
Print Assumptions C81_comment_refuted.
