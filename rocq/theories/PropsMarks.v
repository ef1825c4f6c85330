(** * Theorems: what the editor shows about a text (C89) *)
From Coq Require Import String ZArith NArith List Bool Lia ZifyBool ZifyN Sorting.Sorted.
From Verif Require Import Prog Isa Api Usage Front Reach PropsApi.
From Verif Require Import JsStr AsmTable Asm AsmSpec AsmRe AsmLine AsmFacts AsmExec AsmProg AsmErr PropsAsm PropsLoad Editor PropsEditor Marks.
Import ListNotations.
Open Scope list_scope.
Open Scope Z_scope.

(** The characters of the editor's line [raw] a mark covers. *)
Definition covered (raw : str) (m : mark) : str := firstn (Z.to_nat (m_to m - m_from m)) (skipn (Z.to_nat (m_from m)) raw).
Definition indented (raw : str) : Prop := exists c r, raw = c :: r /\ is_ws c = true.

(** ** Errors *)
Lemma covered_core : forall raw core k, stripped raw core -> core <> [] -> covered raw (mkMark k 0 (Z.of_nat (List.length core))) = core <-> ~ indented raw.
Proof.
  intros raw core k (w1 & w2 & rest & E & W & _ & _ & Nw) N. unfold covered. cbn [m_from m_to skipn Z.to_nat]. rewrite Z.sub_0_r, Nat2Z.id. destruct core as [|x core]; [congruence|].
  pose proof (Nw x (or_introl eq_refl)) as X. destruct w1 as [|c w1].
  - cbn [app] in E. split; [|intros _; rewrite E; cbn [List.length firstn app]; f_equal; rewrite firstn_app, firstn_all, Nat.sub_diag; cbn; apply app_nil_r].
    intros _ (c & r & E' & C). rewrite E in E'. injection E' as <- _. congruence.
  - assert (C : is_ws c = true) by (apply W; left; left; reflexivity). split; [|intros H; exfalso; apply H; exists c; eexists; split; [exact E|exact C]].
    rewrite E. cbn [List.length firstn app]. intros H. injection H as -> _. congruence.
Qed.
Theorem C89_errors : forall lines L, lines_ok lines -> (forall raw, In raw lines -> one_line raw) -> labels_of lines L ->
  exists out, parse_input (text_of lines) 0 = Some out /\ StronglySorted lt (map m_row (error_marks (text_of lines) out)) /\
    forall m, In m (error_marks (text_of lines) out) <->
      exists raw core, nth_error lines (m_row m) = Some raw /\ stripped raw core /\ ~ blank_line raw /\ ~ good_line L raw /\ m_from m = 0 /\ m_to m = Z.of_nat (List.length core).
Proof.
  intros lines L LO OL HL. destruct (C46_errors lines L 0 LO OL HL ltac:(lia)) as (out & E & So & Er & _). exists out. split; [exact E|].
  unfold error_marks. split; [rewrite map_map; cbn [m_row]; rewrite map_id; exact So|]. intros [k a b]. cbn [m_row m_from m_to].
  unfold text_of. change 10%N with NEWLINE. rewrite input_lines_join by apply LO. rewrite in_map_iff. split.
  - intros (i & Ei & Hi). injection Ei as -> <- <-. apply Er in Hi. destruct Hi as (raw & Hr & Nb & Ng). exists raw, (core_of raw). split; [exact Hr|]. split; [apply core_stripped; reflexivity|].
    repeat split; auto. f_equal. f_equal. apply nth_error_nth. rewrite nth_error_map, Hr. reflexivity.
  - intros (raw & core & Hr & S & Nb & Ng & -> & ->). exists k. split; [|apply Er; eauto]. apply core_stripped in S. subst core. f_equal. f_equal. f_equal. apply nth_error_nth. rewrite nth_error_map, Hr. reflexivity.
Qed.
(** The mark covers exactly the line without its comment, unless the line is indented. *)
Theorem C89_error_covers : forall lines L out m raw core, lines_ok lines -> (forall raw, In raw lines -> one_line raw) -> labels_of lines L ->
  parse_input (text_of lines) 0 = Some out -> In m (error_marks (text_of lines) out) -> nth_error lines (m_row m) = Some raw -> stripped raw core ->
  (covered raw m = core <-> ~ indented raw).
Proof.
  intros lines L out m raw core LO OL HL E Hm Hr S. destruct (C89_errors lines L LO OL HL) as (out' & E' & _ & X). assert (out' = out) by congruence. subst out'.
  apply X in Hm. destruct Hm as (raw' & core' & Hr' & S' & Nb & _ & F & T). assert (raw' = raw) by congruence. subst raw'.
  apply core_stripped in S, S'. rewrite <- S in S'. subst core'. destruct m as [k a b]. cbn [m_from m_to] in F, T. subst a b.
  apply covered_core; [apply core_stripped; exact S|]. intros ->. apply Nb. apply core_stripped. exact S.
Qed.

(** ** Labels *)
Lemma index_prefix : forall p s, js_index_of p (p ++ s) = 0.
Proof.
  intros p s. assert (H : starts_with p (p ++ s) = true). { induction p as [|x p IH]; [reflexivity|]. cbn [starts_with app]. rewrite N.eqb_refl. exact IH. }
  unfold js_index_of. destruct (p ++ s) eqn:E; cbn [index_of_str]; rewrite H; reflexivity.
Qed.
Lemma code_line_label : forall s c, code_line s c -> exists r, s = lab c ++ r.
Proof. intros s c [(E & _)|(_ & b & E & _)]; [exists s; rewrite E; reflexivity|eauto]. Qed.
Lemma label_marks_in : forall L cores k, (forall s, In s cores -> single_line s) -> forall m,
  In m (flat_map label_mark (snd (parse_lines L k cores))) <->
  exists core c, (k <= m_row m)%nat /\ nth_error cores (m_row m - k) = Some core /\ code_line core c /\ value_ok L c /\ lab c <> [] /\ m_from m = 0 /\ m_to m = Z.of_nat (List.length (lab c)).
Proof.
  intros L. induction cores as [|s cores IH]; intros k SL m; [split; [intros []|intros (co & c & _ & H & _); destruct (m_row m - k)%nat; discriminate H]|].
  specialize (IH (S k) (fun x Hx => SL x (or_intror Hx)) m). cbn [parse_lines]. destruct (parse_lines L (S k) cores) as [errs rows]. cbn [snd] in IH.
  assert (Sk : forall P : str -> code -> Prop, (exists core c, (S k <= m_row m)%nat /\ nth_error cores (m_row m - S k) = Some core /\ P core c) <->
     (exists core c, (k <= m_row m)%nat /\ m_row m <> k /\ nth_error (s :: cores) (m_row m - k) = Some core /\ P core c)).
  { intros P. split; intros (co & c & H1 & H2); exists co, c.
    - destruct H2 as (H2 & H3). split; [lia|]. split; [lia|]. replace (m_row m - k)%nat with (S (m_row m - S k)) by lia. auto.
    - destruct H2 as (H2 & H3 & H4). split; [lia|]. replace (m_row m - k)%nat with (S (m_row m - S k)) in H3 by lia. auto. }
  rewrite Sk in IH. clear Sk.
  assert (Skip : (forall c, code_line s c -> value_ok L c -> lab c = []) -> (In m (flat_map label_mark rows) <-> exists core c, (k <= m_row m)%nat /\ nth_error (s :: cores) (m_row m - k) = Some core /\ code_line core c /\ value_ok L c /\ lab c <> [] /\ m_from m = 0 /\ m_to m = Z.of_nat (List.length (lab c)))).
  { intros Hc. rewrite IH. split; intros (co & c & H); exists co, c; [tauto|]. destruct H as (H1 & H2 & H3 & H4 & H5 & H6). split; [exact H1|]. split; [|auto]. intros X. rewrite X, Nat.sub_diag in H2. injection H2 as <-. apply H5. apply Hc; assumption. }
  destruct s as [|x s]; [apply Skip; intros c Hc; destruct (parts_nonnil _ _ Hc eq_refl)|].
  destruct (execute_regex L (x :: s) k) as [r|] eqn:E.
  - destruct (r_result r) as [|b bs] eqn:R.
    + apply Skip. intros c Hc V. exfalso. destruct (line_good L (x :: s) c k (SL _ (or_introl eq_refl)) Hc V) as (e & _ & _ & E2 & N). rewrite E in E2. injection E2 as ->. cbn [r_result] in R. congruence.
    + destruct (line_bad L (x :: s) k r (SL _ (or_introl eq_refl)) E) as (c & Hc & V); [congruence|].
      assert (Un : forall d, code_line (x :: s) d -> value_ok L d -> r_eti r = lab d /\ r_off r = k /\ r_line r = x :: s).
      { intros d Hd Vd. destruct (line_good L (x :: s) d k (SL _ (or_introl eq_refl)) Hd Vd) as (e & _ & _ & E2 & _). rewrite E in E2. injection E2 as ->. auto. }
      destruct (Un c Hc V) as (U1 & U2 & U3). cbn [snd flat_map]. rewrite in_app_iff. unfold label_mark at 1. rewrite U1, U2, U3. destruct (code_line_label _ _ Hc) as (rest & Er).
      destruct (lab c) as [|y l] eqn:El.
      * cbn [In]. rewrite <- Skip; [tauto|]. intros d Hd Vd. destruct (Un d Hd Vd) as (A & _). congruence.
      * rewrite Er at 1 2. rewrite index_prefix. rewrite IH. split.
        { intros [[<-|[]]|(co & d & H)]; [|exists co, d; tauto]. exists (x :: s), c. cbn [m_row m_from m_to]. rewrite Nat.sub_diag, El. cbn [nth_error]. repeat split; auto. discriminate. }
        { intros (co & d & H1 & H2 & H3 & H4 & H5 & H6 & H7). destruct (Nat.eq_dec (m_row m) k) as [X|X]; [left|right; exists co, d; tauto].
          rewrite X, Nat.sub_diag in H2. injection H2 as <-. destruct (Un d H3 H4) as (A & _). left. destruct m as [mr ma mb]. cbn [m_row m_from m_to] in *. subst mr ma mb. rewrite <- A, U1. reflexivity. }
  - apply Skip. intros c Hc V. exfalso. destruct (line_good L (x :: s) c k (SL _ (or_introl eq_refl)) Hc V) as (e & _ & _ & E2 & N). congruence.
Qed.
Lemma marks_sub : forall rows, sub (map m_row (flat_map label_mark rows)) (map r_off rows).
Proof.
  induction rows as [|r rows IH]; cbn [flat_map map]; [constructor|]. rewrite map_app. unfold label_mark at 1. destruct (r_eti r); cbn [map app]; constructor; exact IH.
Qed.
(** One mark for every good line with a label, on the label. *)
Theorem C89_labels : forall lines L, lines_ok lines -> (forall raw, In raw lines -> one_line raw) -> labels_of lines L ->
  StronglySorted lt (map m_row (label_marks (text_of lines))) /\
  forall m, In m (label_marks (text_of lines)) <->
    exists raw core c, nth_error lines (m_row m) = Some raw /\ stripped raw core /\ code_line core c /\ value_ok L c /\ lab c <> [] /\ m_from m = 0 /\ m_to m = Z.of_nat (List.length (lab c)).
Proof.
  intros lines L LO OL HL. pose proof (labels_refs lines L OL HL) as SR. unfold label_marks, text_of. change 10%N with NEWLINE. rewrite input_lines_join by apply LO.
  assert (SL : forall s, In s (map core_of lines) -> single_line s). { intros s Hs. apply in_map_iff in Hs. destruct Hs as (x & <- & Hx). apply (OL x Hx). apply stripped_ex. }
  split.
  - eapply sub_sorted; [apply marks_sub|]. destruct (parse_indices (pre (map core_of lines)) (map core_of lines) 0) as (_ & P2). rewrite P2. apply indices_sorted.
  - intros m. rewrite label_marks_in by exact SL. rewrite Nat.sub_0_r. split.
    + intros (core & c & _ & Hn & Hc & V & R). rewrite nth_error_map in Hn. destruct (nth_error lines (m_row m)) as [raw|] eqn:Er; [|discriminate Hn]. cbn in Hn. injection Hn as <-.
      exists raw, (core_of raw), c. split; [reflexivity|]. split; [apply stripped_ex|]. split; [exact Hc|]. split; [apply (value_ok_refs _ _ _ SR); exact V|exact R].
    + intros (raw & core & c & Er & S & Hc & V & R). apply core_stripped in S. subst core. exists (core_of raw), c. rewrite nth_error_map, Er. split; [lia|]. split; [reflexivity|]. split; [exact Hc|].
      split; [apply (value_ok_refs _ _ _ (same_refs_sym _ _ SR)); exact V|exact R].
Qed.
Lemma label_covers : forall raw core c k, stripped raw core -> code_line core c -> lab c <> [] ->
  (covered raw (mkMark k 0 (Z.of_nat (List.length (lab c)))) = lab c <-> ~ indented raw).
Proof.
  intros raw core c k (w1 & w2 & rest & E & W & _ & _ & Nw) Hc N. unfold covered. cbn [m_from m_to skipn Z.to_nat]. rewrite Z.sub_0_r, Nat2Z.id. destruct (code_line_label _ _ Hc) as (r & Er).
  destruct (lab c) as [|x l]; [congruence|]. subst core. pose proof (Nw x (or_introl eq_refl)) as X. destruct w1 as [|y w1].
  - cbn [app] in E. split; [|intros _; rewrite E; cbn [List.length firstn app]; f_equal; rewrite <- app_assoc, firstn_app, firstn_all, Nat.sub_diag; cbn; apply app_nil_r].
    intros _ (y & q & E' & C). rewrite E in E'. injection E' as <- _. congruence.
  - assert (C : is_ws y = true) by (apply W; left; left; reflexivity). split; [|intros H; exfalso; apply H; exists y; eexists; split; [exact E|exact C]].
    rewrite E. cbn [List.length firstn app]. intros H. injection H as -> _. congruence.
Qed.
Theorem C89_label_covers : forall lines L m, lines_ok lines -> (forall raw, In raw lines -> one_line raw) -> labels_of lines L -> In m (label_marks (text_of lines)) ->
  exists raw core c, nth_error lines (m_row m) = Some raw /\ stripped raw core /\ code_line core c /\ label (lab c) /\ (covered raw m = lab c <-> ~ indented raw).
Proof.
  intros lines L m LO OL HL Hm. apply (proj2 (C89_labels lines L LO OL HL)) in Hm. destruct Hm as (raw & core & c & Hr & S & Hc & _ & N & F & T). exists raw, core, c. split; [exact Hr|]. split; [exact S|]. split; [exact Hc|].
  split; [destruct Hc as [(X & _)|(X & _)]; [contradiction|exact X]|]. destruct m as [k a b]. cbn [m_from m_to] in F, T. subst a b. exact (label_covers raw core c k S Hc N).
Qed.
(** ** The listing and the notes *)
Definition nonl (s : str) : Prop := ~ In NEWLINE s.
Lemma strip_app : forall w s p m r p', strip w s p = Some (m, r, p') -> s = m ++ r.
Proof.
  induction w as [|c w IH]; intros s p m r p' H; cbn [strip] in H; [injection H as <- <- _; reflexivity|]. destruct s as [|x s]; [discriminate H|]. destruct (ceq c x); [|discriminate H].
  destruct (strip w s (Some x)) as [[[m' r'] q]|] eqn:E; [|discriminate H]. injection H as <- <- _. cbn [app]. f_equal. exact (IH _ _ _ _ _ E).
Qed.
Lemma re_match_chars : forall items prev s gs, re_match items prev s = Some gs -> nonl s -> Forall nonl gs.
Proof.
  induction items as [|it k IH]; intros prev s gs H N; cbn [re_match] in H; [injection H as <-; constructor|].
  assert (Tl : forall x r, s = x :: r -> nonl r) by (intros x r -> X; apply N; right; exact X).
  destruct it.
  - destruct prev as [c|]; [destruct (is_lt c); [|discriminate H]|]; eauto.
  - destruct s as [|c s]; [eauto|]. destruct (is_lt c); [eauto|discriminate H].
  - destruct s as [|x r]; [discriminate H|]. destruct (is_ws x); [|discriminate H]. eapply IH; [exact H|eauto].
  - destruct s as [|x r]; [eauto|]. destruct (is_ws x); [|eauto]. destruct (re_match k (Some x) r) as [g|] eqn:E; [injection H as <-; eapply IH; [exact E|eauto]|eauto].
  - destruct s as [|x r]; [discriminate H|]. destruct (ceq c x); [|discriminate H]. eapply IH; [exact H|eauto].
  - destruct (strip w s prev) as [[[m r] p]|] eqn:E; [|discriminate H]. destruct (re_match k p r) as [g|] eqn:G; [|discriminate H]. cbn in H. injection H as <-. apply strip_app in E. subst s.
    constructor; [intros X; apply N, in_app_iff; auto|]. eapply IH; [exact G|]. intros X. apply N, in_app_iff. auto.
  - revert H. generalize (run s). induction n as [|n IHn]; intros H; cbn [try_word] in H; [discriminate H|]. destruct (re_match k _ (skipn (S n) s)) as [g|] eqn:E; [|exact (IHn H)]. injection H as <-.
    constructor; [intros X; apply N; rewrite <- (firstn_skipn (S n) s); apply in_app_iff; left; exact X|]. eapply IH; [exact E|]. intros X. apply N. rewrite <- (firstn_skipn (S n) s). apply in_app_iff. right. exact X.
Qed.
Lemma re_exec_chars : forall items s gs, re_exec items s = Some gs -> nonl s -> Forall nonl gs.
Proof.
  intros items s gs. unfold re_exec. generalize (@None N). induction s as [|x s IH]; intros p H N; cbn [re_search] in H.
  - destruct (re_match items p []) as [g|] eqn:E; [|discriminate H]. injection H as <-. eapply re_match_chars; eauto.
  - destruct (re_match items p (x :: s)) as [g|] eqn:E; [injection H as <-; eapply re_match_chars; eauto|]. eapply IH; [exact H|]. intros X. apply N. right. exact X.
Qed.
Lemma split_chars : forall sep s, nonl s -> Forall nonl (split sep s).
Proof.
  intros sep. induction s as [|x s IH]; intros N; [repeat constructor; intros []|]. cbn [split]. specialize (IH (fun X => N (or_intror X))). destruct (N.eqb x sep); [constructor; [intros []|exact IH]|].
  destruct (split sep s) as [|w l]; [repeat constructor; intros [X|[]]; apply N; left; exact X|]. inversion IH; subst. constructor; [|assumption]. intros [X|X]; [apply N; left; exact X|contradiction].
Qed.
Lemma join_chars : forall sep l, sep <> NEWLINE -> Forall nonl l -> nonl (join sep l).
Proof.
  intros sep l Hs F. induction F as [|w l Hw F IH]; [intros []|]. cbn [join]. destruct l as [|v l]; [exact Hw|]. intros X. apply in_app_iff in X. destruct X as [X|[X|X]]; [contradiction|congruence|contradiction].
Qed.
Lemma after_chars : forall s, nonl s -> nonl (after_first_word s).
Proof. intros s N. unfold after_first_word. apply join_chars; [discriminate|]. pose proof (split_chars SPACE s N) as F. destruct (split SPACE s); [constructor|]. inversion F; assumption. Qed.
Lemma hex_nonl : forall s, check_is_hex s = true -> nonl s.
Proof. intros s H X. rewrite check_is_hex_iff in H. exact (H _ X eq_refl). Qed.
(** A row's strings: the opcode first, no line ends. *)
Definition solid (res : list str) : Prop := exists op rest, res = op :: rest /\ op <> [] /\ Forall nonl res.
Lemma hex_entry : forall e, In e operations -> s2l (HEX e) <> [] /\ nonl (s2l (HEX e)).
Proof.
  assert (K : forallb (fun e => match s2l (HEX e) with [] => false | _ => check_is_hex (s2l (HEX e)) end) operations = true) by (vm_compute; reflexivity).
  intros e He. rewrite forallb_forall in K. specialize (K e He). destruct (s2l (HEX e)) eqn:E; [discriminate K|]. split; [discriminate|]. apply hex_nonl. exact K.
Qed.
Lemma translate_solid : forall L e ops, In e operations -> Forall nonl ops -> translate L e ops <> [] -> solid (translate L e ops).
Proof.
  intros L e ops He Ho N. destruct (hex_entry e He) as (E1 & E2).
  assert (H0 : solid [s2l (HEX e)]) by (exists (s2l (HEX e)), []; auto).
  assert (H1 : forall o, nonl o -> translate_operand L e o <> [] -> solid (translate_operand L e o)).
  { intros o Nl No. unfold translate_operand in *. destruct o as [|c o]; [congruence|]. cbv zeta in *. destruct (N.eqb c T_CHAR).
    - destruct (existsb (str_eqb (c :: o)) L); [|congruence]. exists (s2l (HEX e)), [c :: o]. auto.
    - destruct (negb (check_is_hex (c :: o))); [congruence|]. destruct (_ && (parse_hex (c :: o) >? 65535)); [congruence|]. destruct (_ && (parse_hex (c :: o) >? 255)); [congruence|].
      assert (Hx : forall m, check_is_hex (pad_start m (to_hex (parse_hex (c :: o)))) = true).
      { intros m. unfold pad_start. rewrite hex_zeros. apply to_hex_hex. rewrite parse_hex_value. apply numeral_nonneg. }
      destruct (includes (s2l "dir") (s2l (NEMO e))); eexists _, _; (split; [reflexivity|]); (split; [exact E1|]); repeat constructor; auto using hex_nonl, hex_firstn, hex_skipn. }
  unfold translate in *. destruct ops as [|a [|b [|c [|]]]]; try congruence; auto; inversion Ho as [|? ? _ Ho1]; subst; inversion Ho1; subst; destruct (GRUPO e <? 4); auto.
Qed.
Lemma exec_solid : forall l L s k r, (forall e, In e l -> In e operations) -> nonl s -> execute_regex_from l L s k = Some r -> r_result r <> [] -> solid (r_result r).
Proof.
  induction l as [|e l IH]; intros L s k r Hi N E Nr; cbn [execute_regex_from] in E; [discriminate E|]. unfold ins_exec in E. destruct (re_exec (new_regexp (REGEX e)) s) as [ops|] eqn:R1.
  - injection E as <-. cbn [r_result] in *. apply translate_solid; [apply Hi; cbn; auto|eapply re_exec_chars; eauto|exact Nr].
  - destruct (re_exec (new_regexp (REGEX e)) (after_first_word s)) as [ops|] eqn:R2.
    + destruct (starts_with [T_CHAR] (first_word s)); [|discriminate E]. injection E as <-. cbn [r_result] in *. apply translate_solid; [apply Hi; cbn; auto|eapply re_exec_chars; [exact R2|apply after_chars; exact N]|exact Nr].
    + eapply IH; eauto. intros; apply Hi; cbn; auto.
Qed.
Lemma rows_solid : forall L cores k, Forall nonl cores -> Forall (fun r => solid (r_result r)) (snd (parse_lines L k cores)).
Proof.
  intros L cores k F. revert k. induction F as [|s cores N F IH]; intros k; [constructor|]. cbn [parse_lines]. specialize (IH (S k)). destruct (parse_lines L (S k) cores) as [errs rows]. cbn [snd] in IH.
  destruct s as [|x s]; [exact IH|]. unfold execute_regex. destruct (execute_regex_from operations L (x :: s) k) as [r|] eqn:E; [|exact IH]. destruct (r_result r) as [|b bs] eqn:R; [exact IH|]. cbn [snd]. constructor; [|exact IH].
  apply (exec_solid operations L (x :: s) k r (fun e H => H) N E). congruence.
Qed.
Lemma pairs_nonl : forall n s, (List.length s <= n)%nat -> nonl s -> Forall nonl (pairs s).
Proof.
  induction n as [|n IH]; intros s Hn N; [destruct s; [constructor|cbn in Hn; lia]|]. destruct s as [|a [|b s]]; cbn [pairs]; [constructor|repeat constructor; exact N|].
  constructor; [intros [X|[X|[]]]; apply N; cbn; auto|]. apply IH; [cbn in Hn; lia|]. intros X. apply N. cbn. auto.
Qed.
Lemma post_row_solid : forall f pos j res d res' d', (forall p, In p pos -> 0 <= snd p) -> (1 <= j)%nat -> solid res -> post_row f pos j res d = Some (res', d') -> solid res'.
Proof.
  induction f as [|f IH]; intros pos j res d res' d' P J (op & rest & -> & No & F) H; [discriminate H|]. cbn [post_row] in H.
  destruct (nth_error (op :: rest) j) as [r|] eqn:E; [|injection H as <- _; exists op, rest; auto].
  destruct (find_eti pos r) as [dir|] eqn:Fe; [|eapply IH; [exact P| |exists op, rest; eauto|exact H]; lia].
  eapply IH; [exact P| | |exact H]; [lia|]. destruct j as [|j]; [lia|]. exists op. eexists. split; [reflexivity|]. split; [exact No|].
  change (op :: firstn j rest ++ skipn (S (S j)) (op :: rest) ++ pairs (eti_dir_hex dir)) with (firstn (S j) (op :: rest) ++ skipn (S (S j)) (op :: rest) ++ pairs (eti_dir_hex dir)). apply Forall_app. split; [|apply Forall_app; split].
  - rewrite <- (firstn_skipn (S j) (op :: rest)) in F. apply Forall_app in F. apply F.
  - rewrite <- (firstn_skipn (S (S j)) (op :: rest)) in F. apply Forall_app in F. apply F.
  - eapply pairs_nonl; [apply le_n|]. apply hex_nonl. apply eti_dir_hex_ok. unfold find_eti in Fe. destruct (find (fun p => str_eqb (fst p) r) pos) as [p|] eqn:Ff; [|discriminate Fe]. injection Fe as <-. apply find_some in Ff. apply P. apply Ff.
Qed.
Lemma post_rows_solid : forall f pos rows rows', (forall p, In p pos -> 0 <= snd p) -> Forall (fun r => solid (r_result r)) rows -> post_rows f pos rows = Some rows' -> Forall (fun r => solid (r_result r)) rows'.
Proof.
  induction f as [|f IH]; intros pos rows rows' P F H; [discriminate H|]. cbn [post_rows] in H. destruct rows as [|r rest]; [injection H as <-; constructor|]. inversion F as [|? ? Fr Fs]; subst.
  destruct (post_row (post_fuel pos (r_result r)) pos 1 (r_result r) 0) as [[res [|d]]|] eqn:E; [| |discriminate H].
  - destruct (post_rows f pos rest) as [rs|] eqn:Er; [|discriminate H]. cbn in H. injection H as <-. constructor; [|eapply IH; eauto]. cbn [r_result]. eapply post_row_solid; [exact P| |exact Fr|exact E]. lia.
  - assert (Fd : Forall (fun r => solid (r_result r)) (skipn d rest)). { rewrite <- (firstn_skipn d rest) in Fs. apply Forall_app in Fs. apply Fs. }
    destruct (skipn d rest) as [|r2 rest2]; [injection H as <-; constructor|]. inversion Fd; subst. destruct (post_rows f pos rest2) as [rs|] eqn:Er; [|discriminate H]. cbn in H. injection H as <-. constructor; [assumption|eapply IH; eauto].
Qed.
Lemma trim_start_nonl : forall s, nonl s -> nonl (trim_start s).
Proof. intros s N X. destruct (trim_start_split s) as (w & E & _). apply N. rewrite E. apply in_app_iff. auto. Qed.
Lemma core_nonl : forall s, nonl s -> nonl (core_of s).
Proof. intros s N X. destruct (stripped_ex s) as (w1 & w2 & r & E & _). apply N. fold (core_of s) in E. rewrite E. rewrite !in_app_iff. auto. Qed.
Lemma split_nonl : forall s, Forall nonl (split NEWLINE s).
Proof.
  induction s as [|x s IH]; [repeat constructor; intros []|]. cbn [split]. destruct (N.eqb_spec x NEWLINE) as [->|Nx]; [constructor; [intros []|exact IH]|].
  destruct (split NEWLINE s) as [|w l]; [repeat constructor; intros [X|[]]; congruence|]. inversion IH; subst. constructor; [|assumption]. intros [X|X]; [congruence|contradiction].
Qed.
Lemma results_solid : forall text out, parse_input text 0 = Some out -> Forall (fun r => solid (r_result r)) (results out).
Proof.
  intros text out H. unfold parse_input in H. cbv zeta in H. assert (F : Forall nonl (input_lines text)).
  { unfold input_lines. rewrite map_map. apply Forall_map. eapply Forall_impl; [|apply split_nonl]. intros s N. exact (core_nonl s N). }
  pose proof (rows_solid (pre (input_lines text)) (input_lines text) 0 F) as R. pose proof (parse_rows_good (pre (input_lines text)) (input_lines text) 0) as G.
  destruct (parse_lines (pre (input_lines text)) 0 (input_lines text)) as [errs rows]. cbn [snd] in *. destruct (positions_good rows 0 G ltac:(lia)) as (_ & P).
  destruct (post_rows (S (List.length rows)) (eti_positions rows 0) rows) as [rs|] eqn:E; [|discriminate H]. cbn in H. injection H as <-. cbn [results]. eapply post_rows_solid; eauto.
Qed.
Lemma join_join : forall sep ls, Forall (fun l => l <> []) ls -> join sep (map (join sep) ls) = join sep (concat ls).
Proof.
  intros sep ls F. induction F as [|l ls N F IH]; [reflexivity|]. cbn [map concat]. destruct ls as [|l2 ls].
  - cbn [map join concat]. rewrite app_nil_r. reflexivity.
  - inversion F as [|? ? N2 _]; subst. assert (Nc : concat (l2 :: ls) <> []) by (cbn [concat]; destruct l2; [congruence|discriminate]). revert IH Nc. generalize (concat (l2 :: ls)). intros q IH Nc.
    change (join sep (join sep l :: map (join sep) (l2 :: ls))) with (join sep l ++ sep :: join sep (map (join sep) (l2 :: ls))). rewrite IH. clear -N Nc.
    induction l as [|x l IHl]; [congruence|]. destruct l as [|y l]; [destruct q; [congruence|reflexivity]|]. change ((x :: y :: l) ++ q) with (x :: (y :: l) ++ q).
    change (join sep (x :: y :: l)) with (x ++ sep :: join sep (y :: l)). change (join sep (x :: (y :: l) ++ q)) with (x ++ sep :: join sep ((y :: l) ++ q)). rewrite <- IHl by discriminate. rewrite <- app_assoc. reflexivity.
Qed.
Lemma solid_concat : forall rows, Forall (fun r => solid (r_result r)) rows -> rows <> [] -> exists x l, concat (map r_result rows) = x :: l /\ x <> [] /\ Forall nonl (x :: l).
Proof.
  intros rows F N. destruct rows as [|r rows]; [congruence|]. inversion F as [|? ? (op & rest & E & No & Fo) Fs]; subst. cbn [map concat]. rewrite E. exists op, (rest ++ concat (map r_result rows)). split; [reflexivity|]. split; [exact No|].
  change (op :: rest ++ concat (map r_result rows)) with ((op :: rest) ++ concat (map r_result rows)). apply Forall_app. split; [rewrite <- E; exact Fo|]. clear -Fs. induction Fs as [|r rows (op & rest & E & _ & Fo) Fs IH]; [constructor|]. cbn [map concat]. apply Forall_app. split; [exact Fo|exact IH].
Qed.
Lemma listing_lines : forall text out, parse_input text 0 = Some out -> results out <> [] -> split NEWLINE (listing out) = concat (map r_result (results out)).
Proof.
  intros text out H N. pose proof (results_solid text out H) as F. destruct (solid_concat _ F N) as (x & l & E & _ & Fx). unfold listing. rewrite <- (map_map r_result (join NEWLINE)), join_join.
  - rewrite E. apply split_join; [discriminate|]. intros s Hs. rewrite Forall_forall in Fx. exact (Fx s Hs).
  - apply Forall_map. eapply Forall_impl; [|exact F]. intros r (op & rest & -> & _). discriminate.
Qed.
(** The text shown is cut again into the same bytes. *)
Theorem C89_listing : forall text, exists out, parse_input text 0 = Some out /\ handed_over out = new_translation out /\
  (results out <> [] -> split NEWLINE (listing out) = concat (map r_result (results out))) /\ (results out = [] -> listing out = []).
Proof.
  intros text. destruct (C46_total text 0 ltac:(lia)) as (out & E). exists out. split; [exact E|]. pose proof (listing_lines text out E) as Ls. split; [|split; [exact Ls|intros X; unfold listing; rewrite X; reflexivity]].
  unfold handed_over, new_translation. destruct (errors out); [|reflexivity]. destruct (results out) as [|r rs] eqn:R; [unfold listing; rewrite R; reflexivity|]. rewrite <- R in *.
  specialize (Ls ltac:(rewrite R; discriminate)). destruct (solid_concat _ (results_solid text out E) ltac:(rewrite R; discriminate)) as (x & l & Ec & Nx & _). rewrite Ec in *.
  destruct (listing out) as [|y s]; [|rewrite <- Ls; destruct (split NEWLINE (y :: s)) eqn:Z; [congruence|reflexivity]]. cbn in Ls. injection Ls as <- _. congruence.
Qed.
(** Line [i] of the listing (the editor numbers them from 0) is the byte that Save stores
    at address [i]. *)
Theorem C89_addresses : forall t l c k h m, (match opened_later t with Some c0 => edits l c0 | None => None end) = Some c -> live k h true -> obs h m -> can c = true ->
  exists out h', parse_input (text c) 0 = Some out /\ press_save c h = Some h' /\ split NEWLINE (listing out) = slots c /\
    forall i line, nth_error (split NEWLINE (listing out)) i = Some line -> get_memory_value (Z.of_nat i) h' = Some (slot_int line).
Proof.
  intros t l c k h m E L O Cc. destruct (C64_enabled t l) as (c' & E' & Tx & _ & Sv). rewrite E in E'. injection E' as <-. specialize (Sv Cc). rewrite <- Tx in Sv.
  destruct Sv as (out & P & Er & Ec & N & _). destruct (opened_later t) as [c0|] eqn:Eo; [|discriminate E]. destruct (C64_save t l c0 c k h m (or_introl Eo) E L O) as (h' & Sp & _ & _ & Hm).
  destruct (Hm Cc) as (Hb & _). assert (Ls : split NEWLINE (listing out) = slots c). { rewrite (listing_lines (text c) out P); [exact Ec|]. intros X. rewrite X in Ec. cbn in Ec. congruence. }
  exists out, h'. split; [exact P|]. split; [exact Sp|]. split; [exact Ls|]. intros i line Hi. rewrite Ls in Hi. rewrite Hb by (apply nth_error_Some; congruence). rewrite Hi. reflexivity.
Qed.
(** For a program: beside every line of code, and only there, a note with its bytes; the
    listing is the notes one after the other. *)
Definition bytes_text (t : str) (bytes : list Z) : Prop :=
  map numeral_value (split NEWLINE t) = bytes /\ Forall (fun s => List.length s = 2%nat /\ numeral s) (split NEWLINE t).
Theorem C89_notes : forall lines codes, program lines codes 0 ->
  exists out, parse_input (text_of lines) 0 = Some out /\
    Forall2 (fun kc note => fst note = fst kc /\ exists bytes, encodes (somes codes) 0 (snd kc) bytes /\ bytes_text (snd note) bytes) (numbered 0 codes) (notes out) /\
    listing out = join NEWLINE (map snd (notes out)) /\
    exists bytes, image (somes codes) 0 (somes codes) bytes /\ bytes_text (listing out) bytes.
Proof.
  intros lines codes (P1 & P2 & P3 & P4 & P5 & P6). destruct (C44_program lines codes 0 P1 P2 P3 P5 P6) as (out & E & Er & R & _). destruct (C44_image lines codes 0 P1 P2 P3 P4 P5 P6) as (out2 & slots & E2 & T & Im & Hx).
  assert (out2 = out) by congruence. subst out2. exists out. split; [exact E|]. pose proof (results_solid _ _ E) as So. unfold new_translation in T. rewrite Er in T. destruct (concat (map r_result (results out))) as [|x0 l0] eqn:Ec; [discriminate T|]. injection T as <-.
  assert (Nr : results out <> []) by (intros X; rewrite X in Ec; discriminate Ec).
  split; [|split].
  - unfold notes. assert (Hy : Forall (fun r => Forall (fun s => List.length s = 2%nat /\ numeral s) (r_result r)) (results out)).
    { rewrite <- Ec in Hx. clear -Hx. induction (results out) as [|r rs IH]; [constructor|]. cbn [map concat] in Hx. apply Forall_app in Hx. constructor; [apply Hx|apply IH, Hx]. }
    clear -R So Hy. revert So Hy. induction R as [|kc r kcs rs (H1 & _ & H3) R IH]; intros So Hy; [constructor|]. inversion So as [|? ? (op & rest & Eo & _ & Fo) So']; subst. inversion Hy as [|? ? Hr Hy']; subst. cbn [map].
    constructor; [|apply IH; assumption]. cbn [fst snd]. split; [exact H1|]. exists (slot_values (r_result r)). split; [exact H3|]. unfold bytes_text. rewrite split_join; [|rewrite Eo; discriminate|rewrite Forall_forall in Fo; exact Fo].
    split; [|exact Hr]. unfold slot_values. apply map_ext. intros s. symmetry. apply parse_hex_value.
  - unfold listing, notes. rewrite map_map. reflexivity.
  - exists (slot_values (x0 :: l0)). split; [exact Im|]. unfold bytes_text. rewrite (listing_lines _ _ E Nr), Ec. split; [|exact Hx]. unfold slot_values. apply map_ext. intros s. symmetry. apply parse_hex_value.
Qed.
(** Whatever the text: notes only beside lines of code with good values. *)
Theorem C89_notes_good : forall lines L, lines_ok lines -> (forall raw, In raw lines -> one_line raw) -> labels_of lines L ->
  exists out, parse_input (text_of lines) 0 = Some out /\ StronglySorted lt (map fst (notes out)) /\
    forall n, In n (notes out) -> exists raw, nth_error lines (fst n) = Some raw /\ ~ blank_line raw /\ good_line L raw.
Proof.
  intros lines L LO OL HL. destruct (C46_errors lines L 0 LO OL HL ltac:(lia)) as (out & E & _ & _ & So & Hr & _). exists out. split; [exact E|]. unfold notes. split; [rewrite map_map; exact So|].
  intros n Hn. apply in_map_iff in Hn. destruct Hn as (r & <- & Hi). exact (Hr r Hi).
Qed.
(** Findings.  On an indented line the mark of a label misses it: here it covers two
    spaces and the first letter of the line "  Tab FIN". *)
Theorem C89_indented_refuted : let raw := s2l "  Tab FIN" in
  label_marks raw = [mkMark 0 0 3] /\ covered raw (mkMark 0 0 3) = s2l "  T".
Proof. split; vm_compute; reflexivity. Qed.
(** With an error elsewhere the listing still shows a program, with the addresses of the
    text without its bad lines: TA is shown at 3, and would be at 5 with the line repaired. *)
Theorem C89_with_errors_refuted : exists out out', parse_input (s2l "JMP TA
ADD 100
TA FIN") 0 = Some out /\ listing out = s2l "74
00
03
FF" /\ parse_input (s2l "JMP TA
ADD 10
TA FIN") 0 = Some out' /\ listing out' = s2l "74
00
05
65
10
FF".
Proof. eexists _, _. split; [vm_compute; reflexivity|]. split; [vm_compute; reflexivity|]. split; vm_compute; reflexivity. Qed.
Example C89_nonvacuous : lines_ok (map s2l ["Tgo CMA"; "bogus # note"; "JMP Tgo"]%string) /\
  label_marks (text_of (map s2l ["Tgo CMA"; "bogus # note"; "JMP Tgo"]%string)) = [mkMark 0 0 3] /\
  option_map (error_marks (text_of (map s2l ["Tgo CMA"; "bogus # note"; "JMP Tgo"]%string))) (parse_input (text_of (map s2l ["Tgo CMA"; "bogus # note"; "JMP Tgo"]%string)) 0) = Some [mkMark 1 0 5] /\
  option_map notes (parse_input (text_of (map s2l ["Tgo CMA"; "bogus # note"; "JMP Tgo"]%string)) 0) = Some [(0%nat, s2l "80"); (2%nat, s2l "74
00
00")].
Proof. split; [lines_literal|]. split; [vm_compute; reflexivity|]. split; vm_compute; reflexivity. Qed.
Print Assumptions C89_errors.
Print Assumptions C89_error_covers.
Print Assumptions C89_labels.
Print Assumptions C89_label_covers.
Print Assumptions C89_listing.
Print Assumptions C89_addresses.
Print Assumptions C89_notes.
Print Assumptions C89_notes_good.
Print Assumptions C89_indented_refuted.
Print Assumptions C89_with_errors_refuted.
Print Assumptions C89_nonvacuous.
