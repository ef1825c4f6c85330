(** * Theorems: the Save button and programs given in the URL (C64, C65) *)
From Coq Require Import String ZArith NArith List Bool Lia ZifyBool ZifyN.
From Verif Require Import Prog Isa Api ApiFacts Usage Front IsaFacts Reach PropsApi PropsIsa PropsLife.
From Verif Require Import JsStr AsmTable Asm AsmSpec AsmRe AsmLine AsmFacts AsmExec AsmProg AsmErr PropsAsm Disasm DisasmFacts PropsDisasm PropsLoad Editor.
Import ListNotations.
Open Scope list_scope.
Open Scope Z_scope.
Local Opaque operations.

(** ** What a slot can be *)
Definition slot_ok (s : str) : Prop := (List.length s <= 2)%nat /\ check_is_hex s = true \/ is_ref s.
Lemma leading_hex_all : forall s, check_is_hex s = true -> leading_hex s = s.
Proof.
  induction s as [|c s IH]; intros H; [reflexivity|]. cbn [check_is_hex forallb leading_hex] in *. destruct (digit c); [|discriminate H]. f_equal. apply IH. exact H.
Qed.
Lemma slot_ok_byte : forall s, slot_ok s -> 0 <= slot_int s <= 255.
Proof.
  intros s [(L & H)|R]; unfold slot_int.
  - rewrite (leading_hex_all s H), parse_hex_value. pose proof (numeral_nonneg s). pose proof (value_bound s H).
    assert (16 ^ Z.of_nat (List.length s) <= 16 ^ 2) by (apply Z.pow_le_mono_r; lia). lia.
  - unfold is_ref in R. destruct s as [|c s]; [discriminate R|]. injection R as ->. cbn. lia.
Qed.
Lemma op_ok : forall e, In e operations -> slot_ok (s2l (HEX e)).
Proof.
  assert (K : forallb (fun e => (Nat.leb (List.length (s2l (HEX e))) 2) && check_is_hex (s2l (HEX e))) operations = true) by (vm_compute; reflexivity).
  intros e H. rewrite forallb_forall in K. specialize (K e H). apply andb_prop in K as (K1 & K2). left. split; [apply Nat.leb_le; exact K1|exact K2].
Qed.
Lemma short_firstn : forall s, check_is_hex s = true -> slot_ok (firstn 2 s).
Proof. intros s H. left. split; [apply firstn_le_length|apply hex_firstn; exact H]. Qed.
Lemma translate_slots : forall L e ops, In e operations -> Forall slot_ok (translate L e ops).
Proof.
  intros L e ops He. pose proof (op_ok e He) as O.
  assert (H1 : forall o, Forall slot_ok (translate_operand L e o)).
  { intros o. unfold translate_operand. destruct o as [|c o]; [constructor|]. cbv zeta.
    destruct (N.eqb_spec c T_CHAR) as [->|].
    - destruct (existsb (str_eqb (T_CHAR :: o)) L); [|constructor]. constructor; [exact O|]. constructor; [right; reflexivity|constructor].
    - destruct (negb (check_is_hex (c :: o))) eqn:Hx; [constructor|].
      assert (P : forall m, check_is_hex (pad_start m (to_hex (parse_hex (c :: o)))) = true).
      { intros m. unfold pad_start. rewrite hex_zeros. apply to_hex_hex. rewrite parse_hex_value. apply numeral_nonneg. }
      destruct (includes (s2l "dir") (s2l (NEMO e))) eqn:D; cbn [andb].
      + destruct (parse_hex (c :: o) >? 65535) eqn:G; [constructor|]. destruct (includes (s2l "inm") (s2l (NEMO e)) && (parse_hex (c :: o) >? 255)); [constructor|].
        assert (R : 0 <= parse_hex (c :: o) <= 65535). { rewrite parse_hex_value in *. pose proof (numeral_nonneg (c :: o)). lia. }
        constructor; [exact O|]. constructor; [apply short_firstn; apply P|]. constructor; [|constructor]. left. split; [|apply hex_skipn; apply P].
        destruct (pad4 _ R) as (Q & _). rewrite skipn_length, Q. lia.
      + destruct (includes (s2l "inm") (s2l (NEMO e)) && (parse_hex (c :: o) >? 255)); [constructor|]. constructor; [exact O|]. constructor; [apply short_firstn; apply P|constructor]. }
  unfold translate. destruct ops as [|a [|b [|c [|]]]]; try (constructor; fail); try destruct (GRUPO e <? 4); auto; constructor; auto.
Qed.
Lemma exec_slots : forall l L s k r, (forall e, In e l -> In e operations) -> execute_regex_from l L s k = Some r -> Forall slot_ok (r_result r).
Proof.
  induction l as [|e l IH]; intros L s k r Hl H; cbn [execute_regex_from] in H; [discriminate|].
  assert (He : In e operations) by (apply Hl; cbn; auto).
  destruct (ins_exec e s) as [ops|]; [injection H as <-; apply translate_slots; exact He|].
  destruct (ins_exec e (after_first_word s)) as [ops|].
  - destruct (starts_with [T_CHAR] (first_word s)); [|discriminate]. injection H as <-. apply translate_slots. exact He.
  - eapply IH; eauto. intros; apply Hl; cbn; auto.
Qed.
Lemma lines_slots : forall L cores k, Forall (fun r => Forall slot_ok (r_result r)) (snd (parse_lines L k cores)).
Proof.
  intros L. induction cores as [|s cores IH]; intros k; cbn [parse_lines]; [constructor|]. specialize (IH (S k)). destruct (parse_lines L (S k) cores) as [errs rows]. cbn [snd] in IH.
  destruct s as [|c s]; [exact IH|]. unfold execute_regex. destruct (execute_regex_from operations L (c :: s) k) as [r|] eqn:E; [|exact IH].
  pose proof (exec_slots operations L (c :: s) k r (fun e H => H) E) as Hr. destruct (r_result r) as [|b bs] eqn:Er; [exact IH|]. cbn [snd]. constructor; auto. rewrite Er. exact Hr.
Qed.
Lemma pairs_slots : forall n s, (List.length s <= n)%nat -> check_is_hex s = true -> Forall slot_ok (pairs s).
Proof.
  induction n as [|n IH]; intros s L H; [destruct s; [constructor|cbn in L; lia]|]. destruct s as [|a [|b s]]; cbn [pairs]; [constructor| |].
  - constructor; [|constructor]. left. split; [cbn; lia|exact H].
  - cbn [check_is_hex forallb] in H. apply andb_prop in H as (Ha & H). apply andb_prop in H as (Hb & H). constructor.
    + left. split; [cbn; lia|]. cbn [check_is_hex forallb]. rewrite Ha, Hb. reflexivity.
    + apply IH; [cbn in L; lia|exact H].
Qed.
Lemma forall_firstn : forall {A} (P : A -> Prop) n l, Forall P l -> Forall P (firstn n l).
Proof. intros A P n l H. rewrite <- (firstn_skipn n l) in H. apply Forall_app in H. tauto. Qed.
Lemma forall_skipn : forall {A} (P : A -> Prop) n l, Forall P l -> Forall P (skipn n l).
Proof. intros A P n l H. rewrite <- (firstn_skipn n l) in H. apply Forall_app in H. tauto. Qed.
Lemma post_row_slots : forall f pos j res d res' d', (forall p, In p pos -> 0 <= snd p) -> Forall slot_ok res -> post_row f pos j res d = Some (res', d') -> Forall slot_ok res'.
Proof.
  induction f as [|f IH]; intros pos j res d res' d' P F H; cbn [post_row] in H; [discriminate|]. destruct (nth_error res j) as [r|]; [|injection H as <- _; exact F].
  destruct (find_eti pos r) as [dir|] eqn:E; [|eapply IH; eauto]. apply IH in H; auto. apply Forall_app. split; [apply forall_firstn; exact F|]. apply Forall_app. split; [exact (forall_skipn _ (S j) _ F)|].
  eapply pairs_slots; [reflexivity|]. apply eti_dir_hex_ok. unfold find_eti in E. destruct (find (fun p => str_eqb (fst p) r) pos) as [p|] eqn:Ff; [|discriminate]. injection E as <-.
  apply P. apply find_some in Ff. tauto.
Qed.
Lemma post_rows_slots : forall f pos rows rows', (forall p, In p pos -> 0 <= snd p) -> Forall (fun r => Forall slot_ok (r_result r)) rows -> post_rows f pos rows = Some rows' ->
  Forall (fun r => Forall slot_ok (r_result r)) rows'.
Proof.
  induction f as [|f IH]; intros pos rows rows' P F H; cbn [post_rows] in H; [discriminate|]. destruct rows as [|r rest]; [injection H as <-; constructor|]. inversion F as [|? ? Fr F']; subst.
  destruct (post_row (post_fuel pos (r_result r)) pos 1 (r_result r) 0) as [[res d]|] eqn:E; [|discriminate]. destruct d as [|d].
  - destruct (post_rows f pos rest) as [x|] eqn:Ex; [|discriminate]. injection H as <-. constructor; [exact (post_row_slots _ _ _ _ _ _ _ P Fr E)|eauto].
  - pose proof (forall_skipn _ d _ F') as F2. destruct (skipn d rest) as [|r2 rest2]; [injection H as <-; constructor|]. inversion F2; subst.
    destruct (post_rows f pos rest2) as [x|] eqn:Ex; [|discriminate]. injection H as <-. constructor; eauto.
Qed.
(** Whatever the text, what the editor hands over are bytes. *)
Lemma any_text_slots : forall text out s, parse_input text 0 = Some out -> new_translation out = Some s -> Forall slot_ok s.
Proof.
  intros text out s E T. unfold parse_input in E. cbv zeta in E. pose proof (parse_rows_good (pre (input_lines text)) (input_lines text) 0) as G.
  pose proof (lines_slots (pre (input_lines text)) (input_lines text) 0) as Fs.
  destruct (parse_lines (pre (input_lines text)) 0 (input_lines text)) as [errs rows]. cbn [snd] in *.
  destruct (positions_good rows 0 G ltac:(lia)) as (_ & P). destruct (post_rows (S (List.length rows)) (eti_positions rows 0) rows) as [rows'|] eqn:Er; [|discriminate E].
  injection E as <-. pose proof (post_rows_slots _ _ _ _ P Fs Er) as F'. unfold new_translation in T. cbn [errors results] in T. destruct errs; [|discriminate T].
  destruct (concat (map r_result rows')) as [|x l] eqn:Ec; [discriminate T|]. injection T as <-. rewrite <- Ec. clear -F'. induction F'; cbn [map concat]; [constructor|]. apply Forall_app. auto.
Qed.

(** ** C64 *)
(** A text that can be saved, and what is then stored: it assembles without
    errors, to something, that fits in memory. *)
Definition savable (t : str) (s : list str) : Prop :=
  exists out, parse_input t 0 = Some out /\ errors out = [] /\ concat (map r_result (results out)) = s /\ s <> [] /\ Z.of_nat (List.length s) <= 65536.
Definition in_step (c : coder) : Prop := (forall s, savable (text c) s -> can c = true /\ slots c = s) /\ (can c = true -> savable (text c) (slots c)).
Lemma savable_iff : forall t s, savable t s <-> exists out, parse_input t 0 = Some out /\ new_translation out = Some s /\ fits s = true.
Proof.
  intros t s. unfold savable, new_translation, fits. split.
  - intros (out & E & Er & Ec & N & L). exists out. split; [exact E|]. rewrite Er, Ec. split; [destruct s; congruence|lia].
  - intros (out & E & T & L). exists out. split; [exact E|]. destruct (errors out); [|discriminate T]. destruct (concat (map r_result (results out))) as [|x l]; [discriminate T|]. injection T as <-.
    split; auto. split; auto. split; [discriminate|lia].
Qed.
Lemma translated_in_step : forall t c c', translated t c = Some c' -> in_step c' /\ text c' = t.
Proof.
  intros t c c' E. unfold translated in E. destruct (parse_input t 0) as [out|] eqn:P; [|discriminate]. destruct (new_translation out) as [s|] eqn:T; injection E as <-; cbn [text can slots]; (split; [|reflexivity]).
  - split; cbn [text can slots].
    + intros s' H. apply savable_iff in H. destruct H as (out' & E' & T' & F'). assert (out' = out) by congruence. subst. split; congruence.
    + intros H. apply savable_iff. eauto.
  - split; cbn [text can slots]; [|discriminate]. intros s' H. apply savable_iff in H. destruct H as (out' & E' & T' & F'). assert (out' = out) by congruence. subst. congruence.
Qed.
Lemma translated_total : forall t c, exists c', translated t c = Some c'.
Proof. intros t c. unfold translated. destruct (C46_total t 0 ltac:(lia)) as (out & ->). destruct (new_translation out); eauto. Qed.
Lemma last_cons : forall {A} (l : list A) t d, last (t :: l) d = last l t.
Proof.
  induction l as [|a l IH]; intros t d; [reflexivity|]. change (last (t :: a :: l) d) with (last (a :: l) d). rewrite IH. symmetry. rewrite (IH a t). reflexivity.
Qed.
Lemma edits_in_step : forall l c, in_step c -> exists c', edits l c = Some c' /\ in_step c' /\ text c' = last l (text c).
Proof.
  induction l as [|t l IH]; intros c S; [exists c; auto|]. cbn [edits]. unfold edit. destruct (str_eqb t (text c)) eqn:Q.
  - apply str_eqb_eq in Q. subst t. destruct (IH c S) as (c' & E & S' & T'). exists c'. split; [exact E|]. split; [exact S'|]. rewrite T'. symmetry. apply last_cons.
  - destruct (translated_total t c) as (c1 & E1). rewrite E1. destruct (translated_in_step t c c1 E1) as (S1 & T1). destruct (IH c1 S1) as (c' & E & S' & T'). exists c'. split; [exact E|]. split; [exact S'|].
    rewrite T', T1. symmetry. apply last_cons.
Qed.
(** After any sequence of edits the Save button is enabled exactly if the text now
    in the editor assembles without errors to something that fits, and it holds
    exactly that. *)
Theorem C64_enabled : forall t l, exists c, (match opened_later t with Some c0 => edits l c0 | None => None end) = Some c /\
  text c = last l t /\ (can c = true <-> exists s, savable (last l t) s) /\ (can c = true -> savable (last l t) (slots c)).
Proof.
  intros t l. unfold opened_later. destruct (translated_total t (mkCoder t (fits []) [])) as (c0 & E0). rewrite E0. destruct (translated_in_step _ _ _ E0) as (S0 & T0).
  destruct (edits_in_step l c0 S0) as (c & E & (S1 & S2) & T). rewrite T0 in T. exists c. split; [exact E|]. split; [exact T|]. rewrite T in *. split; [|exact S2]. split; [eauto|]. intros (s & H). apply (S1 s H).
Qed.
(** The same if the editor appears together with the page, except for a text that
    does not assemble and was not edited since: then Save is enabled, with nothing
    to store. *)
Theorem C64_with_page : forall t l, exists c, (match opened_with_page t with Some c0 => edits l c0 | None => None end) = Some c /\
  text c = last l t /\
  ((can c = true <-> exists s, savable (last l t) s) /\ (can c = true -> savable (last l t) (slots c)) \/
   (forall t', In t' l -> t' = t) /\ can c = true /\ slots c = [] /\ forall s, ~ savable t s).
Proof.
  intros t l. unfold opened_with_page. destruct (C46_total t 0 ltac:(lia)) as (out & P). rewrite P. destruct (new_translation out) as [s0|] eqn:T.
  - assert (E0 : translated t (mkCoder t (fits []) []) = Some (mkCoder t (fits s0) s0)) by (unfold translated; rewrite P, T; reflexivity).
    destruct (C64_enabled t l) as (c & E & X & Y). unfold opened_later in E. rewrite E0 in E. exists c. split; [exact E|]. split; [exact X|]. left. exact Y.
  - assert (Ns : forall s, ~ savable t s). { intros s H. apply savable_iff in H. destruct H as (out' & E' & T' & _). congruence. }
    induction l as [|t' l IH].
    + exists (mkCoder t (fits []) []). split; [reflexivity|]. split; [reflexivity|]. right. split; [intros t' []|]. split; [reflexivity|]. split; [reflexivity|exact Ns].
    + cbn [edits]. unfold edit. cbn [text]. destruct (str_eqb t' t) eqn:Q.
      * apply str_eqb_eq in Q. subst t'. destruct IH as (c & E & X & Y). exists c. split; [exact E|].
        assert (Hl : last (t :: l) t = last l t) by (destruct l; reflexivity). rewrite Hl. split; [exact X|]. destruct Y as [Y|(Y1 & Y2)]; [left; exact Y|right]. split; [|exact Y2]. intros t' [<-|H]; auto.
      * destruct (translated_total t' (mkCoder t (fits []) [])) as (c1 & E1). rewrite E1. destruct (translated_in_step _ _ _ E1) as (S1 & T1).
        destruct (edits_in_step l c1 S1) as (c & E & (S2 & S3) & X). exists c. split; [exact E|]. rewrite T1 in X.
        assert (Hl : last (t' :: l) t = last l t') by apply last_cons.
        rewrite Hl. split; [exact X|]. left. rewrite X in *. split; [split; [eauto|intros (s & H); apply (S2 s H)]|exact S3].
Qed.
(** Pressing Save, after any edits of any text, from any state of the machine, is
    defined: it stores the bytes from address 0 on, touches nothing else, and leaves
    the machine ready to fetch; while disabled it does nothing. *)
Theorem C64_save : forall t l c0 c k h m, opened_later t = Some c0 \/ opened_with_page t = Some c0 -> edits l c0 = Some c -> live k h true -> obs h m ->
  exists h', press_save c h = Some h' /\ (exists k', live k' h' true) /\
    (can c = false -> h' = h) /\
    (can c = true -> (forall i, (i < List.length (slots c))%nat -> get_memory_value (Z.of_nat i) h' = option_map slot_int (nth_error (slots c) i)) /\
       (forall a, Z.of_nat (List.length (slots c)) <= a -> get_memory_value a h' = get_memory_value a h) /\
       (forall r, get_register_value r h' = get_register_value r h) /\ get_next_state h' = Some 0).
Proof.
  intros t l c0 c k h m Ho E L O. unfold press_save. destruct (can c) eqn:C; [|exists h; repeat split; eauto; discriminate].
  assert (K : slots c = [] \/ savable (last l t) (slots c)).
  { destruct Ho as [Ho|Ho].
    - destruct (C64_enabled t l) as (c' & E' & _ & _ & S). rewrite Ho, E in E'. injection E' as <-. auto.
    - destruct (C64_with_page t l) as (c' & E' & _ & [(_ & S)|(_ & _ & S & _)]); rewrite Ho, E in E'; injection E' as <-; auto. }
  assert (B : Forall slot_ok (slots c) /\ Z.of_nat (List.length (slots c)) <= 65536).
  { destruct K as [->|H]; [split; [constructor|cbn; lia]|]. split; [|destruct H as (? & ? & ? & ? & ? & H); exact H]. apply savable_iff in H. destruct H as (out & P & T & _). exact (any_text_slots _ _ _ P T). }
  destruct B as (B1 & B2).
  destruct (C42_save (map slot_int (slots c)) k h 0 m L O ltac:(lia)) as (h' & X1 & X2 & X3 & X4 & X5 & _ & X6 & _).
  { rewrite map_length. lia. }
  { intros b Hb. apply in_map_iff in Hb. destruct Hb as (s & <- & Hs). rewrite Forall_forall in B1. apply slot_ok_byte. auto. }
  rewrite map_length in *. exists h'. split; [exact X1|]. split; [eauto|]. split; [discriminate|]. intros _. split; [|split; [|auto]].
  - intros i Hi. specialize (X4 i Hi). rewrite Z.add_0_l in X4. rewrite X4. apply nth_error_map.
  - intros a Ha. apply X5. right. exact Ha.
Qed.
(** A well-formed program: Save is enabled and stores exactly its instructions. *)
Theorem C64_program : forall t l lines codes c k h m, program lines codes 0 -> last l t = text_of lines ->
  (match opened_later t with Some c0 => edits l c0 | None => None end) = Some c -> live k h true -> obs h m ->
  can c = true /\ exists h' bytes, press_save c h = Some h' /\ image (somes codes) 0 (somes codes) bytes /\ holds (seen h') 0 bytes /\
    Z.of_nat (List.length bytes) = total (somes codes) /\ (forall a, total (somes codes) <= a -> seen h' a = seen h a).
Proof.
  intros t l lines codes c k h m P Hl E L O. destruct (C42_source lines codes 0 k h m P L O) as (out & s & h' & bytes & E1 & E2 & -> & Im & Hn & Sv & _ & Ho & Hr & _).
  destruct (C64_enabled t l) as (c' & E' & _ & C1 & C2). rewrite E in E'. injection E' as <-. rewrite Hl in *.
  assert (Sb : savable (text_of lines) s). { apply savable_iff. exists out. split; auto. split; auto. unfold fits. unfold slot_values in Hn. rewrite map_length in Hn. destruct P as (_ & _ & _ & _ & _ & P). lia. }
  assert (Cc : can c = true) by (apply C1; eauto). split; [exact Cc|]. specialize (C2 Cc). apply savable_iff in C2, Sb. destruct C2 as (o1 & A1 & A2 & _), Sb as (o2 & B1 & B2 & _).
  assert (Es : slots c = s) by congruence.
  destruct P as (P1 & P2 & P3 & P4 & P5 & P6). destruct (C44_image lines codes 0 P1 P2 P3 P4 P5 P6) as (o3 & s3 & Z1 & Z2 & _ & Z4).
  assert (s3 = s) by congruence. subst s3.
  assert (Ev : map slot_int s = slot_values s).
  { unfold slot_values. apply map_ext_in. intros a Ha. rewrite Forall_forall in Z4. destruct (Z4 a Ha) as (_ & Hx). apply numeral_check in Hx. unfold slot_int. rewrite leading_hex_all by apply Hx. reflexivity. }
  exists h', (slot_values s). unfold press_save. rewrite Cc, Es, Ev. split; [exact Sv|]. split; [exact Im|]. split; [exact Ho|]. split; [exact Hn|]. intros a Ha. apply Hr. right. lia.
Qed.
(** A text with a line that is no instruction, blank or comment cannot be saved. *)
Theorem C64_refused : forall t l lines L raw c, lines_ok lines -> (forall r, In r lines -> one_line r) -> labels_of lines L -> In raw lines -> ~ blank_line raw -> ~ good_line L raw ->
  last l t = text_of lines -> (match opened_later t with Some c0 => edits l c0 | None => None end) = Some c -> can c = false.
Proof.
  intros t l lines L raw c LO OL HL Hr Nb Ng Hl E. destruct (C64_enabled t l) as (c' & E' & _ & C1 & _). rewrite E in E'. injection E' as <-. rewrite Hl in *.
  destruct (can c); [|reflexivity]. exfalso. destruct (proj1 C1 eq_refl) as (s & H). apply savable_iff in H. destruct H as (out & P & T & _).
  destruct (C46_saved lines L 0 out s LO OL HL ltac:(lia) P T raw Hr); contradiction.
Qed.
(** If page and editor appear together, Save is enabled for a text that does not
    assemble; pressing it stores nothing. *)
Theorem C64_with_page_refuted : exists c, opened_with_page (s2l "garbage") = Some c /\ can c = true /\ slots c = [] /\ (forall s, ~ savable (s2l "garbage") s) /\
  option_map can (opened_later (s2l "garbage")) = Some false.
Proof.
  eexists. split; [vm_compute; reflexivity|]. split; [reflexivity|]. split; [reflexivity|]. split; [|vm_compute; reflexivity].
  intros s (out & E & Er & _). vm_compute in E. injection E as <-. discriminate Er.
Qed.
(** A text typed, broken and repaired. *)
Example C64_nonvacuous : exists c0 c1 c2 c3, opened_later (s2l "CMA") = Some c0 /\ can c0 = true /\ slots c0 = [s2l "80"] /\
  edit (s2l "CMA X") c0 = Some c1 /\ can c1 = false /\ slots c1 = [s2l "80"] /\
  edit (s2l "MOV 10, AC") c1 = Some c2 /\ can c2 = true /\ map slot_int (slots c2) = [100; 16] /\
  edit [] c2 = Some c3 /\ can c3 = false.
Proof.
  eexists _, _, _, _. split; [vm_compute; reflexivity|]. split; [vm_compute; reflexivity|]. split; [vm_compute; reflexivity|].
  split; [vm_compute; reflexivity|]. split; [vm_compute; reflexivity|]. split; [vm_compute; reflexivity|].
  split; [vm_compute; reflexivity|]. split; [vm_compute; reflexivity|]. split; [vm_compute; reflexivity|].
  split; vm_compute; reflexivity.
Qed.

(** ** C65: a program in the URL *)
Definition fin_line : str := s2l "FIN".
Definition fin_code : code := mkCode [] FIN [].
Lemma join_snoc : forall lines x, lines <> [] -> join 10%N (lines ++ [x]) = join 10%N lines ++ 10%N :: x.
Proof.
  induction lines as [|a lines IH]; intros x N; [congruence|]. destruct lines as [|b lines]; [reflexivity|].
  change (join 10%N ((a :: b :: lines) ++ [x])) with (a ++ 10%N :: join 10%N ((b :: lines) ++ [x])). rewrite IH by discriminate.
  change (join 10%N (a :: b :: lines)) with (a ++ 10%N :: join 10%N (b :: lines)). rewrite <- app_assoc. reflexivity.
Qed.
Lemma image_snoc : forall p a q c bytes, image p a (q ++ [c]) bytes -> exists bs b, bytes = bs ++ b /\ encodes p a c b.
Proof.
  intros p a. induction q as [|x q IH]; intros c bytes H; cbn [app image] in H.
  - destruct H as (b & bs & -> & H & ->). exists [], b. rewrite app_nil_r. auto.
  - destruct H as (b & bs & -> & _ & H). destruct (IH c bs H) as (bs' & b' & -> & H'). exists (b ++ bs'), b'. rewrite app_assoc. auto.
Qed.
Lemma somes_app : forall {A} (x y : list (option A)), somes (x ++ y) = somes x ++ somes y.
Proof. intros A. induction x as [|[a|] x IH]; intros y; cbn [app somes]; [reflexivity| |]; rewrite IH; reflexivity. Qed.
Lemma fin_opcode : forall op, opcode FIN op -> op = 255.
Proof. intros op H. apply (C43_opcode_unique FIN op 255); [discriminate|exact H|]. split; [lia|reflexivity]. Qed.
(** A program given in the URL that does not end with FIN and one white-space
    character gets a last line FIN, so what is saved ends with the byte of FIN. *)
Theorem C65_appended : forall lines codes, lines <> [] -> ends_with_fin (text_of lines) = false -> program (lines ++ [fin_line]) (codes ++ [Some fin_code]) 0 ->
  from_url (text_of lines) = text_of (lines ++ [fin_line]) /\
  exists c, opened_later (from_url (text_of lines)) = Some c /\ can c = true /\ exists bytes, map slot_int (slots c) = bytes ++ [255] /\
    image (somes codes ++ [fin_code]) 0 (somes codes ++ [fin_code]) (bytes ++ [255]).
Proof.
  intros lines codes N Ef P. assert (Eu : from_url (text_of lines) = text_of (lines ++ [fin_line])).
  { unfold from_url. rewrite Ef. unfold text_of. rewrite join_snoc by exact N. reflexivity. }
  split; [exact Eu|]. rewrite Eu. clear Eu. pose proof P as (P1 & P2 & P3 & P4 & P5 & P6). destruct (C44_image _ _ 0 P1 P2 P3 P4 P5 P6) as (out & s & E1 & E2 & Im & Hx).
  pose proof (image_total _ _ _ _ Im) as Tl. rewrite somes_app in *. change (somes [Some fin_code]) with [fin_code] in *.
  unfold opened_later, translated. rewrite E1, E2. eexists. split; [reflexivity|]. cbn [can slots]. split.
  { unfold fits. unfold slot_values in Tl. rewrite map_length in Tl. lia. }
  destruct (image_snoc _ _ _ _ _ Im) as (bs & b & Eb & (op & Ho & Eo)). apply fin_opcode in Ho. subst op. cbn in Eo. subst b. exists bs.
  assert (Ev : map slot_int s = slot_values s).
  { unfold slot_values. apply map_ext_in. intros a Ha. rewrite Forall_forall in Hx. destruct (Hx a Ha) as (_ & X). apply numeral_check in X. unfold slot_int. rewrite leading_hex_all by apply X. reflexivity. }
  rewrite Ev, <- Eb. auto.
Qed.
(** Any other text is left as it is. *)
Theorem C65_kept : forall t f i n w, is_ws w = true -> upper [f; i; n] = s2l "FIN" -> from_url (t ++ [f; i; n; w]) = t ++ [f; i; n; w].
Proof.
  intros t f i n w W U. unfold from_url, ends_with_fin. rewrite rev_app_distr. cbn [rev app]. rewrite W, U. rewrite str_eqb_refl. reflexivity.
Qed.
(** But a comment that ends so is taken for FIN: this program is saved without one. *)
Theorem C65_comment_refuted : let t := s2l "CMA # FIN " in from_url t = t /\
  exists c, opened_later t = Some c /\ can c = true /\ map slot_int (slots c) = [128].
Proof. split; [vm_compute; reflexivity|]. eexists. split; [vm_compute; reflexivity|]. split; vm_compute; reflexivity. Qed.
Example C65_nonvacuous : ends_with_fin (text_of [s2l "CMA"]) = false /\ program ([s2l "CMA"] ++ [fin_line]) ([Some (mkCode [] CMA [])] ++ [Some fin_code]) 0.
Proof.
  split; [reflexivity|]. split. { cbn [app]. split; [discriminate|]. intros l [<-|[<-|[]]]; no_newline. }
  split. { cbn [app]. constructor; [|constructor; [|constructor]]; (eapply core_written; [reflexivity|reflexivity|]; apply plain_code; vm_compute; reflexivity). }
  split. { intros c Hc. cbn in Hc. destruct Hc as [<-|[<-|[]]]; (split; [exact I|intros (X & _); discriminate X]). }
  split; [discriminate|]. split; [lia|vm_compute; discriminate].
Qed.
Print Assumptions C64_enabled.
Print Assumptions C64_with_page.
Print Assumptions C64_save.
Print Assumptions C64_program.
Print Assumptions C64_refused.
Print Assumptions C64_with_page_refuted.
Print Assumptions C65_appended.
Print Assumptions C65_kept.
Print Assumptions C65_comment_refuted.
