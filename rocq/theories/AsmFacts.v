(** * Facts about the assembler model *)
From Coq Require Import String ZArith NArith List Bool Lia ZifyBool ZifyN.
From Verif Require Import JsStr AsmTable Asm Isa AsmSpec AsmRe AsmLine.
Import ListNotations.
Open Scope Z_scope.

(** ** Numerals *)
Lemma parse_hex_acc : forall s a, fold_left (fun a c => 16 * a + match digit c with Some d => d | None => 0 end) s a
  = a * 16 ^ Z.of_nat (List.length s) + numeral_value s.
Proof.
  induction s as [|c s IH]; intros a; cbn [fold_left numeral_value List.length].
  - cbn. lia.
  - rewrite IH. rewrite Nat2Z.inj_succ, Z.pow_succ_r by lia. destruct (digit c); ring.
Qed.
Lemma parse_hex_value : forall s, parse_hex s = numeral_value s.
Proof. intros. unfold parse_hex. rewrite parse_hex_acc. lia. Qed.
Lemma digit_range : forall c d, digit c = Some d -> 0 <= d <= 15.
Proof.
  intros c d. unfold digit. destruct ((48 <=? c) && (c <=? 57))%N eqn:E1; [intros H; injection H as <-; lia|].
  destruct ((65 <=? c) && (c <=? 70))%N eqn:E2; [intros H; injection H as <-; lia|].
  destruct ((97 <=? c) && (c <=? 102))%N eqn:E3; [intros H; injection H as <-; lia|discriminate].
Qed.
Lemma numeral_nonneg : forall s, 0 <= numeral_value s.
Proof.
  induction s as [|c s IH]; cbn [numeral_value]; [lia|]. destruct (digit c) eqn:E; [|lia]. apply digit_range in E.
  assert (0 <= 16 ^ Z.of_nat (List.length s)) by (apply Z.pow_nonneg; lia). nia.
Qed.
Lemma check_is_hex_iff : forall s, check_is_hex s = true <-> forall c, In c s -> digit c <> None.
Proof.
  intros s. unfold check_is_hex. rewrite forallb_forall. split; intros H c Hc; specialize (H c Hc); destruct (digit c); congruence.
Qed.
Lemma numeral_check : forall s, numeral s <-> s <> [] /\ check_is_hex s = true.
Proof. intros. unfold numeral. rewrite check_is_hex_iff. tauto. Qed.

(** [toString(16)] and back. *)
Lemma digit_hex_digit : forall d, 0 <= d <= 15 -> digit (hex_digit d) = Some d.
Proof.
  intros d H. unfold hex_digit. destruct (d <? 10) eqn:E; unfold digit.
  - replace ((48 <=? Z.to_N (48 + d)) && (Z.to_N (48 + d) <=? 57))%N with true by lia. f_equal. lia.
  - replace ((48 <=? Z.to_N (87 + d)) && (Z.to_N (87 + d) <=? 57))%N with false by lia.
    replace ((65 <=? Z.to_N (87 + d)) && (Z.to_N (87 + d) <=? 70))%N with false by lia.
    replace ((97 <=? Z.to_N (87 + d)) && (Z.to_N (87 + d) <=? 102))%N with true by lia. f_equal. lia.
Qed.
Lemma digit_up : forall c, digit (up c) = digit c.
Proof.
  intros c. unfold up. destruct ((97 <=? c) && (c <=? 122))%N eqn:E; auto. unfold digit.
  replace ((48 <=? c - 32) && (c - 32 <=? 57))%N with false by lia. replace ((48 <=? c) && (c <=? 57))%N with false by lia.
  replace ((65 <=? c) && (c <=? 70))%N with false by lia.
  replace ((97 <=? c - 32) && (c - 32 <=? 102))%N with false by lia.
  destruct ((97 <=? c) && (c <=? 102))%N eqn:E2.
  - replace ((65 <=? c - 32) && (c - 32 <=? 70))%N with true by lia. f_equal. lia.
  - replace ((65 <=? c - 32) && (c - 32 <=? 70))%N with false by lia. reflexivity.
Qed.
Lemma value_app : forall s t, numeral_value (s ++ t) = numeral_value s * 16 ^ Z.of_nat (List.length t) + numeral_value t.
Proof.
  induction s as [|c s IH]; intros t; cbn [app numeral_value]; [lia|]. rewrite IH, app_length, Nat2Z.inj_add, Z.pow_add_r by lia.
  destruct (digit c); ring.
Qed.
Lemma value_upper : forall s, numeral_value (upper s) = numeral_value s.
Proof. induction s as [|c s IH]; cbn [upper map numeral_value]; auto. fold (upper s). rewrite IH, digit_up. unfold upper. rewrite map_length. reflexivity. Qed.
Lemma hex_upper : forall s, check_is_hex (upper s) = check_is_hex s.
Proof. induction s as [|c s IH]; cbn; auto. rewrite digit_up. f_equal. exact IH. Qed.
Lemma value_zeros : forall n s, numeral_value (repeat 48%N n ++ s) = numeral_value s.
Proof.
  intros n s. rewrite value_app. assert (H : numeral_value (repeat 48%N n) = 0).
  { induction n as [|n IH]; [reflexivity|]. cbn [repeat numeral_value]. rewrite IH. change (digit 48) with (Some 0). cbv iota beta. lia. }
  rewrite H. lia.
Qed.
Lemma hex_zeros : forall n s, check_is_hex (repeat 48%N n ++ s) = check_is_hex s.
Proof. induction n; intros; cbn [repeat app]; auto. cbn. apply IHn. Qed.

Lemma hex_digits_spec : forall f v acc, 0 <= v -> v < 16 ^ Z.of_nat f -> (0 < f)%nat ->
  numeral_value (hex_digits f v acc) = v * 16 ^ Z.of_nat (List.length acc) + numeral_value acc /\
  (check_is_hex acc = true -> check_is_hex (hex_digits f v acc) = true).
Proof.
  induction f as [|f IH]; intros v acc Hv Hf F; [lia|]. cbn [hex_digits].
  assert (M : 0 <= v mod 16 <= 15) by (pose proof (Z.mod_pos_bound v 16); lia).
  pose proof (Z.div_mod v 16 ltac:(lia)) as D.
  destruct (v / 16 =? 0) eqn:E.
  - cbn [numeral_value]. rewrite digit_hex_digit by auto. split; [apply Z.eqb_eq in E; rewrite E in D; rewrite D at 2; ring_simplify; f_equal; f_equal; lia|].
    intros H. cbn. rewrite digit_hex_digit by auto. exact H.
  - assert (f <> 0%nat). { intros ->. change (16 ^ Z.of_nat 1) with 16 in Hf. rewrite (Z.div_small v 16) in E by lia. discriminate. }
    destruct (IH (v / 16) (hex_digit (v mod 16) :: acc)) as (A & B); [apply Z.div_pos; lia| |lia|].
    { apply Z.div_lt_upper_bound; [lia|]. rewrite Nat2Z.inj_succ, Z.pow_succ_r in Hf by lia. exact Hf. }
    split.
    + rewrite A. cbn [numeral_value List.length]. rewrite digit_hex_digit by auto. rewrite Nat2Z.inj_succ, Z.pow_succ_r by lia. rewrite D at 3. ring.
    + intros H0. apply B. cbn. rewrite digit_hex_digit by auto. exact H0.
Qed.
Lemma log_bound : forall v, 0 <= v -> v < 16 ^ Z.of_nat (S (Z.to_nat (Z.log2 v))).
Proof.
  intros v H. pose proof (Z.log2_nonneg v). rewrite Nat2Z.inj_succ, Z2Nat.id by lia.
  destruct (Z.eq_dec v 0) as [->|N]; [cbn; lia|]. pose proof (Z.log2_spec v ltac:(lia)) as (_ & U).
  eapply Z.lt_le_trans; [exact U|]. apply Z.pow_le_mono_l. lia.
Qed.
Lemma to_hex_value : forall v, 0 <= v -> numeral_value (to_hex v) = v.
Proof.
  intros v H. unfold to_hex. destruct (v <? 0) eqn:E; [lia|]. destruct (hex_digits_spec (S (Z.to_nat (Z.log2 v))) v []) as (A & _); auto using log_bound; try lia.
  rewrite A. cbn. lia.
Qed.
Lemma to_hex_hex : forall v, 0 <= v -> check_is_hex (to_hex v) = true.
Proof.
  intros v H. unfold to_hex. destruct (v <? 0) eqn:E; [lia|]. destruct (hex_digits_spec (S (Z.to_nat (Z.log2 v))) v []) as (_ & B); auto using log_bound; lia.
Qed.
(** How many digits. *)
Lemma hex_digits_len : forall f v acc n, 0 <= v -> v < 16 ^ Z.of_nat (S n) -> (List.length (hex_digits f v acc) <= S n + List.length acc)%nat.
Proof.
  induction f as [|f IH]; intros v acc n Hv Hn; cbn [hex_digits]; [lia|].
  destruct (v / 16 =? 0) eqn:E; [cbn; lia|]. destruct n as [|n].
  - change (16 ^ Z.of_nat 1) with 16 in Hn. rewrite Z.div_small in E by lia. discriminate.
  - specialize (IH (v / 16) (hex_digit (v mod 16) :: acc) n). cbn [List.length] in IH. rewrite Nat2Z.inj_succ, Z.pow_succ_r in Hn by lia.
    assert (v / 16 < 16 ^ Z.of_nat (S n)) by (apply Z.div_lt_upper_bound; lia). assert (0 <= v / 16) by (apply Z.div_pos; lia). lia.
Qed.
Lemma to_hex_len : forall v n, 0 <= v -> v < 16 ^ Z.of_nat (S n) -> (List.length (to_hex v) <= S n)%nat.
Proof.
  intros v n H Hn. unfold to_hex. destruct (v <? 0) eqn:E; [lia|]. pose proof (hex_digits_len (S (Z.to_nat (Z.log2 v))) v [] n H Hn). cbn [List.length] in *. lia.
Qed.
Lemma pad_len : forall n s, (List.length s <= n)%nat -> List.length (pad_start n s) = n.
Proof. intros. unfold pad_start. rewrite app_length, repeat_length. lia. Qed.

(** A number padded to two digits, and one padded to four and cut in two. *)
Lemma hex_firstn : forall n s, check_is_hex s = true -> check_is_hex (firstn n s) = true.
Proof. intros n s H. rewrite check_is_hex_iff in *. intros c Hc. apply H. rewrite <- (firstn_skipn n s). apply in_or_app. auto. Qed.
Lemma hex_skipn : forall n s, check_is_hex s = true -> check_is_hex (skipn n s) = true.
Proof. intros n s H. rewrite check_is_hex_iff in *. intros c Hc. apply H. rewrite <- (firstn_skipn n s). apply in_or_app. auto. Qed.
Lemma value_bound : forall s, check_is_hex s = true -> numeral_value s < 16 ^ Z.of_nat (List.length s).
Proof.
  induction s as [|c s IH]; cbn [numeral_value List.length]; intros H; [cbn; lia|]. cbn in H. apply andb_true_iff in H. destruct H as (Hc & Hs).
  specialize (IH Hs). destruct (digit c) eqn:E; [|discriminate]. apply digit_range in E. rewrite Nat2Z.inj_succ, Z.pow_succ_r by lia. nia.
Qed.
Lemma pad2 : forall v, 0 <= v <= 255 -> let h := pad_start 2 (to_hex v) in
  firstn 2 h = h /\ List.length h = 2%nat /\ check_is_hex h = true /\ numeral_value h = v.
Proof.
  intros v H h. assert (L : List.length h = 2%nat). { apply pad_len. apply (to_hex_len v 1); [lia|]. change (16 ^ Z.of_nat 2) with 256. lia. }
  split; [rewrite <- L; apply firstn_all|]. split; auto. unfold h, pad_start. rewrite hex_zeros, value_zeros. split; [apply to_hex_hex|apply to_hex_value]; lia.
Qed.
Lemma four_split : forall h v, List.length h = 4%nat -> check_is_hex h = true -> numeral_value h = v ->
  List.length (firstn 2 h) = 2%nat /\ List.length (skipn 2 h) = 2%nat /\
  check_is_hex (firstn 2 h) = true /\ check_is_hex (skipn 2 h) = true /\
  numeral_value (firstn 2 h) = v / 256 /\ numeral_value (skipn 2 h) = v mod 256.
Proof.
  intros h v L H V.
  assert (L1 : List.length (firstn 2 h) = 2%nat) by (rewrite firstn_length; lia).
  assert (L2 : List.length (skipn 2 h) = 2%nat) by (rewrite skipn_length; lia).
  assert (H2 : check_is_hex (skipn 2 h) = true) by (apply hex_skipn; auto).
  repeat split; auto; [apply hex_firstn; auto| |].
  all: pose proof (value_app (firstn 2 h) (skipn 2 h)) as E; rewrite firstn_skipn, L2, V in E; change (16 ^ Z.of_nat 2) with 256 in E;
    pose proof (value_bound _ H2) as B; rewrite L2 in B; change (16 ^ Z.of_nat 2) with 256 in B; pose proof (numeral_nonneg (skipn 2 h)).
  - apply (Z.div_unique v 256 (numeral_value (firstn 2 h)) (numeral_value (skipn 2 h))); lia.
  - apply (Z.mod_unique v 256 (numeral_value (firstn 2 h)) (numeral_value (skipn 2 h))); lia.
Qed.
Lemma pad4 : forall v, 0 <= v <= 65535 -> let h := pad_start 4 (to_hex v) in
  List.length h = 4%nat /\ check_is_hex h = true /\ numeral_value h = v.
Proof.
  intros v H h. split. { apply pad_len. apply (to_hex_len v 3); [lia|]. change (16 ^ Z.of_nat 4) with 65536. lia. }
  unfold h, pad_start. rewrite hex_zeros, value_zeros. split; [apply to_hex_hex|apply to_hex_value]; lia.
Qed.
Lemma eti_hex4 : forall v, 0 <= v <= 65535 -> List.length (eti_dir_hex v) = 4%nat /\ check_is_hex (eti_dir_hex v) = true /\ numeral_value (eti_dir_hex v) = v.
Proof.
  intros v H. unfold eti_dir_hex. split. { apply pad_len. unfold upper. rewrite map_length. apply (to_hex_len v 3); [lia|]. change (16 ^ Z.of_nat 4) with 65536. lia. }
  unfold pad_start. rewrite hex_zeros, value_zeros, hex_upper, value_upper. split; [apply to_hex_hex|apply to_hex_value]; lia.
Qed.
Lemma pairs4 : forall h, List.length h = 4%nat -> pairs h = [firstn 2 h; skipn 2 h].
Proof. intros h L. destruct h as [|a [|b [|c [|d [|]]]]]; try discriminate. reflexivity. Qed.
Lemma T_not_hex : forall s, hd_error s = Some T_CHAR -> check_is_hex s = false.
Proof. intros [|c s] H; [discriminate|]. injection H as ->. reflexivity. Qed.
