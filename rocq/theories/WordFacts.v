(** * Lemmas about [Word.v] *)
From Coq Require Import ZArith List Bool Lia.
From Coq Require Import ZifyBool ZifyNat.
From Verif Require Import Word.
Import ListNotations.
Open Scope Z_scope.

(** Value of a little-endian list of bits. *)
Fixpoint bval (w : Word) : Z :=
  match w with [] => 0 | b :: w' => Z.b2z b + 2 * bval w' end.

Lemma bval_bound : forall w, 0 <= bval w < 2 ^ Z.of_nat (length w).
Proof.
  induction w as [|b w IH]; cbn [bval length].
  - change (2 ^ Z.of_nat 0) with 1. lia.
  - rewrite Nat2Z.inj_succ, Z.pow_succ_r by lia. destruct b; cbn [Z.b2z]; lia.
Qed.

Lemma bval_app : forall w1 w2, bval (w1 ++ w2) = bval w1 + 2 ^ Z.of_nat (length w1) * bval w2.
Proof.
  induction w1 as [|b w IH]; intros; cbn [bval app length].
  - change (2 ^ Z.of_nat 0) with 1. lia.
  - rewrite IH, Nat2Z.inj_succ, Z.pow_succ_r by lia. lia.
Qed.

Lemma bval_testbit : forall w i, Z.testbit (bval w) (Z.of_nat i) = bit w i.
Proof.
  unfold bit. induction w as [|b w IH]; intros i; cbn [bval].
  - rewrite Z.bits_0. destruct i; reflexivity.
  - destruct i as [|i].
    + change (Z.of_nat 0) with 0.
      rewrite Z.bit0_odd, Z.odd_add_mul_2.
      destruct b; reflexivity.
    + rewrite Nat2Z.inj_succ. cbn [nth].
      rewrite <- IH. rewrite Z.add_comm.
      rewrite Z.testbit_succ_r by lia. reflexivity.
Qed.

(** Two words of the same length with the same cells are equal. *)
Lemma word_ext : forall w1 w2 : Word, length w1 = length w2 ->
  (forall i, (i < length w1)%nat -> bit w1 i = bit w2 i) -> w1 = w2.
Proof.
  intros w1 w2 Hl H. apply (nth_ext _ _ false false Hl). exact H.
Qed.

Lemma bval_inj : forall w1 w2 : Word, length w1 = length w2 -> bval w1 = bval w2 -> w1 = w2.
Proof.
  intros w1 w2 Hl Hv. apply word_ext; auto. intros.
  rewrite <- !bval_testbit, Hv. reflexivity.
Qed.

Lemma length_int_to_word : forall v, length (int_to_word v) = 32%nat.
Proof. intros. unfold int_to_word. rewrite map_length, seq_length. reflexivity. Qed.

Lemma length_zero_word : length zero_word = 32%nat.
Proof. reflexivity. Qed.

Lemma length_setbit : forall w i b, length (setbit w i b) = length w.
Proof. induction w; destruct i; cbn; intros; auto. Qed.

Lemma bit_setbit_same : forall w i b, (i < length w)%nat -> bit (setbit w i b) i = b.
Proof.
  unfold bit. induction w; destruct i; cbn; intros; try lia; auto with arith.
Qed.

Lemma bit_setbit_other : forall w i j b, i <> j -> bit (setbit w i b) j = bit w j.
Proof.
  unfold bit. induction w; destruct i, j; cbn; intros; try lia; auto with arith.
Qed.

Lemma bit_setbit : forall w i j b, (i < length w)%nat ->
  bit (setbit w i b) j = if Nat.eqb i j then b else bit w j.
Proof.
  intros. destruct (Nat.eqb_spec i j).
  - subst. apply bit_setbit_same; auto.
  - apply bit_setbit_other; auto.
Qed.

Lemma bit_int_to_word : forall v i, (i < 32)%nat -> bit (int_to_word v) i = Z.testbit v (Z.of_nat i).
Proof.
  intros. unfold bit, int_to_word.
  rewrite nth_indep with (d' := get_bit v 0%nat) by (rewrite map_length, seq_length; exact H).
  rewrite map_nth with (d := 0%nat). rewrite seq_nth by exact H. reflexivity.
Qed.

Lemma bit_high : forall w i, (length w <= i)%nat -> bit w i = false.
Proof. intros. unfold bit. apply nth_overflow. exact H. Qed.

Lemma bit_zero_word : forall i, bit zero_word i = false.
Proof. intros. unfold bit, zero_word. apply nth_repeat. Qed.

(** The value of [int_to_word v] is [v] modulo 2^32. *)
Lemma bval_int_to_word : forall v, bval (int_to_word v) = v mod 2 ^ 32.
Proof.
  intros. apply Z.bits_inj'. intros n Hn.
  rewrite <- (Z2Nat.id n Hn). rewrite bval_testbit.
  destruct (le_lt_dec 32 (Z.to_nat n)) as [H|H].
  - rewrite bit_high by (rewrite length_int_to_word; exact H).
    rewrite Z.mod_pow2_bits_high; auto. lia.
  - rewrite bit_int_to_word by exact H.
    rewrite Z.mod_pow2_bits_low; auto. lia.
Qed.

Lemma int_to_word_bval : forall w, length w = 32%nat -> int_to_word (bval w) = w.
Proof.
  intros. apply bval_inj.
  - rewrite length_int_to_word; auto.
  - rewrite bval_int_to_word. apply Z.mod_small.
    pose proof (bval_bound w). rewrite H in H0. exact H0.
Qed.

Lemma int_to_word_mod : forall a b, a mod 2 ^ 32 = b mod 2 ^ 32 -> int_to_word a = int_to_word b.
Proof.
  intros. apply bval_inj.
  - rewrite !length_int_to_word; auto.
  - rewrite !bval_int_to_word. exact H.
Qed.

Lemma int_to_word_0 : int_to_word 0 = zero_word.
Proof. reflexivity. Qed.

(** [word_to_int] *)
Lemma w2i_step_spec : forall v b, 0 <= v -> 2 * v <= INT_MAX ->
  w2i_step (Some v) b = Some (2 * v + Z.b2z b).
Proof.
  intros. unfold w2i_step.
  destruct (Z.leb_spec (2 * v) INT_MAX); try lia.
  f_equal. rewrite Z.shiftl_mul_pow2 by lia. change (2 ^ 1) with 2.
  rewrite Z.mul_comm.
  rewrite <- Z.lxor_lor; [rewrite <- Z.add_nocarry_lxor|]; auto.
  - apply Z.bits_inj'. intros n Hn. rewrite Z.land_spec, Z.bits_0.
    destruct (Z.eq_dec n 0).
    + subst. rewrite Z.testbit_even_0. reflexivity.
    + assert (Z.testbit (Z.b2z b) n = false) as ->.
      { destruct b; cbn [Z.b2z]; [|apply Z.bits_0].
        destruct n; try lia; reflexivity. }
      apply andb_false_r.
  - apply Z.bits_inj'. intros n Hn. rewrite Z.land_spec, Z.bits_0.
    destruct (Z.eq_dec n 0).
    + subst. rewrite Z.testbit_even_0. reflexivity.
    + assert (Z.testbit (Z.b2z b) n = false) as ->.
      { destruct b; cbn [Z.b2z]; [|apply Z.bits_0].
        destruct n; try lia; reflexivity. }
      apply andb_false_r.
Qed.

Lemma w2i_fold_none : forall r, fold_left w2i_step r None = None.
Proof. induction r; cbn; auto. Qed.

Lemma w2i_fold : forall r v, 0 <= v <= INT_MAX ->
  fold_left w2i_step r (Some v) =
  (if v * 2 ^ Z.of_nat (length r) + bval (rev r) <=? INT_MAX
   then Some (v * 2 ^ Z.of_nat (length r) + bval (rev r)) else None).
Proof.
  induction r as [|b r IH]; intros v Hv; cbn [fold_left length rev].
  - change (2 ^ Z.of_nat 0) with 1. cbn [bval].
    destruct (Z.leb_spec (v * 1 + 0) INT_MAX); try lia. f_equal; lia.
  - rewrite bval_app, rev_length. cbn [bval].
    rewrite Nat2Z.inj_succ, Z.pow_succ_r by lia.
    pose proof (bval_bound (rev r)) as Hb. rewrite rev_length in Hb.
    set (p := 2 ^ Z.of_nat (length r)) in *.
    assert (0 < p) by (apply Z.pow_pos_nonneg; lia).
    destruct (Z.leb_spec (2 * v) INT_MAX).
    + rewrite w2i_step_spec by lia.
      rewrite IH; [|unfold INT_MAX in *; destruct b; cbn [Z.b2z]; lia].
      replace ((2 * v + Z.b2z b) * p + bval (rev r))
        with (v * (2 * p) + (bval (rev r) + p * (Z.b2z b + 2 * 0))) by ring.
      reflexivity.
    + unfold w2i_step at 2. destruct (Z.leb_spec (2 * v) INT_MAX); try lia.
      rewrite w2i_fold_none.
      destruct (Z.leb_spec (v * (2 * p) + (bval (rev r) + p * (Z.b2z b + 2 * 0))) INT_MAX); auto.
      exfalso. destruct b; cbn [Z.b2z] in *; nia.
Qed.

Lemma word_to_int_spec : forall w, length w = 32%nat ->
  word_to_int w = if bval w <=? INT_MAX then Some (bval w) else None.
Proof.
  intros w Hw. unfold word_to_int.
  destruct (rev w) as [|b r] eqn:E.
  - apply (f_equal (@length _)) in E. rewrite rev_length in E. cbn in E. lia.
  - rewrite w2i_fold by (destruct b; cbn; unfold INT_MAX; lia).
    assert (w = rev r ++ [b]) as ->.
    { rewrite <- (rev_involutive w), E. reflexivity. }
    rewrite bval_app, rev_length. cbn [bval].
    replace (Z.b2z b * 2 ^ Z.of_nat (length r) + bval (rev r))
      with (bval (rev r) + 2 ^ Z.of_nat (length r) * (Z.b2z b + 2 * 0)) by ring.
    reflexivity.
Qed.

Lemma word_to_int_i2w : forall v, 0 <= v <= INT_MAX -> word_to_int (int_to_word v) = Some v.
Proof.
  intros. rewrite word_to_int_spec by apply length_int_to_word.
  rewrite bval_int_to_word, Z.mod_small by (unfold INT_MAX in *; lia).
  destruct (Z.leb_spec v INT_MAX); auto; lia.
Qed.

Lemma word_to_int_top : forall w, length w = 32%nat -> bit w 31 = true -> word_to_int w = None.
Proof.
  intros. rewrite word_to_int_spec by auto.
  destruct (Z.leb_spec (bval w) INT_MAX); auto.
  exfalso. rewrite <- bval_testbit in H0.
  pose proof (bval_bound w) as Hb.
  rewrite Z.testbit_true in H0 by lia.
  rewrite Z.div_small in H0; [discriminate|]. unfold INT_MAX in *. lia.
Qed.

Lemma word_to_int_some : forall w, length w = 32%nat -> bit w 31 = false ->
  word_to_int w = Some (bval w).
Proof.
  intros. rewrite word_to_int_spec by auto.
  destruct (Z.leb_spec (bval w) INT_MAX); auto.
  exfalso. rewrite <- bval_testbit in H0.
  pose proof (bval_bound w) as Hb. rewrite H in Hb.
  apply Z.testbit_false in H0; try lia.
  unfold INT_MAX in *. change (Z.of_nat 32) with 32 in Hb. change (Z.of_nat 31) with 31 in H0.
  assert (1 <= bval w / 2 ^ 31 < 2).
  { split. apply Z.div_le_lower_bound; lia. apply Z.div_lt_upper_bound; lia. }
  assert (bval w / 2 ^ 31 = 1) by lia. rewrite H3 in H0. discriminate.
Qed.

(** [get_used_bits] *)
Lemma used_bits_from_spec : forall w i acc n, acc <= i ->
  (used_bits_from w i acc <= n <->
   (acc <= n /\ forall k, (k < length w)%nat -> bit w k = true -> i + Z.of_nat k + 1 <= n)).
Proof.
  induction w as [|b w IH]; intros i acc n Ha; cbn [used_bits_from length].
  - split; [intros; split; auto; intros; lia | tauto].
  - rewrite IH by (destruct b; lia). split.
    + intros [H1 H2]. split; [destruct b; lia|].
      intros [|k] Hk Hb.
      * unfold bit in Hb. cbn in Hb. subst. lia.
      * specialize (H2 k ltac:(lia) Hb). lia.
    + intros [H1 H2]. split.
      * destruct b; auto. specialize (H2 0%nat ltac:(lia) eq_refl). lia.
      * intros k Hk Hb. specialize (H2 (S k) ltac:(lia) Hb). lia.
Qed.

Lemma get_used_bits_le : forall w n, 0 <= n ->
  (get_used_bits w <= n <-> bval w < 2 ^ n).
Proof.
  intros w n Hn. unfold get_used_bits. rewrite used_bits_from_spec by lia. split.
  - intros [_ H].
    destruct (Z.lt_ge_cases (bval w) (2 ^ n)); auto. exfalso.
    assert (0 < 2 ^ n) by (apply Z.pow_pos_nonneg; lia).
    set (m := Z.log2 (bval w)).
    assert (n <= m). { apply Z.log2_le_pow2 in H0; auto; lia. }
    assert (Hb : Z.testbit (bval w) m = true) by (apply Z.bit_log2; lia).
    rewrite <- (Z2Nat.id m) in Hb by lia. rewrite bval_testbit in Hb.
    destruct (le_lt_dec (length w) (Z.to_nat m)).
    + rewrite bit_high in Hb by auto. discriminate.
    + specialize (H (Z.to_nat m) l Hb). lia.
  - intros H. split; [lia|]. intros k Hk Hb.
    destruct (Z.le_gt_cases (0 + Z.of_nat k + 1) n); auto. exfalso.
    rewrite <- bval_testbit in Hb.
    pose proof (bval_bound w).
    rewrite Z.testbit_true in Hb by lia.
    rewrite Z.div_small in Hb; [discriminate|].
    split; [lia|]. apply Z.lt_le_trans with (2 ^ n); auto.
    apply Z.pow_le_mono_r; lia.
Qed.

Lemma get_used_bits_i2w : forall v n, 0 <= n ->
  (get_used_bits (int_to_word v) <= n <-> v mod 2 ^ 32 < 2 ^ n).
Proof. intros. rewrite get_used_bits_le by auto. rewrite bval_int_to_word. tauto. Qed.
