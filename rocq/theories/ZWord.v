(** * Word-level facts used by [ZRefine.v] *)
From Coq Require Import ZArith List Bool Lia.
From Coq Require Import ZifyBool ZifyNat.
From Verif Require Import Word WordFacts Prog Tables Components Machine ZMachine.
Import ListNotations.
Open Scope Z_scope.

(** ** Word-level facts *)

Lemma length_fold_setbit : forall (f : nat -> nat) (g : nat -> bool) l w,
  length (fold_left (fun acc i => setbit acc (f i) (g i)) l w) = length w.
Proof.
  induction l; cbn; intros; auto. rewrite IHl, length_setbit. reflexivity.
Qed.

Lemma length_copy_bits : forall dst d src s n, length (copy_bits dst d src s n) = length dst.
Proof. intros. apply length_fold_setbit. Qed.

Lemma bit_copy_bits : forall n dst d src s j, (d + n <= length dst)%nat ->
  bit (copy_bits dst d src s n) j =
  if (d <=? j)%nat && (j <? d + n)%nat then bit src (s + (j - d)) else bit dst j.
Proof.
  induction n; intros.
  - unfold copy_bits. cbn [seq fold_left].
    destruct ((d <=? j)%nat && (j <? d + 0)%nat) eqn:E; auto. lia.
  - unfold copy_bits. rewrite seq_S, fold_left_app. cbn [fold_left].
    change (fold_left _ (seq 0 n) dst) with (copy_bits dst d src s n).
    rewrite bit_setbit by (rewrite length_copy_bits; lia).
    rewrite IHn by lia. rewrite Nat.add_0_l.
    destruct (Nat.eqb_spec (d + n) j).
    + subst. replace (d <=? d + n)%nat with true by (symmetry; apply Nat.leb_le; lia).
      replace (d + n <? d + S n)%nat with true by (symmetry; apply Nat.ltb_lt; lia).
      cbn. f_equal. lia.
    + replace (j <? d + S n)%nat with (j <? d + n)%nat.
      2: { destruct (Nat.ltb_spec j (d + n)), (Nat.ltb_spec j (d + S n)); auto; lia. }
      reflexivity.
Qed.

Lemma testbit_add_low : forall n l h i, 0 <= l < 2 ^ n -> 0 <= i < n ->
  Z.testbit (l + h * 2 ^ n) i = Z.testbit l i.
Proof.
  intros. rewrite <- (Z.mod_pow2_bits_low (l + h * 2 ^ n) n i) by lia.
  rewrite Z.mod_add by lia. rewrite Z.mod_small by lia. reflexivity.
Qed.

Lemma testbit_add_high : forall n l h i, 0 <= l < 2 ^ n -> 0 <= n <= i ->
  Z.testbit (l + h * 2 ^ n) i = Z.testbit h (i - n).
Proof.
  intros. replace i with (i - n + n) at 1 by lia.
  rewrite <- Z.div_pow2_bits by lia.
  f_equal. rewrite Z.div_add by lia. rewrite Z.div_small by lia. lia.
Qed.

Lemma testbit_small : forall v n i, 0 <= v < 2 ^ n -> 0 <= n <= i -> Z.testbit v i = false.
Proof.
  intros. rewrite <- (Z.mod_small v (2 ^ n)) by lia.
  apply Z.mod_pow2_bits_high. lia.
Qed.

Lemma i2w_ext : forall w v, length w = 32%nat ->
  (forall i, (i < 32)%nat -> bit w i = Z.testbit v (Z.of_nat i)) -> w = int_to_word v.
Proof.
  intros. apply word_ext.
  - rewrite length_int_to_word. auto.
  - intros. rewrite bit_int_to_word by lia. apply H0. lia.
Qed.

Lemma clear_high_i2w : forall r, clear_high (int_to_word r) = int_to_word (r mod 256).
Proof.
  intros. apply i2w_ext.
  - unfold clear_high. rewrite (length_fold_setbit (fun i => i) (fun _ => false)).
    apply length_int_to_word.
  - intros i Hi. change 256 with (2 ^ 8).
    assert (bit (clear_high (int_to_word r)) i = if (8 <=? i)%nat then false else Z.testbit r (Z.of_nat i)) as ->.
    { rewrite <- (bit_int_to_word r i Hi).
      unfold clear_high.
      assert (length (int_to_word r) = 32%nat) as Hl by apply length_int_to_word.
      revert Hl. generalize (int_to_word r) as w. intros w Hl.
      do 33 (destruct w as [|? w]; try discriminate Hl).
      do 32 (destruct i as [|i]; [reflexivity|]). lia. }
    destruct (Nat.leb_spec 8 i).
    + rewrite Z.mod_pow2_bits_high by lia. reflexivity.
    + rewrite Z.mod_pow2_bits_low by lia. reflexivity.
Qed.

(** low byte from [l], next byte from [h] *)
Lemma copy_hl : forall l h, 0 <= l < 256 -> 0 <= h < 256 ->
  copy_bits (copy_bits zero_word 0 (int_to_word l) 0 8) 8 (int_to_word h) 0 8
  = int_to_word (l + h * 256).
Proof.
  intros. apply i2w_ext.
  - rewrite !length_copy_bits. reflexivity.
  - intros i Hi.
    rewrite bit_copy_bits by (rewrite length_copy_bits; cbn; lia).
    rewrite bit_copy_bits by (cbn; lia). rewrite bit_zero_word.
    change 256 with (2 ^ 8) in *.
    destruct ((8 <=? i)%nat && (i <? 8 + 8)%nat) eqn:E1;
      [|destruct ((0 <=? i)%nat && (i <? 0 + 8)%nat) eqn:E2].
    + rewrite bit_int_to_word by lia. rewrite testbit_add_high by lia. f_equal. lia.
    + rewrite bit_int_to_word by lia. rewrite testbit_add_low by lia. f_equal. lia.
    + rewrite testbit_add_high by lia. symmetry. apply (testbit_small _ 8); lia.
Qed.

(** replacing the low byte *)
Lemma copy_low : forall p l, 0 <= p < 65536 -> 0 <= l < 65536 ->
  copy_bits (int_to_word p) 0 (int_to_word l) 0 8 = int_to_word (l mod 256 + p / 256 * 256).
Proof.
  intros. apply i2w_ext.
  - rewrite length_copy_bits. apply length_int_to_word.
  - intros i Hi. rewrite bit_copy_bits by (rewrite length_int_to_word; lia).
    rewrite (bit_int_to_word p) by lia.
    assert (0 <= l mod 256 < 2 ^ 8) by (apply Z.mod_pos_bound; lia).
    change 256 with (2 ^ 8) in *.
    destruct ((0 <=? i)%nat && (i <? 0 + 8)%nat) eqn:E2.
    + rewrite bit_int_to_word by lia. rewrite testbit_add_low by lia.
      rewrite Z.mod_pow2_bits_low by lia. f_equal. lia.
    + rewrite testbit_add_high by lia. rewrite Z.div_pow2_bits by lia. f_equal. lia.
Qed.

(** replacing the second byte *)
Lemma copy_high : forall p h, 0 <= p < 65536 -> 0 <= h < 256 ->
  copy_bits (int_to_word p) 8 (int_to_word h) 0 8 = int_to_word (p mod 256 + h * 256).
Proof.
  intros. apply i2w_ext.
  - rewrite length_copy_bits. apply length_int_to_word.
  - intros i Hi. rewrite bit_copy_bits by (rewrite length_int_to_word; lia).
    rewrite (bit_int_to_word p) by lia.
    assert (0 <= p mod 256 < 2 ^ 8) by (apply Z.mod_pos_bound; lia).
    change 256 with (2 ^ 8) in *.
    destruct ((8 <=? i)%nat && (i <? 8 + 8)%nat) eqn:E2.
    + rewrite bit_int_to_word by lia. rewrite testbit_add_high by lia. f_equal. lia.
    + destruct (Nat.ltb_spec i 8).
      * rewrite testbit_add_low by lia. rewrite Z.mod_pow2_bits_low by lia. reflexivity.
      * rewrite testbit_add_high by lia.
        rewrite (testbit_small p 16) by (change (2 ^ 16) with 65536; lia).
        symmetry. apply (testbit_small _ 8); lia.
Qed.

(** extracting the second byte of [p] into the low byte of [h] *)
Lemma copy_down : forall h p, 0 <= p < 65536 -> 0 <= h < 256 ->
  copy_bits (int_to_word h) 0 (int_to_word p) 8 8 = int_to_word (p / 256).
Proof.
  intros. apply i2w_ext.
  - rewrite length_copy_bits. apply length_int_to_word.
  - intros i Hi. rewrite bit_copy_bits by (rewrite length_int_to_word; lia).
    rewrite (bit_int_to_word h) by lia. change 256 with (2 ^ 8) in *.
    destruct ((0 <=? i)%nat && (i <? 0 + 8)%nat) eqn:E2.
    + rewrite bit_int_to_word by lia. rewrite Z.div_pow2_bits by lia. f_equal. lia.
    + rewrite (testbit_small h 8) by lia. symmetry. apply (testbit_small _ 8); lia.
Qed.

Lemma lb_int : forall w p, lb w p = int_to_word (Z.b2z (bit w p)).
Proof. intros. unfold lb. destruct (bit w p); reflexivity. Qed.
Lemma lb2_int : forall w p q, lb2 w p q = int_to_word (Z.b2z (bit w p) + 2 * Z.b2z (bit w q)).
Proof. intros. unfold lb2, lb. destruct (bit w p), (bit w q); reflexivity. Qed.
Lemma lb3_int : forall w p q r,
  lb3 w p q r = int_to_word (Z.b2z (bit w p) + 2 * Z.b2z (bit w q) + 4 * Z.b2z (bit w r)).
Proof. intros. unfold lb3, lb2, lb. destruct (bit w p), (bit w q), (bit w r); reflexivity. Qed.

Lemma ToInt_i2w : forall v k, 0 <= v <= INT_MAX -> ToInt (int_to_word v) k = k v.
Proof. intros. unfold ToInt. rewrite word_to_int_i2w by auto. reflexivity. Qed.
Lemma ToInt_lb : forall w p k, ToInt (lb w p) k = k (Z.b2z (bit w p)).
Proof. intros. rewrite lb_int. apply ToInt_i2w. destruct (bit w p); cbn; unfold INT_MAX; lia. Qed.
Lemma ToInt_lb2 : forall w p q k,
  ToInt (lb2 w p q) k = k (Z.b2z (bit w p) + 2 * Z.b2z (bit w q)).
Proof.
  intros. rewrite lb2_int. apply ToInt_i2w.
  destruct (bit w p), (bit w q); cbn; unfold INT_MAX; lia.
Qed.
Lemma ToInt_lb3 : forall w p q r k,
  ToInt (lb3 w p q r) k = k (Z.b2z (bit w p) + 2 * Z.b2z (bit w q) + 4 * Z.b2z (bit w r)).
Proof.
  intros. rewrite lb3_int. apply ToInt_i2w.
  destruct (bit w p), (bit w q), (bit w r); cbn; unfold INT_MAX; lia.
Qed.
Lemma Int_ok : forall z k, INT_MIN <= z <= INT_MAX -> Int z k = k z.
Proof.
  intros. unfold Int, in_int.
  replace ((INT_MIN <=? z) && (z <=? INT_MAX)) with true by lia. reflexivity.
Qed.

Lemma used_bits_fits : forall v n, 0 <= n < 32 -> - 2 ^ 31 <= v < 2 ^ 31 ->
  (get_used_bits (int_to_word v) >? n) = negb (fits n v).
Proof.
  intros. assert (0 < 2 ^ n) by lia.
  assert (2 ^ n <= 2 ^ 31) by (apply Z.pow_le_mono_r; lia).
  pose proof (get_used_bits_i2w v n ltac:(lia)) as E.
  unfold fits. change (2 ^ 31) with 2147483648 in *. change (2 ^ 32) with 4294967296 in *.
  assert (v mod 4294967296 = if v <? 0 then v + 4294967296 else v) as Hm.
  { destruct (Z.ltb_spec v 0).
    - rewrite <- (Z.mod_add v 1) by lia. apply Z.mod_small. lia.
    - apply Z.mod_small. lia. }
  rewrite Hm in E. destruct (v <? 0) eqn:?; lia.
Qed.
