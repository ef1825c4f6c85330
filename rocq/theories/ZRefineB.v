(** * Refinement of the program counter component *)
From Coq Require Import ZArith List Bool Lia.
From Coq Require Import ZifyBool ZifyNat.
From Verif Require Import Word WordFacts Prog Tables Components Machine ZMachine ZWord ZRefine.
Import ListNotations.
Open Scope Z_scope.

Lemma copy_low1 : forall p l, 0 <= p < 65536 -> 0 <= l < 256 ->
  copy_bits (int_to_word p) 0 (int_to_word l) 0 8 = int_to_word (l + p / 256 * 256).
Proof. intros. rewrite copy_low by lia. rewrite (Z.mod_small l) by lia. reflexivity. Qed.
Lemma copy_low2 : forall p l, 0 <= p < 256 -> 0 <= l < 65536 ->
  copy_bits (int_to_word p) 0 (int_to_word l) 0 8 = int_to_word (l mod 256).
Proof. intros. rewrite copy_low by lia. rewrite (Z.div_small p) by lia. f_equal. lia. Qed.

Lemma ok_pc : ok run_pc z_pc.
Proof.
  start. tb T_DIR1. tb T_DATA. rb R_PC. rb R_PCH. rb R_PCL. unfold run_pc, z_pc, z_pc_f. norm.
  assert (forall k : bool, (Z.b2z k =? 1) = k) as Hk by (intros []; reflexivity). rewrite !Hk.
  assert (fits 8 (tv z T_DATA) = true) as F8 by (unfold fits; change (2 ^ 8) with 256; lia).
  assert (forall p, 0 <= p -> 0 <= p mod 256 < 256) as Hmod by (intros; apply Z.mod_pos_bound; lia).
  assert (forall p, 0 <= p <= 65535 -> 0 <= p / 256 < 256) as Hdiv
    by (intros; split; [apply Z.div_pos | apply Z.div_lt_upper_bound]; lia).
  destruct (ctl z PCHCAR), (ctl z PCHBUS), (ctl z PCLCAR), (ctl z PCLBUS), (ctl z PCCAR); norm;
    repeat (rewrite used_bits_fits by (change (2 ^ 31) with 2147483648; lia); rewrite ?F8; cbn [negb]; norm);
    try (destruct (fits 16 (tv z T_DIR1)) eqn:E; cbn [negb]; norm; 
         [unfold fits in E; change (2 ^ 16) with 65536 in E|]);
    pose proof (Hmod (rv z R_PC)); pose proof (Hdiv (rv z R_PC));
    pose proof (Hmod (tv z T_DIR1)); pose proof (Hdiv (tv z T_DIR1));
    rewrite ?copy_high by lia; norm;
    rewrite ?(copy_low2 _ (tv z T_DIR1)) by lia;
    rewrite ?(copy_low1 _ (tv z T_DATA)) by lia; norm;
    rewrite ?(copy_down _ (tv z T_DIR1)) by lia; close.
Qed.

