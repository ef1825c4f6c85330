(** * Refinement of the control-unit components *)
From Coq Require Import ZArith List Bool Lia.
From Coq Require Import ZifyBool ZifyNat.
From Verif Require Import Word WordFacts Prog Tables Components Machine ZMachine ZWord ZRefine ZRefineB.
Import ListNotations.
Open Scope Z_scope.

Ltac bin x := let H := fresh in assert (x = 0 \/ x = 1) as H by lia; destruct H as [H|H].
Lemma small_cases : forall f, 0 <= f <= 3 -> f = 0 \/ f = 1 \/ f = 2 \/ f = 3.
Proof. intros. lia. Qed.

Lemma ok_flagsinta : ok cll_run_flagsinta z_flagsinta.
Proof.
  start. tb T_FLAGS. unfold cll_run_flagsinta, z_flagsinta, isz, dbit. norm.
  destruct (ctl z FLBUS); cbn [Z.b2z Z.eqb Pos.eqb negb]; norm; [|close].
  rewrite !bit_int_to_word by lia. change (Z.of_nat 0) with 0. change (Z.of_nat 1) with 1.
  assert (forall a b : bool, setbit (setbit (setbit zero_word 0 a) 7 b) 6 false
     = int_to_word (Z.b2z a + 128 * Z.b2z b)) as -> by (intros [] []; reflexivity).
  close.
Qed.

Lemma ok_dff : ok run_cu_dxflipflop z_dxflipflop.
Proof.
  start. tb T_D0. tb T_D1. tb T_D2. tb T_D3. tb T_D4. tb T_D5.
  unfold run_cu_dxflipflop, z_dxflipflop.
  cbv beta iota delta [exec nx cv rg mm lg topic_of comp_of bset busid_eqb comp_eqb topic_eqb
   comp_num topic_num N.eqb Pos.eqb andb]. rwH. go. close.
Qed.

Lemma lb2_mod : forall r, lb2 (int_to_word r) 0 1 = int_to_word (r mod 4).
Proof.
  intros. rewrite lb2_int. rewrite !bit_int_to_word by lia. f_equal.
  change (Z.of_nat 0) with 0. change (Z.of_nat 1) with 1. change 4 with (2 ^ 2).
  rewrite Z.bit0_mod. rewrite Z.testbit_spec' by lia. change (2 ^ 1) with 2. change (2 ^ 2) with 4.
  Z.div_mod_to_equations. lia.
Qed.
Lemma lb2_mod4 : forall r, lb2 (int_to_word r) 2 3 = int_to_word (r / 4 mod 4).
Proof.
  intros. rewrite lb2_int. rewrite !bit_int_to_word by lia. f_equal.
  change (Z.of_nat 2) with 2. change (Z.of_nat 3) with 3.
  rewrite !Z.testbit_spec' by lia. change (2 ^ 2) with 4. change (2 ^ 3) with 8.
  replace (r / 8) with (r / 4 / 2) by (rewrite Z.div_div by lia; reflexivity).
  Z.div_mod_to_equations. lia.
Qed.

Lemma ok_mxreg_jnr : ok run_cu_mxreg_jnr z_mxreg_jnr.
Proof.
  start. tb T_RIO. unfold run_cu_mxreg_jnr, z_mxreg_jnr. norm.
  rewrite lb2_mod, lb2_mod4.
  assert (0 <= tv z T_RIO mod 4 < 4) by (apply Z.mod_pos_bound; lia).
  assert (0 <= tv z T_RIO / 4 mod 4 < 4) by (apply Z.mod_pos_bound; lia).
  close.
Qed.

Lemma joiner_int : forall f r, 0 <= f <= 3 -> 0 <= r <= 255 ->
  copy_bits (setbit (setbit zero_word 0 (bit (int_to_word f) 1)) 1 (bit (int_to_word f) 0)) 2
            (int_to_word r) 0 30
  = int_to_word (Z.b2z (Z.testbit f 1) + 2 * Z.b2z (Z.testbit f 0) + r * 4).
Proof.
  intros. rewrite !bit_int_to_word by lia. change (Z.of_nat 0) with 0. change (Z.of_nat 1) with 1.
  assert (forall a b : bool, setbit (setbit zero_word 0 a) 1 b = int_to_word (Z.b2z a + 2 * Z.b2z b))
    as -> by (intros [] []; reflexivity).
  assert (0 <= Z.b2z (Z.testbit f 1) + 2 * Z.b2z (Z.testbit f 0) < 2 ^ 2)
    by (destruct (Z.testbit f 1), (Z.testbit f 0); cbn; lia).
  set (x := Z.b2z (Z.testbit f 1) + 2 * Z.b2z (Z.testbit f 0)) in *. clearbody x.
  apply i2w_ext.
  - rewrite length_copy_bits. apply length_int_to_word.
  - intros i Hi. rewrite bit_copy_bits by (rewrite length_int_to_word; lia).
    rewrite (bit_int_to_word x) by lia. change 4 with (2 ^ 2).
    destruct ((2 <=? i)%nat && (i <? 2 + 30)%nat) eqn:E.
    + rewrite bit_int_to_word by lia. rewrite testbit_add_high by lia. f_equal. lia.
    + rewrite testbit_add_low by lia. reflexivity.
Qed.

Lemma ok_seq_jnr : ok run_cu_seq_b_jnr z_seq_jnr.
Proof.
  start. tb T_RIO. tb T_FLAGS. unfold run_cu_seq_b_jnr, z_seq_jnr, isz, dbit. norm.
  rewrite joiner_int by lia. close.
Qed.

Lemma dcell_drow : forall row k, dcell row k = int_to_word (drow row k).
Proof.
  intros. unfold dcell, drow. destruct row; [|reflexivity].
  destruct (nth k l 0 =? 0); reflexivity.
Qed.
Lemma drow_bound : forall row k, 0 <= drow row k <= 1.
Proof. intros. unfold drow. destruct row; [|lia]. destruct (nth k l 0 =? 0); cbn; lia. Qed.

Arguments find_row : simpl never.
Lemma ok_seq : ok run_cu_seq z_seq.
Proof.
  start. unfold run_cu_seq, z_seq, z_seq_row. norm.
  rewrite !bit_int_to_word by lia.
  change (Z.of_nat 0) with 0. change (Z.of_nat 1) with 1. change (Z.of_nat 2) with 2.
  change (Z.of_nat 3) with 3. change (Z.of_nat 4) with 4. change (Z.of_nat 5) with 5.
  change (Z.of_nat 6) with 6. change (Z.of_nat 7) with 7. change (Z.of_nat 8) with 8.
  change (Z.of_nat 9) with 9. rewrite !dcell_drow.
  set (row := find_row _). clearbody row. norm.
  pose proof (drow_bound row 17). pose proof (drow_bound row 18). pose proof (drow_bound row 19).
  pose proof (drow_bound row 20). pose proof (drow_bound row 21). pose proof (drow_bound row 22).
  close.
Qed.

Lemma ok_rom : forall s z, Rz s z -> rng z -> qpos z < 45 ->
  exists s', exec run_cu_rom s = Some s' /\ Rz s' (z_rom z) /\ rng (z_rom z).
Proof.
  start. intros Hq. tb T_Q0. tb T_Q1. tb T_Q2. tb T_Q3. tb T_Q4. tb T_Q5.
  unfold run_cu_rom. norm.
  assert (state_word (int_to_word (tv z T_Q5)) (int_to_word (tv z T_Q4)) (int_to_word (tv z T_Q3))
    (int_to_word (tv z T_Q2)) (int_to_word (tv z T_Q1)) (int_to_word (tv z T_Q0))
    = int_to_word (qpos z)) as ->.
  { unfold qpos. bin (tv z T_Q0); bin (tv z T_Q1); bin (tv z T_Q2); bin (tv z T_Q3); bin (tv z T_Q4);
    bin (tv z T_Q5); rewrite H, H0, H1, H2, H3, H4; reflexivity. }
  assert (0 <= qpos z) by (unfold qpos; lia).
  rewrite ToInt_i2w by (unfold INT_MAX; lia).
  replace ((qpos z <? 0) || (qpos z >? CU_SIGNAL_ROWS_COUNT)) with false
    by (unfold CU_SIGNAL_ROWS_COUNT; lia).
  unfold z_rom.
  assert (forallb (fun i => match nth_error ROM i with
     | Some row => if list_eq_dec bool_dec (rom_word row) (int_to_word (rom_int (nth i ROM [])))
                   then (0 <=? rom_int (nth i ROM [])) && (rom_int (nth i ROM []) <=? 2147483647) else false
     | None => false end) (seq 0 45) = true) as Hall by (vm_compute; reflexivity).
  rewrite forallb_forall in Hall.
  specialize (Hall (Z.to_nat (qpos z)) ltac:(apply in_seq; lia)).
  destruct (nth_error ROM (Z.to_nat (qpos z))); [|discriminate].
  destruct (list_eq_dec _ _ _) as [->|]; [|discriminate].
  set (row := rom_int _) in *. clearbody row.
  cbv beta iota delta [exec nx cv rg mm lg topic_of comp_of bset busid_eqb comp_eqb topic_eqb
   comp_num topic_num N.eqb Pos.eqb andb]. close.
Qed.

(** ** Composition *)
Lemma ok_ext : forall p q f g, ok p f -> p = q -> (forall z, f z = g z) -> ok q g.
Proof.
  intros p q f g H <- Hf s z HR Hr. destruct (H s z HR Hr) as (s' & ? & ? & ?).
  exists s'. rewrite <- Hf. auto.
Qed.

Ltac chain := repeat first [ apply ok_Done | apply ok_Call | eassumption ].

Lemma ok_async : ok run_asyncronus_components z_async.
Proof.
  unfold run_asyncronus_components. eapply ok_ext; [|reflexivity|].
  - repeat (apply ok_Call; [first [exact ok_addsub | exact ok_mxdir | exact ok_mxreg | exact ok_mem | exact ok_alu]|]).
    apply ok_Done.
  - reflexivity.
Qed.

Lemma ok_sync : forall p f, ok p f -> ok (run_sync_comp p) (fun z => z_async (f z)).
Proof.
  intros. unfold run_sync_comp. eapply ok_ext; [|reflexivity|].
  - apply ok_Call; [exact H|]. apply ok_Call; [exact ok_async | apply ok_Done].
  - reflexivity.
Qed.

Lemma ok_acumm_flags1 : ok acumm_or_flags_once z_acumm_flags1.
Proof.
  unfold acumm_or_flags_once. eapply ok_ext; [|reflexivity|].
  - repeat (apply ok_Call; [first [exact ok_acumm | exact ok_mxfldx | exact ok_flags | exact ok_flagsinta]|]).
    apply ok_Done.
  - reflexivity.
Qed.

Lemma ok_tail : ok run_cu_tail z_tail.
Proof.
  unfold run_cu_tail, run_acumm_or_flags. eapply ok_ext; [|reflexivity|].
  - apply ok_Call; [apply ok_sync, ok_fffc|].
    apply ok_Call; [apply ok_Call; [exact ok_acumm_flags1|apply ok_Call; [exact ok_acumm_flags1|apply ok_Done]]|].
    apply ok_Call; [apply ok_sync, ok_greg|].
    apply ok_Call; [apply ok_sync, ok_op2|].
    apply ok_Call; [apply ok_sync, ok_hl|].
    apply ok_Call; [apply ok_sync, ok_sp|].
    apply ok_Call; [apply ok_sync, ok_pc|]. apply ok_Done.
  - intros z. cbv beta. unfold z_tail. reflexivity.
Qed.

(** the RI part of [run_cu(1)] *)
Definition ri_part : prog :=
  Upd (B K_CU T_DATA) ;; Upd (B K_CU T_FLAGS) ;; Upd (B K_CU T_CONTROL) ;;
  c <- Cur (B K_CU T_CONTROL) ;;
  let rest := (v <- RdR R_RI ;; Pub T_RIO v run_cu_tail) in
  if bit c RICAR then
    d <- Cur (B K_CU T_DATA) ;;
    if get_used_bits d >? bit_length R_RI then Notice E_RI Done
    else WrR R_RI d rest
  else rest.

Arguments run_cu_tail : simpl never.
Lemma ok_ri : ok ri_part (fun z =>
  let z2 := if ctl z RICAR then W R_RI (tv z T_DATA) z else z in
  z_tail (P T_RIO (rv z2 R_RI) z2)).
Proof.
  start. tb T_DATA. rb R_RI. unfold ri_part.
  cbn [exec nx cv rg mm lg topic_of comp_of bset busid_eqb comp_eqb topic_eqb
   comp_num topic_num N.eqb Pos.eqb andb]. rwH. bits.
  destruct (ctl z RICAR); cbn [exec nx cv rg mm lg topic_of comp_of bset rset regid_eqb regid_num
    busid_eqb comp_eqb topic_eqb comp_num topic_num N.eqb Pos.eqb andb bit_length]; rwH.
  - rewrite used_bits_fits by lia. replace (fits 8 (tv z T_DATA)) with true by (unfold fits; lia).
    cbn [negb exec nx cv rg mm lg rset regid_eqb regid_num N.eqb Pos.eqb rv W]. apply ok_tail.
    + apply Rz_pub, Rz_wr. eapply Rz_cv. eassumption.
    + apply rng_pub; [apply rng_wr|]; auto.
  - apply ok_tail.
    + apply Rz_pub. eapply Rz_cv. eassumption.
    + apply rng_pub; auto.
Qed.

Lemma run_cu_1_ok : forall s z, Rz s z -> rng z -> qpos z < 45 ->
  exists s', exec run_cu_1 s = Some s' /\ Rz s' (z_cu_1 z) /\ rng (z_cu_1 z).
Proof.
  intros s z HR Hr Hq.
  assert (run_cu_1 = (Call run_cu_seq_b_jnr ;; Call run_cu_mxreg_jnr ;; Call run_cu_seq ;;
    Call run_cu_rom ;; Call run_asyncronus_components ri_part)) as -> by reflexivity.
  destruct (ok_seq_jnr _ _ HR Hr) as (s1 & E1 & HR1 & Hr1).
  destruct (ok_mxreg_jnr _ _ HR1 Hr1) as (s2 & E2 & HR2 & Hr2).
  destruct (ok_seq _ _ HR2 Hr2) as (s3 & E3 & HR3 & Hr3).
  assert (qpos (z_seq (z_mxreg_jnr (z_seq_jnr z))) = qpos z) as Eq by reflexivity.
  destruct (ok_rom _ _ HR3 Hr3 ltac:(lia)) as (s4 & E4 & HR4 & Hr4).
  destruct (ok_async _ _ HR4 Hr4) as (s5 & E5 & HR5 & Hr5).
  destruct (ok_ri _ _ HR5 Hr5) as (s6 & E6 & HR6 & Hr6).
  exists s6. rewrite !exec_Call, E1, !exec_Call, E2, !exec_Call, E3, !exec_Call, E4, !exec_Call, E5. auto.
Qed.
