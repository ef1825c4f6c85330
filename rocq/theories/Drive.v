(** * A clock cycle performs one microstate and computes the next one (proof layer) *)
From Coq Require Import ZArith List Bool Lia ZifyBool.
From Verif Require Import Word WordFacts Prog Tables Components Machine ZMachine ZWord ZRefine ZRefineB ZRefineC Rtl Micro MicroIsa.
Import ListNotations.
Open Scope Z_scope.

(** Topics that the component phase never publishes. *)
Definition fixedt (t : topic) : bool :=
  match t with
  | T_Q5 | T_Q4 | T_Q3 | T_Q2 | T_Q1 | T_Q0 | T_D0 | T_D1 | T_D2 | T_D3 | T_D4 | T_D5
  | T_CONTROL | T_JOINER | T_JNR1 | T_JNR2 => true
  | _ => false
  end.
Definition keeps (f : zs -> zs) : Prop := forall z t, fixedt t = true -> tv (f z) t = tv z t.

Ltac kp :=
  let z := fresh "z" in let t := fresh "t" in let H := fresh "H" in
  intros z t H; destruct t; try discriminate H; clear H;
  repeat match goal with |- context [if ?b then _ else _] => destruct b end;
  cbv [P W SM NT tv tset topic_eqb topic_num N.eqb Pos.eqb rv rset]; reflexivity.
Lemma k_acumm : keeps z_acumm. Proof. unfold z_acumm. kp. Qed.
Lemma k_addsub : keeps z_addsub. Proof. unfold z_addsub. kp. Qed.
Lemma k_alu : keeps z_alu. Proof. unfold z_alu. kp. Qed.
Lemma k_fffc : keeps z_fffc. Proof. unfold z_fffc. kp. Qed.
Lemma k_flags : keeps z_flags. Proof. unfold z_flags. kp. Qed.
Lemma k_greg : keeps z_greg. Proof. unfold z_greg. kp. Qed.
Lemma k_hl : keeps z_hl. Proof. unfold z_hl. kp. Qed.
Lemma k_mem : keeps z_mem. Proof. unfold z_mem. kp. Qed.
Lemma k_mxdir : keeps z_mxdir. Proof. unfold z_mxdir. kp. Qed.
Lemma k_mxfldx : keeps z_mxfldx. Proof. unfold z_mxfldx. kp. Qed.
Lemma k_mxreg : keeps z_mxreg. Proof. unfold z_mxreg. kp. Qed.
Lemma k_op2 : keeps z_op2. Proof. unfold z_op2. kp. Qed.
Lemma k_pc : keeps z_pc. Proof. unfold z_pc, z_pc_f. kp. Qed.
Lemma k_sp : keeps z_sp. Proof. unfold z_sp, z_sp_f. kp. Qed.
Lemma k_flagsinta : keeps z_flagsinta. Proof. unfold z_flagsinta. kp. Qed.
Lemma k_async : keeps z_async.
Proof.
  intros z t H. unfold z_async. rewrite k_alu, k_mem, k_alu, k_mem, k_mxreg, k_mxdir, k_addsub by exact H. reflexivity.
Qed.
Lemma k_acumm_flags1 : keeps z_acumm_flags1.
Proof. intros z t H. unfold z_acumm_flags1. rewrite k_flagsinta, k_flags, k_mxfldx, k_acumm by exact H. reflexivity. Qed.
Lemma k_tail : keeps z_tail.
Proof.
  intros z t H. unfold z_tail.
  rewrite k_async, k_pc, k_async, k_sp, k_async, k_hl, k_async, k_op2, k_async, k_greg, !k_acumm_flags1, k_async, k_fffc by exact H.
  reflexivity.
Qed.
Lemma k_body : keeps z_body.
Proof.
  intros z t H. unfold z_body. rewrite k_tail by exact H.
  pose proof (k_async z t H) as K. cbv zeta. generalize dependent (z_async z). intros y K. rewrite <- K. clear K.
  destruct (ctl y RICAR); destruct t; try discriminate H; reflexivity.
Qed.

(** state number on the D buses *)
Definition dpos (z : zs) : Z :=
  tv z T_D0 + 2 * tv z T_D1 + 4 * tv z T_D2 + 8 * tv z T_D3 + 16 * tv z T_D4 + 32 * tv z T_D5.

Lemma dpos_ext : forall z z', (forall t, fixedt t = true -> tv z t = tv z' t) -> dpos z = dpos z' /\ qpos z = qpos z'.
Proof. intros z z' H. unfold dpos, qpos. rewrite !(H) by reflexivity. auto. Qed.

Lemma bit01 : forall v, 0 <= v <= 1 -> Z.b2z (Z.testbit v 0) = v.
Proof. intros v H. assert (v = 0 \/ v = 1) as [-> | ->] by lia; reflexivity. Qed.

Lemma qpos_bits : forall q5 q4 q3 q2 q1 q0, 0 <= q5 <= 1 -> 0 <= q4 <= 1 -> 0 <= q3 <= 1 -> 0 <= q2 <= 1 -> 0 <= q1 <= 1 -> 0 <= q0 <= 1 ->
  let q := q0 + 2 * q1 + 4 * q2 + 8 * q3 + 16 * q4 + 32 * q5 in
  Z.testbit q 5 = Z.testbit q5 0 /\ Z.testbit q 4 = Z.testbit q4 0 /\ Z.testbit q 3 = Z.testbit q3 0 /\
  Z.testbit q 2 = Z.testbit q2 0 /\ Z.testbit q 1 = Z.testbit q1 0 /\ Z.testbit q 0 = Z.testbit q0 0.
Proof.
  intros. assert (q5 = 0 \/ q5 = 1) as [-> | ->] by lia; assert (q4 = 0 \/ q4 = 1) as [-> | ->] by lia;
  assert (q3 = 0 \/ q3 = 1) as [-> | ->] by lia; assert (q2 = 0 \/ q2 = 1) as [-> | ->] by lia;
  assert (q1 = 0 \/ q1 = 1) as [-> | ->] by lia; assert (q0 = 0 \/ q0 = 1) as [-> | ->] by lia; vm_compute; tauto.
Qed.

Lemma joiner_bits : forall fc fz ri, 0 <= fc <= 1 -> 0 <= fz <= 1 -> 0 <= ri <= 255 ->
  let j := fc + 2 * fz + ri * 4 in
  Z.testbit j 0 = Z.testbit fc 0 /\ Z.testbit j 1 = Z.testbit fz 0 /\
  forall i, 0 <= i -> Z.testbit j (i + 2) = Z.testbit ri i.
Proof.
  intros fc fz ri H1 H2 H3.
  assert (fc = 0 \/ fc = 1) as Hc by lia. assert (fz = 0 \/ fz = 1) as Hz by lia.
  cbv zeta. split; [|split].
  - replace (fc + 2 * fz + ri * 4) with (fc + (fz + ri * 2) * 2) by lia.
    rewrite !Z.bit0_odd. rewrite Z.odd_add, Z.odd_mul. change (Z.odd 2) with false. rewrite andb_false_r, xorb_false_r. reflexivity.
  - rewrite (Z.testbit_odd _ 1), Z.shiftr_div_pow2 by lia. change (2 ^ 1) with 2.
    replace ((fc + 2 * fz + ri * 4) / 2) with (fz + 2 * ri) by (destruct Hc as [-> | ->]; Z.div_mod_to_equations; lia).
    rewrite !Z.bit0_odd, Z.odd_add, Z.odd_mul. change (Z.odd 2) with false. rewrite xorb_false_r. reflexivity.
  - intros i Hi. rewrite <- Z.div_pow2_bits by lia. f_equal. change (2 ^ 2) with 4.
    destruct Hc as [-> | ->]; destruct Hz as [-> | ->]; Z.div_mod_to_equations; lia.
Qed.

Record inv (z : zs) : Prop := mkInv {
  inv_rng : rng z;
  inv_set : settled z;
  inv_q : 0 <= qpos z < 45;
  inv_d : 0 <= dpos z < 45
}.

(** the state handed to the component phase by the sequencer and the ROM *)
Lemma z_cu_1_pre : forall z, exists d0 d1 d2 d3 d4 d5 jn,
  z_cu_1 z = z_body (pre (rom_int (nth (Z.to_nat (qpos z)) ROM [])) d0 d1 d2 d3 d4 d5
                        (tv z T_RIO mod 4) (tv z T_RIO / 4 mod 4) jn z) /\
  jn = Z.b2z (dbit (tv z T_FLAGS) 1) + 2 * Z.b2z (dbit (tv z T_FLAGS) 0) + tv z T_RIO * 4 /\
  let row := find_row [Z.testbit (tv z T_Q5) 0; Z.testbit (tv z T_Q4) 0; Z.testbit (tv z T_Q3) 0;
     Z.testbit (tv z T_Q2) 0; Z.testbit (tv z T_Q1) 0; Z.testbit (tv z T_Q0) 0;
     Z.testbit jn 9; Z.testbit jn 8; Z.testbit jn 7; Z.testbit jn 6; Z.testbit jn 5;
     Z.testbit jn 4; Z.testbit jn 3; Z.testbit jn 2; Z.testbit jn 1; Z.testbit jn 0] in
  d0 = drow row 22 /\ d1 = drow row 21 /\ d2 = drow row 20 /\ d3 = drow row 19 /\ d4 = drow row 18 /\ d5 = drow row 17.
Proof.
  intros z. unfold z_cu_1, z_rom, z_seq, z_seq_row.
  set (jn := Z.b2z (dbit (tv z T_FLAGS) 1) + 2 * Z.b2z (dbit (tv z T_FLAGS) 0) + tv z T_RIO * 4).
  set (row := find_row _). 
  assert (Hrow : row = find_row [Z.testbit (tv z T_Q5) 0; Z.testbit (tv z T_Q4) 0; Z.testbit (tv z T_Q3) 0;
     Z.testbit (tv z T_Q2) 0; Z.testbit (tv z T_Q1) 0; Z.testbit (tv z T_Q0) 0;
     Z.testbit jn 9; Z.testbit jn 8; Z.testbit jn 7; Z.testbit jn 6; Z.testbit jn 5;
     Z.testbit jn 4; Z.testbit jn 3; Z.testbit jn 2; Z.testbit jn 1; Z.testbit jn 0]) by reflexivity.
  clearbody row. subst row.
  remember (find_row _) as row eqn:Hr.
  exists (drow row 22), (drow row 21), (drow row 20), (drow row 19), (drow row 18), (drow row 17), jn.
  split; [|split; [reflexivity|cbv zeta; rewrite <- Hr; tauto]].
  unfold pre. f_equal.
Qed.

Lemma z_step : forall z, inv z ->
  let z' := z_cu_1 z in
  rng z' -> inv z' /\ qpos z' = qpos z /\ dpos z' = succ (qpos z) (rv z R_RI) (rv z R_FC) (rv z R_FZ) /\
  same (view z') (rtl (qpos z) (view z)) /\ tv z' T_CONTROL = rom_int (nth (Z.to_nat (qpos z)) ROM []).
Proof.
  intros z I z' R. destruct I as [Ir Is Iq Id].
  destruct (z_cu_1_pre z) as (d0 & d1 & d2 & d3 & d4 & d5 & jn & E & Ej & Ed).
  pose proof (row_all (qpos z) Iq z d0 d1 d2 d3 d4 d5 _ _ jn Is Ir eq_refl eq_refl) as (S1 & S2).
  rewrite <- E in S1, S2. fold z' in S1, S2.
  assert (Hf : forall t, fixedt t = true -> tv z' t = tv (pre (rom_int (nth (Z.to_nat (qpos z)) ROM [])) d0 d1 d2 d3 d4 d5
                        (tv z T_RIO mod 4) (tv z T_RIO / 4 mod 4) jn z) t).
  { intros t Ht. unfold z'. rewrite E. apply k_body. exact Ht. }
  destruct (dpos_ext _ _ Hf) as (Hd & Hq).
  change (qpos (pre _ d0 d1 d2 d3 d4 d5 _ _ jn z)) with (qpos z) in Hq.
  change (dpos (pre _ d0 d1 d2 d3 d4 d5 _ _ jn z)) with (d0 + 2 * d1 + 4 * d2 + 8 * d3 + 16 * d4 + 32 * d5) in Hd.
  pose proof (rng_r z Ir) as Rr.
  pose proof (Rr R_FC) as Rfc. pose proof (Rr R_FZ) as Rfz. pose proof (Rr R_RI) as Rri. cbn [rhi] in Rfc, Rfz, Rri.
  assert (Hsucc : dpos z' = succ (qpos z) (rv z R_RI) (rv z R_FC) (rv z R_FZ)).
  { rewrite Hd. rewrite (st_fl z Is), (st_ri z Is) in Ej.
    destruct (fl_bits (rv z R_FZ) (rv z R_FC) Rfz Rfc) as (F1 & F2). rewrite F1, F2 in Ej.
    destruct (joiner_bits (rv z R_FC) (rv z R_FZ) (rv z R_RI) Rfc Rfz Rri) as (J0 & J1 & J2). rewrite <- Ej in J0, J1, J2.
    pose proof (rng_t z Ir T_Q5). pose proof (rng_t z Ir T_Q4). pose proof (rng_t z Ir T_Q3).
    pose proof (rng_t z Ir T_Q2). pose proof (rng_t z Ir T_Q1). pose proof (rng_t z Ir T_Q0). cbn [tlo thi] in *.
    destruct (qpos_bits (tv z T_Q5) (tv z T_Q4) (tv z T_Q3) (tv z T_Q2) (tv z T_Q1) (tv z T_Q0)) as (B5 & B4 & B3 & B2 & B1 & B0); auto.
    unfold succ. change (qpos z) with (tv z T_Q0 + 2 * tv z T_Q1 + 4 * tv z T_Q2 + 8 * tv z T_Q3 + 16 * tv z T_Q4 + 32 * tv z T_Q5).
    rewrite B5, B4, B3, B2, B1, B0, <- J0, <- J1.
    pose proof (J2 7 ltac:(discriminate)) as K7. pose proof (J2 6 ltac:(discriminate)) as K6. pose proof (J2 5 ltac:(discriminate)) as K5.
    pose proof (J2 4 ltac:(discriminate)) as K4. pose proof (J2 3 ltac:(discriminate)) as K3. pose proof (J2 2 ltac:(discriminate)) as K2.
    pose proof (J2 1 ltac:(discriminate)) as K1. pose proof (J2 0 ltac:(discriminate)) as K0.
    change (7 + 2) with 9 in K7. change (6 + 2) with 8 in K6. change (5 + 2) with 7 in K5. change (4 + 2) with 6 in K4.
    change (3 + 2) with 5 in K3. change (2 + 2) with 4 in K2. change (1 + 2) with 3 in K1. change (0 + 2) with 2 in K0.
    rewrite <- K7, <- K6, <- K5, <- K4, <- K3, <- K2, <- K1, <- K0.
    cbv zeta in Ed |- *. destruct Ed as (-> & -> & -> & -> & -> & ->). reflexivity. }
  assert (Hr : 0 <= dpos z' < 45). { rewrite Hsucc. apply succ_range; auto. }
  split; [constructor; auto; lia|]. split; [lia|]. split; auto. split; auto.
  rewrite Hf by reflexivity. reflexivity.
Qed.

(** ** the other API operations *)
Definition z_fall (z : zs) : zs := z_dxflipflop z.
Lemma z_fall_ok : forall z, inv z -> rng (z_fall z) -> inv (z_fall z) /\ qpos (z_fall z) = dpos z /\ dpos (z_fall z) = dpos z /\
  view (z_fall z) = view z.
Proof.
  intros z I R. destruct I as [Ir Is Iq Id]. 
  assert (E : qpos (z_fall z) = dpos z) by reflexivity.
  assert (E2 : dpos (z_fall z) = dpos z) by reflexivity.
  split; [|auto]. constructor; auto; try lia. destruct Is; constructor; assumption.
Qed.
