(** * One rising edge performs the register transfer of its microstate (proof layer) *)
From Coq Require Import ZArith List Bool Lia ZifyBool.
From Verif Require Import Word WordFacts Prog Tables Components Machine ZMachine ZRefine Rtl.
Import ListNotations.
Open Scope Z_scope.

(** the rising edge up to the SP load, then up to the PC load *)
Definition pre_sp (z : zs) : zs :=
  let z1 := z_async z in
  let z2 := if ctl z1 RICAR then W R_RI (tv z1 T_DATA) z1 else z1 in
  z_async (z_hl (z_async (z_op2 (z_async (z_greg
    (z_acumm_flags1 (z_acumm_flags1 (z_async (z_fffc (P T_RIO (rv z2 R_RI) z2)))))))))).
Definition pre_pc (fs : bool) (z : zs) : zs := z_async (z_sp_f fs (pre_sp z)).
Definition body_f (fs fp : bool) (z : zs) : zs := z_async (z_pc_f fp (pre_pc fs z)).

Lemma z_body_eq : forall z, z_body z =
  let fs := fits 16 (tv (pre_sp z) T_DIR1) in
  let fp := fits 16 (tv (pre_pc fs z) T_DIR1) in
  body_f fs fp z.
Proof. intros. unfold z_body, body_f, pre_pc, pre_sp, z_tail, z_pc, z_sp. reflexivity. Qed.

(** the state handed to the component phase *)
Definition pre (c d0 d1 d2 d3 d4 d5 j1 j2 jn : Z) (z : zs) : zs :=
  P T_CONTROL c (P T_D0 d0 (P T_D1 d1 (P T_D2 d2 (P T_D3 d3 (P T_D4 d4 (P T_D5 d5
    (P T_JNR2 j2 (P T_JNR1 j1 (P T_JOINER jn z))))))))).

Definition view (z : zs) : cpu := mkCpu (rv z) (zm z) (zl z).

(** output buses agree with the registers they publish *)
Record settled (z : zs) : Prop := mkSettled {
  st_pc : tv z T_PCO = rv z R_PC;
  st_sp : tv z T_SPO = rv z R_SP;
  st_hl : tv z T_HLO = rv z R_L + rv z R_H * 256;
  st_ac : tv z T_ACO = rv z R_AC;
  st_op : tv z T_OP2O = rv z R_2OP;
  st_fl : tv z T_FLAGS = rv z R_FZ + 2 * rv z R_FC;
  st_ri : tv z T_RIO = rv z R_RI
}.

Lemma fits8 : forall v, fits 8 v = ((0 <=? v) && (v <? 256)).
Proof. reflexivity. Qed.
Lemma fits16 : forall v, fits 16 v = ((0 <=? v) && (v <? 65536)).
Proof. reflexivity. Qed.
Lemma dbit_0 : forall v, dbit v 0 = Z.odd v. Proof. intros. unfold dbit. apply Z.bit0_odd. Qed.

Lemma fl_bits : forall fz fc, 0 <= fz <= 1 -> 0 <= fc <= 1 ->
  Z.b2z (dbit (fz + 2 * fc) 0) = fz /\ Z.b2z (dbit (fz + 2 * fc) 1) = fc.
Proof.
  intros. assert (fz = 0 \/ fz = 1) as [-> | ->] by lia;
  assert (fc = 0 \/ fc = 1) as [-> | ->] by lia; split; reflexivity.
Qed.

Lemma flag_b2z : forall b, flag b = Z.b2z b. Proof. destruct b; reflexivity. Qed.

Lemma land_range : forall a b, 0 <= a <= 255 -> 0 <= b <= 255 -> 0 <= Z.land a b <= 255.
Proof.
  intros. split. { apply Z.land_nonneg; lia. }
  assert (Z.land a b < 2 ^ 8); [|lia].
  apply Z.log2_lt_cancel. 
  pose proof (Z.log2_land a b). 
  assert (Z.log2 a < 8 \/ True) by auto.
  destruct (Z.eq_dec a 0) as [->|]. { rewrite Z.land_0_l. reflexivity. }
  assert (Z.log2 a < 8) by (apply Z.log2_lt_pow2; lia).
  change (Z.log2 (2^8)) with 8. lia.
Qed.
Lemma bits_range : forall v, 0 <= v -> (Z.log2 v < 8) -> v <= 255.
Proof. intros. destruct (Z.eq_dec v 0); [lia|]. apply Z.log2_lt_pow2 in H0; lia. Qed.
Lemma log2_255 : forall a, 0 <= a <= 255 -> Z.log2 a < 8.
Proof. intros. destruct (Z.eq_dec a 0) as [->|]; [reflexivity|]. apply Z.log2_lt_pow2; lia. Qed.
Lemma lor_range : forall a b, 0 <= a <= 255 -> 0 <= b <= 255 -> 0 <= Z.lor a b <= 255.
Proof.
  intros. split. { apply Z.lor_nonneg; lia. } apply bits_range. { apply Z.lor_nonneg; lia. }
  rewrite Z.log2_lor by lia. pose proof (log2_255 a H). pose proof (log2_255 b H0). lia.
Qed.
Lemma lxor_range : forall a b, 0 <= a <= 255 -> 0 <= b <= 255 -> 0 <= Z.lxor a b <= 255.
Proof.
  intros. assert (0 <= Z.lxor a b) by (apply Z.lxor_nonneg; lia). split; auto. apply bits_range; auto.
  pose proof (Z.log2_lxor a b). pose proof (log2_255 a H). pose proof (log2_255 b H0). lia.
Qed.

(** the low2/high2 register of the specification, with the selector known *)
Ltac sel :=
  unfold low2, high2, view, reg;
  repeat match goal with
  | H : (?a mod 4 = _) |- _ => progress rewrite ?H
  end.

Definition row_ok (q : Z) : Prop :=
  forall z d0 d1 d2 d3 d4 d5 j1 j2 jn,
  settled z -> rng z -> j1 = tv z T_RIO mod 4 -> j2 = tv z T_RIO / 4 mod 4 ->
  let z' := z_body (pre (rom_int (nth (Z.to_nat q) ROM [])) d0 d1 d2 d3 d4 d5 j1 j2 jn z) in
  settled z' /\ same (view z') (rtl q (view z)).


Lemma row_ok_split : forall q,
  (forall z d0 d1 d2 d3 d4 d5 j1 j2 jn,
   settled z -> rng z -> j1 = rv z R_RI mod 4 -> j2 = rv z R_RI / 4 mod 4 ->
   forall fs fp,
   let z0 := pre (rom_int (nth (Z.to_nat q) ROM [])) d0 d1 d2 d3 d4 d5 j1 j2 jn z in
   fs = fits 16 (tv (pre_sp z0) T_DIR1) ->
   fp = fits 16 (tv (pre_pc fs z0) T_DIR1) ->
   settled (body_f fs fp z0) /\ same (view (body_f fs fp z0)) (rtl q (view z))) -> row_ok q.
Proof.
  intros q H z d0 d1 d2 d3 d4 d5 j1 j2 jn Hs Hr Hj1 Hj2.
  rewrite (st_ri z Hs) in Hj1, Hj2. cbv zeta. rewrite z_body_eq. cbv zeta.
  apply H; auto.
Qed.

Ltac zb := cbv beta iota zeta delta
 [view reg mem errs body_f pre pre_sp pre_pc z_async z_pc_f z_sp_f z_hl z_op2 z_greg z_acumm_flags1 z_flagsinta z_flags z_mxfldx z_acumm
  z_fffc z_alu z_mem z_mxreg z_mxdir z_addsub ctl ctl2 ctl3 P W SM NT tv rv zm zl tset rset
  topic_eqb topic_num regid_eqb regid_num N.eqb Pos.eqb Z.eqb alu_op fst snd run_4x1_mx run_2x1_mx
  Z.testbit Pos.testbit Z.of_nat Pos.of_succ_nat Pos.succ N.pred Pos.pred_N Pos.pred_double
  EOI INTAIN SPCAR PCLCAR PCHCAR LCAR HCAR FLCAR SELFL OP2CAR ACCAR REGCAR PCCAR RICAR
  PCLBUS PCHBUS ALUBUS ACBUS FLBUS MEMBUS REGBUS LE ID_0 ID_1 SELDIR_0 SELDIR_1 MXREG_0
  MXREG_1 SELALU_0 SELALU_1 SELALU_2 gr].
Ltac zbin H := cbv beta iota zeta delta
 [view reg mem errs body_f pre pre_sp pre_pc z_async z_pc_f z_sp_f z_hl z_op2 z_greg z_acumm_flags1 z_flagsinta z_flags z_mxfldx z_acumm
  z_fffc z_alu z_mem z_mxreg z_mxdir z_addsub ctl ctl2 ctl3 P W SM NT tv rv zm zl tset rset
  topic_eqb topic_num regid_eqb regid_num N.eqb Pos.eqb Z.eqb alu_op fst snd run_4x1_mx run_2x1_mx
  Z.testbit Pos.testbit Z.of_nat Pos.of_succ_nat Pos.succ N.pred Pos.pred_N Pos.pred_double
  EOI INTAIN SPCAR PCLCAR PCHCAR LCAR HCAR FLCAR SELFL OP2CAR ACCAR REGCAR PCCAR RICAR
  PCLBUS PCHBUS ALUBUS ACBUS FLBUS MEMBUS REGBUS LE ID_0 ID_1 SELDIR_0 SELDIR_1 MXREG_0
  MXREG_1 SELALU_0 SELALU_1 SELALU_2 gr] in H.

Ltac spec := cbv beta iota zeta delta
  [rtl set store report set_pc HL greg low2 high2 set_flags flags8
   flags_of_byte same view reg mem errs regid_eqb regid_num N.eqb Pos.eqb].

(** the specification's choice of the saturating branch *)
Ltac sat r :=
  cbv beta iota zeta delta [rtl]; unfold pc_inc, sp_inc, sp_dec;
  repeat match goal with
  | |- context [if reg ?s ?x =? ?k then _ else _] =>
      change (reg s x) with (r x);
      first [ replace (r x =? k) with false by lia | replace (r x =? k) with true by lia ];
      cbv iota
  end.

Ltac fin :=
  repeat match goal with H : ?t ?x = _ |- context [?t ?x] => is_var t; rewrite H end;
  unfold isz, mset; rewrite ?flag_b2z, ?fits8;
  try match goal with Rz : 0 <= ?fz <= 1, Rc : 0 <= ?fc <= 1 |- context [dbit (?fz + 2 * ?fc) _] =>
    rewrite ?(proj1 (fl_bits _ _ Rz Rc)), ?(proj2 (fl_bits _ _ Rz Rc)) end;
  first [ reflexivity | assumption | congruence | lia
        | repeat match goal with |- context [?a =? ?b] => destruct (Z.eqb_spec a b) end;
          first [lia | congruence]
        | idtac ].

Ltac leaf := zb; spec; fin.
Ltac goals r :=
  sat r;
  repeat match goal with H : low2 _ = _ |- _ => rewrite ?H; clear H
                       | H : high2 _ = _ |- _ => rewrite ?H; clear H end;
  split; [split; [leaf|leaf|leaf|leaf|leaf|leaf|leaf] |
    split; [let x := fresh "x" in intros x; destruct x; leaf |
    split; [let a := fresh "a" in intros a; leaf | leaf ]]].

Ltac prelow t r m l Hj :=
  match type of Hj with ?k = _ =>
  let g := eval cbv in (greg k) in
  assert (low2 (view (mkZ t r m l)) = g) by (unfold low2, view; cbn [reg rv]; rewrite <- Hj; reflexivity)
  end.
Ltac prehigh t r m l Hj :=
  match type of Hj with ?k = _ =>
  let g := eval cbv in (greg k) in
  assert (high2 (view (mkZ t r m l)) = g) by (unfold high2, view; cbn [reg rv]; rewrite <- Hj; reflexivity)
  end.
Ltac row q :=
  apply row_ok_split;
  let t := fresh "t" in let r := fresh "r" in let m := fresh "m" in let l := fresh "l" in
  let Hs := fresh "Hs" in let Hr := fresh "Hr" in
  let fs := fresh "fs" in let fp := fresh "fp" in
  let Hfs := fresh "Hfs" in let Hfp := fresh "Hfp" in let z0 := fresh "z0" in
  let Hj1 := fresh "Hj1" in let Hj2 := fresh "Hj2" in
  intros [t r m l] d0 d1 d2 d3 d4 d5 j1 j2 jn Hs Hr Hj1 Hj2 fs fp;
  let c := eval vm_compute in (rom_int (nth (Z.to_nat q) ROM [])) in
  change (rom_int (nth (Z.to_nat q) ROM [])) with c;
  let Hpc := fresh "Hpc" in let Hsp := fresh "Hsp" in let Hhl := fresh "Hhl" in
  let Hac := fresh "Hac" in let Hop := fresh "Hop" in let Hfl := fresh "Hfl" in
  let Hri := fresh "Hri" in
  destruct Hs as [Hpc Hsp Hhl Hac Hop Hfl Hri];
  cbv beta iota delta [tv rv zm zl] in Hpc, Hsp, Hhl, Hac, Hop, Hfl, Hri, Hj1, Hj2;
  pose proof (rng_r _ Hr R_PC) as Rpc; pose proof (rng_r _ Hr R_SP) as Rsp;
  pose proof (rng_r _ Hr R_AC) as Rac; pose proof (rng_r _ Hr R_2OP) as Rop;
  pose proof (rng_r _ Hr R_FC) as Rfc; pose proof (rng_r _ Hr R_FZ) as Rfz;
  pose proof (rng_r _ Hr R_H) as Rh; pose proof (rng_r _ Hr R_L) as Rl;
  change (0 <= r R_PC <= 65535) in Rpc; change (0 <= r R_SP <= 65535) in Rsp;
  change (0 <= r R_AC <= 255) in Rac; change (0 <= r R_2OP <= 255) in Rop;
  change (0 <= r R_FC <= 1) in Rfc; change (0 <= r R_FZ <= 1) in Rfz;
  change (0 <= r R_H <= 255) in Rh; change (0 <= r R_L <= 255) in Rl;
  intros z0 Hfs Hfp; subst z0;
  let isp := eval vm_compute in (Z.testbit c 12) in
  let iss := eval vm_compute in (Z.testbit c 2) in
  let isr := eval vm_compute in (Z.testbit c 11 || Z.testbit c 20) in
  let isj := eval vm_compute in (c / 2 ^ 26 mod 4) in
  match isr with
  | true => match isj with
    | 0 => clear Hj2; assert (j1 = 0 \/ j1 = 1 \/ j1 = 2 \/ j1 = 3) as [-> | [-> | [-> | ->]]] by (rewrite Hj1; lia); prelow t r m l Hj1
    | 1 => clear Hj1; assert (j2 = 0 \/ j2 = 1 \/ j2 = 2 \/ j2 = 3) as [-> | [-> | [-> | ->]]] by (rewrite Hj2; lia); prehigh t r m l Hj2
    | _ => clear Hj1 Hj2
    end
  | false => clear Hj1 Hj2
  end;
  match isp with
  | true => clear Hfs; zbin Hfp; destruct fp; rewrite fits16 in Hfp; goals r
  | false => clear Hfp; match iss with
     | true => zbin Hfs; destruct fs; rewrite fits16 in Hfs; goals r
     | false => clear Hfs; goals r
     end
  end.


Ltac rest :=
  unfold flag; rewrite ?andb_true_r, ?andb_false_r;
  try match goal with Ra : 0 <= ?r R_AC <= 255, Rb : 0 <= ?r R_2OP <= 255 |- _ =>
    pose proof (land_range _ _ Ra Rb); pose proof (lor_range _ _ Ra Rb); pose proof (lxor_range _ _ Ra Rb);
    pose proof (Z.add_lnot_diag (r R_AC)) end;
  first [ reflexivity | f_equal; lia | lia
        | repeat match goal with |- context [if ?c then _ else _] => destruct c eqn:? end; lia ].

Lemma row_0 : row_ok 0. Proof. row 0; rest. Qed.
Lemma row_1 : row_ok 1. Proof. row 1; rest. Qed.
Lemma row_2 : row_ok 2. Proof. row 2; rest. Qed.
Lemma row_3 : row_ok 3. Proof. row 3; rest. Qed.
Lemma row_4 : row_ok 4. Proof. row 4; rest. Qed.
Lemma row_5 : row_ok 5. Proof. row 5; rest. Qed.
Lemma row_6 : row_ok 6. Proof. row 6; rest. Qed.
Lemma row_7 : row_ok 7. Proof. row 7; rest. Qed.
Lemma row_8 : row_ok 8. Proof. row 8; rest. Qed.
Lemma row_9 : row_ok 9. Proof. row 9; rest. Qed.
Lemma row_10 : row_ok 10. Proof. row 10; rest. Qed.
Lemma row_11 : row_ok 11. Proof. row 11; rest. Qed.
Lemma row_12 : row_ok 12. Proof. row 12; rest. Qed.
Lemma row_13 : row_ok 13. Proof. row 13; rest. Qed.
Lemma row_14 : row_ok 14. Proof. row 14; rest. Qed.
Lemma row_15 : row_ok 15. Proof. row 15; rest. Qed.
Lemma row_16 : row_ok 16. Proof. row 16; rest. Qed.
Lemma row_17 : row_ok 17. Proof. row 17; rest. Qed.
Lemma row_18 : row_ok 18. Proof. row 18; rest. Qed.
Lemma row_19 : row_ok 19. Proof. row 19; rest. Qed.
Lemma row_20 : row_ok 20. Proof. row 20; rest. Qed.
Lemma row_21 : row_ok 21. Proof. row 21; rest. Qed.
Lemma row_22 : row_ok 22. Proof. row 22; rest. Qed.
Lemma row_23 : row_ok 23. Proof. row 23; rest. Qed.
Lemma row_24 : row_ok 24. Proof. row 24; rest. Qed.
Lemma row_25 : row_ok 25. Proof. row 25; rest. Qed.
Lemma row_26 : row_ok 26. Proof. row 26; rest. Qed.
Lemma row_27 : row_ok 27. Proof. row 27; rest. Qed.
Lemma row_28 : row_ok 28. Proof. row 28; rest. Qed.
Lemma row_29 : row_ok 29. Proof. row 29; rest. Qed.
Lemma row_30 : row_ok 30. Proof. row 30; rest. Qed.
Lemma row_31 : row_ok 31. Proof. row 31; rest. Qed.
Lemma row_32 : row_ok 32. Proof. row 32; rest. Qed.
Lemma row_33 : row_ok 33. Proof. row 33; rest. Qed.
Lemma row_34 : row_ok 34. Proof. row 34; rest. Qed.
Lemma row_35 : row_ok 35. Proof. row 35; rest. Qed.
Lemma row_36 : row_ok 36. Proof. row 36; rest. Qed.
Lemma row_37 : row_ok 37. Proof. row 37; rest. Qed.
Lemma row_38 : row_ok 38. Proof. row 38; rest. Qed.
Lemma row_39 : row_ok 39. Proof. row 39; rest. Qed.
Lemma row_40 : row_ok 40. Proof. row 40; rest. Qed.
Lemma row_41 : row_ok 41. Proof. row 41; rest. Qed.
Lemma row_42 : row_ok 42. Proof. row 42; rest. Qed.
Lemma row_43 : row_ok 43. Proof. row 43; rest. Qed.
Lemma row_44 : row_ok 44. Proof. row 44; rest. Qed.

Lemma row_all : forall q, 0 <= q < 45 -> row_ok q.
Proof.
  intros q Hq.
  destruct (Z.eq_dec q 0) as [->|]; [exact row_0|].
  destruct (Z.eq_dec q 1) as [->|]; [exact row_1|].
  destruct (Z.eq_dec q 2) as [->|]; [exact row_2|].
  destruct (Z.eq_dec q 3) as [->|]; [exact row_3|].
  destruct (Z.eq_dec q 4) as [->|]; [exact row_4|].
  destruct (Z.eq_dec q 5) as [->|]; [exact row_5|].
  destruct (Z.eq_dec q 6) as [->|]; [exact row_6|].
  destruct (Z.eq_dec q 7) as [->|]; [exact row_7|].
  destruct (Z.eq_dec q 8) as [->|]; [exact row_8|].
  destruct (Z.eq_dec q 9) as [->|]; [exact row_9|].
  destruct (Z.eq_dec q 10) as [->|]; [exact row_10|].
  destruct (Z.eq_dec q 11) as [->|]; [exact row_11|].
  destruct (Z.eq_dec q 12) as [->|]; [exact row_12|].
  destruct (Z.eq_dec q 13) as [->|]; [exact row_13|].
  destruct (Z.eq_dec q 14) as [->|]; [exact row_14|].
  destruct (Z.eq_dec q 15) as [->|]; [exact row_15|].
  destruct (Z.eq_dec q 16) as [->|]; [exact row_16|].
  destruct (Z.eq_dec q 17) as [->|]; [exact row_17|].
  destruct (Z.eq_dec q 18) as [->|]; [exact row_18|].
  destruct (Z.eq_dec q 19) as [->|]; [exact row_19|].
  destruct (Z.eq_dec q 20) as [->|]; [exact row_20|].
  destruct (Z.eq_dec q 21) as [->|]; [exact row_21|].
  destruct (Z.eq_dec q 22) as [->|]; [exact row_22|].
  destruct (Z.eq_dec q 23) as [->|]; [exact row_23|].
  destruct (Z.eq_dec q 24) as [->|]; [exact row_24|].
  destruct (Z.eq_dec q 25) as [->|]; [exact row_25|].
  destruct (Z.eq_dec q 26) as [->|]; [exact row_26|].
  destruct (Z.eq_dec q 27) as [->|]; [exact row_27|].
  destruct (Z.eq_dec q 28) as [->|]; [exact row_28|].
  destruct (Z.eq_dec q 29) as [->|]; [exact row_29|].
  destruct (Z.eq_dec q 30) as [->|]; [exact row_30|].
  destruct (Z.eq_dec q 31) as [->|]; [exact row_31|].
  destruct (Z.eq_dec q 32) as [->|]; [exact row_32|].
  destruct (Z.eq_dec q 33) as [->|]; [exact row_33|].
  destruct (Z.eq_dec q 34) as [->|]; [exact row_34|].
  destruct (Z.eq_dec q 35) as [->|]; [exact row_35|].
  destruct (Z.eq_dec q 36) as [->|]; [exact row_36|].
  destruct (Z.eq_dec q 37) as [->|]; [exact row_37|].
  destruct (Z.eq_dec q 38) as [->|]; [exact row_38|].
  destruct (Z.eq_dec q 39) as [->|]; [exact row_39|].
  destruct (Z.eq_dec q 40) as [->|]; [exact row_40|].
  destruct (Z.eq_dec q 41) as [->|]; [exact row_41|].
  destruct (Z.eq_dec q 42) as [->|]; [exact row_42|].
  destruct (Z.eq_dec q 43) as [->|]; [exact row_43|].
  destruct (Z.eq_dec q 44) as [->|]; [exact row_44|].
  lia.
Qed.
