(** * The values on the buses after a clock cycle (proof layer) *)
From Coq Require Import ZArith List Bool Lia ZifyBool.
From Verif Require Import Word WordFacts Prog Tables Components Machine ZMachine ZRefine Rtl Micro BusSpec.
Import ListNotations.
Open Scope Z_scope.

Definition bus_ok (q : Z) : Prop :=
  forall z d0 d1 d2 d3 d4 d5 j1 j2 jn,
  settled z -> rng z -> j1 = tv z T_RIO mod 4 -> j2 = tv z T_RIO / 4 mod 4 ->
  let z' := z_body (pre (rom_int (nth (Z.to_nat q) ROM [])) d0 d1 d2 d3 d4 d5 j1 j2 jn z) in
  tv z' T_DIR2 = address q (view z') /\ tv z' T_DATA = data q (view z') (tv z T_DATA).

Lemma bus_ok_split : forall q,
  (forall z d0 d1 d2 d3 d4 d5 j1 j2 jn,
   settled z -> rng z -> j1 = rv z R_RI mod 4 -> j2 = rv z R_RI / 4 mod 4 ->
   forall fs fp,
   let z0 := pre (rom_int (nth (Z.to_nat q) ROM [])) d0 d1 d2 d3 d4 d5 j1 j2 jn z in
   fs = fits 16 (tv (pre_sp z0) T_DIR1) ->
   fp = fits 16 (tv (pre_pc fs z0) T_DIR1) ->
   tv (body_f fs fp z0) T_DIR2 = address q (view (body_f fs fp z0)) /\
   tv (body_f fs fp z0) T_DATA = data q (view (body_f fs fp z0)) (tv z T_DATA)) -> bus_ok q.
Proof.
  intros q H z d0 d1 d2 d3 d4 d5 j1 j2 jn Hs Hr Hj1 Hj2.
  rewrite (st_ri z Hs) in Hj1, Hj2. cbv zeta. rewrite z_body_eq. cbv zeta.
  apply H; auto.
Qed.

Ltac bspec := cbv beta iota zeta delta
  [address data HL flags8 low2 view reg mem errs regid_eqb regid_num N.eqb Pos.eqb].
Ltac bleaf := zb; bspec;
  repeat match goal with H : ?k = ?e mod 4 |- context [greg (?e mod 4)] => rewrite <- H end;
  cbv beta iota delta [greg regid_num]; fin.
Ltac bgoals := split; bleaf.
Ltac brow q :=
  apply bus_ok_split;
  let t := fresh "t" in let r := fresh "r" in let m := fresh "m" in let l := fresh "l" in
  let Hs := fresh "Hs" in let Hr := fresh "Hr" in
  let fs := fresh "fs" in let fp := fresh "fp" in
  let Hfs := fresh "Hfs" in let Hfp := fresh "Hfp" in let z0 := fresh "z0" in
  let Hj1 := fresh "Hj1" in let Hj2 := fresh "Hj2" in
  intros [t r m l] d0 d1 d2 d3 d4 d5 j1 j2 jn Hs Hr Hj1 Hj2 fs fp;
  let c := eval vm_compute in (rom_int (nth (Z.to_nat q) ROM [])) in
  change (rom_int (nth (Z.to_nat q) ROM [])) with c;
  let Hpc := fresh "Hpc" in let Hsp := fresh "Hsp" in let Hhl := fresh "Hhl" in
  let Hac := fresh "Hac" in let Hop := fresh "Hop" in let Hfl := fresh "Hfl" in
  let Hri := fresh "Hri" in
  destruct Hs as [Hpc Hsp Hhl Hac Hop Hfl Hri];
  cbv beta iota delta [tv rv zm zl] in Hpc, Hsp, Hhl, Hac, Hop, Hfl, Hri, Hj1, Hj2;
  pose proof (rng_r _ Hr R_PC) as Rpc; pose proof (rng_r _ Hr R_SP) as Rsp;
  pose proof (rng_r _ Hr R_AC) as Rac; pose proof (rng_r _ Hr R_2OP) as Rop;
  pose proof (rng_r _ Hr R_FC) as Rfc; pose proof (rng_r _ Hr R_FZ) as Rfz;
  pose proof (rng_r _ Hr R_H) as Rh; pose proof (rng_r _ Hr R_L) as Rl;
  change (0 <= r R_PC <= 65535) in Rpc; change (0 <= r R_SP <= 65535) in Rsp;
  change (0 <= r R_AC <= 255) in Rac; change (0 <= r R_2OP <= 255) in Rop;
  change (0 <= r R_FC <= 1) in Rfc; change (0 <= r R_FZ <= 1) in Rfz;
  change (0 <= r R_H <= 255) in Rh; change (0 <= r R_L <= 255) in Rl;
  intros z0 Hfs Hfp; subst z0;
  let isp := eval vm_compute in (Z.testbit c 12) in
  let iss := eval vm_compute in (Z.testbit c 2) in
  let isr := eval vm_compute in (Z.testbit c 11 || Z.testbit c 20) in
  let isj := eval vm_compute in (c / 2 ^ 26 mod 4) in
  match isr with
  | true => match isj with
    | 0 => clear Hj2; assert (j1 = 0 \/ j1 = 1 \/ j1 = 2 \/ j1 = 3) as [-> | [-> | [-> | ->]]] by (rewrite Hj1; lia)
    | 1 => clear Hj1; assert (j2 = 0 \/ j2 = 1 \/ j2 = 2 \/ j2 = 3) as [-> | [-> | [-> | ->]]] by (rewrite Hj2; lia)
    | _ => clear Hj1 Hj2
    end
  | false => clear Hj1 Hj2
  end;
  match isp with
  | true => clear Hfs; zbin Hfp; destruct fp; rewrite fits16 in Hfp; bgoals
  | false => clear Hfp; match iss with
     | true => zbin Hfs; destruct fs; rewrite fits16 in Hfs; bgoals
     | false => clear Hfs; bgoals
     end
  end.
Ltac brest :=
  try match goal with Rb : 0 <= ?r R_2OP <= 255 |- context [?f ?a (?r R_2OP)] =>
    let Ra := fresh in assert (Ra : 0 <= a <= 255) by (apply Z.lt_succ_r || idtac; pose proof (Z.mod_pos_bound (f (r R_AC) (r R_2OP)) 256); lia);
    pose proof (land_range _ _ Ra Rb); pose proof (lor_range _ _ Ra Rb); pose proof (lxor_range _ _ Ra Rb) end;
  rest.
Lemma brow_0 : bus_ok 0. Proof. brow 0; rest. Qed.
Lemma brow_1 : bus_ok 1. Proof. brow 1; rest. Qed.
Lemma brow_2 : bus_ok 2. Proof. brow 2; rest. Qed.
Lemma brow_3 : bus_ok 3. Proof. brow 3; rest. Qed.
Lemma brow_4 : bus_ok 4. Proof. brow 4; rest. Qed.
Lemma brow_5 : bus_ok 5. Proof. brow 5; rest. Qed.
Lemma brow_6 : bus_ok 6. Proof. brow 6; rest. Qed.
Lemma brow_7 : bus_ok 7. Proof. brow 7; rest. Qed.
Lemma brow_8 : bus_ok 8. Proof. brow 8; rest. Qed.
Lemma brow_9 : bus_ok 9. Proof. brow 9; brest. Qed.
Lemma brow_10 : bus_ok 10. Proof. brow 10; brest. Qed.
Lemma brow_11 : bus_ok 11. Proof. brow 11; brest. Qed.
Lemma brow_12 : bus_ok 12. Proof. brow 12; rest. Qed.
Lemma brow_13 : bus_ok 13. Proof. brow 13; rest. Qed.
Lemma brow_14 : bus_ok 14. Proof. brow 14; try rest. set (x := Z.lnot (r R_AC) mod 256). pose proof (Z.mod_pos_bound (Z.lnot (r R_AC)) 256 eq_refl). fold x in H. pose proof (Z.add_lnot_diag x). clearbody x. lia. Qed.
Lemma brow_15 : bus_ok 15. Proof. brow 15; rest. Qed.
Lemma brow_16 : bus_ok 16. Proof. brow 16; rest. Qed.
Lemma brow_17 : bus_ok 17. Proof. brow 17; rest. Qed.
Lemma brow_18 : bus_ok 18. Proof. brow 18; rest. Qed.
Lemma brow_19 : bus_ok 19. Proof. brow 19; rest. Qed.
Lemma brow_20 : bus_ok 20. Proof. brow 20; rest. Qed.
Lemma brow_21 : bus_ok 21. Proof. brow 21; rest. Qed.
Lemma brow_22 : bus_ok 22. Proof. brow 22; rest. Qed.
Lemma brow_23 : bus_ok 23. Proof. brow 23; rest. Qed.
Lemma brow_24 : bus_ok 24. Proof. brow 24; rest. Qed.
Lemma brow_25 : bus_ok 25. Proof. brow 25; rest. Qed.
Lemma brow_26 : bus_ok 26. Proof. brow 26; rest. Qed.
Lemma brow_27 : bus_ok 27. Proof. brow 27; rest. Qed.
Lemma brow_28 : bus_ok 28. Proof. brow 28; rest. Qed.
Lemma brow_29 : bus_ok 29. Proof. brow 29; rest. Qed.
Lemma brow_30 : bus_ok 30. Proof. brow 30; rest. Qed.
Lemma brow_31 : bus_ok 31. Proof. brow 31; rest. Qed.
Lemma brow_32 : bus_ok 32. Proof. brow 32; rest. Qed.
Lemma brow_33 : bus_ok 33. Proof. brow 33; rest. Qed.
Lemma brow_34 : bus_ok 34. Proof. brow 34; rest. Qed.
Lemma brow_35 : bus_ok 35. Proof. brow 35; rest. Qed.
Lemma brow_36 : bus_ok 36. Proof. brow 36; rest. Qed.
Lemma brow_37 : bus_ok 37. Proof. brow 37; rest. Qed.
Lemma brow_38 : bus_ok 38. Proof. brow 38; rest. Qed.
Lemma brow_39 : bus_ok 39. Proof. brow 39; rest. Qed.
Lemma brow_40 : bus_ok 40. Proof. brow 40; rest. Qed.
Lemma brow_41 : bus_ok 41. Proof. brow 41; rest. Qed.
Lemma brow_42 : bus_ok 42. Proof. brow 42; rest. Qed.
Lemma brow_43 : bus_ok 43. Proof. brow 43; rest. Qed.
Lemma brow_44 : bus_ok 44. Proof. brow 44; rest. Qed.

Lemma bus_all : forall q, 0 <= q < 45 -> bus_ok q.
Proof.
  intros q Hq.
  destruct (Z.eq_dec q 0) as [->|]; [exact brow_0|].
  destruct (Z.eq_dec q 1) as [->|]; [exact brow_1|].
  destruct (Z.eq_dec q 2) as [->|]; [exact brow_2|].
  destruct (Z.eq_dec q 3) as [->|]; [exact brow_3|].
  destruct (Z.eq_dec q 4) as [->|]; [exact brow_4|].
  destruct (Z.eq_dec q 5) as [->|]; [exact brow_5|].
  destruct (Z.eq_dec q 6) as [->|]; [exact brow_6|].
  destruct (Z.eq_dec q 7) as [->|]; [exact brow_7|].
  destruct (Z.eq_dec q 8) as [->|]; [exact brow_8|].
  destruct (Z.eq_dec q 9) as [->|]; [exact brow_9|].
  destruct (Z.eq_dec q 10) as [->|]; [exact brow_10|].
  destruct (Z.eq_dec q 11) as [->|]; [exact brow_11|].
  destruct (Z.eq_dec q 12) as [->|]; [exact brow_12|].
  destruct (Z.eq_dec q 13) as [->|]; [exact brow_13|].
  destruct (Z.eq_dec q 14) as [->|]; [exact brow_14|].
  destruct (Z.eq_dec q 15) as [->|]; [exact brow_15|].
  destruct (Z.eq_dec q 16) as [->|]; [exact brow_16|].
  destruct (Z.eq_dec q 17) as [->|]; [exact brow_17|].
  destruct (Z.eq_dec q 18) as [->|]; [exact brow_18|].
  destruct (Z.eq_dec q 19) as [->|]; [exact brow_19|].
  destruct (Z.eq_dec q 20) as [->|]; [exact brow_20|].
  destruct (Z.eq_dec q 21) as [->|]; [exact brow_21|].
  destruct (Z.eq_dec q 22) as [->|]; [exact brow_22|].
  destruct (Z.eq_dec q 23) as [->|]; [exact brow_23|].
  destruct (Z.eq_dec q 24) as [->|]; [exact brow_24|].
  destruct (Z.eq_dec q 25) as [->|]; [exact brow_25|].
  destruct (Z.eq_dec q 26) as [->|]; [exact brow_26|].
  destruct (Z.eq_dec q 27) as [->|]; [exact brow_27|].
  destruct (Z.eq_dec q 28) as [->|]; [exact brow_28|].
  destruct (Z.eq_dec q 29) as [->|]; [exact brow_29|].
  destruct (Z.eq_dec q 30) as [->|]; [exact brow_30|].
  destruct (Z.eq_dec q 31) as [->|]; [exact brow_31|].
  destruct (Z.eq_dec q 32) as [->|]; [exact brow_32|].
  destruct (Z.eq_dec q 33) as [->|]; [exact brow_33|].
  destruct (Z.eq_dec q 34) as [->|]; [exact brow_34|].
  destruct (Z.eq_dec q 35) as [->|]; [exact brow_35|].
  destruct (Z.eq_dec q 36) as [->|]; [exact brow_36|].
  destruct (Z.eq_dec q 37) as [->|]; [exact brow_37|].
  destruct (Z.eq_dec q 38) as [->|]; [exact brow_38|].
  destruct (Z.eq_dec q 39) as [->|]; [exact brow_39|].
  destruct (Z.eq_dec q 40) as [->|]; [exact brow_40|].
  destruct (Z.eq_dec q 41) as [->|]; [exact brow_41|].
  destruct (Z.eq_dec q 42) as [->|]; [exact brow_42|].
  destruct (Z.eq_dec q 43) as [->|]; [exact brow_43|].
  destruct (Z.eq_dec q 44) as [->|]; [exact brow_44|].
  lia.
Qed.
