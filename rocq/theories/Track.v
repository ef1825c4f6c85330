(** * The microstates stay on the path of the instruction in RI (proof layer) *)
From Coq Require Import ZArith List Bool Lia ZifyBool.
From Verif Require Import Prog ZRefine Rtl Isa MicroIsa IsaOps.
Import ListNotations.
Open Scope Z_scope.

(** whatever the flags, the fetch comes back within nine cycles *)
Definition trk (q ri : Z) : bool :=
  forallb (fun fc => forallb (fun fz => match go 9 q ri fc fz with Some _ => true | None => false end) (range 2)) (range 2).

Definition trk_next (q ri : Z) : bool :=
  (q =? 0) || negb (trk q ri) || forallb (fun fc => forallb (fun fz => trk (succ q ri fc fz) ri) (range 2)) (range 2).

Lemma trk_next_b : forallb (fun q => forallb (fun ri => trk_next q ri) (range 256)) (range 45) = true.
Proof. vm_compute. reflexivity. Qed.
Lemma trk_1_b : forallb (fun ri => trk 1 ri) (range 256) = true.
Proof. vm_compute. reflexivity. Qed.
Lemma trk_0 : forall ri, trk 0 ri = true.
Proof. reflexivity. Qed.
Opaque trk.

Lemma trk_1 : forall ri, 0 <= ri <= 255 -> trk 1 ri = true.
Proof.
  intros ri H. pose proof trk_1_b as F. rewrite forallb_forall in F. apply (F ri). apply in_range. lia.
Qed.
Lemma trk_succ : forall q ri fc fz, 0 < q < 45 -> 0 <= ri <= 255 -> 0 <= fc <= 1 -> 0 <= fz <= 1 ->
  trk q ri = true -> trk (succ q ri fc fz) ri = true.
Proof.
  intros q ri fc fz Hq Hr Hfc Hfz T. pose proof trk_next_b as F. rewrite forallb_forall in F.
  specialize (F q (in_range 45 q ltac:(lia))). rewrite forallb_forall in F. specialize (F ri (in_range 256 ri ltac:(lia))).
  unfold trk_next in F. rewrite T in F. replace (q =? 0) with false in F by lia. cbn [negb orb] in F.
  rewrite forallb_forall in F. specialize (F fc (in_range 2 fc ltac:(lia))).
  rewrite forallb_forall in F. exact (F fz (in_range 2 fz ltac:(lia))).
Qed.

Lemma trk_step : forall c q, cvalid c -> 0 <= q < 45 -> trk q (reg c R_RI) = true ->
  trk (succ q (reg c R_RI) (reg c R_FC) (reg c R_FZ)) (reg (rtl q c) R_RI) = true.
Proof.
  intros c q V Hq T. pose proof (cv_r c V R_RI) as V1. pose proof (cv_r c V R_FC) as V2. pose proof (cv_r c V R_FZ) as V3.
  cbn in V1, V2, V3. destruct (Z.eq_dec q 0) as [->|N].
  - rewrite succ_0 by lia. apply trk_1. pose proof (rtl_valid 0 c V) as V'. apply (cv_r _ V' R_RI).
  - rewrite rtl_ri by exact N. apply trk_succ; auto. lia.
Qed.

Lemma trk_go : forall q ri fc fz, 0 <= fc <= 1 -> 0 <= fz <= 1 -> trk q ri = true -> exists l, go 9 q ri fc fz = Some l.
Proof.
  Transparent trk. intros q ri fc fz Hfc Hfz T. unfold trk in T. rewrite forallb_forall in T.
  specialize (T fc (in_range 2 fc ltac:(lia))). rewrite forallb_forall in T. specialize (T fz (in_range 2 fz ltac:(lia))).
  cbv beta in T. revert T. generalize (go 9 q ri fc fz). intros [l|] T; [eauto|discriminate]. Opaque trk.
Qed.

Lemma go_length : forall n q ri fc fz l, go n q ri fc fz = Some l -> (length l < n)%nat.
Proof.
  induction n; cbn [go]; intros; [discriminate|]. destruct (q =? 0). { injection H as <-. cbn. lia. }
  destruct (go n (succ q ri fc fz) ri fc fz) eqn:G; [|discriminate]. injection H as <-. cbn. apply IHn in G. lia.
Qed.

(** before the end of the path the next microstate is not the fetch *)
Lemma usteps_go_ne : forall n q ri fc fz l s, go n q ri fc fz = Some l -> cvalid s -> reg s R_RI = ri ->
  0 <= fc <= 1 -> 0 <= fz <= 1 ->
  0 <= q < 45 -> (q = 1 \/ q = 16 \/ q = 17 -> reg s R_FC = fc /\ reg s R_FZ = fz) ->
  forall k, (k < length l)%nat -> snd (usteps k (s, q)) <> 0.
Proof.
  induction n as [|n IH]; cbn [go]; intros q ri fc fz l s H V Hri Hfc Hfz Hq H1 k Hk; [discriminate|].
  destruct (Z.eqb_spec q 0) as [E|E]. { injection H as <-. cbn in Hk. lia. }
  destruct (go n (succ q ri fc fz) ri fc fz) as [l'|] eqn:G; [|discriminate]. injection H as <-.
  destruct k as [|k]; [exact E|].
  cbn [length usteps rrun fold_left] in *.
  pose proof (cv_r s V R_RI) as X1; pose proof (cv_r s V R_FC) as X2; pose proof (cv_r s V R_FZ) as X3;
  cbn [rhi] in *.
  cbn [ustep]. rewrite Hri. rewrite Hri in X1.
  assert (Es : succ q ri (reg s R_FC) (reg s R_FZ) = succ q ri fc fz).
  { destruct (Z.eq_dec q 17) as [->|N17].
    - destruct H1 as [-> ->]; auto.
    - rewrite succ_flags by lia. symmetry. apply succ_flags; lia. }
  rewrite Es.
  apply IH with (ri := ri) (fc := fc) (fz := fz) (l := l'); auto; try lia.
  - apply rtl_valid; auto.
  - rewrite rtl_ri; auto.
  - apply succ_range; lia.
  - intros Hn.
    assert (Hq1 : q = 1 \/ q = 16).
    { destruct Hn as [Hn|Hn].
      - exfalso. revert Hn. apply succ_ne_1; lia.
      - apply (succ_addr q ri fc fz); auto; lia. }
    destruct Hq1 as [-> | ->].
    + apply H1; auto.
    + destruct (rtl_16_flags s) as [-> ->]. apply H1; auto.
Qed.

Lemma usteps_first : forall s k, cvalid s ->
  (0 < k < Z.to_nat (cycles (mem s (reg s R_PC)) (reg s R_FC =? 1)%Z (reg s R_FZ =? 1)%Z))%nat ->
  snd (usteps k (s, 0%Z)) <> 0.
Proof.
  intros s k V Hk.
  pose proof (cv_r s V R_RI) as X1; pose proof (cv_r s V R_FC) as X2; pose proof (cv_r s V R_FZ) as X3;
  pose proof (cv_r s V R_PC) as X4; cbn [rhi] in X1, X2, X3, X4.
  pose proof (cv_m s V (reg s R_PC) ltac:(lia)) as X5.
  destruct (path_some _ _ _ X5 X2 X3) as (l & Hl & Hn). rewrite <- Hn, Nat2Z.id in Hk.
  apply path_inv in Hl. destruct Hl as (n & l' & -> & G). rewrite len2 in Hk.
  destruct k as [|[|k]]; [lia| |].
  - cbn [usteps]. rewrite ustep_eq, succ_0 by lia. cbn. discriminate.
  - rewrite !usteps_S, !ustep_eq, succ_0 by lia.
    destruct (rtl_0_facts s) as (E1 & E2 & E3).
    rewrite rtl_1. rewrite E1, E2, E3.
    refine (usteps_go_ne n _ (mem s (reg s R_PC)) (reg s R_FC) (reg s R_FZ) l' (rtl 0 s) G _ E1 X2 X3 _ _ k _).
    + apply rtl_valid; auto.
    + apply succ_range; lia.
    + intros _. split; assumption.
    + lia.
Qed.
