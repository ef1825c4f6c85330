(** * Histories of calls reach only good states; instructions and programs at the
    level of the exported functions (proof layer) *)
From Coq Require Import ZArith List Bool Lia ZifyBool.
From Verif Require Import Word WordFacts Prog Tables Components Machine ZMachine ZWord ZRefine ZRefineB ZRefineC
  Rtl Micro Isa MicroIsa IsaOps Track Drive LinkedList PubSub Api HeapSim Lifecycle Usage ApiFacts.
Import ListNotations.
Open Scope Z_scope.
Opaque trk.

Lemma run_calls_app : forall l1 l2 h, run_calls (l1 ++ l2) h = match run_calls l1 h with Some h' => run_calls l2 h' | None => None end.
Proof. induction l1; intros; cbn; auto. destruct (do_call a h); auto. Qed.

Definition good (u : use) (h : hstate) : Prop :=
  ui h = cb u /\ sane (ps h) /\ (on u = true -> exists z, up h z).

Lemma up_sane : forall h z, up h z -> sane (ps h).
Proof. intros h z [(s & S & _) _ _ _]. exact (sim_sane h s S). Qed.

Lemma api_clock_up : forall u h z, up h z -> (u = true -> ui h = true) ->
  exists h' z', api_run_clock_cycle u h = Some h' /\ up h' z' /\ ui h' = ui h /\ tick h' = true /\
    qpos z' = dpos z /\ dpos z' = succ (dpos z) (rv z R_RI) (rv z R_FC) (rv z R_FZ) /\
    same (view z') (rtl (dpos z) (view z)) /\ tv z' T_CONTROL = rom_int (nth (Z.to_nat (dpos z)) ROM []).
Proof.
  intros u h z U Hu. destruct (clock_up h z U) as (h' & z' & E & U' & T' & V' & K).
  exists h', z'. split; [|auto]. unfold api_run_clock_cycle. rewrite E. unfold call_update_ui. rewrite V'.
  destruct u; auto. rewrite Hu; auto.
Qed.

Lemma good_call : forall u c u' h, good u h -> allowed u c u' -> exists h', do_call c h = Some h' /\ good u' h'.
Proof.
  intros u c u' h (G1 & G2 & G3) A. destruct A; cbn [do_call cb on] in *.
  - destruct (init_up h rnd G2 H) as (h' & z & E & U & (F1 & F2) & _). exists h'. split; auto.
    split; [cbn; congruence|]. split; [exact (up_sane _ _ U)|]. eauto.
  - destruct (G3 eq_refl) as (z & [(s & S & _) _ _ _]). destruct (shutdown_ok h s S) as (h' & E & S' & (F1 & F2) & _).
    exists h'. split; auto. split; [cbn; congruence|]. split; [exact S'|]. discriminate.
  - exists (set_ui h k). split; auto. split; auto. split; auto. intros Ho. destruct (G3 Ho) as (z & U). exists z. apply set_ui_up; auto.
  - destruct (G3 eq_refl) as (z & U). destruct (api_clock_up u h z U) as (h' & z' & E & U' & V' & _).
    { intros Hu. rewrite G1. auto. }
    exists h'. split; auto. split; [cbn; congruence|]. split; [exact (up_sane _ _ U')|]. eauto.
  - destruct (G3 eq_refl) as (z & U). destruct (reset_up h z U) as (h' & z' & E & U' & (F1 & F2) & _).
    exists h'. split; auto. split; [cbn; congruence|]. split; [exact (up_sane _ _ U')|]. eauto.
  - destruct (G3 eq_refl) as (z & U). destruct (set_mem_up h z o v U G1 H H0) as (h' & z' & E & U' & (F1 & F2) & _).
    exists h'. split; auto. split; [cbn; congruence|]. split; [exact (up_sane _ _ U')|]. eauto.
  - destruct (G3 eq_refl) as (z & U). destruct (set_pc_up h z v U G1 H) as (h' & z' & E & U' & (F1 & F2) & _).
    exists h'. split; auto. split; [cbn; congruence|]. split; [exact (up_sane _ _ U')|]. eauto.
Qed.

Lemma proper_good : forall l u, proper l u -> exists h, run_calls l boot = Some h /\ good u h.
Proof.
  induction 1 as [|l u c u' P (h & E & G) A].
  - exists boot. split; auto. split; auto. split; [exact sane0|discriminate].
  - destruct (good_call u c u' h G A) as (h' & E' & G'). exists h'. split; auto.
    rewrite run_calls_app, E. cbn. rewrite E'. reflexivity.
Qed.

Lemma live_up : forall l h k, live l h k -> ui h = k /\ exists z, up h z.
Proof.
  intros l h k (P & E). destruct (proper_good l _ P) as (h0 & E0 & G1 & G2 & G3).
  rewrite E in E0. injection E0 as <-. split; auto.
Qed.

Lemma live_obs_up : forall l h k c, live l h k -> obs h c -> ui h = k /\ exists z, up h z /\ same (view z) c.
Proof.
  intros l h k c L O. destruct (live_up l h k L) as (Hu & z & U). split; auto.
  destruct (obs_up h z c U O) as (z2 & U2 & S & _). eauto.
Qed.

Lemma live_clock : forall l h k u, live l h k -> (u = true -> k = true) ->
  exists h', do_call (RunClock u) h = Some h' /\ live (l ++ [RunClock u]) h' k.
Proof.
  intros l h k u (P & E) Hu. pose proof (A_clock u k Hu) as A. destruct (proper_good l _ P) as (h0 & E0 & G).
  rewrite E in E0. injection E0 as <-. destruct (good_call _ _ _ _ G A) as (h' & E' & G').
  exists h'. split; auto. split; [econstructor; eauto|]. rewrite run_calls_app, E. cbn in *. rewrite E'. reflexivity.
Qed.

Lemma clocks_snoc : forall us u, clocks (us ++ [u]) = clocks us ++ [RunClock u].
Proof. intros. unfold clocks. rewrite map_app. reflexivity. Qed.
Lemma clocks_app : forall us vs, clocks (us ++ vs) = clocks us ++ clocks vs.
Proof. intros. unfold clocks. rewrite map_app. reflexivity. Qed.

Lemma live_clocks : forall us l h k, live l h k -> (k = false -> ~ In true us) ->
  exists h', run_calls (clocks us) h = Some h' /\ live (l ++ clocks us) h' k.
Proof.
  induction us as [|u us IH]; intros l h k L Hk.
  - exists h. cbn. rewrite app_nil_r. auto.
  - destruct (live_clock l h k u L) as (h1 & E1 & L1).
    { intros ->. destruct k; auto. exfalso. apply Hk; cbn; auto. }
    destruct (IH _ _ _ L1) as (h' & E' & L'). { intros Hf Hin. apply Hk; cbn; auto. }
    exists h'. split; [cbn in *; rewrite E1; exact E'|]. rewrite <- app_assoc in L'. exact L'.
Qed.

Lemma run_clocks_cons : forall u us h, run_calls (clocks (u :: us)) h =
  match api_run_clock_cycle u h with Some h' => run_calls (clocks us) h' | None => None end.
Proof. reflexivity. Qed.

(** clocks run the microstate machine *)
Lemma usteps_cong : forall n s t q, same s t -> cvalid s -> exists s' t' q', usteps n (s, q) = (s', q') /\ usteps n (t, q) = (t', q') /\ same s' t'.
Proof.
  induction n; intros s t q S V; cbn.
  - exists s, t, q. auto.
  - rewrite <- !(reg_same s t _ S). apply IHn. apply rtl_cong; auto. apply rtl_valid; auto.
Qed.

Lemma clocks_up : forall us h z, up h z -> (ui h = false -> ~ In true us) ->
  exists h' z' c' q', run_calls (clocks us) h = Some h' /\ up h' z' /\ ui h' = ui h /\
    usteps (length us) (view z, dpos z) = (c', q') /\ same (view z') c' /\ dpos z' = q'.
Proof.
  induction us as [|u us IH]; intros h z U Hk.
  - exists h, z, (view z), (dpos z). split; [reflexivity|]. split; [exact U|]. split; [reflexivity|].
    split; [reflexivity|]. split; [apply same_refl|reflexivity].
  - destruct (api_clock_up u h z U) as (h1 & z1 & E1 & U1 & V1 & _ & Q1 & Q2 & Q3 & _).
    { intros ->. destruct (ui h); auto. exfalso. apply Hk; cbn; auto. }
    destruct (IH h1 z1 U1) as (h' & z' & c' & q' & E' & U' & V' & K1 & K2 & K3). { rewrite V1. intros Hf Hin. apply Hk; cbn; auto. }
    pose proof (zview_valid z1 (inv_rng z1 (up_inv _ _ U1))) as W1.
    destruct (usteps_cong (length us) _ _ (dpos z1) Q3 W1) as (s2 & t2 & q2 & X1 & X2 & X3).
    rewrite X1 in K1. injection K1 as -> ->.
    exists h', z', t2, q'. split; [rewrite run_clocks_cons, E1; exact E'|]. split; [exact U'|]. split; [congruence|].
    split; [|split; [exact (same_trans _ _ _ K2 X3)|exact K3]].
    change (length (u :: us)) with (S (length us)). rewrite usteps_S, ustep_eq, <- !rv_view, <- Q2. exact X2.
Qed.

(** ** Observations *)
Lemma b2z_eq1 : forall v, 0 <= v <= 1 -> Z.b2z (v =? 1) = v.
Proof. intros v H. assert (v = 0 \/ v = 1) as [-> | ->] by lia; reflexivity. Qed.

Lemma obs_shows : forall h c a, obs h c -> cvalid c -> arch_eq (abs c) a -> shows h a.
Proof.
  intros h c a (O1 & O2 & O3) V (A1 & A2 & A3 & A4 & A5 & A6 & A7 & A8 & A9 & A10 & A11).
  unfold shows. cbn [abs AC FC FZ Isa.B C D E PC SP M log] in *.
  pose proof (cv_r c V R_FC) as V1. pose proof (cv_r c V R_FZ) as V2. cbn in V1, V2.
  rewrite <- A1, <- A2, <- A3, <- A4, <- A5, <- A6, <- A7, <- A8, <- A9, <- A11.
  rewrite !b2z_eq1 by assumption. rewrite !O1. repeat split; auto.
  intros i Hi. rewrite <- A10. auto.
Qed.

(** a programmer-visible state shown by a live machine is the abstraction of a processor state it shows *)
Lemma shows_obs : forall h z a, up h z -> shows h a -> exists z2, up h z2 /\ arch_eq (abs (view z2)) a /\ qpos z2 = qpos z /\ dpos z2 = dpos z
  /\ forall r, rv z2 r = rv z r.
Proof.
  intros h z a U S. pose proof (up_obs h z U) as (O & _).
  destruct O as (O1 & O2 & O3). destruct S as (S1 & S2 & S3 & S4 & S5 & S6 & S7 & S8 & S9 & S10 & S11).
  assert (O' : obs h (mkCpu (rv z) (M a) (zl z))).
  { split; [exact O1|]. split; [exact S10|]. exact O3. }
  destruct (obs_up h z _ U O') as (z2 & U2 & X & Q1 & Q2). exists z2. split; auto.
  destruct X as (X1 & X2 & X3). cbn in X1, X2, X3. split; [|auto].
  rewrite O1 in *. cbn [view reg] in *.
  injection S1 as S1. injection S2 as S2. injection S3 as S3. injection S4 as S4. injection S5 as S5.
  injection S6 as S6. injection S7 as S7. injection S8 as S8. injection S9 as S9.
  unfold arch_eq, abs; cbn [view AC FC FZ Isa.B C D E PC SP M log reg mem errs].
  rewrite !X1, X3. repeat split; auto; try congruence.
  - rewrite S2. destruct (FC a); reflexivity.
  - rewrite S3. destruct (FZ a); reflexivity.
  - cbn in O3. congruence.
Qed.

Lemma up_boundary : forall h z, up h z -> boundary h <-> (dpos z = 0 /\ (rv z R_PC = 65535 -> rv z R_PCH = 255 /\ rv z R_PCL = 255)).
Proof.
  intros h z U. destruct (up_obs h z U) as ((O1 & _) & _ & N). unfold boundary. rewrite !O1, N. cbn [view reg].
  split; intros (H1 & H2); (split; [congruence|]); intros H; [injection H1 as H1|]; 
  (destruct H2 as (H3 & H4); [congruence|]); split; congruence.
Qed.

Lemma presync_iff : forall c, cvalid c -> presync c <-> (reg c R_PC = 65535 -> reg c R_PCH = 255 /\ reg c R_PCL = 255).
Proof.
  intros c V. unfold presync, insync. pose proof (cv_r c V R_PC) as V1. pose proof (cv_r c V R_PCH) as V2.
  pose proof (cv_r c V R_PCL) as V3. cbn in V1, V2, V3. split.
  - intros [H|H] E; lia.
  - intros H. destruct (Z.eq_dec (reg c R_PC) 65535) as [E|E]; [|lia]. specialize (H E). lia.
Qed.

(** ** One instruction *)
Lemma usteps_add : forall n m c, usteps (n + m) c = usteps m (usteps n c).
Proof. induction n; intros; cbn; auto. Qed.

Lemma arch_fields : forall c a, arch_eq (abs c) a ->
  mem c (reg c R_PC) = M a (PC a) /\ (reg c R_FC =? 1) = FC a /\ (reg c R_FZ =? 1) = FZ a.
Proof.
  intros c a (A1 & A2 & A3 & A4 & A5 & A6 & A7 & A8 & A9 & A10 & A11). cbn [abs AC FC FZ Isa.B C D E PC SP M log] in *.
  rewrite A8, A10. auto.
Qed.

Lemma instruction_at : forall h z a us, up h z -> boundary h -> shows h a -> (ui h = false -> ~ In true us) ->
  Z.of_nat (length us) = cycles (M a (PC a)) (FC a) (FZ a) ->
  exists h' z', run_calls (clocks us) h = Some h' /\ up h' z' /\ ui h' = ui h /\ boundary h' /\ shows h' (step a) /\
    insync (view z').
Proof.
  intros h z0 a us U0 Hb Hs Hk Hl. destruct (shows_obs h z0 a U0 Hs) as (z & U & A & _).
  pose proof (proj1 (up_boundary h z U) Hb) as (B1 & B2).
  pose proof (zview_valid z (inv_rng z (up_inv _ _ U))) as V.
  assert (Y : presync (view z)) by (apply presync_iff; auto).
  destruct (instr_ok (view z) V Y) as (s' & E1 & E2 & E3 & E4).
  destruct (arch_fields _ _ A) as (F1 & F2 & F3). rewrite F1, F2, F3, <- Hl, Nat2Z.id in E1.
  destruct (clocks_up us h z U Hk) as (h' & z' & c' & q' & K1 & K2 & K3 & K4 & K5 & K6).
  rewrite B1, E1 in K4. injection K4 as <- <-.
  exists h', z'. split; [exact K1|]. split; [exact K2|]. split; [exact K3|].
  assert (I : insync (view z')) by (apply (insync_same s' (view z')); [apply same_sym; exact K5|exact E4]).
  pose proof (zview_valid z' (inv_rng z' (up_inv _ _ K2))) as V'.
  split; [|split; [|exact I]].
  - apply (up_boundary h' z' K2). split; auto. apply (presync_iff (view z') V'). left. exact I.
  - apply (obs_shows h' (view z')); [apply (up_obs h' z' K2)|exact V'|].
    eapply arch_eq_trans; [apply abs_same; exact K5|]. eapply arch_eq_trans; [exact E2|].
    apply step_cong. exact A.
Qed.

Lemma not_earlier : forall h z a us h1, up h z -> boundary h -> shows h a -> (ui h = false -> ~ In true us) ->
  0 < Z.of_nat (length us) < cycles (M a (PC a)) (FC a) (FZ a) ->
  run_calls (clocks us) h = Some h1 -> get_next_state h1 <> Some 0.
Proof.
  intros h z0 a us h1 U0 Hb Hs Hk Hl E1. destruct (shows_obs h z0 a U0 Hs) as (z & U & A & _).
  pose proof (proj1 (up_boundary h z U) Hb) as (B1 & B2).
  pose proof (zview_valid z (inv_rng z (up_inv _ _ U))) as V.
  destruct (arch_fields _ _ A) as (F1 & F2 & F3).
  destruct (clocks_up us h z U Hk) as (h' & z' & c' & q' & K1 & K2 & K3 & K4 & K5 & K6).
  rewrite E1 in K1. injection K1 as <-.
  assert (N : snd (usteps (length us) (view z, 0)) <> 0).
  { apply usteps_first; auto. rewrite F1, F2, F3. lia. }
  rewrite B1 in K4. rewrite K4 in N. cbn in N.
  destruct (up_obs h1 z' K2) as (_ & _ & G). rewrite G. congruence.
Qed.

(** a clock call that was executed could be executed *)
Lemma clocks_ui : forall us h z h', up h z -> run_calls (clocks us) h = Some h' -> ui h = false -> ~ In true us.
Proof.
  induction us as [|u us IH]; intros h z h' U E Hu Hin; [destruct Hin|].
  rewrite run_clocks_cons in E. destruct (api_run_clock_cycle u h) as [h1|] eqn:E1; [|discriminate].
  destruct (clock_up h z U) as (h2 & z2 & E2 & U2 & T2 & V2 & _).
  unfold api_run_clock_cycle in E1. rewrite E2 in E1. unfold call_update_ui in E1. rewrite V2, Hu in E1.
  destruct u; [discriminate|]. injection E1 as <-. destruct Hin as [Hin|Hin]; [discriminate|].
  exact (IH h2 z2 h' U2 E ltac:(congruence) Hin).
Qed.

Lemma cycles_bound : forall op fc fz, 2 <= cycles op fc fz <= 9.
Proof.
  intros op fc fz. unfold cycles. destruct (decode op); try lia; try (destruct fc; lia); try (destruct fz; lia).
  destruct (_ && _); lia.
Qed.

Lemma live_extend : forall us l h k h', live l h k -> run_calls (clocks us) h = Some h' -> live (l ++ clocks us) h' k.
Proof.
  intros us l h k h' L E. destruct (live_up l h k L) as (Hu & z & U).
  destruct (live_clocks us l h k L) as (h2 & E2 & L2).
  { intros Hk. apply (clocks_ui us h z h' U E). congruence. }
  rewrite E in E2. injection E2 as <-. exact L2.
Qed.

Theorem instruction_spec : forall l h k a us h', live l h k -> boundary h -> shows h a -> instruction h us h' ->
  Z.of_nat (length us) = cycles (M a (PC a)) (FC a) (FZ a) /\ shows h' (step a) /\ boundary h' /\ live (l ++ clocks us) h' k.
Proof.
  intros l h k a us h' L Hb Hs (E1 & E2 & E3 & E4). destruct (live_up l h k L) as (Hu & z & U).
  pose proof (clocks_ui us h z h' U E1) as Hk.
  pose proof (cycles_bound (M a (PC a)) (FC a) (FZ a)) as CB.
  assert (El : Z.of_nat (length us) = cycles (M a (PC a)) (FC a) (FZ a)).
  { destruct (Z.lt_trichotomy (Z.of_nat (length us)) (cycles (M a (PC a)) (FC a) (FZ a))) as [X|[X|X]]; [exfalso|exact X|exfalso].
    - refine (not_earlier h z a us h' U Hb Hs Hk _ E1 E3). destruct us; [congruence|cbn [length] in *; lia].
    - set (n := Z.to_nat (cycles (M a (PC a)) (FC a) (FZ a))) in *.
      assert (Ls : length (firstn n us) = n) by (apply firstn_length_le; lia).
      assert (Lt : length (skipn n us) = (length us - n)%nat) by apply skipn_length.
      assert (Hk' : ui h = false -> ~ In true (firstn n us)).
      { intros Hf Hin. apply (Hk Hf). rewrite <- (firstn_skipn n us). apply in_or_app. auto. }
      destruct (instruction_at h z a (firstn n us) U Hb Hs Hk' ltac:(lia)) as (h1 & z1 & X1 & X2 & X3 & (X4 & _) & _).
      apply (E4 (firstn n us) (skipn n us) h1); auto.
      + symmetry. apply firstn_skipn.
      + intros Hn. rewrite Hn in Ls. cbn in Ls. lia.
      + intros Hn. rewrite Hn in Lt. cbn in Lt. lia. }
  destruct (instruction_at h z a us U Hb Hs Hk El) as (h1 & z1 & X1 & X2 & X3 & X4 & X5 & _).
  rewrite E1 in X1. injection X1 as <-. split; [exact El|]. split; [exact X5|]. split; [exact X4|].
  exact (live_extend us l h k h' L E1).
Qed.

(** and there is one, however the callback argument is chosen *)
Theorem instruction_exists : forall l h k a us, live l h k -> boundary h -> shows h a ->
  Z.of_nat (length us) = cycles (M a (PC a)) (FC a) (FZ a) -> (k = false -> ~ In true us) ->
  exists h', instruction h us h'.
Proof.
  intros l h k a us L Hb Hs El Hk. destruct (live_up l h k L) as (Hu & z & U). rewrite <- Hu in Hk.
  destruct (instruction_at h z a us U Hb Hs Hk El) as (h1 & z1 & X1 & X2 & X3 & (X4 & _) & X5 & _).
  pose proof (cycles_bound (M a (PC a)) (FC a) (FZ a)) as CB.
  exists h1. split; [exact X1|]. split; [|split; [exact X4|]].
  - intros ->. cbn in El. lia.
  - intros us1 us2 h2 -> N1 N2 E2. apply (not_earlier h z a us1 h2 U Hb Hs); auto.
    + intros Hf Hin. apply (Hk Hf). apply in_or_app. auto.
    + rewrite app_length in El. destruct us1; [congruence|]. destruct us2; [congruence|]. cbn [length] in *. lia.
Qed.
