(** * What the exported functions show and do (proof layer) *)
From Coq Require Import ZArith List Bool Lia ZifyBool.
From Verif Require Import Word WordFacts Prog Tables Components Machine ZMachine ZWord ZRefine ZRefineB ZRefineC
  Rtl Micro Isa MicroIsa IsaOps Track Drive LinkedList PubSub Api HeapSim Lifecycle Usage.
Import ListNotations.
Open Scope Z_scope.
Opaque trk.

Record up (h : hstate) (z : zs) : Prop := mkUp {
  up_sim : exists s, sim h s /\ Rz s z;
  up_inv : inv z;
  up_tick : tick h = false -> qpos z = 0 /\ dpos z = 0;
  up_trk : trk (dpos z) (rv z R_RI) = true
}.

Lemma i2w_reg : forall z r, rng z -> word_to_int (int_to_word (rv z r)) = Some (rv z r).
Proof.
  intros z r R. apply word_to_int_i2w. pose proof (rng_r z R r). unfold INT_MAX. destruct r; cbn in *; lia.
Qed.

Lemma valid_offset_range : forall a, valid_offset a = true <-> 0 <= a < 65536.
Proof. intros a. unfold valid_offset, mem_size. lia. Qed.

Lemma state_int : forall q5 q4 q3 q2 q1 q0, 0 <= q5 <= 1 -> 0 <= q4 <= 1 -> 0 <= q3 <= 1 -> 0 <= q2 <= 1 -> 0 <= q1 <= 1 -> 0 <= q0 <= 1 ->
  word_to_int (state_word (int_to_word q5) (int_to_word q4) (int_to_word q3) (int_to_word q2) (int_to_word q1) (int_to_word q0))
  = Some (q0 + 2 * q1 + 4 * q2 + 8 * q3 + 16 * q4 + 32 * q5).
Proof.
  intros. assert (q5 = 0 \/ q5 = 1) as [-> | ->] by lia; assert (q4 = 0 \/ q4 = 1) as [-> | ->] by lia;
  assert (q3 = 0 \/ q3 = 1) as [-> | ->] by lia; assert (q2 = 0 \/ q2 = 1) as [-> | ->] by lia;
  assert (q1 = 0 \/ q1 = 1) as [-> | ->] by lia; assert (q0 = 0 \/ q0 = 1) as [-> | ->] by lia; vm_compute; reflexivity.
Qed.

Lemma bus_sim : forall h s b, sim h s -> existsb (busid_eqb b) all_buses = true -> exists x, get_bus h b = Some x /\ bnxt x = nx s (topic_of b).
Proof.
  intros h s b S Hb. apply in_buses in Hb. destruct (sim_bus h s S b Hb) as (a & i & E1 & E2 & _).
  unfold get_bus. rewrite E1, E2. eexists. split; reflexivity.
Qed.

Lemma read6_ok : forall h s z t5 t4 t3 t2 t1 t0, sim h s -> Rz s z -> rng z ->
  forallb (fun t => existsb (busid_eqb (Prog.B K_LCU t)) all_buses) [t5; t4; t3; t2; t1; t0] = true ->
  (forall t, In t [t5; t4; t3; t2; t1; t0] -> tlo t = 0 /\ thi t = 1) ->
  read6 h t5 t4 t3 t2 t1 t0 = Some (tv z t0 + 2 * tv z t1 + 4 * tv z t2 + 8 * tv z t3 + 16 * tv z t4 + 32 * tv z t5).
Proof.
  intros h s z t5 t4 t3 t2 t1 t0 S R G Hb Ht.
  assert (K : forall t, In t [t5; t4; t3; t2; t1; t0] -> exists x, get_bus h (Prog.B K_LCU t) = Some x /\ bnxt x = int_to_word (tv z t)).
  { intros t Hin. rewrite forallb_forall in Hb. destruct (bus_sim h s _ S (Hb t Hin)) as (x & E1 & E2). exists x. split; auto.
    rewrite E2. cbn [topic_of]. apply (Rz_t s z R). }
  assert (L : forall t, In t [t5; t4; t3; t2; t1; t0] -> 0 <= tv z t <= 1).
  { intros t Hin. destruct (Ht t Hin) as (H1 & H2). pose proof (rng_t z G t). lia. }
  unfold read6.
  destruct (K t5) as (x5 & E5 & F5); [cbn; tauto|]. destruct (K t4) as (x4 & E4 & F4); [cbn; tauto|].
  destruct (K t3) as (x3 & E3 & F3); [cbn; tauto|]. destruct (K t2) as (x2 & E2 & F2); [cbn; tauto|].
  destruct (K t1) as (x1 & E1 & F1); [cbn; tauto|]. destruct (K t0) as (x0 & E0 & F0); [cbn; tauto|].
  rewrite E5, E4, E3, E2, E1, E0, F5, F4, F3, F2, F1, F0.
  apply state_int; apply L; cbn; tauto.
Qed.

Lemma up_obs : forall h z, up h z -> obs h (view z) /\ get_state h = Some (qpos z) /\ get_next_state h = Some (dpos z).
Proof.
  intros h z U. destruct U as [(s & S & R) I _ _]. destruct I as [Ir Is Iq Id].
  split; [|split].
  - split; [|split].
    + intros r. unfold get_register_value, get_register.
      replace (existsb (regid_eqb r) (wl h)) with true.
      * rewrite (sim_reg h s S), (Rz_r s z R). apply i2w_reg. exact Ir.
      * symmetry. apply existsb_exists. exists r. split; [apply (sim_watch h s S)|]. apply regid_eqb_eq. reflexivity.
    + intros a Ha. unfold get_memory_value. destruct (sim_mem h s S) as (f & E1 & E2).
      replace (valid_offset a) with true by (symmetry; apply valid_offset_range; exact Ha).
      rewrite E1, E2 by (apply valid_offset_range; exact Ha). cbn. rewrite (Rz_m s z R). reflexivity.
    + rewrite (sim_log h s S). exact (Rz_l s z R).
  - unfold get_state. rewrite (read6_ok h s z T_Q5 T_Q4 T_Q3 T_Q2 T_Q1 T_Q0 S R Ir); [reflexivity|vm_compute; reflexivity|].
    cbn [In]. intros t Ht. repeat destruct Ht as [<-|Ht]; try (split; reflexivity). destruct Ht.
  - unfold get_next_state. rewrite (read6_ok h s z T_D5 T_D4 T_D3 T_D2 T_D1 T_D0 S R Ir); [reflexivity|vm_compute; reflexivity|].
    cbn [In]. intros t Ht. repeat destruct Ht as [<-|Ht]; try (split; reflexivity). destruct Ht.
Qed.

(** Any processor state that agrees with the getters can stand for the internal one. *)
Lemma obs_up : forall h z c, up h z -> obs h c -> exists z2, up h z2 /\ same (view z2) c /\ qpos z2 = qpos z /\ dpos z2 = dpos z.
Proof.
  intros h z c U O. pose proof (up_obs h z U) as (O' & _). destruct U as [(s & S & R) I T K].
  destruct O as (O1 & O2 & O3). destruct O' as (P1 & P2 & P3).
  assert (Er : forall r, rv z r = reg c r). { intros r. specialize (O1 r). specialize (P1 r). cbn in P1. congruence. }
  assert (Em : forall a, 0 <= a < 65536 -> zm z a = mem c a). { intros a Ha. specialize (O2 a Ha). specialize (P2 a Ha). cbn in P2. congruence. }
  assert (El : zl z = errs c). { cbn in P3. congruence. }
  exists (mkZ (tv z) (rv z) (mem c) (zl z)). split; [|split; [|split; reflexivity]].
  - constructor.
    + exists (mkM (nx s) (cv s) (rg s) (mem c) (lg s)). split.
      * destruct S as [SA SB SI SR SM SL SW]. constructor; cbn; auto. destruct SM as (f & E1 & E2). exists f. split; auto.
        intros o Ho. rewrite E2 by exact Ho. rewrite (Rz_m s z R). apply Em. apply valid_offset_range. exact Ho.
      * destruct R as [R1 R2 R3 R4]. constructor; cbn; auto.
    + destruct I as [Ir Is Iq Id]. constructor; auto.
      * destruct Ir as [I1 I2 I3]. constructor; cbn; auto. intros o Ho. rewrite <- Em by exact Ho. auto.
      * destruct Is. constructor; assumption.
    + exact T.
    + exact K.
  - split; [exact Er|]. split; [reflexivity|]. exact El.
Qed.

Lemma rv_view : forall z r, rv z r = reg (view z) r. Proof. reflexivity. Qed.
Lemma zview_valid : forall z, rng z -> cvalid (view z).
Proof. intros z [H1 H2 H3]. constructor; cbn; auto. Qed.

(** ** Calls *)
Lemma hexec_ok : forall p f h s z, wfp p -> ok p f -> sim h s -> Rz s z -> rng z ->
  exists h' s', hexec p h = Some h' /\ sim h' s' /\ Rz s' (f z) /\ rng (f z) /\ same_env h h'.
Proof.
  intros p f h s z W O S R G. destruct (O s z R G) as (s' & E & R' & G').
  destruct (hexec_sim p h s s' W S E) as (h' & E' & S' & F). eauto 8.
Qed.

Lemma clock_up : forall h z, up h z ->
  exists h' z', run_cu_clock_cycle h = Some h' /\ up h' z' /\ tick h' = true /\ ui h' = ui h /\
    qpos z' = dpos z /\ dpos z' = succ (dpos z) (rv z R_RI) (rv z R_FC) (rv z R_FZ) /\
    same (view z') (rtl (dpos z) (view z)) /\ tv z' T_CONTROL = rom_int (nth (Z.to_nat (dpos z)) ROM []).
Proof.
  (* rising edge *)
  assert (RE : forall h s z, sim h s -> Rz s z -> inv z -> tick h = true -> trk (qpos z) (rv z R_RI) = true ->
    exists h' z', hexec run_cu_1 h = Some h' /\ up h' z' /\ tick h' = true /\ ui h' = ui h /\
    qpos z' = qpos z /\ dpos z' = succ (qpos z) (rv z R_RI) (rv z R_FC) (rv z R_FZ) /\
    same (view z') (rtl (qpos z) (view z)) /\ tv z' T_CONTROL = rom_int (nth (Z.to_nat (qpos z)) ROM [])).
  { intros h s z S R I Ht Hk. destruct (run_cu_1_ok s z R (inv_rng z I)) as (s' & E & R' & G'); [apply I|].
    destruct (hexec_sim run_cu_1 h s s' wfp_cu_1 S E) as (h' & E' & S' & (F1 & F2)).
    destruct (z_step z I G') as (I' & Q1 & Q2 & Q3 & Q4).
    exists h', (z_cu_1 z). split; auto. split. { constructor; [eauto|assumption|congruence|]. rewrite Q2. rewrite (rv_view (z_cu_1 z)). rewrite (reg_same _ _ R_RI Q3). rewrite !(rv_view z); apply (trk_step (view z) (qpos z)); [apply zview_valid; apply I|apply I|exact Hk]. } split; [congruence|]. auto. }
  intros h z U. destruct U as [(s & S & R) I T K]. unfold run_cu_clock_cycle. cbn [clock_loop].
  destruct (tick h) eqn:Et; cbn [negb tick set_tick].
  - (* falling edge, then rising *)
    assert (S0 : sim (set_tick h false) s) by (destruct S as [SA SB SI SR SM SL SW]; constructor; auto).
    destruct (hexec_ok run_cu_0 z_fall (set_tick h false) s z wfp_cu_0 ok_dff S0 R (inv_rng z I)) as (h1 & s1 & E1 & S1 & R1 & G1 & (F1 & F2)).
    cbn [tick] in E1. rewrite E1. 
    destruct (z_fall_ok z I G1) as (I1 & Q1 & Q2 & Q3).
    cbn [tick set_tick] in F1. rewrite F1. cbn [negb].
    assert (S2 : sim (set_tick h1 true) s1) by (destruct S1 as [SA SB SI SR SM SL SW]; constructor; auto).
    assert (Hk : trk (qpos (z_fall z)) (rv (z_fall z) R_RI) = true).
    { rewrite Q1. rewrite (rv_view (z_fall z)). rewrite Q3. exact K. }
    destruct (RE (set_tick h1 true) s1 (z_fall z) S2 R1 I1 eq_refl Hk) as (h' & z' & E' & U' & T' & V' & K1 & K2 & K3 & K4).
    change (tick (set_tick h1 true)) with true. cbv iota. rewrite E'.
    exists h', z'. split; auto. split; auto. split; auto. split. { rewrite V'. cbn. exact F2. }
    rewrite Q1 in K1, K2, K3, K4. rewrite Q3 in K3. auto 8.
  - destruct (T eq_refl) as (Tq & Td).
    assert (S2 : sim (set_tick h true) s) by (destruct S as [SA SB SI SR SM SL SW]; constructor; auto).
    assert (Hk : trk (qpos z) (rv z R_RI) = true) by (rewrite Tq, <- Td; exact K).
    destruct (RE (set_tick h true) s z S2 R I eq_refl Hk) as (h' & z' & E' & U' & T' & V' & K1 & K2 & K3 & K4).
    change (tick (set_tick h true)) with true. cbv iota. rewrite E'.
    exists h', z'. split; auto. split; auto. split; auto. split; [exact V'|].
    rewrite Tq in K1, K2, K3, K4. rewrite Td. auto.
Qed.

Lemma ok_Pub : forall t v k g, tlo t <= v <= thi t -> ok k g -> ok (Pub t (int_to_word v) k) (fun z => g (P t v z)).
Proof.
  intros t v k g Hv Hk s z R G. destruct s as [n c r m l].
  change (exec (Pub t (int_to_word v) k) (mkM n c r m l)) with (exec k (mkM (tset n t (int_to_word v)) c r m l)).
  apply Hk. apply Rz_pub; exact R. apply rng_pub; auto.
Qed.

Lemma reset_up : forall h z, up h z -> exists h' z', api_reset_control h = Some h' /\ up h' z' /\ same_env h h' /\
  qpos z' = 0 /\ dpos z' = 0 /\ view z' = view z /\ tv z' T_CONTROL = 0.
Proof.
  intros h z U. destruct U as [(s & S & R) I T _].
  set (f := fun z => P T_D0 0 (P T_D1 0 (P T_D2 0 (P T_D3 0 (P T_D4 0 (P T_D5 0 (P T_Q0 0 (P T_Q1 0 (P T_Q2 0
            (P T_Q3 0 (P T_Q4 0 (P T_Q5 0 (P T_JOINER 0 (P T_CONTROL 0 z)))))))))))))).
  assert (O : ok reset_control f).
  { unfold reset_control, f. cbv zeta.
    pose proof ok_Done as K.
    apply (ok_Pub T_D0 0) in K; [|cbn; lia]. apply (ok_Pub T_D1 0) in K; [|cbn; lia]. apply (ok_Pub T_D2 0) in K; [|cbn; lia]. apply (ok_Pub T_D3 0) in K; [|cbn; lia]. apply (ok_Pub T_D4 0) in K; [|cbn; lia]. apply (ok_Pub T_D5 0) in K; [|cbn; lia]. apply (ok_Pub T_Q0 0) in K; [|cbn; lia]. apply (ok_Pub T_Q1 0) in K; [|cbn; lia]. apply (ok_Pub T_Q2 0) in K; [|cbn; lia]. apply (ok_Pub T_Q3 0) in K; [|cbn; lia]. apply (ok_Pub T_Q4 0) in K; [|cbn; lia]. apply (ok_Pub T_Q5 0) in K; [|cbn; lia]. apply (ok_Pub T_JOINER 0) in K; [|cbn; lia]. apply (ok_Pub T_CONTROL 0) in K; [|cbn; lia].
    exact K. }
  destruct (hexec_ok reset_control f h s z wfp_reset O S R (inv_rng z I)) as (h' & s' & E & S' & R' & G' & F).
  exists h', (f z). split; [exact E|]. split; [|repeat split; auto; apply F].
  constructor; [eauto| |intros _; split; reflexivity|apply (trk_0 (rv z R_RI))].
  destruct I as [Ir Is Iq Id]. constructor; auto.
  - destruct Is. constructor; assumption.
  - change (qpos (f z)) with 0. lia.
  - change (dpos (f z)) with 0. lia.
Qed.

Lemma set_pc_up : forall h z v, up h z -> ui h = true -> 0 <= v <= 65535 ->
  exists h' z', api_set_register_pc v h = Some h' /\ up h' z' /\ same_env h h' /\
  qpos z' = qpos z /\ dpos z' = dpos z /\ same (view z') (set R_PC v (view z)).
Proof.
  intros h z v U Hu Hv. destruct U as [(s & S & R) I T K].
  set (f := fun z => P T_PCO v (W R_PC v z)).
  assert (O : ok (set_register_pc v) f).
  { intros s0 z0 R0 G0. unfold set_register_pc, f. cbn [exec]. cbv beta.
    eexists. split; [reflexivity|]. destruct s0 as [n c r m l]. cbn [rg nx cv mm lg]. split.
    - rewrite rset_same. apply Rz_pub. apply Rz_wr. exact R0.
    - apply rng_pub; [|cbn; lia]. apply rng_wr; [exact G0|cbn; lia]. }
  destruct (hexec_ok (set_register_pc v) f h s z (wfp_set_pc v) O S R (inv_rng z I)) as (h' & s' & E & S' & R' & G' & F).
  unfold api_set_register_pc. unfold get_register.
  replace (existsb (regid_eqb R_PC) (wl h)) with true.
  2:{ symmetry. apply existsb_exists. exists R_PC. split; [apply (sim_watch h s S)|reflexivity]. }
  rewrite E. unfold call_update_ui. destruct F as (F1 & F2). rewrite F2, Hu.
  exists h', (f z). split; auto. split; [|repeat split; auto].
  - constructor; [eauto| |rewrite F1; exact T|exact K].
    + destruct I as [Ir Is Iq Id]. constructor; auto. destruct Is. constructor; try assumption. reflexivity.
Qed.

Lemma set_mem_up : forall h z o v, up h z -> ui h = true -> 0 <= o < 65536 -> 0 <= v <= 255 ->
  exists h' z', api_set_memory_value o v h = Some h' /\ up h' z' /\ same_env h h' /\
  qpos z' = qpos z /\ dpos z' = dpos z /\ same (view z') (store o v (view z)).
Proof.
  intros h z o v U Hu Ho Hv. destruct U as [(s & S & R) I T K].
  set (f := SM o v).
  assert (O : ok (set_memory_value o v) f).
  { intros s0 z0 R0 G0. unfold set_memory_value, f.
    replace (valid_offset o) with true by (symmetry; apply valid_offset_range; auto). cbn [exec].
    replace (valid_offset o) with true by (symmetry; apply valid_offset_range; auto).
    eexists. split; [reflexivity|]. destruct s0 as [n c r m l]. cbn [rg nx cv mm lg]. split.
    - apply Rz_sm. exact R0.
    - apply rng_sm; auto. }
  destruct (hexec_ok (set_memory_value o v) f h s z (wfp_set_mem o v) O S R (inv_rng z I)) as (h' & s' & E & S' & R' & G' & F).
  unfold api_set_memory_value. rewrite E. unfold call_update_ui. destruct F as (F1 & F2). rewrite F2, Hu.
  exists h', (f z). split; auto. split; [|repeat split; auto].
  - constructor; [eauto| |rewrite F1; exact T|exact K].
    + destruct I as [Ir Is Iq Id]. constructor; auto. destruct Is. constructor; assumption.
Qed.

Lemma init_up : forall h rnd, sane (ps h) -> (forall i, 0 <= rnd i) ->
  exists h' z', api_init rnd h = Some h' /\ up h' z' /\ same_env h h' /\ qpos z' = 0 /\ dpos z' = 0 /\
   view z' = mkCpu (fun _ => 0) (fun i => rnd i mod 255) (hl h).
Proof.
  intros h rnd S Hr. destruct (init_ok rnd h S) as (h' & E & S' & F).
  exists h', (mkZ (fun _ => 0) (fun _ => 0) (fun i => rnd i mod 255) (hl h)).
  split; [exact E|]. split; [|repeat split; auto; apply F].
  constructor.
  - exists (fresh rnd (hl h)). split; auto. constructor; cbn; auto.
    intros o. unfold random_int. rewrite Z.rem_mod_nonneg by (auto; lia). lia.
  - constructor.
    + constructor; cbn.
      * intros t. destruct t; cbn; lia.
      * intros r. destruct r; cbn; lia.
      * intros o _. pose proof (Z.mod_pos_bound (rnd o) 255). lia.
    + constructor; reflexivity.
    + change (0 <= 0 < 45). lia.
    + change (0 <= 0 < 45). lia.
  - intros _. split; reflexivity.
  - apply trk_0.
Qed.

Lemma set_ui_up : forall h z b, up h z -> up (set_ui h b) z.
Proof.
  intros h z b [(s & S & R) I T K]. constructor; auto. exists s. split; auto.
  destruct S as [SA SB SI SR SM SL SW]; constructor; auto.
Qed.
