(** * Theorems: the exported functions (C15, C17, C18, C33-C38, C42, C51-C53) *)
From Coq Require Import ZArith List Bool Lia ZifyBool.
From Verif Require Import Word WordFacts Prog Tables Components Machine ZMachine ZWord ZRefine ZRefineC Rtl Isa Micro MicroIsa IsaOps
  LinkedList PubSub Api HeapSim Lifecycle Drive Track ApiFacts Usage Reach Front Runs IsaFacts PropsIsa.
Import ListNotations.
Open Scope Z_scope.
Opaque all_buses gend dend trk rtl succ.

Lemma hexec_StM : forall o v k h, hexec (StM o v k) h =
  if valid_offset o then match hm h with Mem f => hexec k (set_hm h (Mem (mset f o v))) | _ => None end else None.
Proof. reflexivity. Qed.

(** ** C15 *)
Theorem C15_microstates : forall l h k, live l h k -> exists q q',
  get_state h = Some q /\ 0 <= q <= 44 /\ get_next_state h = Some q' /\ 0 <= q' <= 44.
Proof.
  intros l h k L. destruct (live_up l h k L) as (_ & z & U). destruct (up_obs h z U) as (_ & G1 & G2).
  exists (qpos z), (dpos z). pose proof (inv_q z (up_inv _ _ U)). pose proof (inv_d z (up_inv _ _ U)). repeat split; auto; lia.
Qed.

(** ** C17 *)
(** No allowed history has undefined behaviour. *)
Theorem C17_defined : forall l u, proper l u -> exists h, run_calls l boot = Some h.
Proof. intros l u P. destruct (proper_good l u P) as (h & E & _). eauto. Qed.

Lemma bus_get : forall h z b, up h z -> existsb (busid_eqb b) all_buses = true -> tlo (topic_of b) = 0 ->
  exists x, get_bus h b = Some x /\ bnxt x = int_to_word (tv z (topic_of b)) /\ word_to_int (bnxt x) = Some (tv z (topic_of b)).
Proof.
  intros h z b U Hb Hlo. destruct U as [(s & S & R) I _ _]. destruct (bus_sim h s b S Hb) as (x & E1 & E2).
  exists x. split; auto. rewrite E2, (Rz_t s z R). split; auto. apply word_to_int_i2w.
  pose proof (rng_t z (inv_rng z I) (topic_of b)) as X. rewrite Hlo in X. unfold INT_MAX. split; [lia|]. destruct (topic_of b); cbn in X; lia.
Qed.
Lemma b2z_01 : forall b, 0 <= Z.b2z b <= 1. Proof. intros []; cbn; lia. Qed.
(** Nor has any getter, whatever offset it is given. *)
Theorem C17_getters_defined : forall l h k, live l h k ->
  (forall r, get_register_value r h <> None) /\ (forall o, get_memory_value o h <> None) /\
  get_state h <> None /\ get_next_state h <> None /\ get_memory_dir_bus h <> None /\ get_data_bus h <> None /\
  get_control_bus_selalu h <> None /\ forall pos, get_control_bus pos h <> None.
Proof.
  intros l h k L. destruct (live_up l h k L) as (_ & z & U). destruct (up_obs h z U) as ((O1 & O2 & _) & G1 & G2).
  split. { intros r. rewrite O1. discriminate. }
  split. { intros o. destruct (valid_offset o) eqn:Ev.
    - rewrite O2 by (apply valid_offset_range; exact Ev). discriminate.
    - unfold get_memory_value. rewrite Ev. discriminate. }
  split; [congruence|]. split; [congruence|].
  destruct (bus_get h z (Prog.B K_LMEM T_DIR2) U) as (x1 & E1 & _ & F1); [vm_compute; reflexivity|reflexivity|].
  destruct (bus_get h z (Prog.B K_LBUS T_DATA) U) as (x2 & E2 & _ & F2); [vm_compute; reflexivity|reflexivity|].
  destruct (bus_get h z (Prog.B K_LBUS T_CONTROL) U) as (x3 & E3 & _ & F3); [vm_compute; reflexivity|reflexivity|].
  split. { unfold get_memory_dir_bus. rewrite E1, F1. discriminate. }
  split. { unfold get_data_bus. rewrite E2, F2. discriminate. }
  split. { unfold get_control_bus_selalu. rewrite E3, lb3_int, word_to_int_i2w; [discriminate|]. unfold INT_MAX.
    pose proof (b2z_01 (bit (bnxt x3) SELALU_0)). pose proof (b2z_01 (bit (bnxt x3) SELALU_1)). pose proof (b2z_01 (bit (bnxt x3) SELALU_2)). lia. }
  intros pos. unfold get_control_bus. rewrite E3. discriminate.
Qed.
(** What is not allowed does go wrong: using the machine before init, shutting
    down twice, changing memory or PC or asking for an update without a callback
    (only [reset_control] happens to be harmless before init). *)
Theorem C17_guards_needed :
  run_calls [RunClock false] boot = None /\ run_calls [ResetControl] boot <> None /\
  (forall v, run_calls [SetUi true; SetPc v] boot = None) /\
  (forall o v, run_calls [SetUi true; SetMem o v] boot = None) /\
  (forall l h k h', live l h k -> do_call Shutdown h = Some h' -> do_call Shutdown h' = None) /\
  (forall l h, live l h false -> do_call (RunClock true) h = None).
Proof.
  split; [vm_compute; reflexivity|]. split; [vm_compute; discriminate|]. split; [intros; vm_compute; reflexivity|].
  split. { intros o v. cbn [run_calls do_call]. unfold api_set_memory_value. 
    unfold set_memory_value. destruct (valid_offset o) eqn:Ev; [rewrite hexec_StM, Ev|]; reflexivity. }
  split. { intros l h k h' L E. destruct (live_up l h k L) as (_ & z & [(s & S & _) _ _ _]). exact (second_shutdown_undefined h s h' S E). }
  intros l h L. destruct (live_up l h false L) as (Hu & z & U). destruct (clock_up h z U) as (h2 & z2 & E2 & _ & _ & V2 & _).
  cbn [do_call]. unfold api_run_clock_cycle. rewrite E2. unfold call_update_ui. rewrite V2, Hu. reflexivity.
Qed.

(** ** C18 *)
(** Width of a register in bits. *)
Definition width (r : regid) : Z := match r with R_FC | R_FZ => 1 | R_PC | R_SP => 16 | _ => 8 end.
Theorem C18_ranges : forall l h k, live l h k ->
  (forall r, exists v, get_register_value r h = Some v /\ 0 <= v < 2 ^ width r) /\
  (forall o, 0 <= o < 65536 -> exists v, get_memory_value o h = Some v /\ 0 <= v < 2 ^ 8).
Proof.
  intros l h k L. destruct (live_up l h k L) as (_ & z & U). destruct (up_obs h z U) as ((O1 & O2 & _) & _).
  pose proof (inv_rng z (up_inv _ _ U)) as R. split.
  - intros r. exists (reg (view z) r). split; auto. pose proof (rng_r z R r) as X. cbn [view reg]. destruct r; cbn in *; lia.
  - intros o Ho. exists (mem (view z) o). split; auto. pose proof (rng_m z R o Ho) as X. cbn [view mem]. cbn in *. lia.
Qed.

(** ** C33 *)
Theorem C33_memory_write : forall l h o v, live l h true -> 0 <= o < 65536 -> 0 <= v <= 255 ->
  exists h', do_call (SetMem o v) h = Some h' /\
    (forall i, get_memory_value i h' = if i =? o then Some v else get_memory_value i h) /\
    (forall r, get_register_value r h' = get_register_value r h) /\
    get_state h' = get_state h /\ get_next_state h' = get_next_state h /\ hl h' = hl h.
Proof.
  intros l h o v L Ho Hv. destruct (live_up l h true L) as (Hu & z & U).
  destruct (set_mem_up h z o v U Hu Ho Hv) as (h' & z' & E0 & U' & F & Q & D0 & (V1 & V2 & V3)).
  destruct (up_obs h z U) as ((O1 & O2 & O3) & G1 & G2). destruct (up_obs h' z' U') as ((P1 & P2 & P3) & H1 & H2).
  exists h'. split; [exact E0|]. split.
  - intros i. destruct (valid_offset i) eqn:Ev.
    + apply valid_offset_range in Ev. rewrite P2, V2 by exact Ev. cbn [store mem]. destruct (Z.eqb_spec i o); auto. symmetry. apply O2. exact Ev.
    + destruct (Z.eqb_spec i o) as [->|]. { apply valid_offset_range in Ho. congruence. } unfold get_memory_value. rewrite Ev. reflexivity.
  - split; [intros r; rewrite P1, O1, V1; reflexivity|]. split; [congruence|]. split; [congruence|].
    rewrite P3, O3, V3. reflexivity.
Qed.
Theorem C33_out_of_range : forall h o, o < 0 \/ 65536 <= o -> get_memory_value o h = Some (-1).
Proof. intros h o Ho. unfold get_memory_value. destruct (valid_offset o) eqn:Ev; auto. apply valid_offset_range in Ev. lia. Qed.
Theorem C33_size : forall o, 0 <= o < get_memory_size <-> valid_offset o = true.
Proof. intros o. rewrite valid_offset_range. unfold get_memory_size. lia. Qed.
(** The other calls leave memory alone. *)
Theorem C33_other_calls : forall l h c h', live l h true -> (c = ResetControl \/ (exists v, 0 <= v <= 65535 /\ c = SetPc v) \/ exists b, c = SetUi b) ->
  do_call c h = Some h' -> forall o, get_memory_value o h' = get_memory_value o h.
Proof.
  intros l h c h' L Hc E o. destruct (live_up l h true L) as (Hu & z & U). destruct (up_obs h z U) as ((O1 & O2 & O3) & _).
  assert (K : forall z', up h' z' -> (forall a, mem (view z') a = mem (view z) a) -> get_memory_value o h' = get_memory_value o h).
  { intros z' U' Hm. destruct (up_obs h' z' U') as ((P1 & P2 & P3) & _). destruct (valid_offset o) eqn:Ev.
    - apply valid_offset_range in Ev. rewrite P2, O2, Hm by exact Ev. reflexivity.
    - unfold get_memory_value. rewrite Ev. reflexivity. }
  destruct Hc as [-> | [(v & Hv & ->) | (b & ->)]].
  - destruct (reset_up h z U) as (h2 & z2 & E2 & U2 & _ & _ & _ & V2 & _). cbn [do_call] in E. rewrite E in E2. injection E2 as <-.
    apply (K z2 U2). rewrite V2. reflexivity.
  - destruct (set_pc_up h z v U Hu Hv) as (h2 & z2 & E2 & U2 & _ & _ & _ & V2). cbn [do_call] in E. rewrite E in E2. injection E2 as <-.
    apply (K z2 U2). intros a. rewrite (proj1 (proj2 V2)). reflexivity.
  - injection E as <-. reflexivity.
Qed.

(** ** C34 *)
(** An offset outside memory is a NULL dereference. *)
Theorem C34_bad_offset_refuted : forall l h o v, live l h true -> o < 0 \/ 65536 <= o -> do_call (SetMem o v) h = None.
Proof.
  intros l h o v L Ho. cbn [do_call]. unfold api_set_memory_value, set_memory_value.
  destruct (valid_offset o) eqn:Ev; auto. apply valid_offset_range in Ev. lia.
Qed.
(** A value wider than eight bits is stored. *)
Theorem C34_wide_value_refuted : exists h h', live [Init (fun _ => 0); SetUi true] h true /\ do_call (SetMem 7 300) h = Some h' /\ get_memory_value 7 h' = Some 300.
Proof.
  destruct (live_init (fun _ => 0) ltac:(intros; lia)) as (h & L & _ & _). destruct (live_up _ _ _ L) as (Hu & z & [(s & S & R) I T K]).
  exists h. cbn [do_call]. unfold api_set_memory_value, set_memory_value. change (valid_offset 7) with true. cbv iota. rewrite hexec_StM. change (valid_offset 7) with true. cbv iota.
  destruct (sim_mem h s S) as (f & SM & _). rewrite SM.
  exists (set_hm h (Mem (mset f 7 300))). split; [exact L|]. split; [|reflexivity].
  change (call_update_ui (set_hm h (Mem (mset f 7 300))) = Some (set_hm h (Mem (mset f 7 300)))).
  unfold call_update_ui. change (ui (set_hm h (Mem (mset f 7 300)))) with (ui h). rewrite Hu. reflexivity.
Qed.
(** In-range arguments are always accepted. *)
Theorem C34_good_arguments : forall l h o v, live l h true -> 0 <= o < 65536 -> 0 <= v <= 255 ->
  exists h', do_call (SetMem o v) h = Some h' /\ live (l ++ [SetMem o v]) h' true.
Proof.
  intros l h o v (P & R) Ho Hv. destruct (C33_memory_write l h o v (conj P R) Ho Hv) as (h' & E & _). exists h'. split; auto.
  split; [econstructor; [exact P|constructor; assumption]|]. rewrite run_calls_app, R. cbn [run_calls]. rewrite E. reflexivity.
Qed.

(** ** C38, C53: one call of run_clock_cycle is one microstate *)
(** It executes the announced microstate [q], which performs exactly the register
    transfer of the specification table Rtl.v and announces the next one. *)
Theorem C38_clock : forall l h k u q c, live l h k -> (u = true -> k = true) -> get_next_state h = Some q -> obs h c ->
  exists h', do_call (RunClock u) h = Some h' /\ get_state h' = Some q /\ obs h' (rtl q c).
Proof.
  intros l h k u q c L Hu N O. destruct (live_up l h k L) as (Hk & z0 & U0). destruct (obs_up h z0 c U0 O) as (z & U & Sm & _).
  rewrite <- Hk in Hu. destruct (api_clock_up u h z U Hu) as (h' & z' & E & U' & _ & _ & Q & D1 & V & _).
  destruct (up_obs h z U) as (_ & _ & G2). rewrite N in G2. injection G2 as ->.
  exists h'. split; [exact E|]. destruct (up_obs h' z' U') as ((P1 & P2 & P3) & H1 & _). split; [congruence|].
  pose proof (rtl_cong (dpos z) (view z) c Sm) as (C1 & C2 & C3). destruct V as (V1 & V2 & V3).
  split; [intros r; rewrite P1, V1, C1; reflexivity|]. split; [intros a Ha; rewrite P2, V2, C2 by exact Ha; reflexivity|]. rewrite P3, V3, C3. reflexivity.
Qed.
Theorem C53_microstates : forall l h k u q c h', live l h k -> get_next_state h = Some q -> obs h c -> do_call (RunClock u) h = Some h' ->
  0 <= q <= 44 /\ obs h' (rtl q c).
Proof.
  intros l h k u q c h' L N O E. destruct (C15_microstates l h k L) as (q0 & q1 & _ & _ & G & R). rewrite N in G. injection G as ->. split; auto.
  assert (Hu : u = true -> k = true).
  { intros ->. destruct (live_up l h k L) as (Hk & z & U). destruct k; auto. exfalso. apply (clocks_ui [true] h z h' U); auto; [|cbn; auto].
    rewrite run_clocks_cons. cbn [do_call] in E. rewrite E. reflexivity. }
  destruct (C38_clock l h k u q1 c L Hu N O) as (h2 & E2 & _ & O2). rewrite E in E2. injection E2 as <-. exact O2.
Qed.

(** ** C51: notices, per clock cycle *)
Transparent rtl.
Lemma set_errs : forall r v s, errs (set r v s) = errs s. Proof. reflexivity. Qed.
Lemma set_reg_ne : forall r v s x, x <> r -> reg (set r v s) x = reg s x.
Proof. intros r v s x N. unfold set. cbn [reg]. destruct (regid_eqb x r) eqn:E0; auto. apply regid_eqb_eq in E0. congruence. Qed.
Lemma pc_inc_errs : forall s, errs (pc_inc s) = if reg s R_PC =? 65535 then E_PC :: errs s else errs s.
Proof. intros s. unfold pc_inc. destruct (_ =? _); reflexivity. Qed.
Lemma rtl_errs : forall q s, 0 <= q <= 44 -> errs (rtl q s) = errs s \/
  (errs (rtl q s) = E_PC :: errs s /\ reg s R_PC = 65535) \/ (errs (rtl q s) = E_SP :: errs s /\ (reg s R_SP = 0 \/ reg s R_SP = 65535)).
Proof.
  intros q s Hq.
  assert (In q (map Z.of_nat (seq 0 45))) as Hin. { apply in_map_iff. exists (Z.to_nat q). split; [lia|]. apply in_seq. lia. }
  cbn [map seq Z.of_nat Pos.of_succ_nat Pos.succ] in Hin.
  repeat (destruct Hin as [<-|Hin]; [cbv beta iota zeta delta [rtl]; try (left; reflexivity);
    try (rewrite pc_inc_errs; rewrite set_errs, set_reg_ne by discriminate; destruct (Z.eqb_spec (reg s R_PC) 65535); auto; fail);
    unfold sp_dec, sp_inc; match goal with |- context [?x =? ?y] => destruct (Z.eqb_spec x y) end; auto 6 |]). destruct Hin.
Qed.
Opaque rtl.
Theorem C51_clock_notices : forall l h k u h', live l h k -> do_call (RunClock u) h = Some h' ->
  hl h' = hl h \/
  (hl h' = E_PC :: hl h /\ get_register_value R_PC h = Some 65535) \/
  (hl h' = E_SP :: hl h /\ (get_register_value R_SP h = Some 0 \/ get_register_value R_SP h = Some 65535)).
Proof.
  intros l h k u h' L E. destruct (live_up l h k L) as (Hk & z & U). destruct (up_obs h z U) as (O & _ & N).
  destruct (C53_microstates l h k u (dpos z) (view z) h' L N O E) as (Hq & (_ & _ & O3)).
  destruct O as (O1 & _ & O4). rewrite O3, O4, !O1. destruct (rtl_errs (dpos z) (view z) Hq) as [->|[(-> & ->)|(-> & [->| ->])]]; auto 6.
Qed.
(** The other calls print nothing. *)
Lemma quiet_call : forall h z c u', up h z -> allowed (mkUse true (ui h)) c u' -> (forall u, c <> RunClock u) -> exists h', do_call c h = Some h' /\ hl h' = hl h.
Proof.
  intros h z c u' U A Hc. destruct (up_obs h z U) as ((_ & _ & O3) & _).
  assert (K : forall h' z', up h' z' -> errs (view z') = errs (view z) -> hl h' = hl h).
  { intros h' z' U' Hm. destruct (up_obs h' z' U') as ((_ & _ & P3) & _). congruence. }
  remember (mkUse true (ui h)) as u eqn:Eu. destruct A.
  - destruct (init_up h rnd (up_sane _ _ U) H) as (h2 & z2 & E2 & U2 & _ & _ & _ & V2). exists h2. split; [exact E2|].
    destruct (up_obs h2 z2 U2) as ((_ & _ & P3) & _). rewrite P3, V2. reflexivity.
  - destruct U as [(s & S & _) _ _ _]. destruct (shutdown_ok h s S) as (h2 & E2 & _ & _ & Hh & _). exists h2. split; [exact E2|exact Hh].
  - exists (set_ui h k). split; reflexivity.
  - exfalso. exact (Hc _ eq_refl).
  - destruct (reset_up h z U) as (h2 & z2 & E2 & U2 & _ & _ & _ & V2 & _). exists h2. split; [exact E2|]. apply (K h2 z2 U2). rewrite V2. reflexivity.
  - injection Eu as Eu. destruct (set_mem_up h z o v U (eq_sym Eu) H H0) as (h2 & z2 & E2 & U2 & _ & _ & _ & (_ & _ & V2)). exists h2. split; [exact E2|].
    apply (K h2 z2 U2). rewrite V2. reflexivity.
  - injection Eu as Eu. destruct (set_pc_up h z v U (eq_sym Eu) H) as (h2 & z2 & E2 & U2 & _ & _ & _ & (_ & _ & V2)). exists h2. split; [exact E2|].
    apply (K h2 z2 U2). rewrite V2. reflexivity.
Qed.
Theorem C51_calls_quiet : forall l h k c u' h', live l h k -> allowed (mkUse true k) c u' -> (forall u, c <> RunClock u) -> do_call c h = Some h' -> hl h' = hl h.
Proof.
  intros l h k c u' h' L A Hc E. destruct (live_up l h k L) as (Hk & z & U). subst k.
  destruct (quiet_call h z c u' U A Hc) as (h2 & E2 & H2). rewrite E in E2. injection E2 as ->. exact H2.
Qed.

(** ** C35 *)
(** set_register_pc changes the register PC and nothing else: PCH and PCL keep
    their values. *)
Theorem C35_only_pc : forall l h v, live l h true -> 0 <= v <= 65535 -> exists h', do_call (SetPc v) h = Some h' /\
  get_register_value R_PC h' = Some v /\ (forall r, r <> R_PC -> get_register_value r h' = get_register_value r h) /\
  (forall o, get_memory_value o h' = get_memory_value o h) /\ get_state h' = get_state h /\ get_next_state h' = get_next_state h /\ hl h' = hl h.
Proof.
  intros l h v L Hv. destruct (live_up l h true L) as (Hu & z & U).
  destruct (set_pc_up h z v U Hu Hv) as (h' & z' & E & U' & _ & Q & D1 & V).
  destruct (up_obs h z U) as ((O1 & O2 & O3) & G1 & G2). destruct (up_obs h' z' U') as ((P1 & P2 & P3) & H1 & H2). destruct V as (V1 & V2 & V3).
  exists h'. split; [exact E|]. split. { rewrite P1, V1. reflexivity. }
  split. { intros r Hr. rewrite P1, V1, O1, set_reg_ne by exact Hr. reflexivity. }
  split. { apply (C33_other_calls l h (SetPc v) h' L); [eauto|exact E]. }
  split; [congruence|]. split; [congruence|]. rewrite P3, O3, V3. reflexivity.
Qed.
(** Between two instructions it redirects execution: the machine then shows the
    same state with PC = v, and is still between two instructions. *)
Theorem C35_redirects : forall l h a v, live l h true -> boundary h -> shows h a -> 0 <= v < 65535 ->
  exists h', do_call (SetPc v) h = Some h' /\ live (l ++ [SetPc v]) h' true /\ boundary h' /\ shows h' (put_pc v a).
Proof.
  intros l h a v L Bd Sh Hv. destruct (C35_only_pc l h v L ltac:(lia)) as (h' & E & X1 & X2 & X3 & _ & X5 & X6). exists h'. split; auto.
  split. { destruct L as (P & R). split; [econstructor; [exact P|constructor; lia]|]. rewrite run_calls_app, R. cbn [run_calls]. rewrite E. reflexivity. }
  split. { destruct Bd as (B1 & _). split; [congruence|]. rewrite X1. intros Y. injection Y as ->. lia. }
  destruct Sh as (S1 & S2 & S3 & S4 & S5 & S6 & S7 & S8 & S9 & S10 & S11). unfold shows, put_pc. cbn [AC FC FZ Isa.B C D Isa.E PC SP M log].
  rewrite !X2 by discriminate. repeat split; auto; try congruence. all: try (intros i Hi; rewrite X3; auto; fail). rewrite X2 by discriminate. exact S9.
Qed.

(** ** C36 *)
(** Whenever it is called, reset_control makes the next clock cycle a fetch and
    touches no register, cell or notice. *)
Theorem C36_reset : forall l h k c, live l h k -> obs h c -> exists h', do_call ResetControl h = Some h' /\ live (l ++ [ResetControl]) h' k /\
  get_state h' = Some 0 /\ get_next_state h' = Some 0 /\ obs h' c.
Proof.
  intros l h k c L O. destruct (live_up l h k L) as (Hk & z0 & U0). destruct (obs_up h z0 c U0 O) as (z & U & Sm & _).
  destruct (reset_up h z U) as (h' & z' & E & U' & _ & Q & D1 & V & _). exists h'. split; [exact E|].
  split. { destruct L as (P & R). split; [econstructor; [exact P|constructor]|]. rewrite run_calls_app, R. cbn [run_calls do_call]. rewrite E. reflexivity. }
  destruct (up_obs h' z' U') as (O' & G1 & G2). rewrite V in O'. split; [congruence|]. split; [congruence|].
  destruct O' as (P1 & P2 & P3). destruct Sm as (S1 & S2 & S3).
  split; [intros r; rewrite P1, S1; reflexivity|]. split; [intros a Ha; rewrite P2, S2 by exact Ha; reflexivity|congruence].
Qed.

(** ** Tidy histories: [boundary] is just "the next microstate is the fetch"
    A client that calls set_register_pc only between two instructions, and not
    with 65535, never meets the exception in the definition of [boundary]. *)
Inductive tidy : list call -> Prop :=
| Tidy_nil : tidy []
| Tidy_snoc : forall l c, tidy l ->
    (forall v, c = SetPc v -> v < 65535 /\ forall h, run_calls l boot = Some h -> get_next_state h = Some 0) -> tidy (l ++ [c]).
Lemma tidy_inv : forall l c, tidy (l ++ [c]) -> tidy l /\ (forall v, c = SetPc v -> v < 65535 /\ forall h, run_calls l boot = Some h -> get_next_state h = Some 0).
Proof.
  intros l c T. inversion T as [E|l' c' T' H E]. { destruct l; discriminate. } apply app_inj_tail in E. destruct E as (-> & ->). auto.
Qed.
Definition synced (z : zs) : Prop := (dpos z = 0 -> presync (view z)) /\ (dpos z <> 0 -> insync (view z)).
Lemma insync_same : forall s t, same s t -> insync s -> insync t.
Proof. intros s t (S1 & _) H. unfold insync in *. rewrite <- !S1. exact H. Qed.
Lemma tidy_synced : forall l u, proper l u -> tidy l -> on u = true -> exists h z, run_calls l boot = Some h /\ up h z /\ synced z.
Proof.
  intros l u P. induction P as [|l u c u' P IH A]; intros T Ho; [discriminate|].
  apply tidy_inv in T. destruct T as (T & Tc).
  destruct (proper_good l u P) as (h & E & G1 & G2 & G3).
  assert (X : forall h' z', do_call c h = Some h' -> up h' z' -> synced z' -> exists h z, run_calls (l ++ [c]) boot = Some h /\ up h z /\ synced z).
  { intros h' z' E' U' S'. exists h', z'. split; auto. rewrite run_calls_app, E. cbn [run_calls]. rewrite E'. reflexivity. }
  destruct A; cbn [on] in *; try discriminate.
  - destruct (init_up h rnd G2 H) as (h2 & z2 & E2 & U2 & _ & _ & D2 & V2). apply (X h2 z2 E2 U2).
    split; intros Hd; [|contradiction]. left. rewrite V2. reflexivity.
  - destruct (IH T Ho) as (h0 & z & E0 & U & Sy). rewrite E in E0. injection E0 as <-. apply (X (set_ui h k) z eq_refl); auto. apply set_ui_up. exact U.
  - destruct (IH T Ho) as (h0 & z & E0 & U & Sy). rewrite E in E0. injection E0 as <-.
    destruct (api_clock_up u h z U) as (h' & z' & E' & U' & _ & _ & Q & D1 & V & _). { cbn in G1. rewrite G1. exact H. }
    apply (X h' z' E' U'). enough (Hi : insync (view z')) by (split; intros _; [left|]; exact Hi).
    apply (insync_same (rtl (dpos z) (view z))). { destruct V as (V1 & V2 & V3). split; [|split]; auto. }
    pose proof (zview_valid z (inv_rng z (up_inv _ _ U))) as Vz. destruct Sy as (S1 & S2). destruct (Z.eq_dec (dpos z) 0) as [Ez|Nz].
    + rewrite Ez. apply rtl0_insync. exact (S1 Ez).
    + apply rtl_insync; auto.
  - destruct (IH T Ho) as (h0 & z & E0 & U & Sy). rewrite E in E0. injection E0 as <-.
    destruct (reset_up h z U) as (h' & z' & E' & U' & _ & Q & D1 & V & _). apply (X h' z' E' U'). split; [intros _|congruence].
    rewrite V. destruct Sy as (S1 & S2). destruct (Z.eq_dec (dpos z) 0) as [Ez|Nz]; auto. left. auto.
  - destruct (IH T Ho) as (h0 & z & E0 & U & Sy). rewrite E in E0. injection E0 as <-.
    destruct (set_mem_up h z o v U G1 H H0) as (h' & z' & E' & U' & _ & Q & D1 & (V1 & V2 & V3)). apply (X h' z' E' U').
    unfold synced, presync, insync. rewrite D1, !V1. exact Sy.
  - destruct (IH T Ho) as (h0 & z & E0 & U & Sy). rewrite E in E0. injection E0 as <-. destruct (Tc v eq_refl) as (Hv & Hn). specialize (Hn h E).
    destruct (up_obs h z U) as (_ & _ & G). rewrite Hn in G. injection G as G.
    destruct (set_pc_up h z v U G1 H) as (h' & z' & E' & U' & _ & Q & D1 & (V1 & V2 & V3)). apply (X h' z' E' U').
    split; [intros _|congruence]. right. rewrite V1. exact Hv.
Qed.
Theorem tidy_boundary : forall l h k, live l h k -> tidy l -> get_next_state h = Some 0 -> boundary h.
Proof.
  intros l h k (P & E) T N. destruct (tidy_synced l _ P T eq_refl) as (h' & z & E' & U & (Sy & _)). rewrite E in E'. injection E' as <-.
  apply (up_boundary h z U). destruct (up_obs h z U) as (_ & _ & G). rewrite N in G. injection G as G.
  split; auto. apply (presync_iff (view z) (zview_valid z (inv_rng z (up_inv _ _ U)))). auto.
Qed.
(** In such histories reset_control always leads to an instruction boundary. *)
Theorem C36_reset_boundary : forall l h k, live l h k -> tidy l -> exists h', do_call ResetControl h = Some h' /\ boundary h'.
Proof.
  intros l h k L T. destruct (live_up l h k L) as (_ & z & U). destruct (up_obs h z U) as (O & _).
  destruct (C36_reset l h k _ L O) as (h' & E & L' & _ & N & _). exists h'. split; auto. apply (tidy_boundary _ _ _ L'); auto.
  constructor; auto. intros v Hv. discriminate.
Qed.

(** The hypotheses above hold somewhere: a running machine in the middle of an
    instruction, with a callback. *)
Example api_nonvacuous : exists l h, live l h true /\ tidy l /\ get_next_state h = Some 1 /\ get_register_value R_PC h = Some 1.
Proof.
  destruct (init_up boot (fun _ => 0) sane0 ltac:(intros; lia)) as (h0 & z0 & E0 & U0 & F & Q & D0 & V).
  assert (L : live [Init (fun _ => 0); SetUi true] (set_ui h0 true) true).
  { split.
    - change [Init (fun _ => 0); SetUi true] with ([Init (fun _ => 0)] ++ [SetUi true]). econstructor; [|apply (A_set_ui (mkUse true false) true)].
      change [Init (fun _ => 0)] with ([] ++ [Init (fun _ => 0)]). econstructor; [constructor|]. apply (A_init (mkUse false false)). intros; lia.
    - cbn [run_calls do_call]. rewrite E0. reflexivity. }
  pose proof (set_ui_up h0 z0 true U0) as U1. destruct (live_clock _ _ true true L (fun _ => eq_refl)) as (h2 & E2 & L2).
  destruct (up_obs _ z0 U1) as (O & _ & N).
  destruct (C38_clock _ _ true true _ _ L (fun _ => eq_refl) N O) as (h3 & E3 & _ & (O1 & _)). rewrite E2 in E3. injection E3 as <-.
  destruct (api_clock_up true _ z0 U1 (fun _ => eq_refl)) as (h3 & z2 & E3 & U2 & _ & _ & Q2 & D2 & V2 & _).
  assert (h3 = h2) as ->. { cbn [do_call] in E2. congruence. }
  exists ([Init (fun _ => 0); SetUi true] ++ [RunClock true]), h2. destruct (up_obs h2 z2 U2) as (_ & _ & N2).
  split; [exact L2|].
  split. { apply Tidy_snoc; [|intros v Hv; discriminate]. apply (Tidy_snoc [Init (fun _ => 0)]); [|intros v Hv; discriminate].
    apply (Tidy_snoc []); [constructor|intros v Hv; discriminate]. }
  split. { rewrite N2, D2, D0, !rv_view, V. vm_compute. reflexivity. }
  rewrite O1, D0, V. vm_compute. reflexivity.
Qed.

Print Assumptions C15_microstates.
Print Assumptions C17_defined.
Print Assumptions C17_getters_defined.
Print Assumptions C17_guards_needed.
Print Assumptions C18_ranges.
Print Assumptions C33_memory_write.
Print Assumptions C33_out_of_range.
Print Assumptions C33_size.
Print Assumptions C33_other_calls.
Print Assumptions C34_bad_offset_refuted.
Print Assumptions C34_wide_value_refuted.
Print Assumptions C34_good_arguments.
Print Assumptions C35_only_pc.
Print Assumptions C35_redirects.
Print Assumptions C36_reset.
Print Assumptions C36_reset_boundary.
Print Assumptions tidy_boundary.
Print Assumptions C38_clock.
Print Assumptions C51_clock_notices.
Print Assumptions C51_calls_quiet.
Print Assumptions C53_microstates.
Print Assumptions api_nonvacuous.
