(** * Theorems: what the bus getters show (C57) *)
From Coq Require Import ZArith List Bool Lia ZifyBool.
From Verif Require Import Word WordFacts Prog Tables Components Machine ZMachine ZWord ZRefine ZRefineB ZRefineC
  Rtl Micro Isa MicroIsa IsaOps Track Drive LinkedList PubSub Api HeapSim Lifecycle Usage ApiFacts Reach BusSpec Buses.
From Verif Require PropsGuard.
Import ListNotations.
Open Scope Z_scope.
Opaque trk.

(** The getter of each line: the bit of the control bus it returns,
    linker/bus.c:40-95. *)
Definition get_line (l : line) (h : hstate) : option Z :=
  get_control_bus match l with
    | L_pccar => PCCAR | L_accar => ACCAR | L_acbus => ACBUS | L_spcar => SPCAR | L_2opcar => OP2CAR | L_hcar => HCAR
    | L_lcar => LCAR | L_ricar => RICAR | L_regcar => REGCAR | L_regbus => REGBUS | L_membus => MEMBUS | L_le => LE end h.

(** the internal state after a clock cycle *)
Lemma clock_bus : forall u h z h', up h z -> do_call (RunClock u) h = Some h' -> exists z',
  up h' z' /\ qpos z' = dpos z /\ same (view z') (rtl (dpos z) (view z)) /\
  tv z' T_CONTROL = rom_int (nth (Z.to_nat (dpos z)) ROM []) /\
  tv z' T_DIR2 = address (dpos z) (view z') /\ tv z' T_DATA = data (dpos z) (view z') (tv z T_DATA).
Proof.
  intros u h z h' U E.
  assert (RE : forall h s z, sim h s -> Rz s z -> inv z -> tick h = true -> trk (qpos z) (rv z R_RI) = true ->
    exists h' z', hexec run_cu_1 h = Some h' /\ up h' z' /\ tick h' = true /\
    qpos z' = qpos z /\ same (view z') (rtl (qpos z) (view z)) /\ tv z' T_CONTROL = rom_int (nth (Z.to_nat (qpos z)) ROM []) /\
    tv z' T_DIR2 = address (qpos z) (view z') /\ tv z' T_DATA = data (qpos z) (view z') (tv z T_DATA)).
  { clear. intros h s z S R I Ht Hk. destruct (run_cu_1_ok s z R (inv_rng z I)) as (s' & E & R' & G'); [apply I|].
    destruct (hexec_sim run_cu_1 h s s' wfp_cu_1 S E) as (h' & E' & S' & (F1 & F2)).
    destruct (z_step z I G') as (I' & Q1 & Q2 & Q3 & Q4).
    exists h', (z_cu_1 z). split; auto. split. { constructor; [eauto|assumption|congruence|]. rewrite Q2. rewrite (rv_view (z_cu_1 z)). rewrite (reg_same _ _ R_RI Q3). rewrite !(rv_view z); apply (trk_step (view z) (qpos z)); [apply zview_valid; apply I|apply I|exact Hk]. }
    split; [congruence|]. split; auto. split; auto. split; auto.
    destruct (z_cu_1_pre z) as (d0 & d1 & d2 & d3 & d4 & d5 & jn & Ez & _). rewrite Ez.
    exact (bus_all (qpos z) (inv_q z I) z d0 d1 d2 d3 d4 d5 _ _ jn (inv_set z I) (inv_rng z I) eq_refl eq_refl). }
  destruct U as [(s & S & R) I T K]. cbn [do_call] in E. unfold api_run_clock_cycle, run_cu_clock_cycle in E. cbn [clock_loop] in E.
  assert (Ui : forall x, call_update_ui x = Some h' -> x = h') by (unfold call_update_ui; intros x; destruct (ui x); congruence).
  destruct (tick h) eqn:Et; cbn [negb tick set_tick] in E.
  - assert (S0 : sim (set_tick h false) s) by (destruct S as [SA SB SI SR SM SL SW]; constructor; auto).
    destruct (hexec_ok run_cu_0 z_fall (set_tick h false) s z wfp_cu_0 ok_dff S0 R (inv_rng z I)) as (h1 & s1 & E1 & S1 & R1 & G1 & (F1 & F2)).
    rewrite E1 in E.
    destruct (z_fall_ok z I G1) as (I1 & Q1 & Q2 & Q3).
    cbn [tick set_tick] in F1. rewrite F1 in E. cbn [negb] in E.
    assert (S2 : sim (set_tick h1 true) s1) by (destruct S1 as [SA SB SI SR SM SL SW]; constructor; auto).
    assert (Hk : trk (qpos (z_fall z)) (rv (z_fall z) R_RI) = true).
    { rewrite Q1. rewrite (rv_view (z_fall z)). rewrite Q3. exact K. }
    destruct (RE (set_tick h1 true) s1 (z_fall z) S2 R1 I1 eq_refl Hk) as (h2 & z' & E' & U' & T' & K1 & K2 & K3 & K4 & K5).
    change (tick (set_tick h1 true)) with true in E. cbv iota in E. rewrite E' in E.
    assert (h2 = h') as -> by (destruct u; [auto|congruence]).
    exists z'. rewrite Q1 in K1, K2, K3, K4, K5. rewrite Q3 in K2.
    change (tv (z_fall z) T_DATA) with (tv z T_DATA) in K5. auto 8.
  - destruct (T eq_refl) as (Tq & Td).
    assert (S2 : sim (set_tick h true) s) by (destruct S as [SA SB SI SR SM SL SW]; constructor; auto).
    assert (Hk : trk (qpos z) (rv z R_RI) = true) by (rewrite Tq, <- Td; exact K).
    destruct (RE (set_tick h true) s z S2 R I eq_refl Hk) as (h2 & z' & E' & U' & T' & K1 & K2 & K3 & K4 & K5).
    change (tick (set_tick h true)) with true in E. cbv iota in E. rewrite E' in E.
    assert (h2 = h') as -> by (destruct u; [auto|congruence]).
    exists z'. rewrite Tq in K1, K2, K3, K4, K5. rewrite Td. auto 8.
Qed.

(** the getters read the internal state *)
Lemma up_bus : forall h z b, up h z -> existsb (busid_eqb b) all_buses = true ->
  exists x, get_bus h b = Some x /\ bnxt x = int_to_word (tv z (topic_of b)).
Proof.
  intros h z b [(s & S & R) I _ _] Hb. destruct (bus_sim h s b S Hb) as (x & E1 & E2). exists x. split; auto.
  rewrite E2. apply (Rz_t s z R).
Qed.
Lemma up_data : forall h z, up h z -> get_data_bus h = Some (tv z T_DATA).
Proof.
  intros h z U. destruct (up_bus h z (Prog.B K_LBUS T_DATA) U eq_refl) as (x & E1 & E2).
  unfold get_data_bus. rewrite E1, E2. cbn [topic_of]. pose proof (rng_t z (inv_rng z (up_inv _ _ U)) T_DATA) as H. cbn in H.
  apply word_to_int_i2w. unfold INT_MAX. lia.
Qed.
Lemma up_dir : forall h z, up h z -> 0 <= tv z T_DIR2 -> get_memory_dir_bus h = Some (tv z T_DIR2).
Proof.
  intros h z U H0. destruct (up_bus h z (Prog.B K_LMEM T_DIR2) U eq_refl) as (x & E1 & E2).
  unfold get_memory_dir_bus. rewrite E1, E2. cbn [topic_of]. pose proof (rng_t z (inv_rng z (up_inv _ _ U)) T_DIR2) as H. cbn in H.
  apply word_to_int_i2w. unfold INT_MAX. lia.
Qed.

(** two descriptions of the same visible state *)
Lemma obs_agree : forall h c1 c2, obs h c1 -> obs h c2 -> (forall r, reg c1 r = reg c2 r) /\ (forall a, 0 <= a < 65536 -> mem c1 a = mem c2 a).
Proof.
  intros h c1 c2 (A1 & A2 & _) (B1 & B2 & _). split.
  - intros r. pose proof (A1 r). pose proof (B1 r). congruence.
  - intros a Ha. pose proof (A2 a Ha). pose proof (B2 a Ha). congruence.
Qed.
Ltac each q := match goal with H : 0 <= q < 45 |- _ =>
  assert (q = 0 \/ q = 1 \/ q = 2 \/ q = 3 \/ q = 4 \/ q = 5 \/ q = 6 \/ q = 7 \/ q = 8 \/ q = 9 \/ q = 10 \/ q = 11 \/
   q = 12 \/ q = 13 \/ q = 14 \/ q = 15 \/ q = 16 \/ q = 17 \/ q = 18 \/ q = 19 \/ q = 20 \/ q = 21 \/ q = 22 \/ q = 23 \/
   q = 24 \/ q = 25 \/ q = 26 \/ q = 27 \/ q = 28 \/ q = 29 \/ q = 30 \/ q = 31 \/ q = 32 \/ q = 33 \/ q = 34 \/ q = 35 \/
   q = 36 \/ q = 37 \/ q = 38 \/ q = 39 \/ q = 40 \/ q = 41 \/ q = 42 \/ q = 43 \/ q = 44) as Hcases by lia; clear H;
  repeat (destruct Hcases as [->|Hcases]; [|]); [..|subst q] end.

Lemma address_range : forall q c, cvalid c -> 0 <= address q c < 65536.
Proof.
  intros q c V. pose proof (cv_r c V R_PC) as H1. pose proof (cv_r c V R_SP) as H2. pose proof (cv_r c V R_H) as H3. pose proof (cv_r c V R_L) as H4.
  cbn in H1, H2, H3, H4. unfold address, HL.
  repeat match goal with |- context [match ?x with _ => _ end] => destruct x; try lia end.
Qed.
Lemma address_agree : forall q c1 c2, (forall r, reg c1 r = reg c2 r) -> address q c1 = address q c2.
Proof. intros q c1 c2 H. unfold address, HL. rewrite !H. reflexivity. Qed.
Lemma data_agree : forall q c1 c2 d, cvalid c1 -> (forall r, reg c1 r = reg c2 r) -> (forall a, 0 <= a < 65536 -> mem c1 a = mem c2 a) ->
  data q c1 d = data q c2 d.
Proof.
  intros q c1 c2 d V H M. unfold data. cbv zeta. rewrite (M (address q c1)) by (apply address_range; exact V).
  rewrite (address_agree q c1 c2 H). unfold low2, flags8. rewrite !H. reflexivity.
Qed.

(** what a clock cycle leaves behind, in terms of the getters *)
Lemma after_clock : forall l h k u h' q, live l h k -> do_call (RunClock u) h = Some h' -> get_state h' = Some q ->
  exists z z', up h z /\ up h' z' /\ 0 <= q < 45 /\ obs h (view z) /\ obs h' (view z') /\ same (view z') (rtl q (view z)) /\
    cvalid (view z') /\ cvalid (view z) /\
    tv z' T_CONTROL = rom_int (nth (Z.to_nat q) ROM []) /\
    get_memory_dir_bus h' = Some (address q (view z')) /\
    get_data_bus h = Some (tv z T_DATA) /\
    get_data_bus h' = Some (data q (view z') (tv z T_DATA)).
Proof.
  intros l h k u h' q L E Q. destruct (live_up l h k L) as (_ & z & U).
  destruct (clock_bus u h z h' U E) as (z' & U' & K1 & K2 & K3 & K4 & K5).
  destruct (up_obs h z U) as (O & _). destruct (up_obs h' z' U') as (O' & S' & _).
  assert (q = dpos z) as Hq by congruence. rewrite <- Hq in *.
  pose proof (zview_valid z' (inv_rng z' (up_inv _ _ U'))) as V'.
  exists z, z'. split; [exact U|]. split; [exact U'|]. split; [rewrite Hq; exact (inv_d z (up_inv _ _ U))|].
  split; [exact O|]. split; [exact O'|]. split; [exact K2|]. split; [exact V'|].
  split; [exact (zview_valid z (inv_rng z (up_inv _ _ U)))|]. split; [exact K3|].
  split; [|split; [exact (up_data h z U)|rewrite <- K5; exact (up_data h' z' U')]].
  rewrite <- K4. apply up_dir; auto. rewrite K4. pose proof (address_range q _ V'). lia.
Qed.

(** After any history, once a clock cycle has run, the twelve control lines a
    client can read are those of the microstate shown by [get_state]. *)
Theorem C57_control : forall l h k u h' q ln, live l h k -> do_call (RunClock u) h = Some h' -> get_state h' = Some q ->
  get_line ln h' = Some (if is_raised ln q then 1 else 0).
Proof.
  intros l h k u h' q ln L E Q. destruct (after_clock l h k u h' q L E Q) as (z & z' & U & U' & Hq & _ & _ & _ & _ & _ & K & _).
  destruct (up_bus h' z' (Prog.B K_LBUS T_CONTROL) U' eq_refl) as (x & E1 & E2).
  unfold get_line, get_control_bus. rewrite E1, E2. cbn [topic_of]. rewrite K. f_equal. clear - Hq.
  assert (F : forallb (fun q => let w := int_to_word (rom_int (nth (Z.to_nat q) ROM [])) in
    forallb (fun l => Z.b2z (bit w (match l with
    | L_pccar => PCCAR | L_accar => ACCAR | L_acbus => ACBUS | L_spcar => SPCAR | L_2opcar => OP2CAR | L_hcar => HCAR
    | L_lcar => LCAR | L_ricar => RICAR | L_regcar => REGCAR | L_regbus => REGBUS | L_membus => MEMBUS | L_le => LE end)) =? (if is_raised l q then 1 else 0))
    [L_pccar; L_accar; L_acbus; L_spcar; L_2opcar; L_hcar; L_lcar; L_ricar; L_regcar; L_regbus; L_membus; L_le])
    (map Z.of_nat (seq 0 45)) = true) by (vm_compute; reflexivity).
  rewrite forallb_forall in F. specialize (F q). rewrite forallb_forall in F.
  assert (In q (map Z.of_nat (seq 0 45))). { apply in_map_iff. exists (Z.to_nat q). split; [lia|apply in_seq; lia]. }
  specialize (F H ln). apply Z.eqb_eq. apply F. destruct ln; cbn; tauto.
Qed.

(** ... and so is the operation selected in the ALU. *)
Theorem C57_selalu : forall l h k u h' q, live l h k -> do_call (RunClock u) h = Some h' -> get_state h' = Some q ->
  get_control_bus_selalu h' = Some (alu_selected q).
Proof.
  intros l h k u h' q L E Q. destruct (after_clock l h k u h' q L E Q) as (z & z' & U & U' & Hq & _ & _ & _ & _ & _ & K & _).
  destruct (up_bus h' z' (Prog.B K_LBUS T_CONTROL) U' eq_refl) as (x & E1 & E2).
  unfold get_control_bus_selalu. rewrite E1, E2. cbn [topic_of]. rewrite K. clear - Hq.
  assert (F : forallb (fun q => match word_to_int (lb3 (int_to_word (rom_int (nth (Z.to_nat q) ROM []))) SELALU_0 SELALU_1 SELALU_2) with
    Some v => v =? alu_selected q | None => false end) (map Z.of_nat (seq 0 45)) = true) by (vm_compute; reflexivity).
  rewrite forallb_forall in F. specialize (F q).
  assert (In q (map Z.of_nat (seq 0 45))). { apply in_map_iff. exists (Z.to_nat q). split; [lia|apply in_seq; lia]. }
  specialize (F H). destruct (word_to_int _); [|discriminate]. apply Z.eqb_eq in F. congruence.
Qed.

(** The address bus shows PC, SP, HL or 65532 as they are after the cycle. *)
Theorem C57_address : forall l h k u h' q c, live l h k -> do_call (RunClock u) h = Some h' -> get_state h' = Some q -> obs h' c ->
  get_memory_dir_bus h' = Some (address q c).
Proof.
  intros l h k u h' q c L E Q O. destruct (after_clock l h k u h' q L E Q) as (z & z' & _ & _ & _ & _ & O' & _ & _ & _ & _ & K & _).
  rewrite K. f_equal. apply address_agree. apply (obs_agree h'); auto.
Qed.

(** The data bus shows what drives it, as it is after the cycle, or keeps its value. *)
Theorem C57_data : forall l h k u h' q c d, live l h k -> do_call (RunClock u) h = Some h' -> get_state h' = Some q -> obs h' c ->
  get_data_bus h = Some d -> get_data_bus h' = Some (data q c d).
Proof.
  intros l h k u h' q c d L E Q O D. destruct (after_clock l h k u h' q L E Q) as (z & z' & _ & _ & _ & _ & O' & _ & V & _ & _ & _ & D1 & D2).
  rewrite D2. f_equal. replace (tv z T_DATA) with d by congruence.
  destruct (obs_agree h' _ _ O' O). apply data_agree; auto.
Qed.

(** ** The lines tell what changes *)
Definition loads : list (line * regid) :=
  [(L_accar, R_AC); (L_2opcar, R_2OP); (L_hcar, R_H); (L_lcar, R_L); (L_ricar, R_RI); (L_spcar, R_SP);
   (L_regcar, R_B); (L_regcar, R_C); (L_regcar, R_D); (L_regcar, R_E)].

Lemma line_value : forall l h k u h' q ln b, live l h k -> do_call (RunClock u) h = Some h' -> get_state h' = Some q ->
  get_line ln h' = Some (if b : bool then 1 else 0) -> is_raised ln q = b.
Proof. intros l h k u h' q ln b L E Q H. rewrite (C57_control l h k u h' q ln L E Q) in H. destruct (is_raised ln q), b; congruence. Qed.

Lemma greg_cases : forall n, greg n = R_B \/ greg n = R_C \/ greg n = R_D \/ greg n = R_E.
Proof. intros n. unfold greg. destruct n as [|[| [| |]|]|]; auto. Qed.
Ltac rg := cbv beta iota zeta delta [rtl set store report set_pc pc_inc sp_inc sp_dec set_flags flags_of_byte reg mem errs regid_eqb regid_num N.eqb Pos.eqb];
  repeat match goal with |- context [if ?a =? ?b then _ else _] => destruct (a =? b); cbv beta iota delta [reg mem errs] end;
  try reflexivity;
  match goal with |- context [low2 ?c] => destruct (greg_cases (reg c R_RI mod 4)) as [X|[X|[X|X]]]; change (low2 c) with (greg (reg c R_RI mod 4)); rewrite X; reflexivity
                | |- context [high2 ?c] => destruct (greg_cases (reg c R_RI / 4 mod 4)) as [X|[X|[X|X]]]; change (high2 c) with (greg (reg c R_RI / 4 mod 4)); rewrite X; reflexivity end.
Lemma rtl_idle : forall q c ln r, 0 <= q < 45 -> In (ln, r) loads -> is_raised ln q = false -> reg (rtl q c) r = reg c r.
Proof.
  intros q c ln r Hq Hin Hr. unfold loads in Hin. cbn [In] in Hin.
  repeat (destruct Hin as [Hin|Hin]; [injection Hin as <- <-|]); try contradiction;
  each q; try discriminate Hr; clear; rg.
Qed.

(** A register whose load line is 0 keeps its value. *)
Theorem C57_idle_registers : forall l h k u h' ln r, live l h k -> do_call (RunClock u) h = Some h' -> In (ln, r) loads ->
  get_line ln h' = Some 0 -> get_register_value r h' = get_register_value r h.
Proof.
  intros l h k u h' ln r L E Hin H0. destruct (live_up l h k L) as (_ & z0 & U0).
  destruct (clock_bus u h z0 h' U0 E) as (z1 & U1 & Q & _). destruct (up_obs h' z1 U1) as (_ & Q1 & _).
  destruct (after_clock l h k u h' _ L E Q1) as (z & z' & U & U' & Hq & O & O' & S & _).
  pose proof (line_value l h k u h' _ ln false L E Q1 H0) as Hr.
  rewrite (proj1 O' r), (proj1 O r). f_equal. rewrite (reg_same _ _ r S). apply (rtl_idle _ _ ln); auto.
Qed.

(** PC keeps its value when its line is 0, unless one of its halves is loaded
    from the stack (microstates 32 and 33 of RET). *)
Theorem C57_idle_pc : forall l h k u h' q, live l h k -> do_call (RunClock u) h = Some h' -> get_state h' = Some q ->
  get_line L_pccar h' = Some 0 -> q <> 32 -> q <> 33 -> get_register_value R_PC h' = get_register_value R_PC h.
Proof.
  intros l h k u h' q L E Q1 H0 N1 N2.
  destruct (after_clock l h k u h' _ L E Q1) as (z & z' & U & U' & Hq & O & O' & S & _).
  pose proof (line_value l h k u h' _ L_pccar false L E Q1 H0) as Hr.
  rewrite (proj1 O' R_PC), (proj1 O R_PC). f_equal. rewrite (reg_same _ _ R_PC S). clear - Hq Hr N1 N2.
  each q; try discriminate Hr; try congruence; clear; rg.
Qed.

(** Memory: with LE at 1 no cell changes; with LE at 0 the cell shown on the
    address bus receives the value shown on the data bus, and no other changes. *)
Theorem C57_memory : forall l h k u h' a d o, live l h k -> do_call (RunClock u) h = Some h' ->
  get_memory_dir_bus h' = Some a -> get_data_bus h' = Some d ->
  (get_line L_le h' = Some 1 -> get_memory_value o h' = get_memory_value o h) /\
  (get_line L_le h' = Some 0 -> get_memory_value o h' = if o =? a then Some d else get_memory_value o h) /\
  (get_line L_membus h' = Some 1 -> get_memory_value a h' = Some d).
Proof.
  intros l h k u h' a d o L E Ha Hd. destruct (live_up l h k L) as (_ & z0 & U0).
  destruct (clock_bus u h z0 h' U0 E) as (z1 & U1 & Q & _). destruct (up_obs h' z1 U1) as (_ & Q1 & _).
  set (q := qpos z1) in *. clearbody q. clear U0 Q z0.
  destruct (after_clock l h k u h' q L E Q1) as (z & z' & U & U' & Hq & O & O' & S & V' & V & _ & A & D & D').
  rewrite A in Ha. injection Ha as <-. rewrite D' in Hd. injection Hd as <-.
  pose proof (address_range q _ V') as Ra.
  assert (Out : valid_offset o = false -> get_memory_value o h' = get_memory_value o h) by (unfold get_memory_value; intros ->; reflexivity).
  assert (In_ : valid_offset o = true -> get_memory_value o h' = Some (mem (rtl q (view z)) o) /\ get_memory_value o h = Some (mem (view z) o)).
  { intros Hv. apply valid_offset_range in Hv. rewrite (proj1 (proj2 O')), (proj1 (proj2 O)) by exact Hv.
    destruct S as (_ & S & _). rewrite S. auto. }
  split; [|split]; intros Hl.
  - pose proof (line_value l h k u h' _ L_le true L E Q1 Hl) as Hr. destruct (valid_offset o) eqn:Ev; [|auto].
    destruct (In_ eq_refl) as (-> & ->). f_equal. clear - Hq Hr. each q; try discriminate Hr; clear; rg.
  - pose proof (line_value l h k u h' _ L_le false L E Q1 Hl) as Hr. destruct (valid_offset o) eqn:Ev.
    2:{ rewrite Out by reflexivity. destruct (Z.eqb_spec o (address q (view z'))); auto. subst o.
        apply valid_offset_range in Ra. congruence. }
    destruct (In_ eq_refl) as (-> & ->). clear - Hq Hr S.
    assert (Ea : address q (view z') = address q (rtl q (view z))) by (apply address_agree; apply S).
    assert (Ed : data q (view z') (tv z T_DATA) = data q (rtl q (view z)) (tv z T_DATA)).
    { unfold data. cbv zeta. destruct S as (S1 & S2 & S3). rewrite S2, Ea. unfold low2, flags8. rewrite !S1. reflexivity. }
    rewrite Ea, Ed. clear - Hq Hr.
    each q; try discriminate Hr; clear; cbv beta iota zeta delta [address data rtl store reg mem HL flags8]; 
      match goal with |- context [o =? ?x] => destruct (o =? x); reflexivity end.
  - pose proof (line_value l h k u h' _ L_membus true L E Q1 Hl) as Hr.
    rewrite (proj1 (proj2 O')) by exact Ra. f_equal. clear - Hq Hr.
    each q; try discriminate Hr; reflexivity.
Qed.

(** ** What is loaded *)
(** Load lines, registers, and the microstates in which a second value has
    reached the data bus by the end of the cycle. *)
Definition from_bus : list (line * regid * list Z) :=
  [(L_accar, R_AC, [5; 6; 11; 14]); (L_2opcar, R_2OP, [15]); (L_hcar, R_H, [16]); (L_lcar, R_L, [17])].

(** With its load line at 1 a register holds what the data bus shows, except
    after AC+2OP, AC-2OP, AC xor 2OP and not AC, whose result has already been
    fed back into the ALU, and after fetching an operand with PC+1, where the bus
    already shows the next byte. *)
Theorem C57_loaded : forall l h k u h' q ln r ex, live l h k -> do_call (RunClock u) h = Some h' -> get_state h' = Some q ->
  In (ln, r, ex) from_bus -> get_line ln h' = Some 1 -> ~ In q ex -> get_register_value r h' = get_data_bus h'.
Proof.
  intros l h k u h' q ln r ex L E Q Hin H1 Hex.
  destruct (after_clock l h k u h' _ L E Q) as (z & z' & U & U' & Hq & O & O' & S & V' & V & _ & _ & _ & D).
  pose proof (line_value l h k u h' _ ln true L E Q H1) as Hr.
  rewrite D, (proj1 O' r). f_equal.
  assert (Ed : data q (view z') (tv z T_DATA) = data q (rtl q (view z)) (tv z T_DATA)).
  { unfold data. cbv zeta. destruct S as (S1 & S2 & S3). rewrite S2. rewrite (address_agree q _ _ S1). unfold low2, flags8. rewrite !S1. reflexivity. }
  rewrite Ed, (reg_same _ _ r S). clear - Hq Hr Hin Hex.
  unfold from_bus in Hin. cbn [In] in Hin. generalize (tv z T_DATA) as d. generalize dependent (view z). intros c.
  repeat (destruct Hin as [Hin|Hin]; [injection Hin as <- <- <-|]); try contradiction;
  each q; try discriminate Hr; try (exfalso; apply Hex; cbn; tauto); clear; intros d;
  cbv beta iota zeta delta [data address HL rtl set set_flags flags8 low2 reg mem regid_eqb regid_num N.eqb Pos.eqb]; try reflexivity.
  - rewrite <- Z.land_assoc, Z.land_diag. reflexivity.
  - rewrite <- Z.lor_assoc, Z.lor_diag. reflexivity.
  - match goal with |- context [if ?b then _ else _] => destruct b; reflexivity end.
Qed.

(** histories checked by computation *)
Definition fine (c : call) : bool :=
  match c with
  | RunClock _ | ResetControl => true
  | SetMem o v => (0 <=? o) && (o <? 65536) && (0 <=? v) && (v <=? 255)
  | SetPc v => (0 <=? v) && (v <=? 65535)
  | _ => false
  end.
Lemma fine_live : forall l h, forallb fine l = true -> run_calls (Init (fun _ => 0) :: SetUi true :: l) boot = Some h ->
  live (Init (fun _ => 0) :: SetUi true :: l) h true.
Proof.
  intros l h Hf E. split; [|exact E]. clear E h.
  induction l as [|c l IH] using rev_ind.
  - change [Init (fun _ => 0); SetUi true] with ([Init (fun _ => 0)] ++ [SetUi true]). econstructor; [|apply (A_set_ui (mkUse true false) true)].
    change [Init (fun _ => 0)] with ([] ++ [Init (fun _ => 0)]). econstructor; [constructor|]. apply (A_init (mkUse false false)). intros; lia.
  - rewrite forallb_app in Hf. cbn in Hf. change (proper ((Init (fun _ => 0) :: SetUi true :: l) ++ [c]) (mkUse true true)).
    econstructor; [apply IH; destruct (forallb fine l); auto|].
    destruct c; cbn in Hf; try (rewrite ?andb_false_r in Hf; discriminate Hf).
    + apply A_clock. auto.
    + apply A_reset.
    + apply A_set_mem; lia.
    + apply A_set_pc; lia.
Qed.
Lemma live_shows : forall l f,
  forallb fine l = true ->
  match PropsGuard.mcalls l false (fresh (fun _ => 0) []) with Some (_, s) => f s = true | None => False end ->
  exists h s, live (Init (fun _ => 0) :: SetUi true :: l) h true /\ sim h s /\ f s = true.
Proof.
  intros l f H1 H2. destruct (PropsGuard.run_from_boot l f H2) as (h & s & E & S & F).
  exists h, s. split; [apply fine_live; auto|auto].
Qed.
Lemma line_sim : forall h s ln, sim h s -> get_line ln h = Some (Z.b2z (bit (nx s T_CONTROL) match ln with
    | L_pccar => PCCAR | L_accar => ACCAR | L_acbus => ACBUS | L_spcar => SPCAR | L_2opcar => OP2CAR | L_hcar => HCAR
    | L_lcar => LCAR | L_ricar => RICAR | L_regcar => REGCAR | L_regbus => REGBUS | L_membus => MEMBUS | L_le => LE end)).
Proof.
  intros h s ln S. destruct (bus_sim h s (Prog.B K_LBUS T_CONTROL) S eq_refl) as (x & E1 & E2).
  unfold get_line, get_control_bus. rewrite E1, E2. reflexivity.
Qed.

(** The exceptions are real.  With ADI 5 at address 0: after the fetch RI holds
    0x65 and the data bus shows 5; after the fourth cycle the load line of AC is 1,
    AC holds 5 and the data bus shows 10. *)
Theorem C57_loaded_refuted :
  (exists l h, live l h true /\ get_line L_ricar h = Some 1 /\ get_register_value R_RI h = Some 0x65 /\ get_data_bus h = Some 5) /\
  (exists l h, live l h true /\ get_line L_accar h = Some 1 /\ get_register_value R_AC h = Some 5 /\ get_data_bus h = Some 10).
Proof.
  assert (K : forall ln r v d l,
    forallb fine l = true ->
    match PropsGuard.mcalls l false (fresh (fun _ => 0) []) with Some (_, s) =>
      (match get_line ln boot with _ => bit (nx s T_CONTROL) match ln with
    | L_pccar => PCCAR | L_accar => ACCAR | L_acbus => ACBUS | L_spcar => SPCAR | L_2opcar => OP2CAR | L_hcar => HCAR
    | L_lcar => LCAR | L_ricar => RICAR | L_regcar => REGCAR | L_regbus => REGBUS | L_membus => MEMBUS | L_le => LE end end &&
      match word_to_int (rg s r), word_to_int (nx s T_DATA) with Some a, Some b => (a =? v) && (b =? d) | _, _ => false end)%bool = true | None => False end ->
    exists l h, live l h true /\ get_line ln h = Some 1 /\ get_register_value r h = Some v /\ get_data_bus h = Some d).
  { intros ln r v d l H1 H2. destruct (live_shows l _ H1 H2) as (h & s & L & S & F). cbv beta in F.
    exists (Init (fun _ => 0) :: SetUi true :: l), h. split; [exact L|].
    rewrite (line_sim h s ln S), (PropsGuard.shown h s r S), (PropsGuard.shown_data h s S).
    apply andb_true_iff in F as (F1 & F2). rewrite F1.
    destruct (word_to_int (rg s r)); [|discriminate]. destruct (word_to_int (nx s T_DATA)); [|discriminate].
    apply andb_true_iff in F2 as (F2 & F3). apply Z.eqb_eq in F2, F3. subst. auto. }
  split.
  - apply (K _ _ _ _ [SetMem 0 0x65; SetMem 1 5; RunClock true]); [reflexivity|vm_compute; reflexivity].
  - apply (K _ _ _ _ [SetMem 0 0x65; SetMem 1 5; RunClock true; RunClock true; RunClock true; RunClock true]); [reflexivity|vm_compute; reflexivity].
Qed.

(** ** The other calls *)
Lemma buses_sim : forall h s h' s', sim h s -> sim h' s' -> nx s T_DIR2 = nx s' T_DIR2 -> nx s T_DATA = nx s' T_DATA ->
  get_memory_dir_bus h = get_memory_dir_bus h' /\ get_data_bus h = get_data_bus h' /\
  (nx s T_CONTROL = nx s' T_CONTROL -> get_control_bus_selalu h = get_control_bus_selalu h' /\ forall ln, get_line ln h = get_line ln h').
Proof.
  intros h s h' s' S S' E1 E2.
  destruct (bus_sim h s (Prog.B K_LMEM T_DIR2) S eq_refl) as (x1 & A1 & A2). destruct (bus_sim h' s' (Prog.B K_LMEM T_DIR2) S' eq_refl) as (x2 & A3 & A4).
  destruct (bus_sim h s (Prog.B K_LBUS T_DATA) S eq_refl) as (y1 & B1 & B2). destruct (bus_sim h' s' (Prog.B K_LBUS T_DATA) S' eq_refl) as (y2 & B3 & B4).
  destruct (bus_sim h s (Prog.B K_LBUS T_CONTROL) S eq_refl) as (w1 & C1 & C2). destruct (bus_sim h' s' (Prog.B K_LBUS T_CONTROL) S' eq_refl) as (w2 & C3 & C4).
  cbn [topic_of] in *. unfold get_memory_dir_bus, get_data_bus, get_control_bus_selalu, get_line, get_control_bus.
  rewrite A1, A2, A3, A4, B1, B2, B3, B4, C1, C2, C3, C4, E1, E2. split; auto. split; auto. intros ->. auto.
Qed.

(** set_memory_value, set_register_pc and the registration of a callback leave
    every bus getter as it was. *)
Theorem C57_quiet_calls : forall l h k c u' h', live l h k -> allowed (mkUse true k) c u' ->
  (exists o v, c = SetMem o v) \/ (exists v, c = SetPc v) \/ (exists b, c = SetUi b) -> do_call c h = Some h' ->
  get_memory_dir_bus h' = get_memory_dir_bus h /\ get_data_bus h' = get_data_bus h /\
  get_control_bus_selalu h' = get_control_bus_selalu h /\ forall ln, get_line ln h' = get_line ln h.
Proof.
  intros l h k c u' h' L A Hc E. destruct (live_up l h k L) as (Hk & z & [(s & S & R) I T K]).
  assert (Ui : forall x, call_update_ui x = Some h' -> x = h') by (unfold call_update_ui; intros x; destruct (ui x); congruence).
  destruct Hc as [(o & v & ->)|[(v & ->)|(b & ->)]]; cbn [do_call] in E.
  - inversion A; subst. unfold api_set_memory_value in E. destruct (hexec _ h) as [h2|] eqn:Eh; [|discriminate]. apply Ui in E. subst h2.
    assert (Hv : valid_offset o = true) by (apply valid_offset_range; auto).
    assert (Ex : exec (set_memory_value o v) s = Some (mkM (nx s) (cv s) (rg s) (mset (mm s) o v) (lg s))).
    { unfold set_memory_value. rewrite Hv. cbn [exec]. rewrite Hv. reflexivity. }
    destruct (hexec_sim _ h s _ (wfp_set_mem o v) S Ex) as (h2 & E2 & S2 & _). rewrite Eh in E2. injection E2 as <-.
    destruct (buses_sim h' _ h s S2 S eq_refl eq_refl) as (X1 & X2 & X3). destruct (X3 eq_refl). auto.
  - unfold api_set_register_pc in E. destruct (get_register R_PC h); [|discriminate]. destruct (hexec _ h) as [h2|] eqn:Eh; [|discriminate]. apply Ui in E. subst h2.
    assert (Ex : exists s2, exec (set_register_pc v) s = Some s2 /\ forall t, t <> T_PCO -> nx s2 t = nx s t).
    { unfold set_register_pc. cbn [exec]. eexists. split; [reflexivity|]. intros t Ht. cbn [nx]. unfold tset. destruct t; try reflexivity. congruence. }
    destruct Ex as (s2 & Ex & Et). destruct (hexec_sim _ h s _ (wfp_set_pc v) S Ex) as (h2 & E2 & S2 & _). rewrite Eh in E2. injection E2 as <-.
    destruct (buses_sim h' _ h s S2 S) as (X1 & X2 & X3); try (apply Et; discriminate). destruct X3; [apply Et; discriminate|]. auto.
  - injection E as <-. split; [|split; [|split]]; reflexivity.
Qed.

(** reset_control clears the control lines and leaves the two other buses. *)
Theorem C57_reset : forall l h k h', live l h k -> do_call ResetControl h = Some h' ->
  (forall ln, get_line ln h' = Some 0) /\ get_control_bus_selalu h' = Some 0 /\
  get_memory_dir_bus h' = get_memory_dir_bus h /\ get_data_bus h' = get_data_bus h.
Proof.
  intros l h k h' L E. destruct (live_up l h k L) as (Hk & z & [(s & S & R) I T K]). cbn [do_call] in E. unfold api_reset_control in E.
  assert (Ex : exists s2, exec reset_control s = Some s2 /\ nx s2 T_DATA = nx s T_DATA /\ nx s2 T_DIR2 = nx s T_DIR2 /\ nx s2 T_CONTROL = int_to_word 0).
  { clear. destruct s as [n c r m g]. unfold reset_control. cbv zeta. generalize (int_to_word 0). intros w.
    eexists. split; [cbv [exec nx cv rg mm lg]; reflexivity|]. cbv [nx tset topic_eqb topic_num N.eqb Pos.eqb]. auto. }
  destruct Ex as (s2 & Ex & E1 & E2 & E3). destruct (hexec_sim _ h s _ wfp_reset S Ex) as (h2 & F & S2 & _). rewrite E in F. injection F as <-.
  destruct (buses_sim h' _ h s S2 S E2 E1) as (X1 & X2 & _).
  destruct (bus_sim h' s2 (Prog.B K_LBUS T_CONTROL) S2 eq_refl) as (w1 & C1 & C2). cbn [topic_of] in C2.
  split; [|split; [|auto]].
  - intros ln. unfold get_line, get_control_bus. rewrite C1, C2, E3. destruct ln; reflexivity.
  - unfold get_control_bus_selalu. rewrite C1, C2, E3. reflexivity.
Qed.

(** After init every bus getter returns 0. *)
Lemma zero_buses : forall h s, sim h s -> (forall t, nx s t = zero_word) ->
  (forall ln, get_line ln h = Some 0) /\ get_control_bus_selalu h = Some 0 /\ get_memory_dir_bus h = Some 0 /\ get_data_bus h = Some 0.
Proof.
  intros h s S H.
  destruct (bus_sim h s (Prog.B K_LMEM T_DIR2) S eq_refl) as (x1 & A1 & A2).
  destruct (bus_sim h s (Prog.B K_LBUS T_DATA) S eq_refl) as (y1 & B1 & B2).
  destruct (bus_sim h s (Prog.B K_LBUS T_CONTROL) S eq_refl) as (w1 & C1 & C2). rewrite H in A2, B2, C2.
  split; [|split; [|split]].
  - intros ln. unfold get_line, get_control_bus. rewrite C1, C2. destruct ln; reflexivity.
  - unfold get_control_bus_selalu. rewrite C1, C2. reflexivity.
  - unfold get_memory_dir_bus. rewrite A1, A2. reflexivity.
  - unfold get_data_bus. rewrite B1, B2. reflexivity.
Qed.
Local Opaque api_init init_list.
Lemma do_init : forall rnd h, do_call (Init rnd) h = api_init rnd h.
Proof. reflexivity. Qed.
Theorem C57_init : forall l u rnd h h', proper l u -> run_calls l boot = Some h -> do_call (Init rnd) h = Some h' ->
  (forall ln, get_line ln h' = Some 0) /\ get_control_bus_selalu h' = Some 0 /\ get_memory_dir_bus h' = Some 0 /\ get_data_bus h' = Some 0.
Proof.
  intros l u rnd h h' Pl Er E. destruct (proper_good l u Pl) as (h0 & E0 & _ & G & _).
  assert (h0 = h) as -> by congruence.
  destruct (init_ok rnd h G) as (h2 & E2 & S & _).
  apply (zero_buses h' (fresh rnd (hl h))); [|reflexivity].
  replace h' with h2; [exact S|]. rewrite do_init in E. congruence.
Qed.

(** Non-vacuity: the third cycle of ADI 5 (2OP <- (PC), PC+1): the load line of
    2OP is 1, the address bus shows 2, the data bus shows the cell at 2. *)
Example C57_nonvacuous : exists l h h', live l h true /\ do_call (RunClock true) h = Some h' /\ get_state h' = Some 15 /\
  get_line L_2opcar h' = Some 1 /\ get_line L_accar h' = Some 0 /\ get_memory_dir_bus h' = Some 2 /\ get_data_bus h' = Some 77.
Proof.
  pose (l := [SetMem 0 0x65; SetMem 1 5; SetMem 2 77; RunClock true; RunClock true]).
  destruct (live_shows l (fun s => true) eq_refl) as (h & s & L & S & _). { vm_compute. reflexivity. }
  destruct (live_shows (l ++ [RunClock true]) (fun s => match
     word_to_int (nx s T_DIR2), word_to_int (nx s T_DATA),
     word_to_int (state_word (nx s T_Q5) (nx s T_Q4) (nx s T_Q3) (nx s T_Q2) (nx s T_Q1) (nx s T_Q0)) with
     | Some a, Some d, Some q => (a =? 2) && (d =? 77) && (q =? 15) && bit (nx s T_CONTROL) OP2CAR && negb (bit (nx s T_CONTROL) ACCAR)
     | _, _, _ => false end) eq_refl) as (h' & s' & L' & S' & F). { vm_compute. reflexivity. }
  exists (Init (fun _ => 0) :: SetUi true :: l), h, h'. split; [exact L|].
  assert (E : do_call (RunClock true) h = Some h').
  { destruct L as (_ & E1). destruct L' as (_ & E2). change (Init (fun _ => 0) :: SetUi true :: l ++ [RunClock true]) with ((Init (fun _ => 0) :: SetUi true :: l) ++ [RunClock true]) in E2.
    rewrite run_calls_app, E1 in E2. cbn [run_calls] in E2. destruct (do_call (RunClock true) h); congruence. }
  split; [exact E|]. rewrite !(line_sim h' s' _ S'), (PropsGuard.shown_data h' s' S').
  destruct (bus_sim h' _ (Prog.B K_LMEM T_DIR2) S' eq_refl) as (x1 & A1 & A2). unfold get_memory_dir_bus. rewrite A1, A2. cbn [topic_of].
  destruct (word_to_int (nx s' T_DIR2)); [|discriminate]. destruct (word_to_int (nx s' T_DATA)); [|discriminate].
  destruct (word_to_int (state_word _ _ _ _ _ _)) eqn:Eq; [|discriminate].
  rewrite !andb_true_iff, negb_true_iff, !Z.eqb_eq in F. destruct F as ((((F1 & F2) & F3) & F4) & F5). subst. rewrite F4, F5.
  split; [|auto]. unfold get_state, read6.
  destruct (bus_sim h' _ (Prog.B K_LCU T_Q5) S' eq_refl) as (? & -> & X5). destruct (bus_sim h' _ (Prog.B K_LCU T_Q4) S' eq_refl) as (? & -> & X4).
  destruct (bus_sim h' _ (Prog.B K_LCU T_Q3) S' eq_refl) as (? & -> & X3). destruct (bus_sim h' _ (Prog.B K_LCU T_Q2) S' eq_refl) as (? & -> & X2).
  destruct (bus_sim h' _ (Prog.B K_LCU T_Q1) S' eq_refl) as (? & -> & X1). destruct (bus_sim h' _ (Prog.B K_LCU T_Q0) S' eq_refl) as (? & -> & X0).
  rewrite X5, X4, X3, X2, X1, X0. exact Eq.
Qed.

Print Assumptions C57_control.
Print Assumptions C57_selalu.
Print Assumptions C57_address.
Print Assumptions C57_data.
Print Assumptions C57_idle_registers.
Print Assumptions C57_idle_pc.
Print Assumptions C57_memory.
Print Assumptions C57_loaded.
Print Assumptions C57_loaded_refuted.
Print Assumptions C57_quiet_calls.
Print Assumptions C57_reset.
Print Assumptions C57_init.
Print Assumptions C57_nonvacuous.
