(** * Theorems: every history of calls is a history of the documented machine (C97) *)
From Coq Require Import ZArith List Bool Lia ZifyBool.
From Verif Require Import Word WordFacts Prog Tables Components Machine ZMachine ZWord ZRefine ZRefineB ZRefineC
  Rtl Micro Isa MicroIsa IsaOps Track Drive LinkedList PubSub Api HeapSim Lifecycle Usage ApiFacts Reach BusSpec Buses PropsBuses PropsMicro Whole.
Import ListNotations.
Open Scope Z_scope.
Opaque trk.

(** Every getter of the interface shows the machine [m]. *)
Definition faces (h : hstate) (m : machine) : Prop :=
  obs h (core m) /\ get_state h = Some (now m) /\ get_next_state h = Some (next m) /\
  get_memory_dir_bus h = Some (adr m) /\ get_data_bus h = Some (dat m) /\
  get_control_bus_selalu h = Some (alu_of m) /\ (forall ln, get_line ln h = Some (line_of m ln)).

(** ** The sequencer follows the microprograms *)
Definition mem_z (x : Z) (l : list Z) : bool := existsb (Z.eqb x) l.
Definition flaggy (q : Z) : bool := mem_z q [5; 6; 7; 8; 9; 10; 11; 13; 14; 24; 34].
Definition flagged (q ri fc fz : Z) : bool :=
  let p := program ri (fc =? 1) (fz =? 1) in
  if mem_z q p then
    (succ q ri fc fz =? following q p) && mem_z (following q p) p && mem_z 0 p && ((negb (q =? 0)) || (following q p =? 1)) && mem_z 1 p &&
    (negb (flaggy q) || forallb (fun fc' => forallb (fun fz' => mem_z (following q p) (program ri (fc' =? 1) (fz' =? 1))) (range 2)) (range 2))
  else negb (q =? 0) && negb (q =? 1).
Lemma flagged_b : forallb (fun q => forallb (fun ri => forallb (fun fc => forallb (fun fz => flagged q ri fc fz) (range 2)) (range 2)) (range 256)) (range 45) = true.
Proof. vm_compute. reflexivity. Qed.
Lemma flagged_all : forall q ri fc fz, 0 <= q < 45 -> 0 <= ri <= 255 -> 0 <= fc <= 1 -> 0 <= fz <= 1 -> flagged q ri fc fz = true.
Proof.
  intros q ri fc fz Hq Hr Hc Hz. pose proof flagged_b as F.
  rewrite forallb_forall in F. specialize (F q (in_range 45 q ltac:(lia))).
  rewrite forallb_forall in F. specialize (F ri (in_range 256 ri ltac:(lia))).
  rewrite forallb_forall in F. specialize (F fc (in_range 2 fc ltac:(lia))).
  rewrite forallb_forall in F. exact (F fz (in_range 2 fz ltac:(lia))).
Qed.
Lemma flags_kept : forall q c, 0 <= q < 45 -> flaggy q = false -> reg (rtl q c) R_FC = reg c R_FC /\ reg (rtl q c) R_FZ = reg c R_FZ.
Proof. intros q c Hq Hf. split; each q; try discriminate Hf; clear; rg. Qed.
Definition onpath (q : Z) (c : cpu) : Prop := mem_z q (program (reg c R_RI) (reg c R_FC =? 1) (reg c R_FZ =? 1)) = true.
Lemma onpath_0 : forall c, cvalid c -> onpath 0 c /\ onpath 1 c.
Proof.
  intros c V. pose proof (cv_r c V R_RI) as X1; pose proof (cv_r c V R_FC) as X2; pose proof (cv_r c V R_FZ) as X3; cbn [rhi] in *.
  pose proof (flagged_all 0 _ _ _ ltac:(lia) X1 X2 X3) as F0. pose proof (flagged_all 1 _ _ _ ltac:(lia) X1 X2 X3) as F1.
  unfold flagged in *. cbv zeta in *. unfold onpath. destruct (mem_z 0 _); [|discriminate F0]. destruct (mem_z 1 _); [auto|discriminate F1].
Qed.
Lemma onpath_step : forall q c, cvalid c -> 0 <= q < 45 -> onpath q c ->
  let n := following q (program (reg c R_RI) (reg c R_FC =? 1) (reg c R_FZ =? 1)) in
  succ q (reg c R_RI) (reg c R_FC) (reg c R_FZ) = n /\ onpath n (rtl q c).
Proof.
  intros q c V Hq P. cbv zeta.
  pose proof (cv_r c V R_RI) as X1; pose proof (cv_r c V R_FC) as X2; pose proof (cv_r c V R_FZ) as X3; cbn [rhi] in *.
  pose proof (flagged_all q _ _ _ Hq X1 X2 X3) as F. unfold flagged in F. cbv zeta in F. unfold onpath in P. rewrite P in F.
  rewrite !andb_true_iff, Z.eqb_eq in F. destruct F as (((((F1 & F2) & _) & F3) & _) & F4). split; [exact F1|].
  pose proof (rtl_valid q c V) as V'. pose proof (cv_r _ V' R_FC) as Y2; pose proof (cv_r _ V' R_FZ) as Y3; cbn [rhi] in *.
  destruct (Z.eqb_spec q 0) as [E|N].
  - cbn [negb orb] in F3. apply Z.eqb_eq in F3. rewrite F3. apply onpath_0. exact V'.
  - unfold onpath. rewrite (rtl_ri q c N). destruct (flaggy q) eqn:Ef.
    + cbn [negb orb] in F4. rewrite forallb_forall in F4. specialize (F4 _ (in_range 2 (reg (rtl q c) R_FC) ltac:(lia))).
      rewrite forallb_forall in F4. exact (F4 _ (in_range 2 (reg (rtl q c) R_FZ) ltac:(lia))).
    + destruct (flags_kept q c Hq Ef) as (-> & ->). exact F2.
Qed.
Lemma mem_z_same : forall q c d, same c d -> onpath q c -> onpath q d.
Proof. intros q c d (R & _) P. unfold onpath in *. rewrite <- !R. exact P. Qed.

(** ** Refinement *)
Lemma data_same : forall q c d x, same c d -> data q c x = data q d x.
Proof.
  intros q c d x (S1 & S2 & S3). unfold data. cbv zeta. rewrite S2. rewrite (address_agree q c d S1). unfold low2, flags8. rewrite !S1. reflexivity.
Qed.
Lemma obs_same : forall h c d, same c d -> obs h c -> obs h d.
Proof. intros h c d (S1 & S2 & S3) (O1 & O2 & O3). split; [|split]; [intros r; rewrite <- S1; auto|intros a Ha; rewrite <- S2; auto|congruence]. Qed.
Definition tied (h : hstate) (m : machine) : Prop :=
  exists z, up h z /\ same (view z) (core m) /\ qpos z = now m /\ dpos z = next m /\ onpath (next m) (core m) /\
    get_memory_dir_bus h = Some (adr m) /\ get_data_bus h = Some (dat m) /\
    get_control_bus_selalu h = Some (alu_of m) /\ (forall ln, get_line ln h = Some (line_of m ln)).
Lemma tied_faces : forall h m, tied h m -> faces h m.
Proof.
  intros h m (z & U & S & Q & D & _ & B1 & B2 & B3 & B4). destruct (up_obs h z U) as (O & G1 & G2). split; [exact (obs_same h _ _ S O)|].
  rewrite G1, G2, Q, D. auto 8.
Qed.
Lemma set_same : forall r v c d, same c d -> same (set r v c) (set r v d).
Proof. intros r v c d (S1 & S2 & S3). split; [|split]; cbn; auto. intros x. rewrite S1. reflexivity. Qed.
Lemma store_same : forall a v c d, same c d -> same (store a v c) (store a v d).
Proof. intros a v c d (S1 & S2 & S3). split; [|split]; cbn; auto. intros x. rewrite S2. reflexivity. Qed.

Lemma mach_snoc : forall l c, mach (l ++ [c]) = answer c (mach l).
Proof. intros. unfold mach. rewrite fold_left_app. reflexivity. Qed.
Local Opaque api_init init_list.
(** one call *)
Lemma tied_call : forall l u c u' h h' m, proper l u -> run_calls l boot = Some h -> allowed u c u' -> do_call c h = Some h' ->
  hl h = errs (core m) -> (on u = true -> tied h m) -> hl h' = errs (core (answer c m)) /\ (on u' = true -> tied h' (answer c m)).
Proof.
  intros l u c u' h h' m P E A E' N T. destruct (proper_good l u P) as (h0 & E0 & G). assert (h0 = h) as -> by congruence. clear E0. destruct G as (G1 & G2 & G3).
  assert (Fin : tied h' (answer c m) -> hl h' = errs (core (answer c m)) /\ (on u' = true -> tied h' (answer c m))).
  { intros X. split; [|auto]. destruct (tied_faces _ _ X) as ((_ & _ & Y) & _). exact Y. }
  pose proof A as A0. destruct A; cbn [do_call on cb] in *.
  + (* init *) apply Fin. destruct (init_up h rnd G2 H) as (h2 & z & E2 & U & _ & Q1 & Q2 & V). rewrite E' in E2. injection E2 as <-.
    destruct (C57_init l u rnd h h' P E E') as (B1 & B2 & B3 & B4).
    exists z. split; [exact U|]. rewrite V. cbn [answer core now next adr dat]. rewrite <- N.
    split; [apply same_refl|]. split; [exact Q1|]. split; [exact Q2|]. split; [|auto].
    apply onpath_0. rewrite <- V. exact (zview_valid z (inv_rng z (up_inv _ _ U))).
  + (* shutdown *) destruct (T eq_refl) as (z & [(s & S & _) _ _ _] & _). destruct (shutdown_ok h s S) as (h2 & E2 & _ & _ & L & _).
    rewrite E' in E2. injection E2 as <-. split; [cbn [answer]; congruence|discriminate].
  + (* callback *) injection E' as <-. split; [exact N|]. intros Ho. destruct (T Ho) as (z & U & X). exists z. split; [apply set_ui_up; exact U|exact X].
  + (* clock *) apply Fin. destruct (T eq_refl) as (z & U & S & Q & D & On & B1 & B2 & B3 & B4).
    assert (L : live l h k) by (split; auto).
    destruct (clock_bus u h z h' U E') as (z' & U' & K1 & K2 & K3 & K4 & K5).
    destruct (api_clock_up u h z U) as (h2 & z2 & E2 & U2 & _ & _ & _ & D2 & _). { intros Hu. rewrite G1. auto. } rewrite E' in E2. injection E2 as <-.
    destruct (up_obs h' z' U') as (O' & G5 & G6). destruct (up_obs h' z2 U2) as (_ & _ & G7).
    pose proof (zview_valid z (inv_rng z (up_inv _ _ U))) as V. pose proof (inv_d z (up_inv _ _ U)) as Rd.
    assert (Sc : same (view z') (rtl (next m) (core m))).
    { rewrite <- D. eapply same_trans; [exact K2|]. apply rtl_cong; auto. }
    rewrite <- D in On. pose proof (mem_z_same _ _ _ (same_sym _ _ S) On) as On'. destruct (onpath_step (dpos z) (view z) V Rd On') as (W1 & W2).
    rewrite <- !rv_view in W1.
    exists z'. split; [exact U'|]. split; [exact Sc|]. cbn [answer cycle now next adr dat]. split; [congruence|].
    pose proof S as (Sr & _). rewrite <- !Sr, <- D.
    split. { rewrite G6 in G7. injection G7 as G7. rewrite G7, D2. exact W1. }
    split. { apply (mem_z_same _ (rtl (dpos z) (view z))); [|exact W2]. cbn [answer cycle core]. exact (same_trans _ _ _ (same_sym _ _ K2) Sc). }
    assert (Q' : get_state h' = Some (dpos z)) by (rewrite G5, K1; reflexivity).
    rewrite <- D in Sc.
    split. { rewrite (C57_address l h k u h' _ _ L E' Q' O'). f_equal. apply address_agree. apply Sc. }
    split. { rewrite (C57_data l h k u h' _ _ _ L E' Q' O' B2). f_equal. apply data_same. exact Sc. }
    split. { rewrite (C57_selalu l h k u h' _ L E' Q'). unfold alu_of. cbn [lit]. rewrite D. reflexivity. }
    intros ln. rewrite (C57_control l h k u h' _ ln L E' Q'). unfold line_of. cbn [lit]. rewrite D. reflexivity.
  + (* reset *) apply Fin. destruct (T eq_refl) as (z & U & S & Q & D & On & B1 & B2 & B3 & B4).
    assert (L : live l h k) by (split; auto).
    destruct (reset_up h z U) as (h2 & z' & E2 & U' & _ & Q' & D' & V' & _). rewrite E' in E2. injection E2 as <-.
    destruct (C57_reset l h k h' L E') as (R1 & R2 & R3 & R4).
    exists z'. split; [exact U'|]. cbn [answer core now next adr dat]. rewrite V'. split; [exact S|]. split; [exact Q'|]. split; [exact D'|].
    split. { apply (mem_z_same _ (view z) _ S). apply onpath_0. exact (zview_valid z (inv_rng z (up_inv _ _ U))). }
    rewrite R3, R4. auto.
  + (* memory *) apply Fin. destruct (T eq_refl) as (z & U & S & Q & D & On & B1 & B2 & B3 & B4).
    assert (L : live l h true) by (split; auto).
    destruct (set_mem_up h z o v U G1 H H0) as (h2 & z' & E2 & U' & _ & Q' & D' & V'). rewrite E' in E2. injection E2 as <-.
    destruct (C57_quiet_calls l h true _ _ h' L A0 ltac:(eauto) E') as (R1 & R2 & R3 & R4).
    exists z'. split; [exact U'|]. cbn [answer core now next adr dat]. split; [exact (same_trans _ _ _ V' (store_same o v _ _ S))|]. split; [congruence|]. split; [congruence|].
    split; [exact On|]. rewrite R1, R2, R3. split; [exact B1|]. split; [exact B2|]. split; [exact B3|]. intros ln. rewrite R4. exact (B4 ln).
  + (* pc *) apply Fin. destruct (T eq_refl) as (z & U & S & Q & D & On & B1 & B2 & B3 & B4).
    assert (L : live l h true) by (split; auto).
    destruct (set_pc_up h z v U G1 H) as (h2 & z' & E2 & U' & _ & Q' & D' & V'). rewrite E' in E2. injection E2 as <-.
    destruct (C57_quiet_calls l h true _ _ h' L A0 ltac:(eauto) E') as (R1 & R2 & R3 & R4).
    exists z'. split; [exact U'|]. cbn [answer core now next adr dat]. split; [exact (same_trans _ _ _ V' (set_same R_PC v _ _ S))|]. split; [congruence|]. split; [congruence|].
    split; [exact On|]. rewrite R1, R2, R3. split; [exact B1|]. split; [exact B2|]. split; [exact B3|]. intros ln. rewrite R4. exact (B4 ln).
Qed.
Lemma refines : forall l u, proper l u -> exists h, run_calls l boot = Some h /\ hl h = errs (core (mach l)) /\ (on u = true -> tied h (mach l)).
Proof.
  induction 1 as [|l u c u' P (h & E & N & T) A].
  - exists boot. split; [reflexivity|]. split; [reflexivity|discriminate].
  - destruct (proper_good l u P) as (h0 & E0 & G). assert (h0 = h) as -> by congruence.
    destruct (good_call u c u' h G A) as (h' & E' & G'). exists h'.
    split. { rewrite run_calls_app, E. cbn [run_calls]. rewrite E'. reflexivity. }
    rewrite mach_snoc. apply (tied_call l u c u' h h'); auto.
Qed.

(** ** C97 *)
(** Whatever calls were made since the program started, every call succeeds and,
    while the machine is initialised, every getter shows the documented machine. *)
Theorem C97_every_history : forall l u, proper l u -> exists h, run_calls l boot = Some h /\ hl h = errs (core (mach l)) /\ (on u = true -> faces h (mach l)).
Proof. intros l u P. destruct (refines l u P) as (h & E & N & T). exists h. split; [exact E|]. split; [exact N|]. intros Ho. apply tied_faces. auto. Qed.

(** So what the getters show is determined by the calls, without the arguments of
    run_clock_cycle and the registrations of the callback. *)
Definition quieted (l : list call) : list call :=
  map (fun c => match c with RunClock _ => RunClock false | _ => c end) (filter (fun c => match c with SetUi _ => false | _ => true end) l).
Lemma quieted_mach : forall l m, fold_left (fun m c => answer c m) (quieted l) m = fold_left (fun m c => answer c m) l m.
Proof. induction l as [|c l IH]; intros m; [reflexivity|]. unfold quieted in *. destruct c; cbn [filter map fold_left answer]; apply IH. Qed.
Theorem C97_updates_do_not_matter : forall l1 l2 h1 h2 k1 k2, live l1 h1 k1 -> live l2 h2 k2 -> quieted l1 = quieted l2 ->
  exists m, faces h1 m /\ faces h2 m.
Proof.
  intros l1 l2 h1 h2 k1 k2 (P1 & E1) (P2 & E2) Q. exists (mach l1).
  destruct (C97_every_history l1 _ P1) as (h & E & _ & F1). rewrite E1 in E. injection E as <-.
  destruct (C97_every_history l2 _ P2) as (h & E & _ & F2). rewrite E2 in E. injection E as <-.
  split; [apply F1; reflexivity|]. unfold mach in *. rewrite <- (quieted_mach l1), Q, quieted_mach. apply F2. reflexivity.
Qed.

(** ** Editing a cell before or after some cycles *)
(** Equal but for the data bus. *)
Definition alike (m n : machine) : Prop :=
  same (core m) (core n) /\ now m = now n /\ next m = next n /\ adr m = adr n /\ lit m = lit n.
Lemma alike_refl : forall m, alike m m.
Proof. intros m. split; [apply same_refl|auto]. Qed.
Lemma alike_trans : forall a b c, alike a b -> alike b c -> alike a c.
Proof. intros a b c (A1 & A2 & A3 & A4 & A5) (B1 & B2 & B3 & B4 & B5). split; [exact (same_trans _ _ _ A1 B1)|]. repeat split; congruence. Qed.
Definition edited (a v : Z) (m : machine) : machine := answer (SetMem a v) m.
Lemma cycle_alike : forall m n, alike m n -> alike (cycle m) (cycle n).
Proof.
  intros m n (A1 & A2 & A3 & A4 & A5). pose proof A1 as (Sr & _). unfold cycle. cbv zeta. rewrite A3.
  assert (S : same (rtl (next n) (core m)) (rtl (next n) (core n))) by (apply rtl_cong; exact A1).
  split; [exact S|]. cbn [now next adr lit]. rewrite !Sr. repeat split. apply address_agree. apply S.
Qed.
Lemma unused_alike : forall a n m1 m2, alike m1 m2 -> unused a n m1 -> unused a n m2.
Proof.
  intros a n. induction n as [|n IH]; intros m1 m2 A U; cbn [unused] in *; [exact I|]. destruct U as (U1 & U2). split.
  - destruct A as ((Sr & _) & _ & N & _). rewrite <- N. unfold cell, HL in *. rewrite <- !Sr. exact U1.
  - exact (IH _ _ (cycle_alike _ _ A) U2).
Qed.
Lemma store_other : forall a v x c, x <> a -> mem (store a v c) x = mem c x.
Proof. intros a v x c N. cbn. destruct (Z.eqb_spec x a); [contradiction|reflexivity]. Qed.
Lemma rtl_store : forall q a v c, 0 <= q < 45 -> cell q c <> Some a -> same (rtl q (store a v c)) (store a v (rtl q c)).
Proof.
  intros q a v c Hq N.
  each q; cbn [cell] in N;
    try (match type of N with Some ?x <> Some a => assert (Nx : x <> a) by (intros X; apply N; rewrite X; reflexivity) end);
    cbv beta iota zeta delta [rtl set store report set_pc pc_inc sp_inc sp_dec set_flags flags_of_byte flags8 low2 high2 reg mem errs HL regid_eqb regid_num N.eqb Pos.eqb] in *;
    try (match type of Nx with ?x <> a => replace (x =? a) with false by (symmetry; apply Z.eqb_neq; exact Nx) end);
    repeat match goal with |- context [if ?x =? ?y then mkCpu _ _ _ else _] => destruct (x =? y) end;
    (split; [|split]); cbv beta iota delta [reg mem errs]; intros; try reflexivity;
    match goal with |- context [if ?i =? ?x then ?u else if ?i =? ?y then ?w else _] => destruct (Z.eqb_spec i x), (Z.eqb_spec i y); congruence || reflexivity end.
Qed.
Lemma onpath_range : forall q c, cvalid c -> onpath q c -> 0 <= q < 45.
Proof.
  intros q c V P. pose proof (cv_r c V R_RI) as X1. cbn [rhi] in X1. unfold onpath in P.
  assert (F : forallb (fun ri => forallb (fun fc => forallb (fun fz => forallb (fun q => (0 <=? q) && (q <? 45)) (program ri fc fz)) [true; false]) [true; false]) (range 256) = true) by (vm_compute; reflexivity).
  rewrite forallb_forall in F. specialize (F _ (in_range 256 (reg c R_RI) ltac:(lia))).
  assert (B2 : forall b : bool, In b [true; false]) by (intros []; cbn; auto).
  rewrite forallb_forall in F. specialize (F (reg c R_FC =? 1) (B2 _)).
  rewrite forallb_forall in F. specialize (F (reg c R_FZ =? 1) (B2 _)).
  rewrite forallb_forall in F. unfold mem_z in P. apply existsb_exists in P. destruct P as (x & Hx & E). apply Z.eqb_eq in E. subst x. specialize (F q Hx). lia.
Qed.
(** a machine in which the theorem of the microprograms applies *)
Definition sound (m : machine) : Prop := cvalid (core m) /\ onpath (next m) (core m).
Lemma sound_cycle : forall m, sound m -> sound (cycle m).
Proof.
  intros m (V & P). pose proof (onpath_range _ _ V P) as Hq. split; cbn [cycle core next].
  - apply rtl_valid; auto.
  - apply (onpath_step _ _ V Hq P).
Qed.
Lemma edit_cycle : forall a v m, sound m -> cell (next m) (core m) <> Some a -> alike (cycle (edited a v m)) (edited a v (cycle m)).
Proof.
  intros a v m (V & P) N. pose proof (onpath_range _ _ V P) as Hq. pose proof (rtl_store (next m) a v (core m) Hq N) as S.
  unfold cycle, edited. cbv zeta. cbn [answer core now next adr dat lit]. split; [exact S|]. cbn [now next adr lit store reg].
  split; [reflexivity|]. split; [reflexivity|]. split; [|reflexivity]. etransitivity; [apply address_agree; apply S|]. reflexivity.
Qed.
Lemma edited_alike : forall a v m n, alike m n -> alike (edited a v m) (edited a v n).
Proof. intros a v m n (A1 & A). split; [apply store_same; exact A1|exact A]. Qed.
Fixpoint cycles_of (n : nat) (m : machine) : machine := match n with O => m | S n' => cycles_of n' (cycle m) end.
Lemma cycles_alike : forall n m1 m2, alike m1 m2 -> alike (cycles_of n m1) (cycles_of n m2).
Proof. induction n as [|n IH]; intros; cbn; auto. apply IH. apply cycle_alike. assumption. Qed.
Lemma edit_cycles : forall n a v m, sound m -> unused a n m -> alike (cycles_of n (edited a v m)) (edited a v (cycles_of n m)).
Proof.
  induction n as [|n IH]; intros a v m S U; cbn [cycles_of unused] in *; [apply alike_refl|]. destruct U as (U1 & U2).
  eapply alike_trans; [apply cycles_alike; apply edit_cycle; eassumption|]. apply IH; [apply sound_cycle; exact S|exact U2].
Qed.
Lemma clocks_mach : forall us m, fold_left (fun m c => answer c m) (clocks us) m = cycles_of (length us) m.
Proof. induction us as [|u us IH]; intros m; [reflexivity|]. cbn. apply IH. Qed.
Lemma mach_app : forall l1 l2, mach (l1 ++ l2) = fold_left (fun m c => answer c m) l2 (mach l1).
Proof. intros. unfold mach. apply fold_left_app. Qed.

(** The same answer from every getter but that of the data bus. *)
Definition same_answers (h1 h2 : hstate) : Prop :=
  (forall r, get_register_value r h1 = get_register_value r h2) /\ (forall a, get_memory_value a h1 = get_memory_value a h2) /\ hl h1 = hl h2 /\
  get_state h1 = get_state h2 /\ get_next_state h1 = get_next_state h2 /\ get_memory_dir_bus h1 = get_memory_dir_bus h2 /\
  get_control_bus_selalu h1 = get_control_bus_selalu h2 /\ (forall ln, get_line ln h1 = get_line ln h2).
Lemma faces_alike : forall h1 h2 m1 m2, faces h1 m1 -> faces h2 m2 -> alike m1 m2 -> same_answers h1 h2.
Proof.
  intros h1 h2 m1 m2 ((O1 & O2 & O3) & F1 & F2 & F3 & F4 & F5 & F6) ((P1 & P2 & P3) & G1 & G2 & G3 & G4 & G5 & G6) ((S1 & S2 & S3) & A1 & A2 & A3 & A4).
  split; [intros r; rewrite O1, P1, S1; reflexivity|]. split.
  { intros a. destruct (valid_offset a) eqn:Ev; [|unfold get_memory_value; rewrite Ev; reflexivity]. apply valid_offset_range in Ev. rewrite O2, P2, S2 by exact Ev. reflexivity. }
  split; [congruence|]. split; [congruence|]. split; [congruence|]. split; [congruence|].
  split; [rewrite F5, G5; unfold alu_of; rewrite A4; reflexivity|]. intros ln. rewrite F6, G6. unfold line_of. rewrite A4. reflexivity.
Qed.

(** Writing a cell before some clock cycles that do not use it is writing it after them. *)
Theorem C97_edit_time : forall l h a v us, live l h true -> 0 <= a < 65536 -> 0 <= v <= 255 -> unused a (length us) (mach l) ->
  exists h1 h2, run_calls (SetMem a v :: clocks us) h = Some h1 /\ run_calls (clocks us ++ [SetMem a v]) h = Some h2 /\ same_answers h1 h2.
Proof.
  intros l h a v us L Ha Hv U. pose proof L as (P & E).
  assert (P1 : proper (l ++ [SetMem a v]) (mkUse true true)) by (econstructor; [exact P|constructor; assumption]).
  destruct (refines l _ P) as (h0 & E0 & _ & T0). assert (h0 = h) as -> by congruence.
  destruct (refines _ _ P1) as (hm & Em & _ & _). 
  destruct (live_clocks us (l ++ [SetMem a v]) hm true (conj P1 Em)) as (h1 & K1 & L1 & K1'); [discriminate|].
  destruct (live_clocks us l h true L) as (hc & K2 & L2 & K2'); [discriminate|].
  assert (P3 : proper ((l ++ clocks us) ++ [SetMem a v]) (mkUse true true)) by (econstructor; [exact L2|constructor; assumption]).
  destruct (C97_every_history _ _ L1) as (x1 & X1 & _ & F1). rewrite K1' in X1. injection X1 as <-.
  destruct (C97_every_history _ _ P3) as (h2 & X2 & _ & F2).
  exists h1, h2. split.
  { rewrite run_calls_app, E in Em. cbn [run_calls] in *. destruct (do_call (SetMem a v) h) as [y|]; [|discriminate]. injection Em as ->. exact K1. }
  split. { rewrite run_calls_app, K2' in X2. rewrite run_calls_app, K2. exact X2. }
  apply (faces_alike _ _ _ _ (F1 eq_refl) (F2 eq_refl)). rewrite mach_snoc, !mach_app, !clocks_mach. cbn [fold_left].
  apply edit_cycles; [|exact U]. destruct (T0 eq_refl) as (z & Uz & S & _ & _ & On & _). split; [|exact On].
  pose proof (zview_valid z (inv_rng z (up_inv _ _ Uz))) as V. destruct S as (S1 & S2 & _).
  constructor; [intros r; rewrite <- S1; apply (cv_r _ V)|intros i; rewrite <- S2; apply (cv_m _ V)].
Qed.
(** ... the data bus apart: after a fetch it shows the cell after the opcode. *)
Definition start : list call := [Init (fun _ => 0); SetUi true].
Lemma start_proper : proper start (mkUse true true).
Proof.
  apply (P_call [Init (fun _ => 0)] (mkUse true false) (SetUi true)); [|apply (A_set_ui (mkUse true false) true)].
  apply (P_call [] (mkUse false false) (Init (fun _ => 0))); [constructor|]. apply (A_init (mkUse false false)). intros; lia.
Qed.
Lemma fine_proper : forall cs l, proper l (mkUse true true) -> forallb fine cs = true -> proper (l ++ cs) (mkUse true true).
Proof.
  induction cs as [|c cs IH]; intros l P F; [rewrite app_nil_r; exact P|]. cbn [forallb] in F. apply andb_true_iff in F. destruct F as (F1 & F2).
  change (c :: cs) with ([c] ++ cs). rewrite app_assoc. apply IH; [|exact F2]. econstructor; [exact P|].
  destruct c; try discriminate F1; cbn [fine] in F1; try (rewrite ?andb_true_iff in F1); constructor; auto; lia.
Qed.
Lemma shown_at : forall cs, forallb fine cs = true -> exists h, live (start ++ cs) h true /\ faces h (mach (start ++ cs)).
Proof.
  intros cs F. pose proof (fine_proper cs start start_proper F) as P. destruct (C97_every_history _ _ P) as (h & E & _ & X). exists h. split; [split; assumption|]. apply X. reflexivity.
Qed.
Theorem C97_edit_time_data_refuted : ~ (forall l h a v us h1 h2, live l h true -> 0 <= a < 65536 -> 0 <= v <= 255 -> unused a (length us) (mach l) ->
  run_calls (SetMem a v :: clocks us) h = Some h1 -> run_calls (clocks us ++ [SetMem a v]) h = Some h2 -> get_data_bus h1 = get_data_bus h2).
Proof.
  intros H. destruct (shown_at [] eq_refl) as (h & (P & E) & F).
  destruct (shown_at [SetMem 1 7; RunClock true] eq_refl) as (h1 & (P1 & E1) & (_ & _ & _ & _ & D1 & _)).
  destruct (shown_at [RunClock true; SetMem 1 7] eq_refl) as (h2 & (P2 & E2) & (_ & _ & _ & _ & D2 & _)).
  rewrite app_nil_r in P, E. rewrite run_calls_app, E in E1, E2.
  specialize (H start h 1 7 [true] h1 h2 (conj P E) ltac:(lia) ltac:(lia)). cbn [length] in H.
  assert (U : unused 1 1 (mach start)) by (vm_compute; split; [discriminate|exact I]). specialize (H U E1 E2).
  rewrite D1, D2 in H. vm_compute in H. discriminate H.
Qed.
(** ADI 200 with AC at 100, after its four cycles. *)
Example C97_nonvacuous : exists l h, live l h true /\ faces h (mach l) /\
  get_register_value R_AC h = Some 44 /\ get_register_value R_FC h = Some 1 /\ get_register_value R_PC h = Some 4 /\
  get_state h = Some 5 /\ get_next_state h = Some 0 /\ get_memory_dir_bus h = Some 4 /\ get_data_bus h = Some 244 /\ get_control_bus_selalu h = Some 0 /\
  get_line L_accar h = Some 1 /\ get_line L_2opcar h = Some 0.
Proof.
  destruct (shown_at ([SetMem 0 0x64; SetMem 1 100; SetMem 2 0x65; SetMem 3 200] ++ clocks (repeat true 8)) eq_refl) as (h & L & F).
  exists (start ++ [SetMem 0 0x64; SetMem 1 100; SetMem 2 0x65; SetMem 3 200] ++ clocks (repeat true 8)), h. split; [exact L|]. split; [exact F|].
  destruct F as ((O & _) & F1 & F2 & F3 & F4 & F5 & F6). rewrite !O, F1, F2, F3, F4, F5, !F6. vm_compute. repeat split; reflexivity.
Qed.
(** the operand of the next instruction can be written during the eight cycles of
    the two before *)
Example C97_edit_nonvacuous : exists l h, live l h true /\ unused 5 8 (mach l).
Proof.
  destruct (shown_at [SetMem 0 0x64; SetMem 1 100; SetMem 2 0x65; SetMem 3 200] eq_refl) as (h & L & F).
  eexists _, h. split; [exact L|]. vm_compute. repeat split; discriminate.
Qed.

(** ** C98: what is shown is all there is *)
Definition same_shown (h1 h2 : hstate) : Prop := same_answers h1 h2 /\ get_data_bus h1 = get_data_bus h2.
Lemma faces_shown : forall h1 h2 m, faces h1 m -> faces h2 m -> same_shown h1 h2.
Proof. intros h1 h2 m F1 F2. split; [exact (faces_alike h1 h2 m m F1 F2 (alike_refl m))|]. destruct F1 as (_ & _ & _ & _ & D1 & _), F2 as (_ & _ & _ & _ & D2 & _). congruence. Qed.
Lemma shown_faces : forall h1 h2 m, same_shown h1 h2 -> faces h1 m -> faces h2 m.
Proof.
  intros h1 h2 m ((A1 & A2 & A3 & A4 & A5 & A6 & A7 & A8) & A9) ((O1 & O2 & O3) & F1 & F2 & F3 & F4 & F5 & F6).
  split; [split; [|split]|]; [intros r; rewrite <- A1; auto|intros a Ha; rewrite <- A2; auto|congruence|].
  rewrite <- A4, <- A5, <- A6, <- A7, <- A9. repeat (split; [assumption|]). intros ln. rewrite <- A8. auto.
Qed.
Lemma tied_shown : forall l2 h1 h2 k2 m, live l2 h2 k2 -> same_shown h1 h2 -> tied h1 m -> tied h2 m.
Proof.
  intros l2 h1 h2 k2 m L A T. pose proof (shown_faces _ _ _ A (tied_faces _ _ T)) as (O & F1 & F2 & F3 & F4 & F5 & F6).
  destruct T as (_ & _ & _ & _ & _ & On & _). destruct (live_up _ _ _ L) as (_ & z & U).
  destruct (obs_up h2 z _ U O) as (z2 & U2 & S & Q & D). destruct (up_obs h2 z U) as (_ & G1 & G2).
  exists z2. split; [exact U2|]. split; [exact S|]. split; [congruence|]. split; [congruence|]. auto 8.
Qed.
Lemma proper_snoc : forall l c u, proper (l ++ [c]) u -> exists u0, proper l u0 /\ allowed u0 c u.
Proof.
  intros l c u P. inversion P as [X|l' u0 c' u1 P' A X]; [destruct l; discriminate|]. apply app_inj_tail in X. destruct X as (-> & ->). eauto.
Qed.
(** Two simulators whose getters answer the same, however they got there, answer
    the same after any further calls: there is no hidden state. *)
Theorem C98_no_hidden_state : forall l1 h1 k1 l2 h2 k2 cs h1' k1' h2' k2', live l1 h1 k1 -> live l2 h2 k2 -> same_shown h1 h2 ->
  live (l1 ++ cs) h1' k1' -> live (l2 ++ cs) h2' k2' -> same_shown h1' h2'.
Proof.
  intros l1 h1 k1 l2 h2 k2 cs h1' k1' h2' k2' L1 L2 A (P1 & E1) (P2 & E2).
  assert (K : forall cs u1 u2 h1' h2', proper (l1 ++ cs) u1 -> proper (l2 ++ cs) u2 -> run_calls (l1 ++ cs) boot = Some h1' -> run_calls (l2 ++ cs) boot = Some h2' ->
    exists m, hl h1' = errs (core m) /\ hl h2' = errs (core m) /\ (on u1 = true -> tied h1' m) /\ (on u2 = true -> tied h2' m)).
  { clear P1 E1 P2 E2 cs h1' k1' h2' k2'. intros cs. induction cs as [|c cs IH] using rev_ind; intros u1 u2 h1' h2' P1 P2 E1 E2.
    - rewrite app_nil_r in *. destruct L1 as (Q1 & X1). rewrite X1 in E1. injection E1 as <-. destruct L2 as (Q2 & X2). rewrite X2 in E2. injection E2 as <-.
      destruct (refines l1 _ Q1) as (x & Y & N & T). rewrite X1 in Y. injection Y as <-. specialize (T eq_refl).
      assert (T2 : tied h2 (mach l1)) by (apply (tied_shown l2 h1 h2 k2); auto; split; assumption).
      exists (mach l1). split; [exact N|]. split; [|auto]. destruct A as ((_ & _ & A & _) & _). congruence.
    - rewrite app_assoc in P1, P2, E1, E2. destruct (proper_snoc _ _ _ P1) as (v1 & Q1 & W1). destruct (proper_snoc _ _ _ P2) as (v2 & Q2 & W2).
      rewrite run_calls_app in E1, E2. destruct (run_calls (l1 ++ cs) boot) as [x1|] eqn:Y1; [|discriminate]. destruct (run_calls (l2 ++ cs) boot) as [x2|] eqn:Y2; [|discriminate].
      cbn [run_calls] in E1, E2. destruct (do_call c x1) as [y1|] eqn:Z1; [|discriminate]. destruct (do_call c x2) as [y2|] eqn:Z2; [|discriminate].
      injection E1 as <-. injection E2 as <-. destruct (IH v1 v2 x1 x2 Q1 Q2 eq_refl eq_refl) as (m & N1 & N2 & T1 & T2).
      destruct (tied_call _ _ _ _ _ _ _ Q1 Y1 W1 Z1 N1 T1) as (N1' & T1'). destruct (tied_call _ _ _ _ _ _ _ Q2 Y2 W2 Z2 N2 T2) as (N2' & T2').
      exists (answer c m). auto. }
  destruct (K cs _ _ _ _ P1 P2 E1 E2) as (m & _ & _ & T1 & T2). exact (faces_shown _ _ m (tied_faces _ _ (T1 eq_refl)) (tied_faces _ _ (T2 eq_refl))).
Qed.
(** The registers, the memory and the notices alone would not be enough. *)
Theorem C98_registers_only_refuted : ~ (forall l1 h1 k1 l2 h2 k2 cs h1' k1' h2' k2', live l1 h1 k1 -> live l2 h2 k2 ->
  (forall r, get_register_value r h1 = get_register_value r h2) -> (forall a, get_memory_value a h1 = get_memory_value a h2) -> hl h1 = hl h2 ->
  live (l1 ++ cs) h1' k1' -> live (l2 ++ cs) h2' k2' -> get_register_value R_PC h1' = get_register_value R_PC h2').
Proof.
  intros H. destruct (shown_at [RunClock true] eq_refl) as (h1 & L1 & ((O1 & M1 & N1) & _)). destruct (shown_at [RunClock true; ResetControl] eq_refl) as (h2 & L2 & ((O2 & M2 & N2) & _)).
  destruct (shown_at [RunClock true; RunClock true] eq_refl) as (h1' & L1' & ((O1' & _) & _)). destruct (shown_at [RunClock true; ResetControl; RunClock true] eq_refl) as (h2' & L2' & ((O2' & _) & _)).
  specialize (H (start ++ [RunClock true]) h1 true (start ++ [RunClock true; ResetControl]) h2 true [RunClock true] h1' true h2' true L1 L2).
  assert (X : get_register_value R_PC h1' = get_register_value R_PC h2').
  { apply H; [..|exact L1'|exact L2'].
    - intros r. rewrite O1, O2. reflexivity.
    - intros a. destruct (valid_offset a) eqn:Ev; [|unfold get_memory_value; rewrite Ev; reflexivity]. apply valid_offset_range in Ev. rewrite M1, M2 by exact Ev. reflexivity.
    - rewrite N1, N2. reflexivity. }
  rewrite O1', O2' in X. vm_compute in X. discriminate X.
Qed.
(** Two different histories with the same answers: a whole instruction run and undone
    by a new initialisation, and none. *)
Example C98_nonvacuous : exists l1 h1 l2 h2, live l1 h1 true /\ live l2 h2 true /\ same_shown h1 h2 /\ length l1 <> length l2.
Proof.
  assert (P : proper ((start ++ [SetMem 0 0x64; SetMem 1 100; RunClock true; RunClock true; RunClock true]) ++ [Init (fun _ => 0)]) (mkUse true true)).
  { econstructor; [apply fine_proper; [exact start_proper|reflexivity]|]. apply (A_init (mkUse true true)). intros; lia. }
  destruct (C97_every_history _ _ P) as (h1 & E1 & _ & F1). destruct (shown_at [] eq_refl) as (h2 & L2 & F2).
  eexists _, h1, _, h2. split; [split; [exact P|exact E1]|]. split; [exact L2|]. split; [|cbn; discriminate].
  apply (faces_shown h1 h2 (mach (start ++ []))); [|exact F2]. specialize (F1 eq_refl). exact F1.
Qed.

Print Assumptions C97_every_history.
Print Assumptions C97_updates_do_not_matter.
Print Assumptions C97_edit_time.
Print Assumptions C97_edit_time_data_refuted.
Print Assumptions C98_no_hidden_state.
Print Assumptions C98_registers_only_refuted.
