(** * Theorems: starting, stopping, restarting and loading the machine (C35, C37, C42, C52) *)
From Coq Require Import ZArith List Bool Lia ZifyBool.
From Verif Require Import Word WordFacts Prog Tables Components Machine ZMachine ZWord ZRefine ZRefineC Rtl Isa Micro MicroIsa IsaOps
  LinkedList PubSub Api HeapSim Lifecycle Drive Track ApiFacts Usage Reach Front Runs IsaFacts PropsIsa PropsApi.
Import ListNotations.
Open Scope Z_scope.
Opaque all_buses gend dend trk succ api_init api_shutdown.

(** ** C52 *)
(** After [init] every register is 0, every cell a number from 0 to 254, both
    state numbers 0, and nothing was printed. *)
Theorem C52_init : forall l u rnd h, proper l u -> run_calls l boot = Some h -> (forall i, 0 <= rnd i) ->
  exists h', do_call (Init rnd) h = Some h' /\ (forall r, get_register_value r h' = Some 0) /\
    (forall o, 0 <= o < 65536 -> exists v, get_memory_value o h' = Some v /\ 0 <= v <= 254) /\
    get_state h' = Some 0 /\ get_next_state h' = Some 0 /\ hl h' = hl h.
Proof.
  intros l u rnd h P E Hr. destruct (proper_good l u P) as (h0 & E0 & _ & S & _). rewrite E in E0. injection E0 as <-.
  destruct (init_up h rnd S Hr) as (h' & z & Ei & U & _ & Q & D1 & V). destruct (up_obs h' z U) as ((O1 & O2 & O3) & G1 & G2).
  exists h'. split; [exact Ei|]. split. { intros r. rewrite O1, V. reflexivity. }
  split. { intros o Ho. exists (rnd o mod 255). rewrite O2, V by exact Ho. split; [reflexivity|]. pose proof (Z.mod_pos_bound (rnd o) 255). lia. }
  split; [congruence|]. split; [congruence|]. rewrite O3, V. reflexivity.
Qed.
(** Every memory with cells in 0..254 can come out of [init] (so the bound is
    tight), and one holding 255 cannot: [random_int(0, 255)] excludes its upper
    end (finding). *)
Theorem C52_every_memory : forall m, (forall o, 0 <= m o <= 254) -> exists rnd h', (forall i, 0 <= rnd i) /\
  do_call (Init rnd) boot = Some h' /\ forall o, 0 <= o < 65536 -> get_memory_value o h' = Some (m o).
Proof.
  intros m Hm. exists m. assert (Hr : forall i, 0 <= m i) by (intros i; apply Hm).
  destruct (init_up boot m sane0 Hr) as (h' & z & Ei & U & _ & Q & D1 & V). destruct (up_obs h' z U) as ((O1 & O2 & O3) & G1 & G2).
  exists h'. split; auto. split; [exact Ei|]. intros o Ho. rewrite O2, V by exact Ho. cbn [mem]. rewrite Z.mod_small; auto. specialize (Hm o). lia.
Qed.
Theorem C52_255_refuted : forall rnd h', (forall i, 0 <= rnd i) -> do_call (Init rnd) boot = Some h' -> forall o, get_memory_value o h' <> Some 255.
Proof.
  intros rnd h' Hr E o. destruct (C52_init [] _ rnd boot P_start eq_refl Hr) as (h2 & E2 & _ & M & _). rewrite E in E2. injection E2 as <-.
  destruct (valid_offset o) eqn:Ev.
  - apply valid_offset_range in Ev. destruct (M o Ev) as (v & -> & Hv). intros X. injection X as ->. lia.
  - unfold get_memory_value. rewrite Ev. discriminate.
Qed.

(** ** C42 *)
(** Saving a program: the cells from [o] on hold its bytes in order, nothing else
    changes, and the next clock cycle fetches. *)
Theorem C42_save : forall bytes l h o c, live l h true -> obs h c -> 0 <= o -> o + Z.of_nat (length bytes) <= 65536 -> (forall b, In b bytes -> 0 <= b <= 255) ->
  exists h', save_to_memory o bytes h = Some h' /\ live (l ++ ResetControl :: store_from o bytes) h' true /\
    (forall r, get_register_value r h' = get_register_value r h) /\
    (forall i, (i < length bytes)%nat -> get_memory_value (o + Z.of_nat i) h' = nth_error bytes i) /\
    (forall a, a < o \/ o + Z.of_nat (length bytes) <= a -> get_memory_value a h' = get_memory_value a h) /\
    get_state h' = Some 0 /\ get_next_state h' = Some 0 /\ hl h' = hl h.
Proof.
  intros bytes l h o c L O Ho Hn Hb. destruct (C36_reset l h true c L O) as (h0 & E0 & L0 & Q0 & N0 & O0).
  assert (X : forall bytes o l h, live l h true -> 0 <= o -> o + Z.of_nat (length bytes) <= 65536 -> (forall b, In b bytes -> 0 <= b <= 255) ->
    exists h', run_calls (store_from o bytes) h = Some h' /\ live (l ++ store_from o bytes) h' true /\
    (forall r, get_register_value r h' = get_register_value r h) /\
    (forall i, (i < length bytes)%nat -> get_memory_value (o + Z.of_nat i) h' = nth_error bytes i) /\
    (forall a, a < o \/ o + Z.of_nat (length bytes) <= a -> get_memory_value a h' = get_memory_value a h) /\
    get_state h' = get_state h /\ get_next_state h' = get_next_state h /\ hl h' = hl h).
  { clear. induction bytes as [|b bytes IH]; intros o l h L Ho Hn Hb.
    - exists h. cbn [store_from run_calls length]. rewrite app_nil_r. split; auto. split; auto. split; auto. split; [intros i Hi; lia|]. auto.
    - cbn [length store_from] in *. destruct (live_up l h true L) as (Hu & z & U).
      destruct (set_mem_up h z o b U Hu ltac:(lia) (Hb b (or_introl eq_refl))) as (h1 & z1 & E1 & U1 & _ & Q1 & D1 & (V1 & V2 & V3)).
      destruct (up_obs h z U) as ((O1 & O2 & O3) & G1 & G2). destruct (up_obs h1 z1 U1) as ((P1 & P2 & P3) & H1 & H2).
      assert (L1 : live (l ++ [SetMem o b]) h1 true).
      { destruct L as (P & R). split; [econstructor; [exact P|constructor; [lia|apply Hb; left; auto]]|]. rewrite run_calls_app, R. cbn [run_calls do_call]. rewrite E1. reflexivity. }
      destruct (IH (o + 1) _ h1 L1) as (h' & E' & L' & X1 & X2 & X3 & X4 & X5 & X6); [lia|lia|intros x Hx; apply Hb; right; auto|].
      exists h'. split. { cbn [run_calls do_call]. rewrite E1. exact E'. }
      split. { rewrite <- app_assoc in L'. exact L'. }
      split. { intros r. rewrite X1, P1, V1, O1. reflexivity. }
      split.
      { intros [|i] Hi; cbn [nth_error].
        - rewrite Z.add_0_r, X3 by lia. rewrite P2, V2 by lia. cbn [mem store]. rewrite Z.eqb_refl. reflexivity.
        - rewrite <- X2 by lia. f_equal. lia. }
      split.
      { intros a Ha. rewrite X3 by lia. destruct (valid_offset a) eqn:Ev.
        - apply valid_offset_range in Ev. rewrite P2, O2, V2 by exact Ev. cbn [mem store]. replace (a =? o) with false by lia. reflexivity.
        - unfold get_memory_value. rewrite Ev. reflexivity. }
      split; [congruence|]. split; [congruence|]. rewrite X6, P3, V3, O3. reflexivity. }
  destruct (X bytes o _ h0 L0 Ho Hn Hb) as (h' & E' & L' & X1 & X2 & X3 & X4 & X5 & X6).
  destruct O as (O1 & O2 & O3). destruct O0 as (P1 & P2 & P3).
  exists h'. split. { unfold save_to_memory. cbn [run_calls]. rewrite E0. exact E'. }
  split. { rewrite <- app_assoc in L'. exact L'. }
  split. { intros r. rewrite X1, P1, O1. reflexivity. }
  split; [exact X2|].
  split. { intros a Ha. rewrite X3 by exact Ha. destruct (valid_offset a) eqn:Ev.
    - apply valid_offset_range in Ev. rewrite P2, O2 by exact Ev. reflexivity.
    - unfold get_memory_value. rewrite Ev. reflexivity. }
  split; [congruence|]. split; [congruence|]. congruence.
Qed.
(** A program that does not fit below 65536 is undefined behaviour: nothing
    checks the offset (finding). *)
Theorem C42_overlong_refuted : forall bytes l h o, live l h true -> 0 <= o <= 65536 -> 65536 < o + Z.of_nat (length bytes) -> (forall b, In b bytes -> 0 <= b <= 255) ->
  save_to_memory o bytes h = None.
Proof.
  intros bytes l h o L Ho Hn Hb. destruct (live_up l h true L) as (_ & z & U). destruct (up_obs h z U) as (O & _).
  destruct (C36_reset l h true _ L O) as (h0 & E0 & L0 & _). unfold save_to_memory. cbn [run_calls]. rewrite E0.
  clear - L0 Ho Hn Hb. revert Ho Hn Hb L0. generalize (l ++ [ResetControl]). clear l. revert o h0.
  induction bytes as [|b bytes IH]; intros o h l Ho Hn Hb L; cbn [length store_from run_calls] in *; [lia|].
  destruct (Z.eq_dec o 65536) as [->|].
  - rewrite (C34_bad_offset_refuted l h 65536 b L) by lia. reflexivity.
  - destruct (live_up l h true L) as (Hu & z & U).
    destruct (set_mem_up h z o b U Hu ltac:(lia) (Hb b (or_introl eq_refl))) as (h1 & z1 & E1 & _).
    destruct (do_call (SetMem o b) h) as [h2|] eqn:E2; auto.
    apply (IH (o + 1) h2 (l ++ [SetMem o b])); [lia|lia|intros x Hx; apply Hb; right; auto|].
    destruct L as (P & R). split; [econstructor; [exact P|constructor; [lia|apply Hb; left; auto]]|]. rewrite run_calls_app, R. cbn [run_calls]. rewrite E2. reflexivity.
Qed.

(** ** C37 *)
(** [twin n1 n2]: same registers and memory; the notices differ only in what was
    printed before ([n1] resp. [n2]). *)
Definition twin (n1 n2 : list msg) (s t : cpu) : Prop :=
  (forall r, reg s r = reg t r) /\ (forall a, mem s a = mem t a) /\ exists e, errs s = e ++ n1 /\ errs t = e ++ n2.

Section Twin.
Variables n1 n2 : list msg.
Notation twin := (twin n1 n2).
Lemma set_twin : forall r v v' s t, v = v' -> twin s t -> twin (set r v s) (set r v' t).
Proof. intros r v v' s t -> (a & b & c). split; [|split]; cbn; auto. intros x. destruct (regid_eqb x r); auto. Qed.
Lemma store_twin : forall o o' v v' s t, o = o' -> v = v' -> twin s t -> twin (store o v s) (store o' v' t).
Proof. intros o o' v v' s t -> -> (a & b & c). split; [|split]; cbn; auto. intros x. destruct (x =? o'); auto. Qed.
Lemma report_twin : forall m s t, twin s t -> twin (report m s) (report m t).
Proof. intros m s t (a & b & e & c & d). split; [|split]; cbn; auto. exists (m :: e). rewrite c, d. auto. Qed.
Lemma set_pc_twin : forall v v' s t, v = v' -> twin s t -> twin (set_pc v s) (set_pc v' t).
Proof. intros v v' s t -> H. unfold set_pc. repeat apply set_twin; auto. Qed.
Lemma pc_inc_twin : forall s t, twin s t -> twin (pc_inc s) (pc_inc t).
Proof.
  intros s t H. unfold pc_inc. rewrite (proj1 H R_PC). destruct (_ =? _). { apply report_twin; auto. } apply set_pc_twin; auto.
Qed.
Lemma sp_inc_twin : forall s t, twin s t -> twin (sp_inc s) (sp_inc t).
Proof.
  intros s t H. unfold sp_inc. rewrite (proj1 H R_SP). destruct (_ =? _). { apply report_twin; auto. } apply set_twin; auto.
Qed.
Lemma sp_dec_twin : forall s t, twin s t -> twin (sp_dec s) (sp_dec t).
Proof.
  intros s t H. unfold sp_dec. rewrite (proj1 H R_SP). destruct (_ =? _). { apply report_twin; auto. } apply set_twin; auto.
Qed.
Lemma rtl_twin : forall q s t, twin s t -> twin (rtl q s) (rtl q t).
Proof.
  intros q s t H.
  assert (R : forall r, reg s r = reg t r) by apply H.
  assert (Mm : forall r, mem s r = mem t r) by apply H.
  assert (Hl : low2 s = low2 t) by (unfold low2; rewrite R; auto).
  assert (Hh : high2 s = high2 t) by (unfold high2; rewrite R; auto).
  assert (HHL : HL s = HL t) by (unfold HL; rewrite !R; auto).
  assert (HF : flags8 s = flags8 t) by (unfold flags8; rewrite !R; auto).
  qcases q; cbv beta iota zeta delta [rtl]; try exact H;
  unfold set_flags, flags_of_byte;
  repeat first [ apply set_twin | apply store_twin | apply report_twin | apply set_pc_twin
               | apply pc_inc_twin | apply sp_inc_twin | apply sp_dec_twin | exact H ];
  rewrite ?Hl, ?Hh, ?HHL, ?HF, ?R, ?Mm; try reflexivity;
  repeat first [ apply set_twin | exact H | reflexivity ]; rewrite ?R; reflexivity.
Qed.
Lemma same_twin : forall s s' t t', same s' s -> same t' t -> twin s t -> twin s' t'.
Proof.
  intros s s' t t' (a & b & c) (a' & b' & c') (x & y & e & z & w). split; [|split].
  - intros r. rewrite a, a'. auto.
  - intros r. rewrite b, b'. auto.
  - exists e. split; congruence.
Qed.

Definition rel (u : use) (h1 h2 : hstate) : Prop :=
  ui h1 = cb u /\ ui h2 = cb u /\ sane (ps h1) /\ sane (ps h2) /\ (exists e, hl h1 = e ++ n1 /\ hl h2 = e ++ n2) /\
  (on u = true -> exists z1 z2, up h1 z1 /\ up h2 z2 /\ qpos z1 = qpos z2 /\ dpos z1 = dpos z2 /\ twin (view z1) (view z2)).
Lemma twin_hl : forall h1 h2 z1 z2, up h1 z1 -> up h2 z2 -> twin (view z1) (view z2) -> exists e, hl h1 = e ++ n1 /\ hl h2 = e ++ n2.
Proof.
  intros h1 h2 z1 z2 U1 U2 (_ & _ & e & A & B). exists e. destruct (up_obs h1 z1 U1) as ((_ & _ & O1) & _). destruct (up_obs h2 z2 U2) as ((_ & _ & O2) & _).
  split; congruence.
Qed.
Lemma rel_intro : forall u h1 h2 z1 z2, ui h1 = cb u -> ui h2 = cb u -> up h1 z1 -> up h2 z2 -> qpos z1 = qpos z2 -> dpos z1 = dpos z2 -> twin (view z1) (view z2) -> rel u h1 h2.
Proof.
  intros u h1 h2 z1 z2 F1 F2 U1 U2 Q Dp T. unfold rel. split; [exact F1|]. split; [exact F2|].
  split; [exact (up_sane _ _ U1)|]. split; [exact (up_sane _ _ U2)|]. split; [exact (twin_hl _ _ _ _ U1 U2 T)|].
  intros _. exists z1, z2. auto.
Qed.
Lemma rel_call : forall u c u' h1 h2, rel u h1 h2 -> allowed u c u' ->
  exists h1' h2', do_call c h1 = Some h1' /\ do_call c h2 = Some h2' /\ rel u' h1' h2'.
Proof.
  intros u c u' h1 h2 (F1 & F2 & S1 & S2 & (e & L1 & L2) & G) A. destruct A; cbn [on cb] in *.
  - destruct (init_up h1 rnd S1 H) as (h1' & z1 & E1 & U1 & (_ & I1) & Q1 & D1 & V1).
    destruct (init_up h2 rnd S2 H) as (h2' & z2 & E2 & U2 & (_ & I2) & Q2 & D2 & V2).
    exists h1', h2'. split; [exact E1|]. split; [exact E2|]. apply (rel_intro _ _ _ z1 z2); cbn [cb]; auto; try congruence.
    rewrite V1, V2. split; [reflexivity|]. split; [reflexivity|]. exists e. auto.
  - destruct (G eq_refl) as (z1 & z2 & [(s1 & X1 & _) _ _ _] & [(s2 & X2 & _) _ _ _] & _).
    destruct (shutdown_ok h1 s1 X1) as (h1' & E1 & Y1 & (_ & I1) & K1 & _). destruct (shutdown_ok h2 s2 X2) as (h2' & E2 & Y2 & (_ & I2) & K2 & _).
    exists h1', h2'. split; [exact E1|]. split; [exact E2|]. unfold rel. cbn [on cb]. split; [congruence|]. split; [congruence|].
    split; [exact Y1|]. split; [exact Y2|]. split; [|discriminate]. exists e. split; congruence.
  - exists (set_ui h1 k), (set_ui h2 k). split; [reflexivity|]. split; [reflexivity|]. unfold rel. cbn [on cb].
    split; [reflexivity|]. split; [reflexivity|]. split; [exact S1|]. split; [exact S2|]. split; [exists e; auto|].
    intros Ho. destruct (G Ho) as (z1 & z2 & U1 & U2 & R). exists z1, z2. split; [apply set_ui_up; exact U1|]. split; [apply set_ui_up; exact U2|]. exact R.
  - destruct (G eq_refl) as (z1 & z2 & U1 & U2 & Q & Dp & T).
    destruct (api_clock_up u h1 z1 U1) as (h1' & z1' & E1 & U1' & I1 & _ & Q1 & D1 & V1 & _). { intros Hu. rewrite F1. auto. }
    destruct (api_clock_up u h2 z2 U2) as (h2' & z2' & E2 & U2' & I2 & _ & Q2 & D2 & V2 & _). { intros Hu. rewrite F2. auto. }
    exists h1', h2'. split; [exact E1|]. split; [exact E2|]. apply (rel_intro _ _ _ z1' z2'); cbn [cb]; try congruence; auto.
    + rewrite D1, D2, Dp, !rv_view, !(proj1 T). reflexivity.
    + apply (same_twin (rtl (dpos z1) (view z1)) _ (rtl (dpos z2) (view z2)) _ V1 V2). rewrite Dp. apply rtl_twin. exact T.
  - destruct (G eq_refl) as (z1 & z2 & U1 & U2 & Q & Dp & T).
    destruct (reset_up h1 z1 U1) as (h1' & z1' & E1 & U1' & (_ & I1) & Q1 & D1 & V1 & _).
    destruct (reset_up h2 z2 U2) as (h2' & z2' & E2 & U2' & (_ & I2) & Q2 & D2 & V2 & _).
    exists h1', h2'. split; [exact E1|]. split; [exact E2|]. apply (rel_intro _ _ _ z1' z2'); cbn [cb]; try congruence; auto.
  - destruct (G eq_refl) as (z1 & z2 & U1 & U2 & Q & Dp & T).
    destruct (set_mem_up h1 z1 o v U1 F1 H H0) as (h1' & z1' & E1 & U1' & (_ & I1) & Q1 & D1 & V1).
    destruct (set_mem_up h2 z2 o v U2 F2 H H0) as (h2' & z2' & E2 & U2' & (_ & I2) & Q2 & D2 & V2).
    exists h1', h2'. split; [exact E1|]. split; [exact E2|]. apply (rel_intro _ _ _ z1' z2'); cbn [cb]; try congruence; auto.
    apply (same_twin _ _ _ _ V1 V2). apply store_twin; auto.
  - destruct (G eq_refl) as (z1 & z2 & U1 & U2 & Q & Dp & T).
    destruct (set_pc_up h1 z1 v U1 F1 H) as (h1' & z1' & E1 & U1' & (_ & I1) & Q1 & D1 & V1).
    destruct (set_pc_up h2 z2 v U2 F2 H) as (h2' & z2' & E2 & U2' & (_ & I2) & Q2 & D2 & V2).
    exists h1', h2'. split; [exact E1|]. split; [exact E2|]. apply (rel_intro _ _ _ z1' z2'); cbn [cb]; try congruence; auto.
    apply (same_twin _ _ _ _ V1 V2). apply set_twin; auto.
Qed.
End Twin.

Lemma init_rel : forall h k rnd, sane (ps h) -> ui h = k -> (forall i, 0 <= rnd i) ->
  exists h1 h2, do_call (Init rnd) h = Some h1 /\ run_calls [SetUi k; Init rnd] boot = Some h2 /\ rel (hl h) [] (mkUse true k) h1 h2.
Proof.
  intros h k rnd S G1 Hr. destruct (init_up h rnd S Hr) as (x1 & z1 & X1 & U1 & (_ & I1) & Q1 & D1 & V1).
  destruct (init_up (set_ui boot k) rnd sane0 Hr) as (x2 & z2 & X2 & U2 & (_ & I2) & Q2 & D2 & V2).
  exists x1, x2. split; [exact X1|]. split. { cbn [run_calls do_call]. rewrite X2. reflexivity. }
  apply (rel_intro _ _ _ _ _ z1 z2); cbn [cb] in *; auto; try congruence.
  rewrite V1, V2. split; [reflexivity|]. split; [reflexivity|]. exists []. auto.
Qed.

(** Continuations allowed from [u], ending in [u']. *)
Inductive goes_on : use -> list call -> use -> Prop :=
| G_nil : forall u, goes_on u [] u
| G_cons : forall u c u1 l u', allowed u c u1 -> goes_on u1 l u' -> goes_on u (c :: l) u'.

(** What a client can see of the processor. *)
Definition same_view (h1 h2 : hstate) : Prop :=
  (forall r, get_register_value r h1 = get_register_value r h2) /\ (forall o, get_memory_value o h1 = get_memory_value o h2) /\
  get_state h1 = get_state h2 /\ get_next_state h1 = get_next_state h2.

(** Take any allowed history, in which the machine may have run, have been shut
    down and restarted, any number of times; call [init] again (with or without
    [shutdown] before).  From then on the machine behaves like one initialised in
    a new process: every allowed continuation is defined in both, shows the same
    registers, memory and state numbers, and prints the same new notices. *)
Theorem C37_reinit_fresh : forall l b k h rnd h1 h2 cs b' k', proper l (mkUse b k) -> run_calls l boot = Some h -> (forall i, 0 <= rnd i) ->
  do_call (Init rnd) h = Some h1 -> run_calls [SetUi k; Init rnd] boot = Some h2 -> goes_on (mkUse true k) cs (mkUse b' k') ->
  exists g1 g2 e, run_calls cs h1 = Some g1 /\ run_calls cs h2 = Some g2 /\ hl g1 = e ++ hl h /\ hl g2 = e /\ (b' = true -> same_view g1 g2).
Proof.
  intros l b k h rnd h1 h2 cs b' k' P E Hr E1 E2 Hc. destruct (proper_good l _ P) as (h0 & E0 & G1 & S & _). rewrite E in E0. injection E0 as <-.
  destruct (init_rel h k rnd S G1 Hr) as (x1 & x2 & X1 & X2 & R0). rewrite E1 in X1. injection X1 as <-. rewrite E2 in X2. injection X2 as <-.
  clear E1 E2. remember (mkUse true k) as u eqn:Eu. remember (mkUse b' k') as u' eqn:Eu'. clear Eu. revert h1 h2 R0.
  induction Hc as [u|u c u1 cs u2 A Hc IH]; intros h1 h2 R.
  - exists h1, h2. destruct R as (_ & _ & _ & _ & (e & L1 & L2) & G). exists e. split; [reflexivity|]. split; [reflexivity|].
    split; [exact L1|]. split; [rewrite app_nil_r in L2; exact L2|]. intros Hb. subst u. cbn [on] in G. destruct (G Hb) as (z1 & z2 & U1 & U2 & Q & Dp & (T1 & T2 & _)).
    destruct (up_obs h1 z1 U1) as ((O1 & O2 & _) & A1 & A2). destruct (up_obs h2 z2 U2) as ((P1 & P2 & _) & B1 & B2).
    split. { intros r. rewrite O1, P1, T1. reflexivity. }
    split. { intros o. destruct (valid_offset o) eqn:Ev.
      - apply valid_offset_range in Ev. rewrite O2, P2, T2 by exact Ev. reflexivity.
      - unfold get_memory_value. rewrite Ev. reflexivity. }
    split; congruence.
  - destruct (rel_call _ _ u c u1 h1 h2 R A) as (x1 & x2 & X1 & X2 & R'). destruct (IH Eu' x1 x2 R') as (g1 & g2 & e & Y1 & Y2 & Y3).
    exists g1, g2, e. cbn [run_calls]. rewrite X1, X2. auto.
Qed.

(** [shutdown] does not release everything: one subscription, its list node and
    its bus stay allocated (mxreg.c:41-45 forgets the control bus).  [sl] is the
    list of subscriptions publish walks through, [hb] the allocated buses. *)
Lemma dend_U : memb (Prog.B K_MXREG T_CONTROL) (dU dend) = false.
Proof. vm_compute. reflexivity. Qed.
Lemma mxreg_bus : In (Prog.B K_MXREG T_CONTROL) all_buses.
Proof. apply in_buses. vm_compute. reflexivity. Qed.
Lemma shutdown_keeps : forall h s, sim h s -> exists h', api_shutdown h = Some h' /\ exists i, In i (sl (ps h')) /\ sane (ps h').
Proof.
  intros h s S. destruct S as [SA SB SI SR SM SL SW].
  pose proof dend_eq as E. pose proof dend_U as Y. generalize dependent dend. intros gf E Y.
  edestruct (dsteps_ok (fun _ => 0%Z) shutdown_list h (mkDP [] [] true) gf) as (h' & L & X & F & G).
  - cbn. constructor; auto; try (intros ? []; fail).
    + intros b Hb _. destruct (SB b Hb) as (a & i & E1 & E2 & _). eauto.
    + intros b Hb _. destruct (SB b Hb) as (a & i & E1 & E2 & E3 & E4 & E5). eauto 8.
    + intros _. destruct SM as (f & E1 & _). eauto.
  - exact E.
  - exists h'. split; [exact L|]. destruct (d_sub _ _ _ _ X _ mxreg_bus (proj1 (memb_out _ _) Y)) as (i & a & _ & _ & Hi & _).
    exists i. split; [exact Hi|apply (d_sane _ _ _ _ X)].
Qed.
Theorem C37_shutdown_leaks_refuted : forall l h k h', live l h k -> do_call Shutdown h = Some h' ->
  exists i s a b, In i (sl (ps h')) /\ ss (ps h') i = Some s /\ sact s = true /\ sbus s = Some a /\ hb (ps h') a = Some b.
Proof.
  intros l h k h' L E. destruct (live_up l h k L) as (_ & z & [(s & S & _) _ _ _]). destruct (shutdown_keeps h s S) as (h2 & E2 & i & Hi & Sn).
  assert (h2 = h') as ->. { assert (Some h2 = Some h') as X; [|injection X as ->; reflexivity]. rewrite <- E, <- E2. reflexivity. }
  destruct (sn_sub _ Sn i Hi) as (_ & s0 & a & b & A1 & A2 & A3 & A4). exists i, s0, a, b. auto.
Qed.

(** The loss is unbounded: each start/stop cycle adds at least one. *)
Definition weight (c : lstmt) : Z := match c with Sub _ => 1 | Unsub _ => -1 | _ => 0 end.
Definition weights (l : list lstmt) : Z := fold_right (fun c n => weight c + n) 0 l.
Lemma length_remove_first : forall i l, Z.of_nat (length l) - 1 <= Z.of_nat (length (remove_first i l)).
Proof. intros i l. induction l as [|x l IH]; cbn [remove_first length]; [lia|]. destruct (Nat.eqb x i); cbn [length]; lia. Qed.
Lemma lexec_weight : forall rnd c h h', lexec rnd c h = Some h' -> Z.of_nat (length (sl (ps h))) + weight c <= Z.of_nat (length (sl (ps h'))).
Proof.
  intros rnd c h h' E. destruct c; cbn [weight lexec] in *; try (injection E as <-; cbn [ps set_hm set_hr set_wl set_bp set_ps sl]; lia).
  - destruct (hm h); try discriminate; injection E as <-; cbn [ps set_hm]; lia.
  - injection E as <-. cbn [set_sp set_ps ps sl]. rewrite app_length. cbn [length]. lia.
  - destruct (unsubscribe_for (sp h b) (ps h)) as [(p & r)|] eqn:Eu; [|discriminate]. injection E as <-. cbn [set_ps ps].
    unfold unsubscribe_for in Eu. destruct (sp h b) as [i|]; [|injection Eu as <- _; lia].
    destruct (sl (ps h)) as [|x l] eqn:El; [injection Eu as <- _; rewrite El; lia|]. rewrite <- El in *.
    destruct (ss (ps h) i); [|discriminate]. destruct (Nat.leb _ _); [injection Eu as <- _; lia|]. destruct (existsb _ _); injection Eu as <- _; [|lia].
    cbn [sl]. pose proof (length_remove_first i (sl (ps h))). lia.
  - unfold destroy_bus_data in E. destruct (bp h b) as [n|]; [destruct (hb (ps h) n); [|discriminate]|]; injection E as <-; cbn [set_ps ps sl]; lia.
Qed.
Lemma lrun_weight : forall rnd l h h', lrun rnd l h = Some h' -> Z.of_nat (length (sl (ps h))) + weights l <= Z.of_nat (length (sl (ps h'))).
Proof.
  intros rnd. induction l as [|c l IH]; intros h h' E; cbn [lrun] in E.
  - injection E as <-. cbn. lia.
  - destruct (lexec rnd c h) as [h1|] eqn:E1; [|discriminate]. apply lexec_weight in E1. apply IH in E. cbn [weights fold_right] in *.
    change (fold_right (fun c n => weight c + n) 0 l) with (weights l). lia.
Qed.
Lemma weights_total : weights init_list + weights shutdown_list = 1.
Proof. vm_compute. reflexivity. Qed.

Fixpoint restarts (n : nat) : list call := match n with O => [] | S n' => restarts n' ++ [Init (fun _ => 0); Shutdown] end.
Transparent api_init api_shutdown.
Lemma init_weight : forall rnd h h', api_init rnd h = Some h' -> Z.of_nat (length (sl (ps h))) + weights init_list <= Z.of_nat (length (sl (ps h'))).
Proof. intros rnd h h'. exact (lrun_weight rnd init_list h h'). Qed.
Lemma shutdown_weight : forall h h', api_shutdown h = Some h' -> Z.of_nat (length (sl (ps h))) + weights shutdown_list <= Z.of_nat (length (sl (ps h'))).
Proof. intros h h'. exact (lrun_weight _ shutdown_list h h'). Qed.
Opaque api_init api_shutdown init_list shutdown_list.
Lemma restart : forall h, sane (ps h) -> exists h1 h2, do_call (Init (fun _ => 0)) h = Some h1 /\ do_call Shutdown h1 = Some h2 /\ (length (sl (ps h)) < length (sl (ps h2)))%nat.
Proof.
  intros h Sn. destruct (init_ok (fun _ => 0) h Sn) as (x1 & X1 & Sx & _). destruct (shutdown_ok x1 _ Sx) as (x2 & X2 & _).
  exists x1, x2. split; [exact X1|]. split; [exact X2|]. pose proof (init_weight _ _ _ X1). pose proof (shutdown_weight _ _ X2). pose proof weights_total. lia.
Qed.
Theorem C37_leak_unbounded_refuted : forall n, exists h, proper (restarts n) (mkUse false false) /\ run_calls (restarts n) boot = Some h /\ (n <= length (sl (ps h)))%nat.
Proof.
  induction n as [|n (h & P & E & Hn)].
  - exists boot. split; [constructor|]. split; [reflexivity|]. cbn. lia.
  - destruct (proper_good _ _ P) as (h' & E' & (_ & Sn & _)). rewrite E in E'. injection E' as <-.
    destruct (restart h Sn) as (x1 & x2 & X1 & X2 & Hl). exists x2. split; [|split; [|lia]].
    + cbn [restarts]. change [Init (fun _ => 0); Shutdown] with ([Init (fun _ => 0)] ++ [Shutdown]). rewrite app_assoc. econstructor; [|constructor].
      econstructor; [exact P|]. apply (A_init (mkUse false false)). intros; lia.
    + cbn [restarts]. rewrite run_calls_app, E. cbn [run_calls]. rewrite X1, X2. reflexivity.
Qed.

(** ** C35, continued *)
(** set_register_pc(65535) leaves the half registers PCH and PCL stale: a CALL
    executed next saves the old PC instead of the new one (finding).  Everywhere
    else PCH and PCL agree with PC ([tidy_boundary]). *)
Definition stale_cpu : cpu := set R_PC 65535 (store 65535 0xC4 (mkCpu (fun _ => 0) (fun _ => 0) [])).
Definition stale_arch : arch := mkArch 0 false false 0 0 0 0 65535 0 (fun i => if i =? 65535 then 0xC4 else 0) [].
Lemma stale_step : M (step stale_arch) 0 = 255.
Proof. vm_compute. reflexivity. Qed.
Lemma stale_usteps : snd (usteps 9 (stale_cpu, 0)) = 0 /\ mem (fst (usteps 9 (stale_cpu, 0))) 0 = 0.
Proof. split; vm_compute; reflexivity. Qed.
Lemma stale_not_earlier : forallb (fun n => negb (snd (usteps n (stale_cpu, 0)) =? 0)) [1; 2; 3; 4; 5; 6; 7; 8]%nat = true.
Proof. vm_compute. reflexivity. Qed.
Lemma stale_live : exists l h z, live l h true /\ up h z /\ same (view z) stale_cpu /\ dpos z = 0.
Proof.
  destruct (init_up boot (fun _ => 0) sane0 ltac:(intros; lia)) as (h0 & z0 & E0 & U0 & F & Q & D0 & V0).
  assert (L : live [Init (fun _ => 0); SetUi true] (set_ui h0 true) true).
  { split.
    - change [Init (fun _ => 0); SetUi true] with ([Init (fun _ => 0)] ++ [SetUi true]). econstructor; [|apply (A_set_ui (mkUse true false) true)].
      change [Init (fun _ => 0)] with ([] ++ [Init (fun _ => 0)]). econstructor; [constructor|]. apply (A_init (mkUse false false)). intros; lia.
    - cbn [run_calls do_call]. rewrite E0. reflexivity. }
  pose proof (set_ui_up h0 z0 true U0) as U1.
  destruct (set_mem_up _ z0 65535 0xC4 U1 eq_refl ltac:(lia) ltac:(lia)) as (h2 & z2 & E2 & U2 & (_ & I2) & Q2 & D2 & V2).
  destruct (set_pc_up h2 z2 65535 U2 I2 ltac:(lia)) as (h3 & z3 & E3 & U3 & (_ & I3) & Q3 & D3 & V3).
  exists (([Init (fun _ => 0); SetUi true] ++ [SetMem 65535 0xC4]) ++ [SetPc 65535]), h3, z3. split.
  - destruct L as (P & R). split.
    + econstructor; [econstructor; [exact P|constructor; lia]|constructor; lia].
    + rewrite !run_calls_app, R. cbn [run_calls do_call]. rewrite E2, E3. reflexivity.
  - split; [exact U3|]. split; [|congruence]. apply (same_trans _ _ _ V3). apply set_cong; [reflexivity|]. apply (same_trans _ _ _ V2). rewrite V0. apply same_refl.
Qed.
Theorem C35_stale_refuted : exists l h a us h', live l h true /\ get_next_state h = Some 0 /\ shows h a /\ PC a = 65535 /\ instruction h us h' /\
  M (step a) 0 = 255 /\ get_memory_value 0 h' = Some 0.
Proof.
  destruct stale_live as (l & h & z & L & U & Sm & Dz). destruct (up_obs h z U) as (O & _ & N).
  exists l, h, stale_arch, (repeat true 9).
  destruct (live_up l h true L) as (Hu & _).
  assert (Hk : forall us : list bool, ui h = false -> ~ In true us) by (intros us X; congruence).
  destruct (clocks_up (repeat true 9) h z U (Hk _)) as (h' & z' & c' & q' & E' & U' & _ & K1 & K2 & K3).
  pose proof (zview_valid z (inv_rng z (up_inv _ _ U))) as Vz.
  change (length (repeat true 9)) with 9%nat in K1. rewrite Dz in K1.
  destruct (usteps_cong 9 _ _ 0 Sm Vz) as (s2 & t2 & q2 & X1 & X2 & X3). rewrite X1 in K1. injection K1 as -> ->.
  destruct stale_usteps as (Y1 & Y2). rewrite X2 in Y1, Y2. cbn [fst snd] in Y1, Y2.
  destruct (up_obs h' z' U') as ((O1 & O2 & O3) & _ & N').
  exists h'. split; [exact L|]. split; [congruence|]. split.
  { apply (obs_shows h (view z) stale_arch O Vz). apply (arch_eq_trans _ (abs stale_cpu)); [apply abs_same; exact Sm|].
    unfold arch_eq. repeat (split; [reflexivity|]). reflexivity. }
  split; [reflexivity|]. split.
  { split; [exact E'|]. split; [discriminate|]. split; [congruence|].
    intros us1 us2 h1 Hus Hne1 Hne2 Er. destruct (clocks_up us1 h z U (Hk _)) as (h1' & z1 & c1 & q1 & E1 & U1 & _ & J1 & J2 & J3).
    rewrite Er in E1. injection E1 as <-. destruct (up_obs h1 z1 U1) as (_ & _ & N1). rewrite N1, J3. rewrite Dz in J1.
    destruct (usteps_cong (length us1) _ _ 0 Sm Vz) as (s3 & t3 & q3 & W1 & W2 & W3). rewrite W1 in J1. injection J1 as -> ->.
    assert (Hlen : (length us1 + length us2 = 9)%nat). { rewrite <- app_length, <- Hus. reflexivity. }
    assert (Hin : In (length us1) [1; 2; 3; 4; 5; 6; 7; 8]%nat).
    { destruct us1; [contradiction|]. destruct us2; [contradiction|]. cbn [length] in *. cbn [In]. lia. }
    pose proof (proj1 (forallb_forall _ _) stale_not_earlier _ Hin) as G. cbv beta in G. rewrite W2 in G. cbn [snd] in G. intros X. injection X as ->. discriminate. }
  split; [exact stale_step|]. rewrite O2 by lia. f_equal.
  exact (eq_trans (mem_same _ _ 0 K2) (eq_trans (mem_same _ _ 0 X3) Y2)).
Qed.

(** The hypotheses of C37 and C42 hold for a machine that ran, was shut down and
    restarted. *)
Example life_nonvacuous : exists l h, live l h true /\ In Shutdown l /\ In (RunClock true) l.
Proof.
  set (l := [Init (fun _ => 0); SetUi true; RunClock true; Shutdown; Init (fun i => i * i)]).
  assert (P : proper l (mkUse true true)).
  { change l with ((((([] ++ [Init (fun _ => 0)]) ++ [SetUi true]) ++ [RunClock true]) ++ [Shutdown]) ++ [Init (fun i => i * i)]).
    econstructor; [econstructor; [econstructor; [econstructor; [econstructor; [constructor|]|]|]|]|].
    - apply (A_init (mkUse false false)). intros; lia.
    - apply (A_set_ui (mkUse true false)).
    - apply (A_clock true true). auto.
    - apply A_shutdown.
    - apply (A_init (mkUse false true)). intros; nia. }
  destruct (proper_good l _ P) as (h & E & _). exists l, h. split; [split; [exact P|exact E]|]. cbn; auto 6.
Qed.

Print Assumptions C35_stale_refuted.
Print Assumptions C37_reinit_fresh.
Print Assumptions C37_shutdown_leaks_refuted.
Print Assumptions C37_leak_unbounded_refuted.
Print Assumptions C42_save.
Print Assumptions C42_overlong_refuted.
Print Assumptions C52_init.
Print Assumptions C52_every_memory.
Print Assumptions C52_255_refuted.
