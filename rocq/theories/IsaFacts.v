(** * Facts about the instruction-set specification, and which states are reachable (proof layer) *)
From Coq Require Import ZArith List Bool Lia ZifyBool.
From Verif Require Import Word WordFacts Prog Tables Components Machine ZMachine ZWord ZRefine ZRefineB ZRefineC
  Rtl Micro Isa MicroIsa IsaOps Track Drive LinkedList PubSub Api HeapSim Lifecycle Usage ApiFacts Reach Front Runs.
Import ListNotations.
Open Scope Z_scope.
Opaque trk.

Lemma executes_step : forall a h', executes a h' -> shows h' (step a).
Proof. intros a h' (l & h & k & us & L & Bd & S & I). apply (instruction_spec l h k a us h' L Bd S I). Qed.

Lemma live_valid : forall l h k a, live l h k -> shows h a -> valid a.
Proof.
  intros l h k a L S. destruct (live_up l h k L) as (_ & z0 & U0). destruct (shows_obs h z0 a U0 S) as (z & U & A & _).
  pose proof (zview_valid z (inv_rng z (up_inv _ _ U))) as V. destruct V as [V1 V2].
  destruct A as (A1 & A2 & A3 & A4 & A5 & A6 & A7 & A8 & A9 & A10 & A11). cbn [abs AC FC FZ Isa.B C D E PC SP M log] in *.
  unfold valid. rewrite <- A1, <- A4, <- A5, <- A6, <- A7, <- A8, <- A9.
  pose proof (V1 R_AC); pose proof (V1 R_B); pose proof (V1 R_C); pose proof (V1 R_D); pose proof (V1 R_E); pose proof (V1 R_PC); pose proof (V1 R_SP).
  cbn [rhi] in *. do 7 (split; [assumption|]). intros i Hi. rewrite <- A10. apply V2. exact Hi.
Qed.

Lemma executes_valid : forall a h', executes a h' -> valid a.
Proof. intros a h' (l & h & k & us & L & Bd & S & I). exact (live_valid l h k a L S). Qed.

Lemma pc_next_put : forall s, PC s < 65535 -> pc_next s = put_pc (PC s + 1) s.
Proof. intros s H. unfold pc_next. replace (PC s =? 65535) with false by lia. reflexivity. Qed.

Lemma shows_cong : forall h a b, shows h a -> arch_eq a b -> shows h b.
Proof.
  intros h a b (S1 & S2 & S3 & S4 & S5 & S6 & S7 & S8 & S9 & S10 & S11) (A1 & A2 & A3 & A4 & A5 & A6 & A7 & A8 & A9 & A10 & A11).
  unfold shows. rewrite <- A1, <- A2, <- A3, <- A4, <- A5, <- A6, <- A7, <- A8, <- A9, <- A11. repeat split; auto.
  intros i Hi. rewrite <- A10. auto.
Qed.

(** shown states agree *)
Lemma shows_agree : forall h a b, shows h a -> shows h b ->
  AC a = AC b /\ FC a = FC b /\ FZ a = FZ b /\ Isa.B a = Isa.B b /\ C a = C b /\ D a = D b /\ E a = E b /\ PC a = PC b /\ SP a = SP b /\
  (forall i, 0 <= i < 65536 -> M a i = M b i) /\ log a = log b.
Proof.
  intros h a b (S1 & S2 & S3 & S4 & S5 & S6 & S7 & S8 & S9 & S10 & S11) (T1 & T2 & T3 & T4 & T5 & T6 & T7 & T8 & T9 & T10 & T11).
  repeat match goal with |- _ /\ _ => split end; try congruence.
  - assert (Z.b2z (FC a) = Z.b2z (FC b)) by congruence. destruct (FC a), (FC b); cbn in *; auto; discriminate.
  - assert (Z.b2z (FZ a) = Z.b2z (FZ b)) by congruence. destruct (FZ a), (FZ b); cbn in *; auto; discriminate.
  - intros i Hi. specialize (S10 i Hi). specialize (T10 i Hi). congruence.
Qed.

(** ** Calls that set up a machine *)
Lemma live_init : forall rnd, (forall i, 0 <= rnd i) -> exists h, live [Init rnd; SetUi true] h true /\ boundary h /\
  shows h (mkArch 0 false false 0 0 0 0 0 0 (fun i => rnd i mod 255) []).
Proof.
  intros rnd Hr. destruct (init_up boot rnd sane0 Hr) as (h & z & E0 & U & F & Q & D0 & V).
  exists (set_ui h true). pose proof (set_ui_up h z true U) as U'. split; [|split].
  - split.
    + change [Init rnd; SetUi true] with ([Init rnd] ++ [SetUi true]). econstructor; [|apply (A_set_ui (mkUse true false) true)].
      change [Init rnd] with ([] ++ [Init rnd]). econstructor; [constructor|]. apply (A_init (mkUse false false)). exact Hr.
    + cbn [run_calls do_call]. rewrite E0. reflexivity.
  - apply (up_boundary _ z U'). split; auto. rewrite !rv_view, V. cbn. discriminate.
  - apply (obs_shows _ (view z)); [apply (up_obs _ z U')|apply (zview_valid z (inv_rng z (up_inv _ _ U)))|].
    rewrite V. apply arch_eq_refl.
Qed.

Lemma live_set_mem : forall l h a o v, live l h true -> shows h a -> 0 <= o < 65536 -> 0 <= v <= 255 ->
  exists h', do_call (SetMem o v) h = Some h' /\ live (l ++ [SetMem o v]) h' true /\ (boundary h -> boundary h') /\ shows h' (write o v a).
Proof.
  intros l h a o v (P & R) S Ho Hv. destruct (live_up l h true (conj P R)) as (Hu & z0 & U0).
  destruct (shows_obs h z0 a U0 S) as (z & U & A & _).
  destruct (set_mem_up h z o v U Hu Ho Hv) as (h' & z' & E0 & U' & F & Q & D0 & V).
  exists h'. split; [exact E0|]. split; [|split].
  - split. { econstructor; [exact P|]. constructor; auto. } rewrite run_calls_app, R. cbn [run_calls do_call]. rewrite E0. reflexivity.
  - intros Bd. apply (up_boundary h z U) in Bd. apply (up_boundary h' z' U'). rewrite D0, !rv_view, !(reg_same _ _ _ V).
    exact Bd.
  - apply (obs_shows _ (view z')); [apply (up_obs _ z' U')|apply (zview_valid z' (inv_rng z' (up_inv _ _ U')))|].
    eapply arch_eq_trans; [apply abs_same; exact V|].
    destruct A as (A1 & A2 & A3 & A4 & A5 & A6 & A7 & A8 & A9 & A10 & A11). cbn [abs AC FC FZ Isa.B C D E PC SP M log] in *.
    unfold arch_eq, abs, store, write; cbn [reg mem errs AC FC FZ Isa.B C D E PC SP M log]. repeat split; auto.
    intros i. destruct (i =? o); auto.
Qed.

Lemma live_set_mems : forall (m : Z -> Z), (forall i, 0 <= i < 65536 -> 0 <= m i <= 255) ->
  forall n o l h a, live l h true -> shows h a -> 0 <= o -> o + Z.of_nat n <= 65536 ->
  exists l' h', live l' h' true /\ (boundary h -> boundary h') /\
    shows h' (mkArch (AC a) (FC a) (FZ a) (Isa.B a) (C a) (D a) (E a) (PC a) (SP a)
               (fun i => if (o <=? i) && (i <? o + Z.of_nat n) then m i else M a i) (log a)).
Proof.
  intros m Hm. induction n; intros o l h a L Sh Ho Hn.
  - exists l, h. split; auto. split; auto. eapply shows_cong; [exact Sh|]. unfold arch_eq; cbn. repeat split; auto.
    intros i. replace ((o <=? i) && (i <? o + 0)) with false by lia. reflexivity.
  - destruct (live_set_mem l h a o (m o) L Sh ltac:(lia) (Hm o ltac:(lia))) as (h1 & E1 & L1 & B1 & S1).
    destruct (IHn (o + 1) _ h1 _ L1 S1 ltac:(lia) ltac:(lia)) as (l' & h' & L' & B' & S').
    exists l', h'. split; auto. split; auto. eapply shows_cong; [exact S'|]. unfold arch_eq; cbn [write AC FC FZ Isa.B C D E PC SP M log]. repeat split; auto.
    intros i. destruct (Z.eqb_spec i o) as [->|N].
    + replace ((o + 1 <=? o) && (o <? o + 1 + Z.of_nat n)) with false by lia.
      replace ((o <=? o) && (o <? o + Z.of_nat (S n))) with true by lia. reflexivity.
    + replace ((o + 1 <=? i) && (i <? o + 1 + Z.of_nat n)) with ((o <=? i) && (i <? o + Z.of_nat (S n))) by lia. reflexivity.
Qed.

Lemma live_instruction : forall l h a, live l h true -> boundary h -> shows h a ->
  exists l' h', live l' h' true /\ boundary h' /\ shows h' (step a).
Proof.
  intros l h a L Bd S. destruct (instructions_one true l h true a (fun x => x) L Bd S) as (us & h1 & E1 & E2 & E3 & E4 & E5 & E6).
  eauto.
Qed.
Lemma live_steps : forall n l h a, live l h true -> boundary h -> shows h a ->
  exists l' h', live l' h' true /\ boundary h' /\ shows h' (steps n a).
Proof.
  induction n; intros l h a L Bd S; [eauto|]. destruct (live_instruction l h a L Bd S) as (l1 & h1 & L1 & B1 & S1).
  exact (IHn l1 h1 (step a) L1 B1 S1).
Qed.

(** a program that loads every register *)
Definition setup (a : arch) : list Z :=
  [0x60; Isa.B a; 0x61; C a; 0x62; D a; 0x63; E a; 0xC3; SP a / 256; SP a mod 256;
   0x64; (if FC a then 128 else 0) + (if FZ a then 1 else 0); 0x82; 0x64; AC a; 0x74; PC a / 256; PC a mod 256].

Ltac step1 :=
  match goal with |- context [steps (S ?n) ?s] => change (steps (S n) s) with (steps n (step s)) end;
  match goal with |- context [step ?s] =>
    unfold step at 1;
    let op := eval cbv in (M s (PC s)) in change (M s (PC s)) with op;
    let i := eval vm_compute in (decode op) in change (decode op) with i
  end.

Lemma setup_runs : forall a rest, valid a ->
  let m := fun i => if (0 <=? i) && (i <? 19) then nth (Z.to_nat i) (setup a) 0 else rest i in
  arch_eq (steps 9 (mkArch 0 false false 0 0 0 0 0 0 m []))
          (mkArch (AC a) (FC a) (FZ a) (Isa.B a) (C a) (D a) (E a) (PC a) (SP a) m []).
Proof.
  intros a rest (V1 & V2 & V3 & V4 & V5 & V6 & V7 & V8) m.
  assert (X : forall i, 0 <= i < 19 -> m i = nth (Z.to_nat i) (setup a) 0).
  { intros i Hi. unfold m. replace ((0 <=? i) && (i <? 19)) with true by lia. reflexivity. }
  assert (X0 : m 0 = 0x60) by (rewrite X by lia; reflexivity).
  assert (X1 : m 1 = Isa.B a) by (rewrite X by lia; reflexivity).
  assert (X2 : m 2 = 0x61) by (rewrite X by lia; reflexivity).
  assert (X3 : m 3 = C a) by (rewrite X by lia; reflexivity).
  assert (X4 : m 4 = 0x62) by (rewrite X by lia; reflexivity).
  assert (X5 : m 5 = D a) by (rewrite X by lia; reflexivity).
  assert (X6 : m 6 = 0x63) by (rewrite X by lia; reflexivity).
  assert (X7 : m 7 = E a) by (rewrite X by lia; reflexivity).
  assert (X8 : m 8 = 0xC3) by (rewrite X by lia; reflexivity).
  assert (X9 : m 9 = SP a / 256) by (rewrite X by lia; reflexivity).
  assert (X10 : m 10 = SP a mod 256) by (rewrite X by lia; reflexivity).
  assert (X11 : m 11 = 0x64) by (rewrite X by lia; reflexivity).
  assert (X12 : m 12 = (if FC a then 128 else 0) + (if FZ a then 1 else 0)) by (rewrite X by lia; reflexivity).
  assert (X13 : m 13 = 0x82) by (rewrite X by lia; reflexivity).
  assert (X14 : m 14 = 0x64) by (rewrite X by lia; reflexivity).
  assert (X15 : m 15 = AC a) by (rewrite X by lia; reflexivity).
  assert (X16 : m 16 = 0x74) by (rewrite X by lia; reflexivity).
  assert (X17 : m 17 = PC a / 256) by (rewrite X by lia; reflexivity).
  assert (X18 : m 18 = PC a mod 256) by (rewrite X by lia; reflexivity).
  clear X. clearbody m.
  assert (ST : forall ac fc fz b c d e pc sp op i, m pc = op -> decode op = i -> pc < 65535 ->
    step (mkArch ac fc fz b c d e pc sp m []) = exec_instr i (mkArch ac fc fz b c d e (pc + 1) sp m [])).
  { intros ac fc fz b c d e pc sp op i Hm Hd Hp. unfold step. cbn [M PC]. rewrite Hm, Hd.
    rewrite pc_next_put by exact Hp. reflexivity. }
  assert (WI : forall f ac fc fz b c d e pc sp, pc < 65535 ->
    with_imm f (mkArch ac fc fz b c d e pc sp m []) = f (m pc) (mkArch ac fc fz b c d e (pc + 1) sp m [])).
  { intros. unfold with_imm, imm. rewrite pc_next_put by assumption. reflexivity. }
  change (steps 9 (mkArch 0 false false 0 0 0 0 0 0 m [])) with
   (step (step (step (step (step (step (step (step (step (mkArch 0 false false 0 0 0 0 0 0 m [])))))))))).
  rewrite (ST _ _ _ _ _ _ _ 0 _ 0x60 (MOV_i_r RB) X0 eq_refl) by lia. cbn [exec_instr]. rewrite WI by lia. change (0+1) with 1. rewrite X1. cbn [put AC FC FZ Isa.B C D E PC SP M log]. change (1+1) with 2.
  rewrite (ST _ _ _ _ _ _ _ 2 _ 0x61 (MOV_i_r RC) X2 eq_refl) by lia. cbn [exec_instr]. rewrite WI by lia. change (2+1) with 3. rewrite X3. cbn [put AC FC FZ Isa.B C D E PC SP M log]. change (3+1) with 4.
  rewrite (ST _ _ _ _ _ _ _ 4 _ 0x62 (MOV_i_r RD) X4 eq_refl) by lia. cbn [exec_instr]. rewrite WI by lia. change (4+1) with 5. rewrite X5. cbn [put AC FC FZ Isa.B C D E PC SP M log]. change (5+1) with 6.
  rewrite (ST _ _ _ _ _ _ _ 6 _ 0x63 (MOV_i_r RE) X6 eq_refl) by lia. cbn [exec_instr]. rewrite WI by lia. change (6+1) with 7. rewrite X7. cbn [put AC FC FZ Isa.B C D E PC SP M log]. change (7+1) with 8.
  rewrite (ST _ _ _ _ _ _ _ 8 _ 0xC3 INISP X8 eq_refl) by lia. cbn [exec_instr]. unfold with_dir. rewrite WI by lia. cbv beta. change (8+1) with 9. rewrite WI by lia. change (9+1) with 10. rewrite X9, X10. unfold put_sp; cbn [AC FC FZ Isa.B C D E PC SP M log]. change (10+1) with 11.
  rewrite (ST _ _ _ _ _ _ _ 11 _ 0x64 MOV_i_ac X11 eq_refl) by lia. cbn [exec_instr]. rewrite WI by lia. change (11+1) with 12. rewrite X12. unfold put_ac; cbn [AC FC FZ Isa.B C D E PC SP M log]. change (12+1) with 13.
  rewrite (ST _ _ _ _ _ _ _ 13 _ 0x82 SFA X13 eq_refl) by lia. unfold exec_instr, load_flags, put_flags; cbn [AC FC FZ Isa.B C D E PC SP M log]. change (13+1) with 14.
  rewrite (ST _ _ _ _ _ _ _ 14 _ 0x64 MOV_i_ac X14 eq_refl) by lia. cbn [exec_instr]. rewrite WI by lia. change (14+1) with 15. rewrite X15. unfold put_ac; cbn [AC FC FZ Isa.B C D E PC SP M log]. change (15+1) with 16.
  rewrite (ST _ _ _ _ _ _ _ 16 _ 0x74 JMP X16 eq_refl) by lia. cbn [exec_instr]. unfold with_dir. rewrite WI by lia. cbv beta. change (16+1) with 17. rewrite WI by lia. change (17+1) with 18. rewrite X17, X18. unfold put_pc; cbn [AC FC FZ Isa.B C D E PC SP M log].
  unfold arch_eq; cbn [AC FC FZ Isa.B C D E PC SP M log]. repeat split; auto; try lia; destruct (FC a), (FZ a); reflexivity.
Qed.

(** Every valid programmer-visible state is reached by some allowed history. *)
Theorem every_state_reachable : forall a, valid a -> log a = [] -> exists l h, live l h true /\ boundary h /\ shows h a.
Proof.
  intros a V Hl. destruct (live_init (fun _ => 0) ltac:(intros; lia)) as (h0 & L0 & B0 & S0).
  pose proof V as (V1 & V2 & V3 & V4 & V5 & V6 & V7 & V8).
  assert (Hb : forall i, 0 <= i < 65536 -> 0 <= (if i <? 19 then nth (Z.to_nat i) (setup a) 0 else 0) <= 255).
  { intros i Hi. destruct (Z.ltb_spec i 19); [|lia].
    assert (H0 : In (nth (Z.to_nat i) (setup a) 0) (setup a)) by (apply nth_In; cbn; lia).
    revert H0. generalize (nth (Z.to_nat i) (setup a) 0). unfold setup. cbn [In]. intros v Hv.
    pose proof (Z.mod_pos_bound (SP a) 256). pose proof (Z.mod_pos_bound (PC a) 256).
    destruct (FC a), (FZ a); repeat destruct Hv as [<-|Hv]; try lia; destruct Hv. }
  destruct (live_set_mems _ Hb 19 0 _ h0 _ L0 S0 ltac:(lia) ltac:(lia)) as (l1 & h1 & L1 & B1 & S1).
  destruct (live_steps 9 l1 h1 _ L1 (B1 B0) S1) as (l2 & h2 & L2 & B2 & S2).
  assert (S3 : shows h2 (mkArch (AC a) (FC a) (FZ a) (Isa.B a) (C a) (D a) (E a) (PC a) (SP a)
     (fun i => if (0 <=? i) && (i <? 19) then nth (Z.to_nat i) (setup a) 0 else (fun _ => 0 mod 255) i) [])).
  { eapply shows_cong; [exact S2|]. eapply arch_eq_trans; [|apply (setup_runs a (fun _ => 0 mod 255) V)].
    apply steps_cong. unfold arch_eq; cbn [AC FC FZ Isa.B C D E PC SP M log]. repeat split; auto.
    intros i. change (0 + Z.of_nat 19) with 19. destruct ((0 <=? i) && (i <? 19)) eqn:Ei; auto. replace (i <? 19) with true by lia. reflexivity. }
  destruct (live_set_mems (M a) V8 (Z.to_nat 65536) 0 l2 h2 _ L2 S3 ltac:(lia) ltac:(lia)) as (l3 & h3 & L3 & B3 & S4).
  exists l3, h3. split; auto. split; auto.
  destruct S4 as (T1 & T2 & T3 & T4 & T5 & T6 & T7 & T8 & T9 & T10 & T11). cbn [AC FC FZ Isa.B C D E PC SP M log] in *.
  unfold shows. rewrite Hl. repeat split; auto.
  intros i Hi. rewrite (T10 i Hi). replace ((0 <=? i) && (i <? 0 + Z.of_nat (Z.to_nat 65536))) with true by lia. reflexivity.
Qed.

Theorem every_state_executes : forall a, valid a -> log a = [] -> exists h', executes a h'.
Proof.
  intros a V Hl. destruct (every_state_reachable a V Hl) as (l & h & L & Bd & S).
  destruct (instruction_exists l h true a (repeat true (Z.to_nat (cycles (M a (PC a)) (FC a) (FZ a)))) L Bd S) as (h' & I).
  { rewrite repeat_length. pose proof (cycles_bound (M a (PC a)) (FC a) (FZ a)). lia. }
  { discriminate. }
  exists h', l, h, true. eauto 8.
Qed.
