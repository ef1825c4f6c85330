(** * Sequences of instructions and the user-interface loops (proof layer) *)
From Coq Require Import ZArith List Bool Lia ZifyBool.
From Verif Require Import Word WordFacts Prog Tables Components Machine ZMachine ZWord ZRefine ZRefineB ZRefineC
  Rtl Micro Isa MicroIsa IsaOps Track Drive LinkedList PubSub Api HeapSim Lifecycle Usage ApiFacts Reach Front.
Import ListNotations.
Open Scope Z_scope.
Opaque trk.

(** ** n instructions *)
Lemma instructions_spec : forall n l h k a us h', live l h k -> boundary h -> shows h a -> instructions n h us h' ->
  Z.of_nat (length us) = total_cycles n a /\ shows h' (steps n a) /\ boundary h' /\ live (l ++ clocks us) h' k.
Proof.
  intros n l h k a us h' L Hb Hs I. revert l a L Hb Hs. induction I as [h|n h us h1 vs h' I1 I2 IH]; intros.
  - rewrite app_nil_r. cbn. auto.
  - destruct (instruction_spec l h k a us h1 L Hb Hs I1) as (E1 & E2 & E3 & E4).
    destruct (IH _ _ E4 E3 E2) as (F1 & F2 & F3 & F4).
    rewrite app_length, Nat2Z.inj_add, E1, F1. rewrite clocks_app, app_assoc. auto.
Qed.

Lemma repeat_false : forall n, ~ In true (repeat false n).
Proof. intros n H. apply repeat_spec in H. discriminate. Qed.

Lemma instructions_exist : forall n u l h k a, (u = true -> k = true) -> live l h k -> boundary h -> shows h a ->
  exists h', instructions n h (repeat u (Z.to_nat (total_cycles n a))) h'.
Proof.
  induction n; intros u l h k a Hu L Hb Hs.
  - exists h. constructor.
  - pose proof (cycles_bound (M a (PC a)) (FC a) (FZ a)) as CB.
    destruct (instruction_exists l h k a (repeat u (Z.to_nat (cycles (M a (PC a)) (FC a) (FZ a)))) L Hb Hs) as (h1 & I1).
    { rewrite repeat_length. lia. }
    { intros -> Hin. apply repeat_spec in Hin. subst. discriminate Hu; auto. }
    destruct (instruction_spec l h k a _ h1 L Hb Hs I1) as (E1 & E2 & E3 & E4).
    destruct (IHn u _ h1 k (step a) Hu E4 E3 E2) as (h' & I2).
    exists h'. cbn [total_cycles].
    assert (0 <= total_cycles n (step a)).
    { clear. generalize (step a). induction n; intros; cbn [total_cycles]; [lia|]. pose proof (cycles_bound (M a0 (PC a0)) (FC a0) (FZ a0)). specialize (IHn (step a0)). lia. }
    rewrite Z2Nat.inj_add by lia. rewrite repeat_app. econstructor; eauto.
Qed.

(** ** Every instruction, even one interrupted in the middle, completes *)
Lemma clocks_defined : forall us h z h1, up h z -> (ui h = false -> ~ In true us) -> run_calls (clocks us) h = Some h1 ->
  get_next_state h1 = Some (snd (usteps (length us) (view z, dpos z))).
Proof.
  intros us h z h1 U Hk E. destruct (clocks_up us h z U Hk) as (h' & z' & c' & q' & K1 & K2 & K3 & K4 & K5 & K6).
  rewrite E in K1. injection K1 as <-. rewrite K4. cbn. destruct (up_obs h1 z' K2) as (_ & _ & G). congruence.
Qed.

Lemma go_nil : forall n q ri fc fz, go n q ri fc fz = Some [] -> q = 0.
Proof.
  intros [|n] q ri fc fz; cbn [go]; [discriminate|]. destruct (Z.eqb_spec q 0); auto.
  destruct (go n (succ q ri fc fz) ri fc fz); discriminate.
Qed.

Lemma completes_at : forall z, inv z -> trk (dpos z) (rv z R_RI) = true ->
  exists n, (1 <= n <= 9)%nat /\ snd (usteps n (view z, dpos z)) = 0 /\ forall k, (0 < k < n)%nat -> snd (usteps k (view z, dpos z)) <> 0.
Proof.
  intros z I T. pose proof (zview_valid z (inv_rng z I)) as V.
  pose proof (cv_r _ V R_FC) as X2; pose proof (cv_r _ V R_FZ) as X3; pose proof (cv_r _ V R_PC) as X4; pose proof (cv_r _ V R_RI) as X1;
  cbn [rhi] in *.
  pose proof (cv_m _ V (reg (view z) R_PC) ltac:(lia)) as X5.
  destruct (Z.eq_dec (dpos z) 0) as [E|E].
  - rewrite E. pose proof (cycles_bound (mem (view z) (reg (view z) R_PC)) (reg (view z) R_FC =? 1) (reg (view z) R_FZ =? 1)) as CB.
    exists (Z.to_nat (cycles (mem (view z) (reg (view z) R_PC)) (reg (view z) R_FC =? 1) (reg (view z) R_FZ =? 1))).
    split; [lia|]. split.
    + destruct (path_some _ _ _ X5 X2 X3) as (l & Hl & Hn). rewrite <- Hn, Nat2Z.id.
      rewrite (usteps_path (view z) l V Hl). reflexivity.
    + intros k Hk. apply usteps_first; auto.
  - destruct (trk_go (dpos z) (rv z R_RI) (rv z R_FC) (rv z R_FZ) X2 X3 T) as (l & G).
    pose proof (go_length _ _ _ _ _ _ G) as Ll.
    exists (length l). split; [|split].
    + destruct l; [|cbn [length] in *; lia]. exfalso. apply E. exact (go_nil _ _ _ _ _ G).
    + rewrite (usteps_go 9 _ _ _ _ l (view z) G V eq_refl X2 X3 (inv_d z I)); [reflexivity|]. intros _. split; reflexivity.
    + intros k Hk. apply (usteps_go_ne 9 _ _ _ _ l (view z) G V eq_refl X2 X3 (inv_d z I)); [|lia]. intros _. split; reflexivity.
Qed.

Lemma completes : forall l h k, live l h k -> exists n, (1 <= n <= 9)%nat /\
  forall us, length us = n -> (k = false -> ~ In true us) -> exists h', instruction h us h'.
Proof.
  intros l h k L. destruct (live_up l h k L) as (Hu & z & U).
  destruct (completes_at z (up_inv _ _ U) (up_trk _ _ U)) as (n & H1 & H2 & H3).
  exists n. split; auto. intros us El Hk. rewrite <- Hu in Hk.
  destruct (clocks_up us h z U Hk) as (h' & z' & c' & q' & K1 & K2 & K3 & K4 & K5 & K6).
  exists h'. split; [exact K1|]. split; [intros ->; cbn in El; lia|]. split.
  - rewrite (clocks_defined us h z h' U Hk K1). rewrite El. congruence.
  - intros us1 us2 h1 -> N1 N2 E1 E0. rewrite (clocks_defined us1 h z h1 U) in E0; auto.
    + injection E0 as E0. revert E0. apply H3. rewrite app_length in El. destruct us1; [congruence|]. destruct us2; [congruence|]. cbn [length] in *. lia.
    + intros Hf Hin. apply (Hk Hf). apply in_or_app. auto.
Qed.

Lemma instruction_length_unique : forall h us vs h1 h2, instruction h us h1 -> instruction h vs h2 ->
  (forall u v : bool, In u us -> In v vs -> u = v) -> us = vs.
Proof.
  intros h us vs h1 h2 I1 I2 Hc.
  assert (P : forall us vs h1 h2, instruction h us h1 -> instruction h vs h2 -> (forall u v : bool, In u us -> In v vs -> u = v) ->
    (length us <= length vs)%nat -> us = vs).
  { clear. intros us vs h1 h2 (A1 & A2 & A3 & A4) (B1 & B2 & B3 & B4) Hc Hl.
    destruct us as [|u us0] eqn:Eu; [congruence|]. destruct vs as [|v vs0] eqn:Ev; [congruence|]. rewrite <- Eu, <- Ev in *.
    assert (Hu : us = repeat u (length us)).
    { apply Forall_eq_repeat. apply Forall_forall. intros x Hx. rewrite (Hc u v), (Hc x v); auto; rewrite ?Eu, ?Ev; cbn; auto. }
    assert (Hv : vs = repeat u (length vs)).
    { apply Forall_eq_repeat. apply Forall_forall. intros x Hx. apply Hc; auto. rewrite Eu; cbn; auto. }
    destruct (Nat.eq_dec (length us) (length vs)) as [E|E]; [rewrite Hu, Hv; congruence|exfalso].
    apply (B4 us (repeat u (length vs - length us)) h1); auto.
    - transitivity (repeat u (length us) ++ repeat u (length vs - length us)); [|congruence]. rewrite <- repeat_app. rewrite Hv at 1. f_equal. lia.
    - intros X. apply (f_equal (@length bool)) in X. rewrite repeat_length in X. cbn in X. lia. }
  destruct (Nat.le_ge_cases (length us) (length vs)) as [X|X].
  - eapply P; eauto.
  - symmetry. eapply P; eauto. intros u v Hu Hv. symmetry. apply Hc; auto.
Qed.

(** ** 'Run instruction' *)
Lemma instruction_cons : forall h u us h', us <> [] -> instruction h (u :: us) h' ->
  exists h1, api_run_clock_cycle u h = Some h1 /\ get_next_state h1 <> Some 0 /\ instruction h1 us h'.
Proof.
  intros h u us h' N (E1 & E2 & E3 & E4). rewrite run_clocks_cons in E1.
  destruct (api_run_clock_cycle u h) as [h1|] eqn:Ec; [|discriminate]. exists h1. split; auto. split.
  - apply (E4 [u] us h1); auto. discriminate. change (run_calls (clocks [u]) h) with (match api_run_clock_cycle u h with Some h' => Some h' | None => None end).
    rewrite Ec. reflexivity.
  - split; auto. split; auto. split; auto. intros us1 us2 h2 E N1 N2 R. apply (E4 (u :: us1) us2 h2); auto.
    + cbn. congruence.
    + discriminate.
    + rewrite run_clocks_cons, Ec. exact R.
Qed.

Lemma run_instruction_of : forall n h h' z, up h z -> instruction h (repeat true n) h' -> run_instruction h h'.
Proof.
  induction n as [|n IH]; intros h h' z U I. { destruct I as (_ & N & _). cbn in N. congruence. }
  cbn [repeat] in I. destruct n as [|n].
  - destruct I as (E1 & _ & E3 & _). rewrite run_clocks_cons in E1. destruct (api_run_clock_cycle true h) as [h1|] eqn:Ec; [|discriminate].
    injection E1 as ->. apply RI_break; auto.
  - destruct (instruction_cons h true (repeat true (S n)) h' ltac:(discriminate) I) as (h1 & E1 & E2 & I1).
    destruct (api_clock_up true h z U) as (h2 & z2 & F1 & U2 & _).
    { intros _. unfold api_run_clock_cycle in E1. destruct (clock_up h z U) as (h3 & z3 & G1 & _ & _ & G2 & _). rewrite G1 in E1. unfold call_update_ui in E1. rewrite G2 in E1. destruct (ui h); [auto|discriminate]. }
    rewrite E1 in F1. injection F1 as <-. destruct (up_obs h1 z2 U2) as (_ & _ & G).
    apply (RI_again h h1 h' (dpos z2)); auto. { intros X. apply E2. congruence. }
    apply (IH h1 h' z2 U2 I1).
Qed.

Lemma run_instruction_inv : forall h h', run_instruction h h' -> exists n, instruction h (repeat true n) h'.
Proof.
  induction 1 as [h h' E1 E2|h h1 h' q E1 E2 E3 R (n & I)].
  - exists 1%nat. split. { cbn [repeat]. rewrite run_clocks_cons. cbn [do_call] in E1. rewrite E1. reflexivity. }
    split; [discriminate|]. split; auto. intros us1 us2 h1 E N1 N2. destruct us1 as [|x us1]; [congruence|]. destruct us2; [congruence|].
    destruct us1; cbn in E; discriminate.
  - exists (S n). destruct I as (I1 & I2 & I3 & I4). cbn [do_call] in E1. cbn [repeat]. split. { rewrite run_clocks_cons, E1. exact I1. }
    split; [discriminate|]. split; auto. intros us1 us2 h2 E N1 N2 R2. destruct us1 as [|x us1]; [congruence|]. cbn in E. injection E as <- E.
    rewrite run_clocks_cons, E1 in R2. destruct us1 as [|x us1].
    + injection R2 as <-. congruence.
    + apply (I4 (x :: us1) us2 h2); auto. discriminate.
Qed.

(** ** 'Run program' *)
(** after the first clock of an instruction RI holds its opcode *)
Lemma usteps_RI : forall l n q ri fc fz s, go n q ri fc fz = Some l -> cvalid s -> reg s R_RI = ri ->
  0 <= fc <= 1 -> 0 <= fz <= 1 -> 0 <= q < 45 -> (q = 1 \/ q = 16 \/ q = 17 -> reg s R_FC = fc /\ reg s R_FZ = fz) ->
  forall k, (k <= length l)%nat -> reg (fst (usteps k (s, q))) R_RI = ri.
Proof.
  intros l n q ri fc fz s G V Hr Hfc Hfz Hq H1 k. induction k as [|k IH]; intros Hk; [exact Hr|].
  replace (S k) with (k + 1)%nat by lia. rewrite usteps_add.
  specialize (IH ltac:(lia)). pose proof (usteps_go_ne n q ri fc fz l s G V Hr Hfc Hfz Hq H1 k ltac:(lia)) as N.
  destruct (usteps k (s, q)) as [c d]. cbn [fst snd] in *. cbn [usteps]. rewrite ustep_eq. cbn [fst]. rewrite rtl_ri by exact N. exact IH.
Qed.

Lemma opcode_in_RI : forall s k, cvalid s ->
  (0 < k <= Z.to_nat (cycles (mem s (reg s R_PC)) (reg s R_FC =? 1)%Z (reg s R_FZ =? 1)%Z))%nat ->
  reg (fst (usteps k (s, 0))) R_RI = mem s (reg s R_PC).
Proof.
  intros s k V Hk. destruct (Nat.eq_dec k 1) as [->|N1].
  - cbn [usteps]. rewrite ustep_eq. cbn [fst]. apply rtl_0_facts.
  - induction k as [|k IH]; [lia|]. destruct (Nat.eq_dec k 1) as [->|N2].
    + replace 2%nat with (1 + 1)%nat by lia. rewrite usteps_add. cbn [usteps]. rewrite ustep_eq.
      pose proof (cv_r s V R_RI) as X1; pose proof (cv_r s V R_FC) as X2; pose proof (cv_r s V R_FZ) as X3; cbn in X1, X2, X3.
      rewrite succ_0 by lia. rewrite ustep_eq. cbn [fst]. rewrite rtl_ri by discriminate. apply rtl_0_facts.
    + specialize (IH ltac:(lia) ltac:(lia)).
      pose proof (usteps_first s k V ltac:(lia)) as N.
      replace (S k) with (k + 1)%nat by lia. rewrite usteps_add.
      destruct (usteps k (s, 0)) as [c d]. cbn [fst snd] in *. cbn [usteps]. rewrite ustep_eq. cbn [fst]. rewrite rtl_ri by exact N. exact IH.
Qed.

Lemma ri_after : forall h z a us h1, up h z -> boundary h -> shows h a -> (ui h = false -> ~ In true us) ->
  0 < Z.of_nat (length us) <= cycles (M a (PC a)) (FC a) (FZ a) ->
  run_calls (clocks us) h = Some h1 -> get_register_value R_RI h1 = Some (M a (PC a)).
Proof.
  intros h z0 a us h1 U0 Hb Hs Hk Hl E1. destruct (shows_obs h z0 a U0 Hs) as (z & U & A & _).
  pose proof (proj1 (up_boundary h z U) Hb) as (B1 & B2).
  pose proof (zview_valid z (inv_rng z (up_inv _ _ U))) as V.
  destruct (arch_fields _ _ A) as (F1 & F2 & F3).
  destruct (clocks_up us h z U Hk) as (h' & z' & c' & q' & K1 & K2 & K3 & K4 & K5 & K6).
  rewrite E1 in K1. injection K1 as <-.
  pose proof (opcode_in_RI (view z) (length us) V) as N. rewrite F1, F2, F3 in N. specialize (N ltac:(lia)).
  rewrite B1 in K4. rewrite K4 in N. cbn [fst] in N.
  destruct (up_obs h1 z' K2) as ((O & _) & _). rewrite O. f_equal. rewrite (reg_same _ _ R_RI K5). exact N.
Qed.

(** the loop as a function of a bound on its length *)
Fixpoint rp (f : nat) (u st : bool) (h : hstate) : option hstate :=
  match f with
  | O => None
  | S f => match api_run_clock_cycle u h with
           | None => None
           | Some h1 => if st then Some h1
                        else match get_register_value R_RI h1 with
                             | Some v => rp f u (v =? max_representable) h1
                             | None => None end
           end
  end.
Lemma rp_run : forall f u st h h', rp f u st h = Some h' -> run_program u st h h'.
Proof.
  induction f; intros u st h h' E; cbn [rp] in E; [discriminate|].
  destruct (api_run_clock_cycle u h) as [h1|] eqn:E1; [|discriminate]. destruct st.
  - injection E as ->. apply RP_break. exact E1.
  - destruct (get_register_value R_RI h1) as [v|] eqn:E2; [|discriminate]. apply (RP_again u h h1 h' v); auto.
Qed.
Lemma run_rp : forall u st h h', run_program u st h h' -> exists f, rp f u st h = Some h'.
Proof.
  induction 1 as [h h' E|h h1 h' v E1 E2 R (f & IH)].
  - exists 1%nat. cbn [rp do_call] in *. rewrite E. reflexivity.
  - exists (S f). cbn [rp do_call] in *. rewrite E1, E2. exact IH.
Qed.
Lemma rp_mono : forall f g u st h h', rp f u st h = Some h' -> (f <= g)%nat -> rp g u st h = Some h'.
Proof.
  induction f; intros g u st h h' E Hg; [discriminate|]. destruct g as [|g]; [lia|]. cbn [rp] in *.
  destruct (api_run_clock_cycle u h) as [h1|]; [|discriminate]. destruct st; auto.
  destruct (get_register_value R_RI h1) as [v|]; [|discriminate]. apply IHf; auto. lia.
Qed.
Lemma run_program_det : forall u st h h1 h2, run_program u st h h1 -> run_program u st h h2 -> h1 = h2.
Proof.
  intros u st h h1 h2 R1 R2. apply run_rp in R1, R2. destruct R1 as (f & R1), R2 as (g & R2).
  apply (rp_mono f (f + g)) in R1; [|lia]. apply (rp_mono g (f + g)) in R2; [|lia]. congruence.
Qed.

(** the loop passes over an instruction other than FIN *)
Lemma rp_skip : forall us h z a h1 u, up h z -> boundary h -> shows h a -> opcode a <> 255 ->
  us = repeat u (length us) ->
  Z.of_nat (length us) = cycles (M a (PC a)) (FC a) (FZ a) -> run_calls (clocks us) h = Some h1 ->
  forall f, rp (length us + f) u false h = rp f u false h1.
Proof.
  intros us h z a h1 u U Hb Hs Hop Hu Hl E f.
  pose proof (clocks_ui us h z h1 U E) as Hk.
  (* generalise to a suffix of the instruction *)
  assert (P : forall vs pre hm, us = pre ++ vs -> run_calls (clocks pre) h = Some hm -> run_calls (clocks vs) hm = Some h1 ->
     rp (length vs + f) u false hm = rp f u false h1).
  { induction vs as [|v vs IH]; intros pre hm Es E1 E2.
    - injection E2 as ->. reflexivity.
    - assert (Ev : v = u). { apply (repeat_spec (length us)). rewrite <- Hu, Es. apply in_or_app. cbn; auto. } subst v.
      rewrite run_clocks_cons in E2. destruct (api_run_clock_cycle u hm) as [h2|] eqn:E3; [|discriminate].
      assert (E4 : run_calls (clocks (pre ++ [u])) h = Some h2).
      { rewrite clocks_app, run_calls_app, E1, run_clocks_cons, E3. reflexivity. }
      assert (E5 : get_register_value R_RI h2 = Some (M a (PC a))).
      { apply (ri_after h z a (pre ++ [u]) h2 U Hb Hs); auto.
        - intros Hf Hin. apply (Hk Hf). rewrite Es. apply in_app_iff in Hin. apply in_or_app. destruct Hin as [Hin|[Hin|[]]]; cbn; auto.
        - rewrite Es in Hl. rewrite app_length in *. cbn [length] in *. lia. }
      change (length (u :: vs) + f)%nat with (S (length vs + f)). cbn [rp]. rewrite E3, E5.
      assert (Ef : (M a (PC a) =? max_representable) = false). { unfold opcode in Hop. change max_representable with 255. lia. }
      rewrite Ef. apply (IH (pre ++ [u]) h2); auto. rewrite <- app_assoc. exact Es. }
  apply (P us [] h); auto.
Qed.

(** the loop ends with FIN *)
Lemma rp_fin : forall us h z a h1 u, up h z -> boundary h -> shows h a -> opcode a = 255 ->
  us = repeat u (length us) ->
  Z.of_nat (length us) = cycles (M a (PC a)) (FC a) (FZ a) -> run_calls (clocks us) h = Some h1 ->
  forall f, rp (S (S f)) u false h = Some h1.
Proof.
  intros us h z a h1 u U Hb Hs Hop Hu Hl E f.
  pose proof (clocks_ui us h z h1 U E) as Hk.
  unfold opcode in Hop. rewrite Hop in Hl. change (cycles 255 (FC a) (FZ a)) with 2 in Hl.
  rewrite Hu in E, Hk. replace (length us) with 2%nat in E, Hk by lia. cbn [repeat] in E, Hk.
  rewrite run_clocks_cons in E. destruct (api_run_clock_cycle u h) as [h2|] eqn:E1; [|discriminate].
  rewrite run_clocks_cons in E. destruct (api_run_clock_cycle u h2) as [h3|] eqn:E2; [|discriminate]. injection E as ->.
  assert (E5 : get_register_value R_RI h2 = Some (M a (PC a))).
  { apply (ri_after h z a [u] h2 U Hb Hs); auto.
    - intros Hf Hin. apply (Hk Hf). cbn in *. tauto.
    - rewrite Hop. change (cycles 255 (FC a) (FZ a)) with 2. cbn. lia.
    - rewrite run_clocks_cons, E1. reflexivity. }
  rewrite Hop in E5. cbn [rp]. rewrite E1, E5. change (255 =? max_representable) with true. cbn [rp]. rewrite E2. reflexivity.
Qed.

Lemma instructions_one : forall u l h k a, (u = true -> k = true) -> live l h k -> boundary h -> shows h a ->
  exists us h1, us = repeat u (length us) /\ Z.of_nat (length us) = cycles (M a (PC a)) (FC a) (FZ a) /\ run_calls (clocks us) h = Some h1 /\
    shows h1 (step a) /\ boundary h1 /\ live (l ++ clocks us) h1 k.
Proof.
  intros u l h k a Hu L Hb Hs. pose proof (cycles_bound (M a (PC a)) (FC a) (FZ a)) as CB.
  destruct (instruction_exists l h k a (repeat u (Z.to_nat (cycles (M a (PC a)) (FC a) (FZ a)))) L Hb Hs) as (h1 & I1).
  { rewrite repeat_length. lia. }
  { intros -> Hin. apply repeat_spec in Hin. subst. discriminate Hu; auto. }
  destruct (instruction_spec l h k a _ h1 L Hb Hs I1) as (E1 & E2 & E3 & E4).
  eexists _, h1. split; [|split; [exact E1|split; [apply I1|auto]]]. rewrite repeat_length. reflexivity.
Qed.

Lemma run_program_stops : forall n u l h k a, (u = true -> k = true) -> live l h k -> boundary h -> shows h a ->
  opcode (steps n a) = 255 -> (forall m, (m < n)%nat -> opcode (steps m a) <> 255) ->
  exists h', run_program u false h h' /\ shows h' (steps (S n) a) /\ boundary h'.
Proof.
  induction n; intros u l h k a Hu L Hb Hs Hf Hn; destruct (live_up l h k L) as (_ & z & U);
  destruct (instructions_one u l h k a Hu L Hb Hs) as (us & h1 & E1 & E2 & E3 & E4 & E5 & E6).
  - exists h1. split; [|split; auto]. apply (rp_run 2). apply (rp_fin us h z a h1 u U Hb Hs Hf E1 E2 E3 0).
  - destruct (IHn u _ h1 k (step a) Hu E6 E5 E4 Hf) as (h' & R & S' & B').
    { intros m Hm. apply (Hn (S m)). lia. }
    exists h'. split; [|split; auto]. apply run_rp in R. destruct R as (f & R).
    apply (rp_run (length us + f)). rewrite (rp_skip us h z a h1 u U Hb Hs (Hn 0%nat ltac:(lia)) E1 E2 E3). exact R.
Qed.

Lemma run_program_only : forall u h h' l k a, run_program u false h h' -> (u = true -> k = true) -> live l h k -> boundary h -> shows h a ->
  exists n, opcode (steps n a) = 255 /\ (forall m, (m < n)%nat -> opcode (steps m a) <> 255) /\ shows h' (steps (S n) a) /\ boundary h'.
Proof.
  intros u h h' l k a R. apply run_rp in R. destruct R as (f & R). revert h l a R.
  induction f as [f IH] using (well_founded_induction lt_wf). intros h l a R Hu L Hb Hs.
  destruct (live_up l h k L) as (_ & z & U);
  destruct (instructions_one u l h k a Hu L Hb Hs) as (us & h1 & E1 & E2 & E3 & E4 & E5 & E6).
  destruct (Z.eq_dec (opcode a) 255) as [Ef|Ef].
  - exists 0%nat. apply (rp_mono f (S (S f))) in R; [|lia].
    rewrite (rp_fin us h z a h1 u U Hb Hs Ef E1 E2 E3) in R. injection R as <-.
    split; auto. split; [intros; lia|]. auto.
  - pose proof (rp_skip us h z a h1 u U Hb Hs Ef E1 E2 E3) as K. pose proof (cycles_bound (M a (PC a)) (FC a) (FZ a)) as CB.
    destruct (le_lt_dec f (length us)) as [X|X].
    + exfalso. apply (rp_mono f (length us + 0)) in R; [|lia]. rewrite K in R. discriminate R.
    + replace f with (length us + (f - length us))%nat in R by lia. rewrite K in R.
      destruct (IH (f - length us)%nat ltac:(lia) h1 _ (step a) R Hu E6 E5 E4) as (n & N1 & N2 & N3 & N4).
      exists (S n). split; auto. split; auto. intros [|m] Hm; [exact Ef|]. apply N2. lia.
Qed.
