(** * Theorems: the cycle time shown (C92) *)
From Coq Require Import ZArith QArith List Bool Lia ZifyBool.
From Verif Require Import Word Prog Isa Api Usage ApiFacts Front View Buttons Screen CycleTime PropsApi PropsButtons.
From Verif Require PropsLife.
Import ListNotations.
Open Scope list_scope.

(** ** Specification *)
(** The readings of the cycles run, in order. *)
Definition cycles (l : list done) : list readings := flat_map (fun d => match d with Ran r _ => [r] | Drawn => [] end) l.
(** Whether the page is drawn by it. *)
Definition draws (d : done) : bool := match d with Ran _ u => u | Drawn => true end.
(** The milliseconds the last cycle took. *)
Definition took (r : readings) : Q := (((r_end r - r_start r) # 1000000) * 1000)%Q.
Definition last_took (l : list done) : option Q := match rev (cycles l) with r :: _ => Some (took r) | [] => None end.

(** ** Proof *)
Definition wanted (l : list done) : Q := match last_took l with Some q => q | None => ((-1) * 1000)%Q end.
Definition tracks (s : tstate) : Prop :=
  cycle_time (time s) = match rev (cycles (history s)) with r :: _ => seconds r | [] => (-1)%Q end /\
  forall l1 d l2, history s = l1 ++ d :: l2 -> draws d = true -> existsb draws l2 = false -> last_cycle (time s) = wanted l1.

Lemma cycles_app : forall a b, cycles (a ++ b) = cycles a ++ cycles b.
Proof. intros a b. apply flat_map_app. Qed.
Lemma last_cycles : forall l r u, rev (cycles (l ++ [Ran r u])) = r :: rev (cycles l).
Proof. intros l r u. rewrite cycles_app. cbn. rewrite rev_app_distr. reflexivity. Qed.
Lemma last_draw : forall l d (P : list done -> Prop),
  (draws d = true -> P l) ->
  (draws d = false -> forall l1 d' l2, l = l1 ++ d' :: l2 -> draws d' = true -> existsb draws l2 = false -> P l1) ->
  forall l1 d' l2, l ++ [d] = l1 ++ d' :: l2 -> draws d' = true -> existsb draws l2 = false -> P l1.
Proof.
  intros l d P A B l1 d' l2 E D F. destruct (exists_last (l := d' :: l2) ltac:(discriminate)) as (k & x & K).
  rewrite K in E. rewrite app_assoc in E. apply app_inj_tail in E. destruct E as (E & ->).
  destruct l2 as [|y l2]; cbn in K.
  - destruct k as [|? k]; [|destruct k; discriminate]. injection K as ->. rewrite app_nil_r in E. subst l. auto.
  - destruct k as [|z k]; [discriminate|]. injection K as -> K. subst l.
    assert (X : existsb draws k = false /\ draws x = false).
    { assert (M : existsb draws (y :: l2) = false) by exact F. rewrite K, existsb_app in M. cbn in M. destruct (existsb draws k), (draws x); cbn in M; try discriminate; auto. }
    apply (B (proj2 X) l1 z k); tauto.
Qed.
Lemma tracks_event : forall a r e s, tracks s -> tracks (mkT a (time_cause r e (time s)) (history s ++ done_by r e)).
Proof.
  intros a r e s (H & D).
  assert (U : forall t', (if tells e then on_update (time s) else time s) = t' -> done_by r e = (if tells e then [Drawn] else []) ->
    tracks (mkT a t' (history s ++ done_by r e))).
  { intros t' <- ->. destruct (tells e).
    - split; cbn.
      + rewrite cycles_app. cbn. rewrite app_nil_r. exact H.
      + apply (last_draw (history s) Drawn (fun l1 => (cycle_time (time s) * 1000)%Q = wanted l1)); [|discriminate].
        intros _. unfold wanted, last_took. rewrite H. destruct (rev (cycles (history s))); reflexivity.
    - rewrite app_nil_r. split; assumption. }
  destruct e as [c| | |]; try (apply U; reflexivity).
  destruct c; try (apply U; reflexivity).
  split; cbn.
  - rewrite last_cycles. reflexivity.
  - apply (last_draw (history s) (Ran r update) (fun l1 => last_cycle (if update then on_update (time s) else time s) = wanted l1)); cbn; intros ->.
    + cbn. unfold wanted, last_took. rewrite H. destruct (rev (cycles (history s))); reflexivity.
    + exact D.
Qed.
Lemma tracks_events : forall l a r s, tracks s -> tracks (mkT a (fold_left (fun t e => time_cause r e t) l (time s)) (history s ++ flat_map (done_by r) l)).
Proof.
  induction l as [|e l IH]; intros a r s T; cbn [fold_left flat_map].
  - rewrite app_nil_r. exact T.
  - rewrite app_assoc. exact (IH a r (mkT a (time_cause r e (time s)) (history s ++ done_by r e)) (tracks_event a r e s T)).
Qed.
Lemma tracks_act : forall e s s', tracks s -> tact e s = Some s' -> tracks s'.
Proof.
  intros [u r|] s s' T E; cbn in E.
  - destruct (act u (at_ s)); [|discriminate]. injection E as <-. apply tracks_events. exact T.
  - assert (N : tracks (mkT (at_ s) (on_update (time s)) (history s ++ [Drawn]))) by exact (tracks_event (at_ s) (mkReadings 0 0) Notify s T).
    destruct (snd (at_ s)) as [[[[|]| |] g st]|]; injection E as <-; auto.
Qed.
Lemma tracks_acts : forall es s s', tracks s -> tacts es s = Some s' -> tracks s'.
Proof.
  induction es as [|e es IH]; intros s s' T E; cbn in E; [injection E as <-; exact T|].
  destruct (tact e s) eqn:A; [|discriminate]. eapply IH; [|exact E]. eapply tracks_act; eauto.
Qed.
Lemma tracks_open : forall h, tracks (topen h).
Proof. intros h. split; [reflexivity|]. intros l1 d l2 E. destruct l1; discriminate. Qed.
Lemma never_drawn_act : forall e s s', (existsb draws (history s) = false -> last_cycle (time s) = (-1)%Q) -> tact e s = Some s' ->
  existsb draws (history s') = false -> last_cycle (time s') = (-1)%Q.
Proof.
  assert (K : forall r e t l, (existsb draws l = false -> last_cycle t = (-1)%Q) -> existsb draws (l ++ done_by r e) = false -> last_cycle (time_cause r e t) = (-1)%Q).
  { intros r e t l I F. rewrite existsb_app in F. apply orb_false_elim in F. destruct F as (F & G).
    destruct e as [c| | |]; cbn in *; try discriminate; auto. destruct c; cbn in *; try discriminate; auto. destruct update; cbn in *; [discriminate|auto]. }
  intros [u r|] s s' I E F; cbn in E.
  - destruct (act u (at_ s)); [|discriminate]. injection E as <-. cbn in *. revert I F. generalize (time s) as t, (history s) as hs.
    induction (causes u (snd (at_ s))) as [|e l IH]; intros t hs I F; cbn in *; [rewrite app_nil_r in F; auto|].
    rewrite app_assoc in F. apply (IH _ (hs ++ done_by r e)); [|exact F]. intros X. exact (K r e t hs I X).
  - destruct (snd (at_ s)) as [[[[|]| |] g st]|]; injection E as <-; cbn in F; try rewrite existsb_app in F; cbn in F; try rewrite orb_true_r in F; try discriminate; auto.
Qed.

(** ** Theorems *)
(** The page drawn after the cycle was over - at the end of an immediate run, by Save, by a
    new PC - shows the milliseconds the last cycle took. *)
Theorem C92_exact : forall h es s l1 l2 q, tacts es (topen h) = Some s -> history s = l1 ++ Drawn :: l2 -> existsb draws l2 = false ->
  last_took l1 = Some q -> bar_text (time s) = q.
Proof.
  intros h es s l1 l2 q E H F L. destruct (tracks_acts es _ s (tracks_open h) E) as (_ & D).
  unfold bar_text. rewrite (D l1 Drawn l2 H eq_refl F). unfold wanted. rewrite L. reflexivity.
Qed.
(** When the page is drawn by the cycle itself, the time shown is that of the cycle before:
    minus one second when there is none. *)
Theorem C92_late : forall h es s l1 r l2, tacts es (topen h) = Some s -> history s = l1 ++ Ran r true :: l2 -> existsb draws l2 = false ->
  bar_text (time s) = match last_took l1 with Some q => q | None => ((-1) * 1000)%Q end.
Proof.
  intros h es s l1 r l2 E H F. destruct (tracks_acts es _ s (tracks_open h) E) as (_ & D). exact (D l1 (Ran r true) l2 H eq_refl F).
Qed.
(** Before anything is drawn: -1, without a tooltip. *)
Theorem C92_fresh : forall h es s, tacts es (topen h) = Some s -> existsb draws (history s) = false -> bar_text (time s) = (-1)%Q /\ tooltip (time s) = None.
Proof.
  intros h es s E F. assert (B : last_cycle (time s) = (-1)%Q).
  { assert (G : forall es s0 s, (existsb draws (history s0) = false -> last_cycle (time s0) = (-1)%Q) -> tacts es s0 = Some s -> existsb draws (history s) = false -> last_cycle (time s) = (-1)%Q).
    { clear. induction es as [|e es IH]; intros s0 s I E; cbn in E; [injection E as <-; exact I|]. destruct (tact e s0) as [s1|] eqn:A; [|discriminate].
      apply (IH s1 s); [|exact E]. intros X. exact (never_drawn_act e s0 s1 I A X). }
    exact (G es (topen h) s (fun _ => eq_refl) E F). }
  split; [exact B|]. unfold tooltip. rewrite B. reflexivity.
Qed.
(** The history is that of the core: its cycles are the clock cycles the core was made to
    run, in order, and the core is what those calls make of it. *)
Definition call_of (e : event) : list call := match e with Call c => [c] | _ => [] end.
Lemma act_calls : forall u h lo h' lo', act u (h, lo) = Some (h', lo') -> run_calls (flat_map call_of (causes u lo)) h = Some h'.
Proof.
  assert (I : forall k st h h' lo', iterate k st h = Some (h', lo') -> k <> Starting ->
    do_call (RunClock (match k with Program im => negb im | _ => true end)) h = Some h').
  { intros [im| |] st h h' lo' E N; cbn [iterate] in E; try congruence.
    - destruct (do_call (RunClock (negb im)) h) as [h1|]; [|discriminate]. destruct st; [congruence|].
      destruct (get_register_value R_RI h1); [congruence|discriminate].
    - destruct (do_call (RunClock true) h) as [h1|]; [|discriminate]. destruct (get_next_state h1); [congruence|discriminate]. }
  assert (O : forall c h h', do_call c h = Some h' -> run_calls [c] h = Some h') by (intros c h h' E; cbn [run_calls]; rewrite E; reflexivity).
  intros u h lo h' lo' E.
  destruct u as [im| | | | |bytes|x].
  - destruct lo; [destruct im; cbn in E |- *; congruence|]. destruct im; cbn [act] in E.
    + cbn. congruence.
    + apply (O (RunClock true)). exact (I (Program false) false h h' lo' E ltac:(discriminate)).
  - destruct lo; [cbn in E |- *; congruence|]. apply (O (RunClock true)). exact (I Instruction false h h' lo' E ltac:(discriminate)).
  - destruct lo; [cbn in E |- *; congruence|]. apply (O (RunClock true)). cbn [act] in E. destruct (do_call (RunClock true) h); congruence.
  - destruct lo as [[k g st]|]; [|cbn in E |- *; congruence]. cbn [act going lkind stoping] in E.
    destruct g; [|destruct k as [[|]| |]; cbn; congruence].
    destruct k as [im| |].
    + apply (I (Program im)) in E; [|discriminate]. destruct im, st; cbn [causes negb andb flat_map call_of app]; apply O; exact E.
    + apply (I Instruction) in E; [|discriminate]. apply O. exact E.
    + assert (E2 : iterate (Program true) st h = Some (h', lo')) by exact E. apply (I (Program true)) in E2; [|discriminate]. apply O. exact E2.
  - destruct lo as [[[im| |] g st]|]; cbn in E |- *; congruence.
  - assert (F : flat_map call_of (causes (Save bytes) lo) = ResetControl :: store_from 0 bytes).
    { destruct lo; cbn [causes flat_map call_of app]; f_equal; rewrite flat_map_concat_map, map_map; cbn; induction (store_from 0 bytes) as [|c0 l0 IH0]; cbn; congruence. }
    rewrite F. assert (E2 : match save_to_memory 0 bytes h with Some h1 => Some (h1, lo) | None => None end = Some (h', lo')) by (destruct lo; exact E).
    unfold save_to_memory in E2. destruct (run_calls _ h); congruence.
  - assert (E2 : match do_call (SetPc x) h with Some h1 => Some (h1, lo) | None => None end = Some (h', lo')) by (destruct lo; exact E).
    assert (F : flat_map call_of (causes (SetPcTo x) lo) = [SetPc x]) by (destruct lo; reflexivity).
    rewrite F. apply O. destruct (do_call (SetPc x) h); congruence.
Qed.
Definition cycle_calls (l : list call) : list bool := flat_map (fun c => match c with RunClock u => [u] | _ => [] end) l.
Definition cycles_drawn (l : list done) : list bool := flat_map (fun d => match d with Ran _ u => [u] | Drawn => [] end) l.
Theorem C92_history : forall h es s, tacts es (topen h) = Some s -> exists cs, run_calls cs h = Some (fst (at_ s)) /\ cycle_calls cs = cycles_drawn (history s).
Proof.
  intros h. assert (G : forall es s0 s cs0, run_calls cs0 h = Some (fst (at_ s0)) -> cycle_calls cs0 = cycles_drawn (history s0) -> tacts es s0 = Some s ->
    exists cs, run_calls cs h = Some (fst (at_ s)) /\ cycle_calls cs = cycles_drawn (history s)).
  { assert (A : forall a b x, run_calls (a ++ b) x = match run_calls a x with Some y => run_calls b y | None => None end).
    { induction a as [|c a IH]; intros b x; [reflexivity|]. cbn [run_calls app]. destruct (do_call c x); auto. }
    induction es as [|e es IH]; intros s0 s cs0 R C E; cbn [tacts] in E; [injection E as <-; eauto|].
    destruct (tact e s0) as [s1|] eqn:T; [|discriminate].
    destruct e as [u r|]; cbn [tact] in T.
    - destruct (at_ s0) as [h0 lo] eqn:Q. cbn [fst snd] in *. destruct (act u (h0, lo)) as [[h1 lo1]|] eqn:B; [|discriminate]. injection T as <-.
      apply act_calls in B. refine (IH _ s (cs0 ++ flat_map call_of (causes u lo)) _ _ E).
      + rewrite A, R. exact B.
      + cbn [history]. unfold cycle_calls, cycles_drawn in *. rewrite !flat_map_app, C. f_equal.
        clear. induction (causes u lo) as [|e l IHl]; [reflexivity|]. cbn [flat_map]. rewrite !flat_map_app, IHl. clear. f_equal. all: try reflexivity.
        destruct e as [c| | |]; try reflexivity. destruct c; reflexivity.
    - refine (IH s1 s cs0 _ _ E); destruct (snd (at_ s0)) as [[[[|]| |] g st]|]; injection T as <-; try assumption.
      cbn [history]. unfold cycles_drawn in *. rewrite flat_map_app, C. cbn. rewrite app_nil_r. reflexivity. }
  intros es s E. exact (G es (topen h) s [] eq_refl eq_refl E).
Qed.

Lemma tacts_app : forall a b s, tacts (a ++ b) s = match tacts a s with Some s' => tacts b s' | None => None end.
Proof. induction a as [|e a IH]; intros b s; [reflexivity|]. cbn. destruct (tact e s); auto. Qed.

(** Every press of "run state": the bar shows what the cycle before took. *)
Theorem C92_state : forall h es s r s', tacts es (topen h) = Some s -> snd (at_ s) = None -> tact (TUser PressState r) s = Some s' ->
  history s' = history s ++ [Ran r true] /\ bar_text (time s') = match last_took (history s) with Some q => q | None => ((-1) * 1000)%Q end.
Proof.
  intros h es s r s' E N T. assert (H : history s' = history s ++ [Ran r true]).
  { cbn [tact] in T. rewrite N in T. destruct (act PressState (at_ s)); [|discriminate]. injection T as <-. reflexivity. }
  split; [exact H|]. apply (C92_late h (es ++ [TUser PressState r]) s' (history s) r []); [|exact H|reflexivity].
  rewrite tacts_app, E. cbn [tacts]. rewrite T. reflexivity.
Qed.
(** An immediate run that ends: the bar shows what its last cycle took. *)
Theorem C92_immediate : forall h es s g st r s' q, tacts es (topen h) = Some s -> snd (at_ s) = Some (mkLoop (Program true) g st) ->
  tact (TUser Wake r) s = Some s' -> snd (at_ s') = None -> last_took (history s') = Some q -> bar_text (time s') = q.
Proof.
  intros h es s g st r s' q E N T M L.
  assert (H : exists l1, history s' = l1 ++ [Drawn]).
  { cbn [tact] in T. destruct (at_ s) as [h0 lo]. cbn [snd] in N. subst lo. cbn [snd] in T.
    destruct (act Wake (h0, Some (mkLoop (Program true) g st))) as [[h1 lo1]|] eqn:A; [|discriminate]. injection T as <-. cbn in M. subst lo1.
    destruct g.
    - assert (st = true) as ->.
      { cbn [act going lkind stoping iterate negb] in A. destruct (do_call (RunClock false) h0) as [x|]; [|discriminate]. destruct st; [reflexivity|]. destruct (get_register_value R_RI x); discriminate. }
      exists (history s ++ [Ran r false]). cbn. rewrite <- app_assoc. reflexivity.
    - exists (history s). reflexivity. }
  destruct H as (l1 & H). apply (C92_exact h (es ++ [TUser Wake r]) s' l1 []); auto.
  - rewrite tacts_app, E. cbn [tacts]. rewrite T. reflexivity.
  - rewrite <- L, H. unfold last_took. rewrite cycles_app. cbn. rewrite app_nil_r. reflexivity.
Qed.
(** The claim of the tooltip ("it took ... to complete the last clock cycle") fails at the first cycle. *)
Theorem C92_refuted : forall l h r, live l h true -> exists s, tacts [TUser PressState r] (topen h) = Some s /\ last_took (history s) = Some (took r) /\
  tooltip (time s) = Some ((-1) * 1000)%Q.
Proof.
  intros l h r L. destruct (live_clock l h true L) as (h' & E & _). eexists. cbn [tacts tact topen at_ snd]. cbn [act]. rewrite E. split; [reflexivity|]. split; reflexivity.
Qed.
(** A page on which both an exact and a late time are shown. *)
Example C92_nonvacuous : forall r1 r2, exists l h s s', live l h true /\
  tacts [TUser PressState r1; TUser PressState r2] (topen h) = Some s /\ bar_text (time s) = took r1 /\
  tacts [TUser PressState r1; TUser PressState r2; TUser (SetPcTo 5) r2] (topen h) = Some s' /\ bar_text (time s') = took r2.
Proof.
  intros r1 r2. destruct PropsLife.stale_live as (l & h & z & L & _). destruct (live_clock l h true L) as (h1 & E1 & L1). destruct (live_clock _ h1 true L1) as (h2 & E2 & L2).
  destruct (C62_safe [SetPcTo 5] _ h2 None L2 ltac:(repeat constructor; lia)) as (h3 & lo & l3 & E3 & _).
  cbn [acts act] in E3. destruct (do_call (SetPc 5) h2) as [x|] eqn:D; [|discriminate].
  assert (P : forall h h' t hs r, do_call (RunClock true) h = Some h' ->
    tact (TUser PressState r) (mkT (h, None) t hs) = Some (mkT (h', None) (time_cause r (Call (RunClock true)) t) (hs ++ [Ran r true]))).
  { intros a b t hs r E. cbn [tact at_ snd act]. rewrite E. reflexivity. }
  assert (K : forall h h' t hs r, do_call (SetPc 5) h = Some h' ->
    tact (TUser (SetPcTo 5) r) (mkT (h, None) t hs) = Some (mkT (h', None) (time_cause r (Call (SetPc 5)) t) (hs ++ [Drawn]))).
  { intros a b t hs r E. cbn [tact at_ snd act]. rewrite E. reflexivity. }
  exists l, h. do 2 eexists. split; [exact L|]. cbn [tacts]. unfold topen. rewrite (P _ _ _ _ _ E1), (P _ _ _ _ _ E2). split; [reflexivity|]. split; [reflexivity|].
  rewrite (K _ _ _ _ _ D). split; reflexivity.
Qed.
Print Assumptions C92_exact.
Print Assumptions C92_late.
Print Assumptions C92_fresh.
Print Assumptions C92_history.
Print Assumptions C92_state.
Print Assumptions C92_immediate.
Print Assumptions C92_refuted.
Print Assumptions C92_nonvacuous.
