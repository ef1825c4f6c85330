(** * Theorems: the run buttons, in every order and with every interruption (C62) *)
From Coq Require Import ZArith List Bool Lia ZifyBool.
From Verif Require Import Word WordFacts Prog Tables Components Machine ZMachine ZWord ZRefine ZRefineB ZRefineC
  Rtl Micro Isa MicroIsa IsaOps Track Drive LinkedList PubSub Api HeapSim Lifecycle Usage ApiFacts Reach Front Runs Buttons.
From Verif Require PropsApi PropsLife PropsRun.
Import ListNotations.
Open Scope Z_scope.
Opaque trk.

(** What the user may do: any button; saving bytes that fit in memory; setting PC
    to an address. *)
Inductive user_event : uevent -> Prop :=
| UE_program : forall im, user_event (PressProgram im)
| UE_instruction : user_event PressInstruction
| UE_state : user_event PressState
| UE_wake : user_event Wake
| UE_stop : user_event PressStop
| UE_save : forall bytes, Z.of_nat (length bytes) <= 65536 -> (forall b, In b bytes -> 0 <= b <= 255) -> user_event (Save bytes)
| UE_pc : forall x, 0 <= x <= 65535 -> user_event (SetPcTo x).
(** ... and what does not touch memory or PC. *)
Definition button (e : uevent) : bool := match e with Save _ | SetPcTo _ => false | _ => true end.

Lemma live_clock : forall l h u, live l h true -> exists h', do_call (RunClock u) h = Some h' /\ live (l ++ [RunClock u]) h' true.
Proof.
  intros l h u (P & E). assert (P' : proper (l ++ [RunClock u]) (mkUse true true)) by (econstructor; [exact P|constructor; auto]).
  destruct (PropsApi.C17_defined _ _ P') as (h' & E'). exists h'. split; [|split; auto].
  rewrite run_calls_app, E in E'. cbn [run_calls] in E'. destruct (do_call (RunClock u) h); congruence.
Qed.
(** with a callback, its argument makes no difference to the machine *)
Lemma clock_same : forall l h u, live l h true -> do_call (RunClock u) h = do_call (RunClock true) h.
Proof.
  intros l h u L. destruct u; [reflexivity|]. destruct (live_clock l h true L) as (h1 & E1 & _). rewrite E1. cbn [do_call] in *.
  unfold api_run_clock_cycle in *. destruct (run_cu_clock_cycle h) as [h2|]; [|discriminate]. unfold call_update_ui in E1. destruct (ui h2); congruence.
Qed.
Lemma iterate_ok : forall l h k st, live l h true -> exists h1 lo, iterate k st h = Some (h1, lo) /\ do_call (RunClock true) h = Some h1 /\ live (l ++ [RunClock true]) h1 true.
Proof.
  intros l h k st L. destruct (live_clock l h true L) as (h1 & E1 & L1).
  assert (K : forall im, exists lo, iterate (Program im) st h = Some (h1, lo)).
  { intros im. cbn [iterate]. rewrite (clock_same l h (negb im) L), E1. destruct st; [eauto|].
    destruct (PropsApi.C17_getters_defined _ h1 true L1) as (A1 & _). destruct (get_register_value R_RI h1) eqn:Er; [eauto|exfalso; exact (A1 R_RI Er)]. }
  destruct k as [im| |].
  - destruct (K im) as (lo & E). exists h1, lo. auto.
  - unfold iterate. rewrite E1. destruct (PropsApi.C15_microstates _ h1 true L1) as (q & n & _ & _ & N & _). rewrite N. eauto.
  - destruct (K true) as (lo & E). exists h1, lo. auto.
Qed.
Lemma act_ok : forall l h lo e, live l h true -> user_event e -> exists h' lo' l', act e (h, lo) = Some (h', lo') /\ live l' h' true /\
  (button e = true -> h' = h \/ do_call (RunClock true) h = Some h').
Proof.
  intros l h lo e L U.
  assert (Skip : exists h' lo' l', Some (h, lo) = Some (h', lo') /\ live l' h' true /\ (button e = true -> h' = h \/ do_call (RunClock true) h = Some h')) by eauto 8.
  destruct (live_clock l h true L) as (hc & Ec & Lc).
  destruct U; cbn [act]; destruct lo as [lp|]; try exact Skip.
  - destruct im; exact Skip.
  - destruct im; [eauto 8|]. destruct (iterate_ok l h (Program false) false L) as (h1 & lo & E & E1 & L1). rewrite E. eauto 8.
  - destruct (iterate_ok l h Instruction false L) as (h1 & lo & E & E1 & L1). rewrite E. eauto 8.
  - rewrite Ec. eauto 8.
  - destruct (going lp); [|eauto 8]. destruct (iterate_ok l h (lkind lp) (stoping lp) L) as (h1 & lo & E & E1 & L1). rewrite E. eauto 8.
  - destruct lp as [[im| |] g st]; eauto 8.
  - destruct (live_up l h true L) as (_ & z & U). destruct (up_obs h z U) as (O & _).
    destruct (PropsLife.C42_save bytes l h 0 _ L O ltac:(lia) ltac:(lia) H0) as (h' & E & L' & _). rewrite E. exists h', (Some lp). eexists. split; [reflexivity|]. split; [exact L'|discriminate].
  - destruct (live_up l h true L) as (_ & z & U). destruct (up_obs h z U) as (O & _).
    destruct (PropsLife.C42_save bytes l h 0 _ L O ltac:(lia) ltac:(lia) H0) as (h' & E & L' & _). rewrite E. exists h', None. eexists. split; [reflexivity|]. split; [exact L'|discriminate].
  - assert (P : proper (l ++ [SetPc x]) (mkUse true true)) by (destruct L; econstructor; [eassumption|constructor; auto]).
    destruct (PropsApi.C17_defined _ _ P) as (h' & E). assert (L' : live (l ++ [SetPc x]) h' true) by (split; auto).
    rewrite run_calls_app, (proj2 L) in E. cbn [run_calls] in E. destruct (do_call (SetPc x) h) as [h2|]; [|discriminate E]. injection E as ->.
    exists h', (Some lp). eexists. split; [reflexivity|]. split; [exact L'|discriminate].
  - assert (P : proper (l ++ [SetPc x]) (mkUse true true)) by (destruct L; econstructor; [eassumption|constructor; auto]).
    destruct (PropsApi.C17_defined _ _ P) as (h' & E). assert (L' : live (l ++ [SetPc x]) h' true) by (split; auto).
    rewrite run_calls_app, (proj2 L) in E. cbn [run_calls] in E. destruct (do_call (SetPc x) h) as [h2|]; [|discriminate E]. injection E as ->.
    exists h', None. eexists. split; [reflexivity|]. split; [exact L'|discriminate].
Qed.
(** Whatever the user does, in whatever order and at whatever moment, is defined,
    and leaves the core in a state reached by allowed calls. *)
Theorem C62_safe : forall es l h lo, live l h true -> Forall user_event es -> exists h' lo' l', acts es (h, lo) = Some (h', lo') /\ live l' h' true.
Proof.
  induction es as [|e es IH]; intros l h lo L F; [exists h, lo, l; auto|]. inversion F as [|? ? F1 F2]; subst.
  destruct (act_ok l h lo e L F1) as (h1 & lo1 & l1 & E1 & L1 & _). destruct (IH l1 h1 lo1 L1 F2) as (h' & lo' & l' & E' & L').
  exists h', lo', l'. cbn [acts]. rewrite E1. auto.
Qed.

(** The buttons can only take the machine forward along its one run. *)
Definition cycles_from (n : nat) (h h' : hstate) : Prop := run_calls (clocks (repeat true n)) h = Some h'.
Theorem C62_forward : forall es l h lo h' lo', live l h true -> forallb button es = true -> acts es (h, lo) = Some (h', lo') ->
  exists n, (n <= length es)%nat /\ cycles_from n h h'.
Proof.
  induction es as [|e es IH]; intros l h lo h' lo' L F E.
  - injection E as <- <-. exists 0%nat. split; [auto|reflexivity].
  - cbn [forallb] in F. apply andb_prop in F as (F1 & F2). cbn [acts] in E.
    assert (U : user_event e) by (destruct e; try discriminate F1; constructor).
    destruct (act_ok l h lo e L U) as (h1 & lo1 & l1 & E1 & L1 & H1). rewrite E1 in E.
    destruct (IH l1 h1 lo1 h' lo' L1 F2 E) as (n & Hn & R). destruct (H1 F1) as [->|Ec].
    + exists n. split; [cbn [length]; lia|exact R].
    + exists (S n). split; [cbn [length]; lia|]. unfold cycles_from. cbn [repeat clocks map run_calls]. rewrite Ec. exact R.
Qed.
Lemma clocks_repeat_app : forall n m h, run_calls (clocks (repeat true (n + m))) h = match run_calls (clocks (repeat true n)) h with Some h1 => run_calls (clocks (repeat true m)) h1 | None => None end.
Proof. intros n m h. rewrite repeat_app, clocks_app, run_calls_app. reflexivity. Qed.
(** So whenever the machine is between two instructions it shows what the program
    computes in some number of instructions, however the buttons were pressed. *)
Theorem C62_steps : forall es l h a lo h' lo', live l h true -> boundary h -> shows h a -> forallb button es = true ->
  acts es (h, lo) = Some (h', lo') -> get_next_state h' = Some 0 -> exists m, (m <= length es)%nat /\ shows h' (steps m a) /\ boundary h'.
Proof.
  intros es l h a lo h' lo' L Hb Hs F E N. destruct (C62_forward es l h lo h' lo' L F E) as (n & Hn & R). 
  enough (exists m, (m <= n)%nat /\ shows h' (steps m a) /\ boundary h') as (m & Hm & X) by (exists m; split; [lia|exact X]). clear es lo lo' F E Hn.
  revert l h a L Hb Hs R. induction n as [n IH] using (well_founded_induction lt_wf). intros l h a L Hb Hs R.
  destruct n as [|n]. { injection R as <-. exists 0%nat. auto. }
  destruct (instructions_one true l h true a ltac:(auto) L Hb Hs) as (us & h1 & E1 & E2 & E3 & E4 & E5 & E6).
  pose proof (cycles_bound (M a (PC a)) (FC a) (FZ a)) as CB.
  assert (I : instruction h us h1).
  { destruct (instruction_exists l h true a us L Hb Hs E2 ltac:(discriminate)) as (h2 & I). destruct I as (I1 & I). assert (h2 = h1) by congruence. subst h2. split; auto. }
  destruct (le_lt_dec (length us) (S n)) as [Hl|Hl].
  - unfold cycles_from in R. replace (S n) with (length us + (S n - length us))%nat in R by lia. rewrite clocks_repeat_app, <- E1, E3 in R.
    destruct (IH (S n - length us)%nat ltac:(lia) _ h1 (step a) E6 E5 E4 R) as (m & Hm & X). exists (S m). split; [lia|exact X].
  - exfalso. destruct I as (_ & _ & _ & I). apply (I (repeat true (S n)) (repeat true (length us - S n)) h'); auto.
    + rewrite <- repeat_app. rewrite E1 at 1. f_equal. lia.
    + discriminate.
    + intros X. apply (f_equal (@length bool)) in X. rewrite repeat_length in X. cbn in X. lia.
Qed.

(** Stop: no further cycle, once the loop has begun. *)
Definition begun (lo : option loop) : Prop := match lo with Some l => lkind l <> Starting | None => False end.
Theorem C62_stop : forall h lo n, begun lo -> acts (PressStop :: repeat Wake (S n)) (h, lo) = Some (h, None).
Proof.
  assert (W : forall n h, acts (repeat Wake n) (h, None) = Some (h, None)) by (induction n; intros h; [reflexivity|apply IHn]).
  intros h [[[im| |] g st]|] n B; [| |exfalso; apply B; reflexivity|destruct B]; exact (W n h).
Qed.
(** In immediate mode the loop begins only after the notification is drawn; Stop
    pressed before that, however often, is forgotten: the program runs. *)
Theorem C62_stop_refuted : forall l h k, live l h true -> exists h1,
  acts ([PressProgram true] ++ repeat PressStop k ++ [Wake]) (h, None) = acts [PressProgram true; Wake] (h, None) /\
  option_map fst (acts [PressProgram true; Wake] (h, None)) = Some h1 /\ do_call (RunClock true) h = Some h1.
Proof.
  intros l h k L. destruct (iterate_ok l h Starting false L) as (h1 & lo & E & E1 & _). exists h1. split; [|split; [|exact E1]].
  - cbn [app acts act]. induction k as [|k IH]; [reflexivity|exact IH].
  - cbn [acts act going lkind stoping]. rewrite E. reflexivity.
Qed.
(** After Stop, "run instruction" finishes the interrupted instruction. *)
Lemma instruction_loop : forall h h', run_instruction h h' -> exists k, forall m, (k <= m)%nat ->
  match iterate Instruction false h with Some s => acts (repeat Wake m) s | None => None end = Some (h', None).
Proof.
  induction 1 as [h h' Ec N|h h1 h' q Ec N Nq R (k & IH)].
  - exists 0%nat. intros m _. unfold iterate. rewrite Ec, N. cbn. induction m; [reflexivity|exact IHm].
  - exists (S k). intros m Hm. unfold iterate at 1. rewrite Ec, N. destruct (Z.eqb_spec q 0); [congruence|]. destruct m; [lia|]. cbn [repeat acts act going lkind stoping].
    specialize (IH m ltac:(lia)). destruct (iterate Instruction false h1) as [[]|]; exact IH.
Qed.
Theorem C62_finish : forall l h lo, live l h true -> lo = None \/ begun lo -> exists h', (exists k, forall m, (k <= m)%nat ->
    acts ([PressStop; Wake; PressInstruction] ++ repeat Wake m) (h, lo) = Some (h', None)) /\ get_next_state h' = Some 0 /\
    exists n, (1 <= n <= 9)%nat /\ instruction h (repeat true n) h'.
Proof.
  intros l h lo L Lo. destruct (PropsRun.C40_ends l h L) as (h' & R). exists h'. destruct (PropsRun.C40_completes l h h' L R) as (N & K).
  split; [|auto]. destruct (instruction_loop h h' R) as (k & Hk). exists k. intros m Hm. specialize (Hk m Hm).
  assert (E : acts ([PressStop; Wake; PressInstruction] ++ repeat Wake m) (h, lo) = match iterate Instruction false h with Some s => acts (repeat Wake m) s | None => None end).
  { cbn [app acts]. destruct Lo as [->|B]; [reflexivity|]. destruct lo as [[[im| |] g st]|]; [reflexivity|reflexivity|exfalso; exact (B eq_refl)|destruct B]. }
  rewrite E. exact Hk.
Qed.

(** ** Stop and resume *)
(** [unfinished s s']: any buttons were pressed, the loop was left to run and
    stopped at will, but no cycle ended with FIN in the instruction register. *)
Inductive unfinished (s : ustate) : ustate -> Prop :=
| Un_none : unfinished s s
| Un_more : forall s1 s2 e, unfinished s s1 -> button e = true -> act e s1 = Some s2 ->
    fst s2 = fst s1 \/ get_register_value R_RI (fst s2) <> Some 255 -> unfinished s s2.
Lemma unfinished_run : forall l h lo h' s, live l h true -> run_program true false h h' -> unfinished (h, lo) s ->
  run_program true false (fst s) h' /\ exists l', live l' (fst s) true.
Proof.
  intros l h lo h' s L R U. induction U as [|s1 s2 e U (IH & l1 & L1) B E N]; [eauto|].
  destruct s1 as (h1 & lo1). cbn [fst] in *. assert (UE : user_event e) by (destruct e; try discriminate B; constructor).
  destruct (act_ok l1 h1 lo1 e L1 UE) as (h2 & lo2 & l2 & E2 & L2 & H2). rewrite E2 in E. injection E as <-. cbn [fst] in *.
  split; [|eauto]. destruct (H2 B) as [->|Ec]; [exact IH|]. destruct N as [->|N]; [exact IH|].
  inversion IH as [|? h3 ? v Ec' Ev R']; subst. assert (h3 = h2) by congruence. subst h3.
  replace (v =? max_representable) with false in R'; [exact R'|]. change max_representable with 255. symmetry. apply Z.eqb_neq. intros ->. contradiction.
Qed.
Lemma wakes_idle : forall m h, acts (repeat Wake m) (h, None) = Some (h, None).
Proof. induction m; intros h; [reflexivity|]. cbn. apply IHm. Qed.
Lemma program_loop : forall im st h h', run_program true st h h' -> forall l, live l h true -> exists k, forall m, (k <= m)%nat ->
  match iterate (Program im) st h with Some s => acts (repeat Wake m) s | None => None end = Some (h', None).
Proof.
  intros im st h h' R. induction R as [h h' Ec|h h1 h' v Ec Ev R IH]; intros l L.
  - exists 0%nat. intros m _. unfold iterate. rewrite (clock_same l h (negb im) L), Ec. apply wakes_idle.
  - destruct (live_clock l h true L) as (h2 & E2 & L2). assert (h2 = h1) by congruence. subst h2.
    destruct (IH _ L2) as (k & Hk). exists (S k). intros m Hm. unfold iterate at 1. rewrite (clock_same l h (negb im) L), Ec, Ev.
    destruct m; [lia|]. cbn [repeat acts act going lkind stoping]. specialize (Hk m ltac:(lia)).
    destruct (iterate (Program im) (v =? max_representable) h1) as [[]|]; exact Hk.
Qed.
Lemma program_pressed : forall im h h' l, run_program true false h h' -> live l h true -> exists k, forall m, (k <= m)%nat ->
  acts (PressProgram im :: repeat Wake m) (h, None) = Some (h', None).
Proof.
  intros im h h' l R L. destruct (program_loop im false h h' R l L) as (k & Hk). exists (S k). intros m Hm. destruct im.
  - destruct m; [lia|]. specialize (Hk m ltac:(lia)). cbn [repeat acts act going lkind stoping].
    change (iterate Starting false h) with (iterate (Program true) false h). destruct (iterate (Program true) false h) as [[]|]; exact Hk.
  - specialize (Hk m ltac:(lia)). cbn [acts act]. exact Hk.
Qed.
(** A program stopped and resumed at will, in any mixture of modes, ends as if it
    had run at once: right after its first FIN. *)
Theorem C62_resume : forall n l h a h1 im, live l h true -> boundary h -> shows h a -> PropsRun.first_fin n a -> unfinished (h, None) (h1, None) ->
  exists h', (exists k, forall m, (k <= m)%nat -> acts (PressProgram im :: repeat Wake m) (h1, None) = Some (h', None)) /\
    shows h' (steps (S n) a) /\ boundary h'.
Proof.
  intros n l h a h1 im L Hb Hs F U. destruct (PropsRun.C41_stops_after_fin n true l h true a ltac:(auto) L Hb Hs F) as (h' & R & S' & B').
  destruct (unfinished_run l h None h' _ L R U) as (R1 & l1 & L1). cbn [fst] in *. exists h'. split; [|auto]. exact (program_pressed im h1 h' l1 R1 L1).
Qed.
(** Immediate and step-by-step runs end in the same state. *)
Corollary C62_modes : forall n l h a, live l h true -> boundary h -> shows h a -> PropsRun.first_fin n a ->
  exists h', (exists k, forall m im, (k <= m)%nat -> acts (PressProgram im :: repeat Wake m) (h, None) = Some (h', None)) /\ shows h' (steps (S n) a) /\ boundary h'.
Proof.
  intros n l h a L Hb Hs F. destruct (PropsRun.C41_stops_after_fin n true l h true a ltac:(auto) L Hb Hs F) as (h' & R & S' & B'). exists h'. split; [|auto].
  destruct (program_pressed true h h' l R L) as (k1 & H1). destruct (program_pressed false h h' l R L) as (k2 & H2).
  exists (k1 + k2)%nat. intros m [] Hm; [apply H1|apply H2]; lia.
Qed.
(** The exception is needed.  Stopped between the two cycles of FIN and resumed,
    the loop does not stop after FIN: it starts the instruction after it. *)
Theorem C62_resume_refuted : forall l h a, live l h true -> boundary h -> shows h a -> opcode a = 255 ->
  exists h1 h2 h3, acts [PressProgram false; PressStop; Wake] (h, None) = Some (h1, None) /\ get_register_value R_RI h1 = Some 255 /\
    acts [PressState] (h1, None) = Some (h2, None) /\ shows h2 (step a) /\ boundary h2 /\
    (forall m, acts (PressProgram false :: repeat Wake (S m)) (h1, None) = Some (h3, None)) /\
    acts [PressState] (h2, None) = Some (h3, None) /\ get_next_state h3 <> Some 0.
Proof.
  intros l h a L Hb Hs Hop. destruct (live_up l h true L) as (_ & z & U).
  destruct (instructions_one true l h true a ltac:(auto) L Hb Hs) as (us & h2 & E1 & E2 & E3 & E4 & E5 & E6).
  unfold opcode in Hop. rewrite Hop in E2. change (cycles 255 (FC a) (FZ a)) with 2 in E2.
  rewrite E1 in E3. replace (length us) with 2%nat in E3 by lia. cbn [repeat clocks map run_calls] in E3.
  destruct (do_call (RunClock true) h) as [h1|] eqn:C1; [|discriminate E3]. destruct (do_call (RunClock true) h1) as [h2'|] eqn:C2; [|discriminate E3]. injection E3 as ->.
  destruct (live_clock l h true L) as (x & X1 & L1). rewrite C1 in X1. injection X1 as <-.
  destruct (live_clock _ h2 true E6) as (h3 & C3 & L3). 
  assert (Hui : ui h = true) by (destruct (live_up l h true L) as (G & _); exact G).
  assert (R1 : get_register_value R_RI h1 = Some 255).
  { rewrite <- Hop. apply (ri_after h z a [true] h1 U Hb Hs). { congruence. } { rewrite Hop. change (cycles 255 (FC a) (FZ a)) with 2. cbn. lia. } cbn [clocks map run_calls]. rewrite C1. reflexivity. }
  assert (R2 : get_register_value R_RI h2 = Some 255).
  { rewrite <- Hop. apply (ri_after h z a [true; true] h2 U Hb Hs). { congruence. } { rewrite Hop. change (cycles 255 (FC a) (FZ a)) with 2. cbn. lia. } cbn [clocks map run_calls]. rewrite C1, C2. reflexivity. }
  exists h1, h2, h3. split; [|split; [exact R1|split; [|split; [exact E4|split; [exact E5|split; [|split]]]]]].
  - cbn [acts act]. unfold iterate. rewrite (clock_same l h _ L), C1, R1. reflexivity.
  - cbn [acts act]. rewrite C2. reflexivity.
  - intros m. cbn [acts act repeat]. unfold iterate at 1. rewrite (clock_same _ h1 _ L1), C2, R2. cbn [act going lkind stoping]. unfold iterate.
    change (255 =? max_representable) with true. rewrite (clock_same _ h2 _ E6), C3. apply wakes_idle.
  - cbn [acts act]. rewrite C3. reflexivity.
  - pose proof (cycles_bound (M (step a) (PC (step a))) (FC (step a)) (FZ (step a))) as CB.
    destruct (instruction_exists _ h2 true (step a) (repeat true (Z.to_nat (cycles (M (step a) (PC (step a))) (FC (step a)) (FZ (step a))))) E6 E5 E4) as (h4 & _ & _ & _ & I).
    { rewrite repeat_length. lia. } { discriminate. }
    set (n := Z.to_nat _) in *. intros N. apply (I [true] (repeat true (n - 1)) h3); auto.
    + change ([true] ++ repeat true (n - 1)) with (repeat true (S (n - 1))). f_equal. lia.
    + discriminate.
    + intros X. apply (f_equal (@length bool)) in X. rewrite repeat_length in X. cbn in X. lia.
    + cbn [clocks map run_calls]. rewrite C3. reflexivity.
Qed.

(** Cases that meet the hypotheses: a program with 0xFF as an operand, run, stopped
    after two cycles and then resumed; a state about to execute FIN. *)
Example C62_nonvacuous : exists l h a h1, live l h true /\ boundary h /\ shows h a /\ PropsRun.first_fin 1 a /\ M a (PC a + 1) = 255 /\
  acts [PressProgram false; Wake; PressStop; Wake] (h, None) = Some (h1, None) /\ unfinished (h, None) (h1, None).
Proof.
  set (a := mkArch 0 false false 0 0 0 0 10 0 (fun i => if i =? 10 then 0x64 else 255) []).
  destruct (PropsRun.C54_every_state_reachable a) as (l & h & L & Hb & Hs). { repeat split; cbn; try lia; destruct (_ =? _); lia. } { reflexivity. }
  destruct (live_up l h true L) as (Hui & z & U).
  destruct (live_clock l h true L) as (h1 & C1 & L1). destruct (live_clock _ h1 true L1) as (h2 & C2 & L2).
  assert (R1 : get_register_value R_RI h1 = Some 0x64).
  { apply (ri_after h z a [true] h1 U Hb Hs). { congruence. } { pose proof (cycles_bound (M a (PC a)) (FC a) (FZ a)). cbn [length]. lia. } cbn [clocks map run_calls]. rewrite C1. reflexivity. }
  assert (R2 : get_register_value R_RI h2 = Some 0x64).
  { apply (ri_after h z a [true; true] h2 U Hb Hs). { congruence. } { pose proof (cycles_bound (M a (PC a)) (FC a) (FZ a)). cbn [length]. lia. } cbn [clocks map run_calls]. rewrite C1, C2. reflexivity. }
  assert (A1 : act (PressProgram false) (h, None) = Some (h1, Some (mkLoop (Program false) true false))).
  { cbn [act]. unfold iterate. rewrite (clock_same l h _ L), C1, R1. reflexivity. }
  assert (A2 : act Wake (h1, Some (mkLoop (Program false) true false)) = Some (h2, Some (mkLoop (Program false) true false))).
  { cbn [act going lkind stoping]. unfold iterate. rewrite (clock_same _ h1 _ L1), C2, R2. reflexivity. }
  exists l, h, a, h2. split; [exact L|]. split; [exact Hb|]. split; [exact Hs|]. split.
  { split; [reflexivity|]. intros m Hm. assert (m = 0%nat) as -> by lia. discriminate. }
  split; [reflexivity|]. split.
  - cbn [acts]. rewrite A1, A2. reflexivity.
  - apply (Un_more _ (h2, Some (mkLoop (Program false) false false)) _ Wake); [|reflexivity|reflexivity|left; reflexivity].
    apply (Un_more _ (h2, Some (mkLoop (Program false) true false)) _ PressStop); [|reflexivity|reflexivity|left; reflexivity].
    apply (Un_more _ (h1, Some (mkLoop (Program false) true false)) _ Wake); [|reflexivity|exact A2|right; cbn [fst]; rewrite R2; discriminate].
    apply (Un_more _ (h, None) _ (PressProgram false)); [apply Un_none|reflexivity|exact A1|right; cbn [fst]; rewrite R1; discriminate].
Qed.
Example C62_refuted_nonvacuous : exists l h a, live l h true /\ boundary h /\ shows h a /\ opcode a = 255.
Proof.
  set (a := mkArch 0 false false 0 0 0 0 10 0 (fun i => 255) []).
  destruct (PropsRun.C54_every_state_reachable a) as (l & h & L & Hb & Hs). { repeat split; cbn; lia. } { reflexivity. }
  exists l, h, a. auto.
Qed.
Print Assumptions C62_safe.
Print Assumptions C62_forward.
Print Assumptions C62_steps.
Print Assumptions C62_stop.
Print Assumptions C62_stop_refuted.
Print Assumptions C62_finish.
Print Assumptions C62_resume.
Print Assumptions C62_modes.
Print Assumptions C62_resume_refuted.
