(** * Theorems: running in time (C86) *)
From Coq Require Import ZArith List Bool Lia ZifyBool Sorted.
From Verif Require Import Word Prog Machine Isa Api Usage ApiFacts Reach Front Runs Runner.
From Verif Require Buttons.
From Verif Require PropsApi PropsRun PropsButtons.
Import ListNotations.
Open Scope Z_scope.

(** ** Specification: reading the observations *)
(** When the run in progress or last one started and in which mode, how much time went
    by at questions, when the open question was put, since when the page has not asked. *)
Record watch := mkWatch { w_start : Z; w_im : bool; w_out : Z; w_asked : Z; w_since : Z }.
Definition observe (w : watch) (o : obs) : watch :=
  match o with
  | Started t im => mkWatch t im 0 0 t
  | Asked t => mkWatch (w_start w) (w_im w) (w_out w) t (w_since w)
  | Refused t => mkWatch (w_start w) (w_im w) (w_out w + (t - w_asked w)) (w_asked w) (w_since w)
  | Resumed c t => mkWatch (w_start w) (w_im w) (w_out w + (t - w_asked w)) (w_asked w) c
  | _ => w
  end.
Definition stopwatch (l : list obs) : watch := fold_left observe l (mkWatch 0 false 0 0 0).
(** The time a run that ends at [t] took, without the questions. *)
Definition ran_for (l : list obs) (t : Z) : Z := t - w_start (stopwatch l) - w_out (stopwatch l).
(** A question is open. *)
Definition open (l : list obs) : bool :=
  fold_left (fun b o => match o with Asked _ => true | Refused _ | Resumed _ _ => false | _ => b end) l false.
(** The page was drawn after the last cycle. *)
Definition fresh (l : list obs) : bool :=
  fold_left (fun b o => match o with Cycled u => u | Redrawn => true | _ => b end) l true.
Definition cycles (l : list obs) : nat := length (filter (fun o => match o with Cycled _ => true | _ => false end) l).
(** All readings of the clock, in order. *)
Definition moments (l : list obs) : list Z :=
  flat_map (fun o => match o with Started t _ | Looked t | Refused t | Ended t => [t] | Resumed c t => [c; t] | _ => [] end) l.
Definition one_tab (es : list revent) : Prop := forall n, ~ In (OtherTab n) es.
(** What the user may save and set PC to, as in [PropsButtons.user_event]. *)
Definition allowed_event (e : revent) : Prop :=
  match e with
  | Save bytes => PropsButtons.user_event (Buttons.Save bytes)
  | SetPcTo x => PropsButtons.user_event (Buttons.SetPcTo x)
  | _ => True
  end.

Lemma watch_app : forall l d, stopwatch (l ++ d) = fold_left observe d (stopwatch l).
Proof. intros. apply fold_left_app. Qed.
Lemma open_app : forall l d, open (l ++ d) = fold_left (fun b o => match o with Asked _ => true | Refused _ | Resumed _ _ => false | _ => b end) d (open l).
Proof. intros. apply fold_left_app. Qed.
Lemma fresh_app : forall l d, fresh (l ++ d) = fold_left (fun b o => match o with Cycled u => u | Redrawn => true | _ => b end) d (fresh l).
Proof. intros. apply fold_left_app. Qed.

(** ** The run's variables and the observations *)
(** [agree w p]: the variables of the handler are what the stopwatch says. *)
Definition agree (w : watch) (p : prun) : Prop := p_start p = w_start w + w_out w /\ p_check p = w_since w /\ p_im p = w_im w.
Definition told (s : rstate) : Prop :=
  match running s with
  | Some (Prun p) =>
    match p_wait p with
    | Toast => p_im p = true /\ open (log s) = false /\ fresh (log s) = true
    | Between => agree (stopwatch (log s)) p /\ open (log s) = false /\ (fresh (log s) = true \/ p_im p = true)
    | Asking n | Dismissing n => agree (stopwatch (log s)) p /\ w_asked (stopwatch (log s)) = n /\ open (log s) = true /\ fresh (log s) = true /\ p_im p = true
    end
  | _ => open (log s) = false /\ fresh (log s) = true
  end.
(** What ends a run. *)
Definition ending (p : prun) (c : clock) (m : bool) : list obs :=
  (if p_im p then [Redrawn] else []) ++ [Ended (t_end c)] ++ (if m then [Time (t_end c - p_start p)] else []).
(** What one event adds to the observations. *)
Inductive adds (s : rstate) : list obs -> rstate -> Prop :=
| Ad_none : forall s', log s' = log s -> (forall p, running s = Some (Prun p) -> running s' <> None) -> adds s [] s'
| Ad_cycle : forall s', log s' = log s ++ [Cycled true] -> open (log s) = false -> (forall p, running s <> Some (Prun p)) -> adds s [Cycled true] s'
| Ad_ask : forall s' p t, agree (stopwatch (log s)) p -> p_im p = true -> t - p_check p > max_time -> open (log s) = false -> running s' <> None ->
    adds s [Looked t; Redrawn; Asked t] s'
| Ad_turn : forall s' p o, agree (stopwatch (log s ++ [o])) p -> open (log s ++ [o]) = false ->
    (forall t, o <> Asked t /\ o <> Time t) -> (forall u, o <> Cycled u) -> (forall t, o = Looked t -> ~ (t - p_check p > max_time /\ p_im p = true)) -> running s' <> None ->
    adds s [o; Cycled (negb (p_im p))] s'
| Ad_end : forall s' p o c cy, agree (stopwatch (log s ++ [o])) p -> open (log s ++ [o]) = false ->
    (forall t, o <> Asked t /\ o <> Time t) -> (forall u, o <> Cycled u) -> (forall t, o = Looked t -> ~ (t - p_check p > max_time /\ p_im p = true)) ->
    cy = [] \/ cy = [Cycled (negb (p_im p))] -> (cy = [] -> fresh (log s ++ [o]) = true \/ p_im p = true) -> running s' = None ->
    adds s (o :: cy ++ ending p c (measure s)) s'.

Lemma turn_adds : forall h p c o s s', turn h p c [o] s = Some s' -> agree (stopwatch (log s ++ [o])) p -> open (log s ++ [o]) = false ->
  (fresh (log s ++ [o]) = true \/ p_im p = true) ->
  (forall t, o <> Asked t /\ o <> Time t) -> (forall u, o <> Cycled u) -> (forall t, o = Looked t -> ~ (t - p_check p > max_time /\ p_im p = true)) ->
  told s' /\ exists d, log s' = log s ++ d /\ adds s d s'.
Proof.
  intros h p c o s s' E Ag Op Fr Na Nc Nl. unfold turn in E.
  assert (K : forall h1 cy, (cy = [] \/ cy = [Cycled (negb (p_im p))]) -> s' = finish h1 p c (o :: cy) s -> told s' /\ exists d, log s' = log s ++ d /\ adds s d s').
  { intros h1 cy Hc ->. split.
    - unfold told, finish, with_run. cbn [running log]. rewrite open_app, fresh_app. rewrite open_app in Op. rewrite fresh_app in Fr. cbn [fold_left] in Op, Fr.
      destruct Hc as [-> | ->]; cbn [app fold_left]; rewrite Op; destruct (p_im p); cbn [app fold_left negb]; destruct (measure s); cbn [app fold_left]; split; auto; destruct Fr; auto; discriminate.
    - exists (o :: cy ++ ending p c (measure s)). split; [reflexivity|]. econstructor; eauto. }
  destruct (p_going p); cbn [negb] in E; [|injection E as <-; apply (K h []); auto].
  destruct (do_call (RunClock (negb (p_im p))) h) as [h1|]; [|discriminate E].
  destruct (p_stoping p). { injection E as <-. apply (K h1 [Cycled (negb (p_im p))]); auto. }
  destruct (get_register_value R_RI h1) as [v|]; [|discriminate E]. injection E as <-. split.
  - unfold told, with_run. cbn [running log p_wait p_im app]. change ([o; Cycled (negb (p_im p))]) with ([o] ++ [Cycled (negb (p_im p))]). rewrite app_assoc, watch_app, open_app, fresh_app. cbn [fold_left observe].
    split; [|split; [exact Op|]]. { destruct Ag as (A1 & A2 & A3). repeat split; cbn [p_start p_check p_im]; assumption. }
    destruct (p_im p); auto.
  - exists [o; Cycled (negb (p_im p))]. split; [reflexivity|]. constructor; auto. discriminate.
Qed.
Lemma begin_adds : forall im c s s', begin im c s = Some s' -> open (log s) = false -> fresh (log s) = true -> told s' /\ exists d, log s' = log s ++ d /\ adds s d s'.
Proof.
  intros im c s s' E Op Fr. unfold begin in E. eapply turn_adds; [exact E|..]; try discriminate; try (split; discriminate).
  - rewrite watch_app. cbn. unfold agree. cbn. repeat split; lia.
  - rewrite open_app. exact Op.
  - left. rewrite fresh_app. exact Fr.
Qed.
Lemma iturn_adds : forall h ct g s s', iturn h ct g s = Some s' -> open (log s) = false -> fresh (log s) = true -> (forall p, running s <> Some (Prun p)) -> told s' /\ exists d, log s' = log s ++ d /\ adds s d s'.
Proof.
  intros h ct g s s' E Op Fr Np. unfold iturn in E. destruct g; cbn [negb] in E.
  - destruct (do_call (RunClock true) h) as [h1|]; [|discriminate E]. destruct (get_next_state h1) as [q|]; [|discriminate E]. injection E as <-. split.
    + unfold told, with_run. cbn [running log]. rewrite open_app, fresh_app. destruct (q =? 0); split; auto.
    + exists [Cycled true]. split; [reflexivity|]. constructor; auto.
  - injection E as <-. unfold told, with_run. cbn [running log]. rewrite app_nil_r. split; [auto|]. exists []. rewrite app_nil_r. split; [reflexivity|]. constructor; [cbn; try apply app_nil_r; reflexivity|]. intros p Hp. destruct (Np p Hp).
Qed.
Lemma look_adds : forall p c s s', look p c s = Some s' -> agree (stopwatch (log s)) p -> open (log s) = false -> (fresh (log s) = true \/ p_im p = true) ->
  told s' /\ exists d, log s' = log s ++ d /\ adds s d s'.
Proof.
  intros p c s s' E Ag Op Fr. unfold look in E. destruct ((t_now c - p_check p >? max_time) && p_im p) eqn:D.
  - apply andb_prop in D as (D1 & D2). injection E as <-. split.
    + unfold told, with_run. cbn [running log p_wait]. rewrite watch_app, open_app, fresh_app. cbn [fold_left observe]. cbn [w_asked]. split; [destruct Ag as (? & ? & ?); repeat split; assumption|]. auto.
    + eexists. split; [reflexivity|]. apply (Ad_ask s _ p); auto; [lia|discriminate].
  - eapply turn_adds; [exact E|..]; try (split; discriminate); try discriminate.
    + rewrite watch_app. exact Ag.
    + rewrite open_app. exact Op.
    + rewrite fresh_app. exact Fr.
    + intros t Ht (H1 & H2). injection Ht as <-. rewrite H2, andb_true_r in D. lia.
Qed.
Lemma resume_adds : forall p n c s s', resume p n c s = Some s' -> agree (stopwatch (log s)) p -> w_asked (stopwatch (log s)) = n -> fresh (log s) = true ->
  told s' /\ exists d, log s' = log s ++ d /\ adds s d s'.
Proof.
  intros p n c s s' E (A1 & A2 & A3) An Fr. unfold resume in E. eapply turn_adds; [exact E|..]; try (split; discriminate); try discriminate.
  - rewrite watch_app. unfold agree. cbn. repeat split; [lia|exact A3].
  - rewrite open_app. reflexivity.
  - rewrite fresh_app. left. exact Fr.
Qed.
Lemma refuse_adds : forall p n c s s', refuse p n c s = s' -> agree (stopwatch (log s)) p -> w_asked (stopwatch (log s)) = n -> fresh (log s) = true ->
  told s' /\ exists d, log s' = log s ++ d /\ adds s d s'.
Proof.
  intros p n c s s' E (A1 & A2 & A3) An Fr. unfold refuse in E. subst s'. split.
  - unfold told, finish, with_run. cbn [running log p_im]. rewrite open_app, fresh_app. destruct (p_im p), (measure s); cbn; auto.
  - eexists (Refused (t_refused c) :: [] ++ ending (mkRun (p_im p) (p_cycle p) (p_start p + (t_refused c - n)) (p_check p) (p_going p) true Between) c (measure s)).
    split; [reflexivity|]. eapply Ad_end; try (split; discriminate); try discriminate; auto.
    + rewrite watch_app. unfold agree. cbn. repeat split; [lia|exact A2|exact A3].
    + rewrite open_app. reflexivity.
    + left. rewrite fresh_app. exact Fr.
Qed.
Lemma same_adds : forall s s', log s' = log s -> (running s <> None -> running s' <> None) -> exists d, log s' = log s ++ d /\ adds s d s'.
Proof. intros s s' E R. exists []. rewrite app_nil_r. split; [exact E|]. constructor; [exact E|]. intros p Hp. apply R. congruence. Qed.
Lemma step_adds : forall e s s', told s -> ract e s = Some s' -> told s' /\ exists d, log s' = log s ++ d /\ adds s d s'.
Proof.
  intros e s s' T E.
  assert (Id : Some s = Some s' -> told s' /\ exists d, log s' = log s ++ d /\ adds s d s') by (intros H; injection H as <-; split; [exact T|apply same_adds; [reflexivity|auto]]).
  assert (Keep : forall h, with_run h (running s) [] s = s' -> told s' /\ exists d, log s' = log s ++ d /\ adds s d s').
  { intros h <-. split; [|apply same_adds; [cbn; apply app_nil_r|cbn; congruence]]. unfold told, with_run in *. cbn [running log]. rewrite app_nil_r. exact T. }
  unfold told in T. destruct e as [c| | |c|c|b c|n|b|n|bytes|x]; cbn [ract] in E.
  - destruct (running s) as [r|] eqn:R; [exact (Id E)|]. destruct T as (T1 & T2). destruct (immediate s); [|exact (begin_adds _ _ _ _ E T1 T2)]. injection E as <-.
    split; [|apply same_adds; [cbn; apply app_nil_r|cbn; congruence]]. unfold told, with_run. cbn [running log p_wait p_im]. rewrite app_nil_r. auto.
  - destruct (running s) as [r|] eqn:R; [exact (Id E)|]. destruct T. eapply iturn_adds; eauto. congruence.
  - destruct (running s) as [r|] eqn:R; [exact (Id E)|]. destruct T as (T1 & T2). destruct (do_call (RunClock true) (core s)) as [h|]; [|discriminate E]. injection E as <-. split.
    + unfold told, with_run. cbn [running log]. rewrite open_app, fresh_app. auto.
    + exists [Cycled true]. split; [reflexivity|]. constructor; auto. congruence.
  - destruct (running s) as [[p|ct g]|] eqn:R; [|destruct T; eapply iturn_adds; eauto; congruence|exact (Id E)].
    destruct (p_wait p) eqn:W; [destruct T as (T1 & T2 & T3); eapply begin_adds; eauto|destruct T as (T1 & T2 & T3); eapply look_adds; eauto|exact (Id E)|].
    destruct T as (T1 & T2 & T3 & T4 & T5). eapply resume_adds; eauto.
  - destruct (running s) as [[p|ct g]|] eqn:R; [| |exact (Id E)]; (destruct (immediate s); [exact (Id E)|]); [|destruct T; eapply iturn_adds; eauto; congruence].
    destruct (p_wait p) eqn:W; [destruct T as (T1 & T2 & T3); eapply begin_adds; eauto| | |].
    + destruct T as (T1 & T2 & T3). eapply look_adds; eauto.
    + injection E as <-. split; [|apply same_adds; [cbn; apply app_nil_r|cbn; congruence]]. unfold told, with_run, set_going. cbn [running log p_wait]. rewrite W, app_nil_r. exact T.
    + destruct T as (T1 & T2 & T3 & T4 & T5). eapply resume_adds; eauto.
  - destruct (running s) as [[p|ct g]|] eqn:R; [|exact (Id E)|exact (Id E)]. destruct (p_wait p) eqn:W; [exact (Id E)|exact (Id E)| |exact (Id E)].
    destruct T as (T1 & T2 & T3 & T4 & T5). destruct b; injection E as <-.
    + split; [|apply same_adds; [cbn; apply app_nil_r|cbn; congruence]]. unfold told, with_run. cbn [running log p_wait]. rewrite app_nil_r. auto.
    + eapply refuse_adds; eauto.
  - injection E as <-. split; [|apply same_adds; [reflexivity|auto]]. exact T.
  - injection E as <-. split; [|apply same_adds; [reflexivity|auto]]. exact T.
  - injection E as <-. split; [|apply same_adds; [reflexivity|auto]]. exact T.
  - destruct (save_to_memory 0 bytes (core s)) as [h|]; [|destruct (running s) as [[]|]; discriminate E]. apply (Keep h). destruct (running s) as [[]|]; injection E; auto.
  - destruct (do_call (SetPc x) (core s)) as [h|]; [|destruct (running s) as [[]|]; discriminate E]. apply (Keep h). destruct (running s) as [[]|]; injection E; auto.
Qed.
Lemma story_told : forall h n m es s, story (rstart h n m) es s -> told s.
Proof. intros h n m es s S. induction S as [|es s1 e s2 S IH P E]; [split; reflexivity|]. exact (proj1 (step_adds e s1 s2 IH E)). Qed.

(** Splitting a list of observations at the end of an event. *)
Lemma app_split : forall {A} (l d l1 l2 : list A) x, l ++ d = l1 ++ x :: l2 ->
  (exists k, l = l1 ++ x :: k /\ l2 = k ++ d) \/ (exists k, l1 = l ++ k /\ d = k ++ x :: l2).
Proof.
  intros A l. induction l as [|y l IH]; intros d l1 l2 x E; [right; exists l1; auto|].
  destruct l1 as [|z l1]; cbn [app] in E.
  - injection E as -> <-. left. exists l. auto.
  - injection E as -> E. destruct (IH d l1 l2 x E) as [(k & -> & ->)|(k & -> & ->)]; [left|right]; exists k; auto.
Qed.

(** ** The time shown is the time the machine ran, without the time spent at questions *)
Theorem C86_time : forall h n m es s l1 l2 x, story (rstart h n m) es s -> log s = l1 ++ Time x :: l2 ->
  exists l t, l1 = l ++ [Ended t] /\ x = ran_for l t.
Proof.
  intros h n m es s l1 l2 x S. revert l1 l2 x. induction S as [|es s1 e s2 S IH P E]; intros l1 l2 x L; [destruct l1; discriminate L|].
  destruct (step_adds e s1 s2 (story_told _ _ _ _ _ S) E) as (_ & d & Ed & A). rewrite Ed in L.
  destruct (app_split _ _ _ _ _ L) as [(k & K1 & _)|(k & -> & K2)]; [exact (IH _ _ _ K1)|].
  revert K2. clear L Ed. inversion A; subst; clear A; intros K2.
  - destruct k; discriminate K2.
  - destruct k as [|? [|? k]]; discriminate K2.
  - destruct k as [|? [|? [|? [|? k]]]]; discriminate K2.
  - destruct k as [|o1 [|o2 [|o3 k]]]; try discriminate K2. injection K2 as K2 _. destruct (H1 x). congruence.
  - destruct k as [|o1 k]. { injection K2 as K2 _. destruct (H1 x). congruence. } injection K2 as <- K2.
    exists (log s1 ++ [o] ++ cy ++ if p_im p then [Redrawn] else []), (t_end c).
    assert (k = cy ++ (if p_im p then [Redrawn] else []) ++ [Ended (t_end c)] /\ x = t_end c - p_start p) as (-> & ->).
    { unfold ending in K2. destruct H4 as [-> | ->], (p_im p), (measure s1); cbn [app negb] in K2;
        repeat (destruct k as [|? k]; [first [discriminate K2|injection K2 as <-; auto; fail]|first [discriminate K2|injection K2 as <- K2]]);
        try (destruct k; discriminate K2). }
    split. { rewrite <- !app_assoc. reflexivity. }
    unfold ran_for. destruct H as (H & _). rewrite H. rewrite app_assoc, !watch_app. 
    destruct H4 as [-> | ->], (p_im p); cbn [app fold_left observe]; lia.
Qed.
Lemma sorted_app : forall l d, StronglySorted Z.le (l ++ d) -> StronglySorted Z.le l /\ forall x y, In x l -> In y d -> x <= y.
Proof.
  induction l as [|a l IH]; intros d S; [split; [constructor|intros x y []]|]. cbn [app] in S. inversion S as [|? ? S1 F]; subst.
  destruct (IH d S1) as (I1 & I2). rewrite Forall_forall in F. split; [constructor; [exact I1|]; apply Forall_forall; intros y Hy; apply F, in_or_app; auto|].
  intros x y [<-|Hx] Hy; [apply F, in_or_app; auto|auto].
Qed.
Lemma moments_app : forall l d, moments (l ++ d) = moments l ++ moments d.
Proof. intros. apply flat_map_app. Qed.
(** If the clock never goes back, the time left out is at most what has gone by since the start. *)
Definition sound (s : rstate) : Prop :=
  match running s with
  | Some (Prun p) =>
    let w := stopwatch (log s) in
    match p_wait p with
    | Toast => True
    | Between => 0 <= w_out w /\ exists t, In t (moments (log s)) /\ w_start w + w_out w <= t
    | Asking n | Dismissing n => 0 <= w_out w /\ w_start w + w_out w <= n /\ In n (moments (log s))
    end
  | _ => True
  end.
Definition in_time (l : list obs) : Prop := 0 <= w_out (stopwatch l) /\ exists t, In t (moments l) /\ w_start (stopwatch l) + w_out (stopwatch l) <= t.
Lemma turn_sound : forall h p c o s s', turn h p c [o] s = Some s' -> in_time (log s ++ [o]) -> sound s'.
Proof.
  intros h p c o s s' E (K1 & t & K2 & K3). unfold turn in E. destruct (p_going p); cbn [negb] in E; [|injection E as <-; exact I].
  destruct (do_call (RunClock (negb (p_im p))) h) as [h1|]; [|discriminate E]. destruct (p_stoping p); [injection E as <-; exact I|].
  destruct (get_register_value R_RI h1) as [v|]; [|discriminate E]. injection E as <-. unfold sound, with_run. cbn [running log p_wait app].
  change ([o; Cycled (negb (p_im p))]) with ([o] ++ [Cycled (negb (p_im p))]). rewrite app_assoc, watch_app, moments_app. cbn [fold_left observe].
  split; [exact K1|]. exists t. split; [apply in_or_app; auto|exact K3].
Qed.
Lemma step_log : forall e s s', told s -> ract e s = Some s' -> exists d, log s' = log s ++ d.
Proof. intros e s s' T E. destruct (step_adds e s s' T E) as (_ & d & Ed & _). eauto. Qed.
(** The first thing observed in the step, and how it keeps the time. *)
Lemma resumed_in_time : forall l n o, w_asked (stopwatch l) = n -> 0 <= w_out (stopwatch l) -> w_start (stopwatch l) + w_out (stopwatch l) <= n -> In n (moments l) ->
  StronglySorted Z.le (moments (l ++ [o])) -> (exists t, o = Refused t) \/ (exists c t, o = Resumed c t) -> in_time (l ++ [o]).
Proof.
  intros l n o A K1 K2 K3 So Ho. rewrite moments_app in So. destruct (sorted_app _ _ So) as (_ & Le). unfold in_time. rewrite watch_app, moments_app.
  destruct Ho as [(t & ->)|(c & t & ->)]; cbn [fold_left observe w_out w_start].
  - assert (n <= t) by (apply Le; [exact K3|cbn; auto]). split; [lia|]. exists t. split; [apply in_or_app; cbn; auto|lia].
  - assert (n <= t) by (apply Le; [exact K3|cbn; auto]). split; [lia|]. exists t. split; [apply in_or_app; cbn; auto|lia].
Qed.
Lemma turn_begins : forall h p c o s s', turn h p c [o] s = Some s' -> exists d, log s' = log s ++ o :: d.
Proof.
  intros h p c o s s' E. unfold turn in E. destruct (p_going p); cbn [negb] in E; [|injection E as <-; cbn; eauto].
  destruct (do_call (RunClock (negb (p_im p))) h) as [h1|]; [|discriminate E]. destruct (p_stoping p); [injection E as <-; cbn; eauto|].
  destruct (get_register_value R_RI h1) as [v|]; [|discriminate E]. injection E as <-. cbn. eauto.
Qed.
Lemma sorted_first : forall l o d, StronglySorted Z.le (moments (l ++ o :: d)) -> StronglySorted Z.le (moments (l ++ [o])).
Proof. intros l o d S. change (o :: d) with ([o] ++ d) in S. rewrite app_assoc, moments_app in S. apply (proj1 (sorted_app _ _ S)). Qed.
Lemma started_in_time : forall l t im, in_time (l ++ [Started t im]).
Proof. intros l t im. unfold in_time. rewrite watch_app, moments_app. cbn. split; [lia|]. exists t. split; [apply in_or_app; cbn; auto|lia]. Qed.
Lemma looked_in_time : forall l t, in_time l -> in_time (l ++ [Looked t]).
Proof. intros l t (K1 & x & K2 & K3). unfold in_time. rewrite watch_app, moments_app. cbn [fold_left observe]. split; [exact K1|]. exists x. split; [apply in_or_app; auto|exact K3]. Qed.
(** A step of a run starts with one observation; if the run ends, this one decides. *)
Definition one_more (s s' : rstate) : Prop := running s' = None -> exists o d, log s' = log s ++ o :: d /\ in_time (log s ++ [o]).
Lemma step_sound : forall e s s', told s -> sound s -> ract e s = Some s' -> StronglySorted Z.le (moments (log s')) ->
  sound s' /\ ((exists p, running s = Some (Prun p)) -> one_more s s').
Proof.
  intros e s s' T Sd E So.
  assert (Id : forall r, Some r = Some s' -> log r = log s -> running r = running s -> sound s' /\ ((exists p, running s = Some (Prun p)) -> one_more s s')).
  { intros r H L R. injection H as <-. unfold sound. rewrite L, R. split; [exact Sd|]. intros (p & Rp) N. congruence. }
  assert (Tu : forall h p c o, turn h p c [o] s = Some s' -> (StronglySorted Z.le (moments (log s ++ [o])) -> in_time (log s ++ [o])) -> sound s' /\ one_more s s').
  { intros h p c o Et K. destruct (turn_begins _ _ _ _ _ _ Et) as (d & Ed). rewrite Ed in So. specialize (K (sorted_first _ _ _ So)). split; [eapply turn_sound; eauto|]. intros _. eauto. }
  assert (Be : forall im c, begin im c s = Some s' -> sound s' /\ one_more s s') by (intros im c Eb; eapply Tu; [exact Eb|]; intros _; apply started_in_time).
  assert (It : forall h ct g, iturn h ct g s = Some s' -> sound s').
  { intros h ct g Ei. unfold iturn in Ei. destruct g; cbn [negb] in Ei; [|injection Ei as <-; exact I]. destruct (do_call _ h) as [h1|]; [|discriminate Ei]. destruct (get_next_state h1) as [q|]; [|discriminate Ei]. injection Ei as <-. unfold sound, with_run. cbn [running]. destruct (q =? 0); exact I. }
  assert (Lo : forall p c, look p c s = Some s' -> in_time (log s) -> sound s' /\ one_more s s').
  { intros p c El K. unfold look in El. destruct (_ && _); [|eapply Tu; [exact El|]; intros _; apply looked_in_time, K]. injection El as <-. split; [|intros N; discriminate N].
    unfold with_run in So. cbn [log] in So. change [Looked (t_now c); Redrawn; Asked (t_now c)] with ([Looked (t_now c)] ++ [Redrawn; Asked (t_now c)]) in So. 
    rewrite moments_app in So. destruct (sorted_app _ _ So) as (_ & Le). destruct K as (K1 & x & K2 & K3).
    unfold sound, with_run. cbn [running log p_wait]. rewrite watch_app, moments_app. cbn [fold_left observe w_out w_start w_asked]. split; [exact K1|].
    assert (x <= t_now c) by (apply Le; [exact K2|cbn; auto]). split; [lia|]. apply in_or_app. cbn. auto. }
  assert (Re : forall p n c, resume p n c s = Some s' -> w_asked (stopwatch (log s)) = n -> 0 <= w_out (stopwatch (log s)) /\ w_start (stopwatch (log s)) + w_out (stopwatch (log s)) <= n /\ In n (moments (log s)) -> sound s' /\ one_more s s').
  { intros p n c Er A (K1 & K2 & K3). eapply Tu; [exact Er|]. intros So'. eapply resumed_in_time; eauto. }
  unfold told, sound in T, Sd. destruct e as [c| | |c|c|b c|n|b|n|bytes|x]; cbn [ract] in E.
  - destruct (running s) as [r|] eqn:R; [rewrite <- R in *; eapply Id; eauto|]. destruct (immediate s); [injection E as <-; split; [exact I|intros (p & Hp); discriminate Hp]|]. split; [apply (Be _ _ E)|intros (p & Hp); discriminate Hp].
  - destruct (running s) as [r|] eqn:R; [rewrite <- R in *; eapply Id; eauto|]. split; [eapply It; eauto|intros (p & Hp); discriminate Hp].
  - destruct (running s) as [r|] eqn:R; [rewrite <- R in *; eapply Id; eauto|]. destruct (do_call (RunClock true) (core s)) as [h|]; [|discriminate E]. injection E as <-. split; [exact I|intros (p & Hp); discriminate Hp].
  - destruct (running s) as [[p|ct g]|] eqn:R; [|split; [eapply It; eauto|intros (p & Hp); discriminate Hp]|eapply Id; eauto].
    destruct (p_wait p) eqn:W; [split; [|intros _]; apply (Be _ _ E)|split; [|intros _]; apply (Lo _ _ E Sd)|eapply Id; eauto|split; [|intros _]; apply (Re _ _ _ E); [apply T|exact Sd|apply T|exact Sd]].
  - destruct (running s) as [[p|ct g]|] eqn:R; [| |eapply Id; eauto]; (destruct (immediate s); [eapply Id; eauto|]); [|split; [eapply It; eauto|intros (p & Hp); discriminate Hp]].
    destruct (p_wait p) eqn:W; [split; [|intros _]; apply (Be _ _ E)|split; [|intros _]; apply (Lo _ _ E Sd)| |split; [|intros _]; apply (Re _ _ _ E); [apply T|exact Sd|apply T|exact Sd]].
    injection E as <-. split; [|intros _ N; discriminate N]. unfold sound, with_run, set_going. cbn [running log p_wait]. rewrite W, app_nil_r. exact Sd.
  - destruct (running s) as [[p|ct g]|] eqn:R; [| eapply Id; eauto | eapply Id; eauto]. destruct (p_wait p) eqn:W; [eapply Id; eauto|eapply Id; eauto| |eapply Id; eauto].
    destruct T as (T1 & T2 & T3). destruct Sd as (K1 & K2 & K3). destruct b; injection E as <-.
    + split; [|intros _ N; discriminate N]. unfold sound, with_run. cbn [running log p_wait]. rewrite app_nil_r. auto.
    + split; [exact I|]. intros _ _. unfold refuse, finish, with_run in So |- *. cbn [log app] in So |- *. do 2 eexists. split; [reflexivity|]. eapply resumed_in_time; eauto. eapply sorted_first. exact So.
  - eapply Id; [exact E|reflexivity|reflexivity].
  - eapply Id; [exact E|reflexivity|reflexivity].
  - eapply Id; [exact E|reflexivity|reflexivity].
  - destruct (save_to_memory 0 bytes (core s)) as [h|]; [|destruct (running s) as [[]|]; discriminate E]. apply (Id (with_run h (running s) [] s)); [destruct (running s) as [[]|]; exact E|cbn; apply app_nil_r|reflexivity].
  - destruct (do_call (SetPc x) (core s)) as [h|]; [|destruct (running s) as [[]|]; discriminate E]. apply (Id (with_run h (running s) [] s)); [destruct (running s) as [[]|]; exact E|cbn; apply app_nil_r|reflexivity].
Qed.
Lemma story_sound : forall h n m es s, story (rstart h n m) es s -> StronglySorted Z.le (moments (log s)) -> sound s.
Proof.
  intros h n m es s S. induction S as [|es s1 e s2 S IH P E]; intros So; [exact I|]. pose proof (story_told _ _ _ _ _ S) as T.
  destruct (step_log e s1 s2 T E) as (d & Ed). eapply step_sound; eauto. apply IH. rewrite Ed, moments_app in So. apply (proj1 (sorted_app _ _ So)).
Qed.
(** It is shown exactly when the switch is on as the run ends.  If the clock never goes
    back, it is not negative and not more than the time between the run's start and end. *)
Theorem C86_shown : forall h n m es s e s' p, story (rstart h n m) es s -> ract e s = Some s' -> running s = Some (Prun p) -> running s' = None ->
  exists l t, log s' = log s ++ l ++ Ended t :: (if measure s then [Time (ran_for (log s ++ l) t)] else []) /\
    (StronglySorted Z.le (moments (log s')) -> 0 <= ran_for (log s ++ l) t <= t - w_start (stopwatch (log s ++ l))).
Proof.
  intros h n m es s e s' p S E R R'. pose proof (story_told _ _ _ _ _ S) as Ts. destruct (step_adds e s s' Ts E) as (T & d & Ed & A).
  revert Ed. inversion A; subst; intros Ed; try congruence; try (exfalso; eapply H0; eassumption); try (exfalso; eapply H1; eassumption).
  exists (o :: cy ++ (if p_im p0 then [Redrawn] else [])), (t_end c).
  assert (W : stopwatch (log s ++ o :: cy ++ (if p_im p0 then [Redrawn] else [])) = stopwatch (log s ++ [o])).
  { change (o :: cy ++ ?l) with ([o] ++ cy ++ l). rewrite app_assoc, watch_app. destruct H4 as [-> | ->], (p_im p0); reflexivity. }
  unfold ran_for. rewrite W. destruct H as (H & _). split.
  - rewrite Ed. unfold ending. cbn [app]. rewrite <- !app_assoc. cbn [app]. replace (t_end c - w_start (stopwatch (log s ++ [o])) - w_out (stopwatch (log s ++ [o]))) with (t_end c - p_start p0) by lia. destruct (measure s); reflexivity.
  - intros So. assert (Sd : sound s). { apply (story_sound _ _ _ _ _ S). rewrite Ed, moments_app in So. apply (proj1 (sorted_app _ _ So)). }
    destruct (proj2 (step_sound e s s' Ts Sd E So) (ex_intro _ p R) R') as (o' & d' & Ed' & (K1 & t & K2 & K3)).
    assert (o' = o) as ->. { rewrite Ed in Ed'. apply app_inv_head in Ed'. congruence. }
    assert (t <= t_end c). { rewrite Ed in So. unfold ending in So. change (o :: cy ++ ?l) with ([o] ++ cy ++ l) in So. rewrite app_assoc, moments_app in So. apply (proj2 (sorted_app _ _ So) t (t_end c)); [exact K2|].
      rewrite !moments_app. apply in_or_app. right. apply in_or_app. right. cbn. auto. }
    lia.
Qed.

(** ** The question *)
(** It is put only in immediate runs, more than ten seconds after the start or the last
    question was answered, right after the clock was read and the page drawn ... *)
Theorem C86_asks : forall h n m es s l1 l2 t, story (rstart h n m) es s -> log s = l1 ++ Asked t :: l2 ->
  exists l, l1 = l ++ [Looked t; Redrawn] /\ w_im (stopwatch l) = true /\ t - w_since (stopwatch l) > 10000.
Proof.
  intros h n m es s l1 l2 t S. revert l1 l2 t. induction S as [|es s1 e s2 S IH P E]; intros l1 l2 t L; [destruct l1; discriminate L|].
  destruct (step_adds e s1 s2 (story_told _ _ _ _ _ S) E) as (_ & d & Ed & A). rewrite Ed in L.
  destruct (app_split _ _ _ _ _ L) as [(k & K1 & _)|(k & -> & K2)]; [exact (IH _ _ _ K1)|].
  revert K2. clear L Ed. inversion A; subst; clear A; intros K2.
  - destruct k; discriminate K2.
  - destruct k as [|? [|? k]]; discriminate K2.
  - destruct k as [|o1 [|o2 [|o3 [|o4 k]]]]; try discriminate K2. injection K2 as <- <- <- _. exists (log s1). destruct H as (_ & A2 & A3). split; [reflexivity|]. split; [congruence|]. unfold max_time in *. lia.
  - destruct k as [|o1 [|o2 [|o3 k]]]; try discriminate K2. injection K2 as K2 _. destruct (H1 t). congruence.
  - exfalso. destruct k as [|o1 k]; [injection K2 as K2 _; destruct (H1 t); congruence|]. injection K2 as <- K2. unfold ending in K2.
    destruct H4 as [-> | ->], (p_im p), (measure s1); cbn [app negb] in K2; repeat (destruct k as [|? k]; [discriminate K2|injection K2 as <- K2]); try discriminate K2; destruct k; discriminate K2.
Qed.
(** ... and it is put whenever the clock shows that, so an immediate run goes on for at
    most ten seconds of the clock without asking. *)
Theorem C86_asks_in_time : forall h n m es s l1 l2 t, story (rstart h n m) es s -> log s = l1 ++ Looked t :: l2 ->
  w_im (stopwatch l1) = true -> t - w_since (stopwatch l1) > 10000 -> exists l, l2 = Redrawn :: Asked t :: l.
Proof.
  intros h n m es s l1 l2 t S. revert l1 l2 t. induction S as [|es s1 e s2 S IH P E]; intros l1 l2 t L Wi Wt; [destruct l1; discriminate L|].
  destruct (step_adds e s1 s2 (story_told _ _ _ _ _ S) E) as (_ & d & Ed & A). rewrite Ed in L.
  destruct (app_split _ _ _ _ _ L) as [(k & K1 & ->)|(k & -> & K2)]; [destruct (IH _ _ _ K1 Wi Wt) as (l & ->); cbn [app]; eauto|].
  revert K2. clear L Ed. inversion A; subst; clear A; intros K2.
  - destruct k; discriminate K2.
  - destruct k as [|? [|? k]]; discriminate K2.
  - destruct k as [|o1 [|o2 [|o3 [|o4 k]]]]; try discriminate K2. injection K2 as <- <-. eauto.
  - destruct k as [|o1 [|o2 [|o3 k]]]; try discriminate K2. injection K2 as -> _. exfalso. apply (H3 t eq_refl). destruct H as (_ & A2 & A3). rewrite watch_app in A2, A3. cbn [fold_left observe] in A2, A3. rewrite app_nil_r in *. unfold max_time. rewrite A2, A3. split; [lia|exact Wi].
  - exfalso. destruct k as [|o1 k].
    + injection K2 as -> _. apply (H3 t eq_refl). destruct H as (_ & A2 & A3). rewrite watch_app in A2, A3. cbn [fold_left observe] in A2, A3. rewrite app_nil_r in *. unfold max_time. rewrite A2, A3. split; [lia|exact Wi].
    + injection K2 as <- K2. unfold ending in K2.
      destruct H4 as [-> | ->], (p_im p), (measure s1); cbn [app negb] in K2; repeat (destruct k as [|? k]; [discriminate K2|injection K2 as <- K2]); try discriminate K2; destruct k; discriminate K2.
Qed.
(** No cycle is run while a question is open. *)
Theorem C86_waits : forall h n m es s l1 l2 u, story (rstart h n m) es s -> log s = l1 ++ Cycled u :: l2 -> open l1 = false.
Proof.
  intros h n m es s l1 l2 u S. revert l1 l2 u. induction S as [|es s1 e s2 S IH P E]; intros l1 l2 u L; [destruct l1; discriminate L|].
  destruct (step_adds e s1 s2 (story_told _ _ _ _ _ S) E) as (_ & d & Ed & A). rewrite Ed in L.
  destruct (app_split _ _ _ _ _ L) as [(k & K1 & _)|(k & -> & K2)]; [exact (IH _ _ _ K1)|].
  revert K2. clear L Ed. inversion A; subst; clear A; intros K2.
  - destruct k; discriminate K2.
  - destruct k as [|? [|? k]]; try discriminate K2. rewrite app_nil_r. assumption.
  - destruct k as [|? [|? [|? [|? k]]]]; discriminate K2.
  - destruct k as [|o1 [|o2 [|o3 k]]]; try discriminate K2; [injection K2 as K2 _; destruct (H2 u); congruence|]. injection K2 as <- _. exact H0.
  - destruct k as [|o1 k]; [injection K2 as K2 _; destruct (H2 u); congruence|]. injection K2 as <- K2. unfold ending in K2.
    destruct H4 as [-> | ->], (p_im p), (measure s1); cbn [app negb] in K2; repeat (destruct k as [|? k]; [first [discriminate K2|exact H0]|injection K2 as <- K2]); try discriminate K2; destruct k; discriminate K2.
Qed.
(** When no run is in progress, and while a question is open, the page has been drawn
    after the last cycle; in a run that is not immediate, after every cycle. *)
Theorem C86_drawn : forall h n m es s, story (rstart h n m) es s ->
  running s = None \/ open (log s) = true \/ (forall p, running s = Some (Prun p) -> p_im p = false) -> fresh (log s) = true.
Proof.
  intros h n m es s S Hs. pose proof (story_told _ _ _ _ _ S) as T. unfold told in T. destruct (running s) as [[p|ct g]|] eqn:R; [|apply T|apply T].
  destruct (p_wait p); [apply T| |apply T|apply T]. destruct T as (_ & T2 & [T3|T3]); [exact T3|]. destruct Hs as [Hs|[Hs|Hs]]; [discriminate Hs|congruence|]. rewrite (Hs p eq_refl) in T3. discriminate T3.
Qed.
Theorem C86_drawn_cycles : forall h n m es s l1 l2 u, story (rstart h n m) es s -> log s = l1 ++ Cycled u :: l2 -> u = true \/ w_im (stopwatch l1) = true.
Proof.
  intros h n m es s l1 l2 u S. revert l1 l2 u. induction S as [|es s1 e s2 S IH P E]; intros l1 l2 u L; [destruct l1; discriminate L|].
  destruct (step_adds e s1 s2 (story_told _ _ _ _ _ S) E) as (_ & d & Ed & A). rewrite Ed in L.
  destruct (app_split _ _ _ _ _ L) as [(k & K1 & _)|(k & -> & K2)]; [exact (IH _ _ _ K1)|].
  revert K2. clear L Ed. inversion A; subst; clear A; intros K2.
  - destruct k; discriminate K2.
  - destruct k as [|? [|? k]]; try discriminate K2. injection K2 as <- _. auto.
  - destruct k as [|? [|? [|? [|? k]]]]; discriminate K2.
  - destruct k as [|o1 [|o2 [|o3 k]]]; try discriminate K2; [injection K2 as K2 _; destruct (H2 u); congruence|]. injection K2 as <- <- _. destruct H as (_ & _ & A3). rewrite <- A3. destruct (p_im p); auto.
  - destruct k as [|o1 k]; [injection K2 as K2 _; destruct (H2 u); congruence|]. injection K2 as <- K2. unfold ending in K2. destruct H as (_ & _ & A3).
    destruct H4 as [-> | ->], (p_im p), (measure s1); cbn [app negb] in K2; repeat (destruct k as [|? k]; [first [discriminate K2|injection K2 as <- _; rewrite <- A3; auto; fail]|injection K2 as <- K2]); try discriminate K2; destruct k; discriminate K2.
Qed.

(** ** The buttons of [Buttons.v] *)
(** The loop of [Buttons.v] a run is. *)
Definition loop_of (r : option task) : option Buttons.loop :=
  match r with
  | None => None
  | Some (Irun _ g) => Some (Buttons.mkLoop Buttons.Instruction g false)
  | Some (Prun p) => match p_wait p with
                     | Toast => Some (Buttons.mkLoop Buttons.Starting true false)
                     | _ => Some (Buttons.mkLoop (Buttons.Program (p_im p)) (p_going p) (p_stoping p))
                     end
  end.
Definition asks (p : prun) (c : clock) : bool := (t_now c - p_check p >? max_time) && p_im p.
(** What an event is in [Buttons.v]. *)
Definition presses (e : revent) (s : rstate) : list Buttons.uevent :=
  match e, running s with
  | PressProgram _, None => [Buttons.PressProgram (immediate s)]
  | PressInstruction, None => [Buttons.PressInstruction]
  | PressState, None => [Buttons.PressState]
  | Elapse c, Some (Prun p) => match p_wait p with Asking _ => [] | Between => if asks p c then [] else [Buttons.Wake] | _ => [Buttons.Wake] end
  | Elapse c, Some (Irun _ _) => [Buttons.Wake]
  | PressStop c, Some (Prun p) =>
      if immediate s then [] else
      match p_wait p with
      | Toast => [Buttons.Wake]
      | Between => if asks p c then [Buttons.PressStop] else [Buttons.PressStop; Buttons.Wake]
      | Asking _ => [Buttons.PressStop]
      | Dismissing _ => [Buttons.PressStop; Buttons.Wake]
      end
  | PressStop c, Some (Irun _ _) => if immediate s then [] else [Buttons.PressStop; Buttons.Wake]
  | Answer false c, Some (Prun p) => match p_wait p with Asking _ => [Buttons.PressStop; Buttons.Wake] | _ => [] end
  | Save bytes, _ => [Buttons.Save bytes]
  | SetPcTo x, _ => [Buttons.SetPcTo x]
  | _, _ => []
  end.
Definition seen (s : rstate) : Buttons.ustate := (core s, loop_of (running s)).
Lemma turn_acts : forall p c l s lo, p_wait p = Between -> lo = Buttons.mkLoop (Buttons.Program (p_im p)) (p_going p) (p_stoping p) ->
  option_map seen (turn (core s) p c l s) = Buttons.act Buttons.Wake (core s, Some lo).
Proof.
  intros p c l s lo W ->. unfold turn. cbn [Buttons.act Buttons.going Buttons.lkind Buttons.stoping]. destruct (p_going p); cbn [negb]; [|reflexivity].
  cbn [Buttons.iterate]. destruct (do_call (RunClock (negb (p_im p))) (core s)) as [h1|]; [|reflexivity]. destruct (p_stoping p); [reflexivity|]. destruct (get_register_value R_RI h1); reflexivity.
Qed.
Lemma begin_acts : forall c s im, im = true \/ running s = None ->
  option_map seen (begin im c s) = match im with true => Buttons.act Buttons.Wake (core s, Some (Buttons.mkLoop Buttons.Starting true false)) | false => Buttons.act (Buttons.PressProgram false) (core s, None) end.
Proof. intros c s im H. unfold begin. erewrite turn_acts; [|reflexivity|reflexivity]. cbn [p_going p_im p_stoping]. destruct im; reflexivity. Qed.
Lemma iturn_acts : forall s ct g lo, lo = Buttons.mkLoop Buttons.Instruction g false -> option_map seen (iturn (core s) ct g s) = Buttons.act Buttons.Wake (core s, Some lo).
Proof.
  intros s ct g lo ->. unfold iturn. cbn [Buttons.act Buttons.going Buttons.lkind Buttons.stoping]. destruct g; cbn [negb]; [|reflexivity].
  cbn [Buttons.iterate]. destruct (do_call (RunClock true) (core s)) as [h1|]; [|reflexivity]. destruct (get_next_state h1) as [q|]; [|reflexivity]. cbn [option_map]. unfold seen, with_run. cbn [core running]. destruct (q =? 0); reflexivity.
Qed.
Lemma acts1 : forall e u, Buttons.acts [e] u = Buttons.act e u.
Proof. intros e u. cbn [Buttons.acts]. destruct (Buttons.act e u); reflexivity. Qed.
Lemma acts_stop : forall h lo g, (Buttons.lkind lo <> Buttons.Starting) -> g = Buttons.mkLoop (Buttons.lkind lo) false (Buttons.stoping lo) ->
  Buttons.acts [Buttons.PressStop; Buttons.Wake] (h, Some lo) = Buttons.act Buttons.Wake (h, Some g).
Proof. intros h [[]] g N ->; cbn [Buttons.lkind] in N; try congruence; reflexivity. Qed.
Lemma look_acts : forall p c s, p_wait p = Between -> option_map seen (look p c s) =
  if asks p c then Some (core s, Some (Buttons.mkLoop (Buttons.Program (p_im p)) (p_going p) (p_stoping p)))
  else Buttons.act Buttons.Wake (core s, Some (Buttons.mkLoop (Buttons.Program (p_im p)) (p_going p) (p_stoping p))).
Proof. intros p c s W. unfold look. fold (asks p c). destruct (asks p c); [reflexivity|]. apply turn_acts; auto. Qed.
Lemma step_acts : forall e s, told s -> option_map seen (ract e s) = Buttons.acts (presses e s) (seen s).
Proof.
  intros e s T. unfold told in T. unfold seen at 2.
  destruct e as [c| | |c|c|b c|n|b|n|bytes|x]; cbn [ract presses].
  - destruct (running s) as [r|] eqn:R; [cbn [Buttons.acts option_map]; unfold seen; rewrite R; reflexivity|]. rewrite acts1. destruct (immediate s); [reflexivity|]. apply (begin_acts c s false); auto.
  - destruct (running s) as [r|] eqn:R; [cbn [Buttons.acts option_map]; unfold seen; rewrite R; reflexivity|]. rewrite acts1, (iturn_acts s _ true _ eq_refl). reflexivity.
  - destruct (running s) as [r|] eqn:R; [cbn [Buttons.acts option_map]; unfold seen; rewrite R; reflexivity|]. rewrite acts1. cbn [Buttons.act loop_of]. destruct (do_call (RunClock true) (core s)); reflexivity.
  - destruct (running s) as [[p|ct g]|] eqn:R; [|rewrite acts1; apply iturn_acts; reflexivity|cbn [Buttons.acts option_map]; unfold seen; rewrite R; reflexivity].
    cbn [loop_of]. destruct (p_wait p) eqn:W.
    + rewrite acts1. destruct T as (T & _). rewrite T. apply (begin_acts c s true); auto.
    + rewrite (look_acts p c s W). destruct (asks p c); [reflexivity|]. rewrite acts1. reflexivity.
    + cbn [Buttons.acts option_map]. unfold seen. rewrite R. cbn [loop_of]. rewrite W. reflexivity.
    + rewrite acts1. unfold resume. apply turn_acts; reflexivity.
  - destruct (running s) as [[p|ct g]|] eqn:R; [| |cbn [Buttons.acts option_map]; unfold seen; rewrite R; reflexivity].
    + destruct (immediate s); [cbn [Buttons.acts option_map]; unfold seen; rewrite R; reflexivity|]. cbn [loop_of]. destruct (p_wait p) eqn:W.
      * rewrite acts1. destruct T as (T & _). rewrite T. apply (begin_acts c s true); auto.
      * rewrite (look_acts (set_going p false) c s W). unfold asks at 1. cbn [set_going p_check p_im p_going p_stoping]. fold (asks p c). destruct (asks p c); [rewrite acts1; reflexivity|].
        erewrite acts_stop; [|discriminate|reflexivity]. reflexivity.
      * rewrite acts1. unfold seen, with_run, set_going. cbn [option_map core running loop_of p_wait]. rewrite W. reflexivity.
      * erewrite acts_stop; [|discriminate|reflexivity]. unfold resume. apply turn_acts; reflexivity.
    + destruct (immediate s); [cbn [Buttons.acts option_map]; unfold seen; rewrite R; reflexivity|]. cbn [loop_of]. erewrite acts_stop; [|discriminate|reflexivity]. apply iturn_acts. reflexivity.
  - destruct (running s) as [[p|ct g]|] eqn:R; [|destruct b; cbn [Buttons.acts option_map]; unfold seen; rewrite R; reflexivity|destruct b; cbn [Buttons.acts option_map]; unfold seen; rewrite R; reflexivity].
    destruct (p_wait p) eqn:W; [destruct b; cbn [Buttons.acts option_map]; unfold seen; rewrite R; reflexivity|destruct b; cbn [Buttons.acts option_map]; unfold seen; rewrite R; reflexivity| |destruct b; cbn [Buttons.acts option_map]; unfold seen; rewrite R; reflexivity].
    destruct b; [cbn [Buttons.acts option_map]; unfold seen; cbn; rewrite W; reflexivity|]. cbn [loop_of]. rewrite W. reflexivity.
  - reflexivity.
  - reflexivity.
  - reflexivity.
  - (* Save *)
    replace (match running s with Some (Prun _) | _ => _ end) with (match save_to_memory 0 bytes (core s) with Some h => Some (with_run h (running s) [] s) | None => None end) by (destruct (running s) as [[]|]; reflexivity).
    replace (match running s with Some (Prun _) | _ => [Buttons.Save bytes] end) with [Buttons.Save bytes] by (destruct (running s) as [[]|]; reflexivity).
    rewrite acts1. cbn [Buttons.act]. destruct (save_to_memory 0 bytes (core s)); [reflexivity|]. destruct (loop_of (running s)); reflexivity.
  - replace (match running s with Some (Prun _) | _ => _ end) with (match do_call (SetPc x) (core s) with Some h => Some (with_run h (running s) [] s) | None => None end) by (destruct (running s) as [[]|]; reflexivity).
    rewrite acts1. cbn [Buttons.act]. destruct (do_call (SetPc x) (core s)); [reflexivity|]. destruct (loop_of (running s)); reflexivity.
Qed.
Lemma acts_app : forall us vs u, Buttons.acts (us ++ vs) u = match Buttons.acts us u with Some u' => Buttons.acts vs u' | None => None end.
Proof. induction us as [|x us IH]; intros vs u; [reflexivity|]. cbn [app Buttons.acts]. destruct (Buttons.act x u); [apply IH|reflexivity]. Qed.
(** Every history in time is one of the histories of presses, wake-ups and saves of
    [Buttons.v], so what C62 says of all of those holds here. *)
Theorem C86_buttons : forall h n m es s, story (rstart h n m) es s -> exists us, Buttons.acts us (h, None) = Some (core s, loop_of (running s)) /\
  (Forall allowed_event es -> Forall PropsButtons.user_event us) /\
  (forall bytes, In (Buttons.Save bytes) us <-> In (Save bytes) es) /\ (forall x, In (Buttons.SetPcTo x) us <-> In (SetPcTo x) es).
Proof.
  intros h n m es s S. induction S as [|es s1 e s2 S (us & U & F & Sv & Sp) P E].
  - exists []. split; [reflexivity|]. split; [constructor|]. split; intros; split; intros [].
  - pose proof (step_acts e s1 (story_told _ _ _ _ _ S)) as A. rewrite E in A. cbn [option_map] in A. exists (us ++ presses e s1).
    split. { rewrite acts_app, U. symmetry. exact A. }
    assert (K : (allowed_event e -> Forall PropsButtons.user_event (presses e s1)) /\ (forall bytes, In (Buttons.Save bytes) (presses e s1) <-> e = Save bytes) /\ (forall x, In (Buttons.SetPcTo x) (presses e s1) <-> e = SetPcTo x)).
    { clear. unfold presses. destruct e as [c| | |c|c|[] c|n|b|n|bytes|x]; cbn [allowed_event];
        repeat match goal with |- context [match running s1 with _ => _ end] => destruct (running s1) as [[p|ct g]|]
               | |- context [match p_wait ?q with _ => _ end] => destruct (p_wait q) | |- context [if ?b then _ else _] => destruct b end;
        (split; [intros; repeat (constructor; auto)|split; intros; cbn [In]; split; intros H; repeat destruct H as [H|H]; try contradiction; try discriminate; try (injection H as ->); auto]). }
    destruct K as (K1 & K2 & K3). split; [|split].
    + intros Fa. apply Forall_app in Fa as (Fa & Fe). inversion Fe; subst. apply Forall_app. auto.
    + intros bytes. rewrite !in_app_iff. cbn [In]. specialize (Sv bytes). specialize (K2 bytes). tauto.
    + intros x. rewrite !in_app_iff. cbn [In]. specialize (Sp x). specialize (K3 x). tauto.
Qed.
Lemma story_live : forall l h n m es s, live l h true -> story (rstart h n m) es s -> Forall allowed_event es -> exists l', live l' (core s) true.
Proof.
  intros l h n m es s L S F. destruct (C86_buttons h n m es s S) as (us & U & Fu & _). destruct (PropsButtons.C62_safe us l h None L (Fu F)) as (h' & lo & l' & E & L').
  rewrite U in E. injection E as <- _. eauto.
Qed.
(** Nothing that may happen is undefined. *)
Theorem C86_defined : forall l h n m es s e, live l h true -> story (rstart h n m) es s -> Forall allowed_event es -> allowed_event e -> exists s', ract e s = Some s'.
Proof.
  intros l h n m es s e L S F A. destruct (story_live l h n m es s L S F) as (l' & L').
  pose proof (step_acts e s (story_told _ _ _ _ _ S)) as St.
  assert (Fu : Forall PropsButtons.user_event (presses e s)).
  { clear - A. unfold presses. destruct e as [c| | |c|c|[] c|n|b|n|bytes|x]; cbn [allowed_event] in A;
      repeat match goal with |- context [match running s with _ => _ end] => destruct (running s) as [[p|ct g]|]
               | |- context [match p_wait ?q with _ => _ end] => destruct (p_wait q) | |- context [if ?b then _ else _] => destruct b end; repeat (constructor; auto). }
  destruct (PropsButtons.C62_safe (presses e s) l' (core s) (loop_of (running s)) L' Fu) as (h1 & lo & l1 & E & _). unfold seen in St at 2. rewrite E in St.
  destruct (ract e s) as [s'|]; [eauto|discriminate St].
Qed.

(** ** Stop *)
(** A run that has been stopped but whose question is open. *)
Definition stopped (s : rstate) : Prop := exists p now, running s = Some (Prun p) /\ p_going p = false /\ (p_wait p = Asking now \/ p_wait p = Dismissing now).
Lemma turn_stopped : forall h p c l s, p_going p = false -> turn h p c l s = Some (finish h p c l s).
Proof. intros h p c l s G. unfold turn. rewrite G. reflexivity. Qed.
Lemma cycles_app : forall l d, cycles (l ++ d) = (cycles l + cycles d)%nat.
Proof. intros. unfold cycles. rewrite filter_app, app_length. reflexivity. Qed.
Lemma cycles_finish : forall h p c o s, (forall u, o <> Cycled u) -> cycles (log (finish h p c [o] s)) = cycles (log s).
Proof.
  intros h p c o s N. unfold finish, with_run. cbn [log]. rewrite cycles_app. unfold cycles at 2. destruct o; try (destruct (N ui); reflexivity); destruct (p_im p), (measure s); cbn; lia.
Qed.
(** Where the button is enabled ([immediate s] is false) it ends the run at once, without
    another cycle, or when the question on the page has been answered; only in the tenth
    of a second before an immediate run begins it is forgotten (C62_stop_refuted). *)
Theorem C86_stop : forall c s s' r, running s = Some r -> immediate s = false -> (forall p, r = Prun p -> p_wait p <> Toast) ->
  ract (PressStop c) s = Some s' -> core s' = core s /\ cycles (log s') = cycles (log s) /\ (running s' = None \/ stopped s').
Proof.
  intros c s s' r R I W E. cbn [ract] in E. rewrite R, I in E. destruct r as [p|ct g].
  - specialize (W p eq_refl). destruct (p_wait p) eqn:Wp; [congruence| | |].
    + unfold look in E. destruct (_ && _).
      * injection E as <-. split; [reflexivity|]. split; [cbn [log with_run]; rewrite cycles_app; cbn; lia|]. right. eexists _, _. split; [reflexivity|]. split; [first [reflexivity|exact G]|cbn; auto].
      * rewrite turn_stopped in E by reflexivity. injection E as <-. split; [reflexivity|]. split; [apply cycles_finish; discriminate|auto].
    + injection E as <-. split; [reflexivity|]. split; [cbn [log with_run]; rewrite app_nil_r; reflexivity|]. right. exists (set_going p false), now. cbn. auto.
    + unfold resume in E. rewrite turn_stopped in E by reflexivity. injection E as <-. split; [reflexivity|]. split; [apply cycles_finish; discriminate|auto].
  - unfold iturn in E. cbn [negb] in E. injection E as <-. split; [reflexivity|]. split; [cbn [log with_run]; rewrite app_nil_r; reflexivity|auto].
Qed.
(** Such a run makes no further cycle, whatever happens, and either answer ends it. *)
Theorem C86_stopped : forall s e s', stopped s -> ract e s = Some s' -> cycles (log s') = cycles (log s) /\ (running s' = None \/ stopped s').
Proof.
  intros s e s' (p & now & R & G & W) E.
  assert (Same : forall r, Some r = Some s' -> log r = log s -> running r = running s -> cycles (log s') = cycles (log s) /\ (running s' = None \/ stopped s')).
  { intros r H L Rr. injection H as <-. rewrite L. split; [reflexivity|]. right. exists p, now. rewrite Rr. auto. }
  assert (Re : forall q c, p_going q = false -> resume q now c s = Some s' -> cycles (log s') = cycles (log s) /\ (running s' = None \/ stopped s')).
  { intros q c Gq Er. unfold resume in Er. rewrite turn_stopped in Er by exact Gq. injection Er as <-. split; [apply cycles_finish; discriminate|auto]. }
  destruct e as [c| | |c|c|b c|n|b|n|bytes|x]; cbn [ract] in E; rewrite R in E.
  - eapply Same; eauto.
  - eapply Same; eauto.
  - eapply Same; eauto.
  - destruct W as [W|W]; rewrite W in E; [eapply Same; eauto|eapply Re; eauto].
  - destruct (immediate s); [eapply Same; eauto|]. destruct W as [W|W]; rewrite W in E; [|eapply Re; [|exact E]; reflexivity].
    injection E as <-. split; [cbn [log with_run]; rewrite app_nil_r; reflexivity|]. right. exists (set_going p false), now. cbn. auto.
  - destruct W as [W|W]; rewrite W in E; [|eapply Same; eauto]. destruct b; injection E as <-.
    + split; [cbn [log with_run]; rewrite app_nil_r; reflexivity|]. right. eexists _, _. split; [reflexivity|]. split; [first [reflexivity|exact G]|cbn; auto].
    + split; [apply cycles_finish; discriminate|auto].
  - eapply Same; [exact E|reflexivity|cbn; auto].
  - eapply Same; [exact E|reflexivity|cbn; auto].
  - eapply Same; [exact E|reflexivity|cbn; auto].
  - destruct (save_to_memory 0 bytes (core s)) as [h|]; [|discriminate E]. rewrite <- R in E. eapply Same; [exact E|cbn; apply app_nil_r|reflexivity].
  - destruct (do_call (SetPc x) (core s)) as [h|]; [|discriminate E]. rewrite <- R in E. eapply Same; [exact E|cbn; apply app_nil_r|reflexivity].
Qed.
Theorem C86_stopped_ends : forall s p now b c c2, running s = Some (Prun p) -> p_going p = false -> p_wait p = Asking now ->
  exists s', racts [Answer b c; Elapse c2] s = Some s' /\ running s' = None /\ core s' = core s.
Proof.
  intros s p now b c c2 R G W. cbn [racts ract]. rewrite R, W. destruct b.
  - cbn [running with_run p_wait]. unfold resume. rewrite turn_stopped by exact G. eauto.
  - cbn [running refuse finish with_run]. eauto.
Qed.
(** "A run can be stopped" is false: setting the cycle time to 0 during a run that waits
    between its cycles disables Stop for it, and it goes on. *)
Lemma clock_defined : forall l h u, live l h true -> exists h1 v, do_call (RunClock u) h = Some h1 /\ get_register_value R_RI h1 = Some v /\ exists l', live l' h1 true.
Proof.
  intros l h u L. destruct (PropsButtons.live_clock l h u L) as (h1 & E & L1). destruct (PropsApi.C17_getters_defined _ _ _ L1) as (A & _).
  destruct (get_register_value R_RI h1) as [v|] eqn:V; [|destruct (A R_RI V)]. eauto 8.
Qed.
Theorem C86_stop_refuted : forall l h n m c, live l h true -> n <> 0 -> exists s s',
  story (rstart h n m) [PressProgram c; SetCycle 0] s /\ running s <> None /\ frozen s = false /\
  (forall c', ract (PressStop c') s = Some s) /\ ract (Elapse c) s = Some s' /\ cycles (log s') = S (cycles (log s)).
Proof.
  intros l h n m c L Hn. destruct (clock_defined l h true L) as (h1 & v & E1 & V1 & l1 & L1). destruct (clock_defined l1 h1 true L1) as (h2 & v2 & E2 & V2 & _).
  assert (I : (n =? 0) = false) by lia.
  set (p := mkRun false n (t_start c) (t_start c) true (v =? max_representable) Between).
  set (s := mkR h1 0 true m (Some (Prun p)) [Started (t_start c) false; Cycled true]).
  assert (Ep : ract (PressProgram c) (rstart h n m) = Some (mkR h1 n false m (Some (Prun p)) [Started (t_start c) false; Cycled true])).
  { cbn [ract rstart running immediate]. rewrite I. unfold begin, turn, rstart. cbn [core p_going p_im negb p_stoping cycle]. rewrite E1, V1. unfold with_run. cbn. rewrite I. reflexivity. }
  assert (S1 : story (rstart h n m) [PressProgram c; SetCycle 0] s).
  { change [PressProgram c; SetCycle 0] with ([PressProgram c] ++ [SetCycle 0]). eapply St_event; [change [PressProgram c] with ([] ++ [PressProgram c]); eapply St_event; [apply St_nil|reflexivity|exact Ep]| |reflexivity].
    unfold possible, frozen. cbn [running p_wait p p_cycle]. rewrite I. reflexivity. }
  assert (Ee : exists s', ract (Elapse c) s = Some s' /\ cycles (log s') = S (cycles (log s))).
  { cbn [ract s running p p_wait]. unfold look. cbn [p_im]. rewrite andb_false_r. unfold turn. cbn [p p_going p_im negb core s p_stoping]. rewrite E2. destruct (v =? max_representable).
    - eexists. split; [reflexivity|]. unfold finish, with_run. cbn. destruct m; reflexivity.
    - rewrite V2. eexists. split; [reflexivity|]. reflexivity. }
  destruct Ee as (s' & Ee & Ec). exists s, s'. split; [exact S1|]. split; [discriminate|]. split; [exact I|]. split; [reflexivity|]. auto.
Qed.

(** ** How long the page is frozen *)
(** In one tab a run that does not wait between its cycles is immediate. *)
Definition steady (s : rstate) : Prop :=
  immediate s = (cycle s =? 0) /\ forall p, running s = Some (Prun p) -> p_wait p <> Toast -> p_cycle p = 0 -> p_im p = true.
Lemma turn_keeps : forall h p c l s s', turn h p c l s = Some s' -> cycle s' = cycle s /\ immediate s' = immediate s /\
  forall q, running s' = Some (Prun q) -> p_cycle q = p_cycle p /\ p_im q = p_im p /\ p_check q = p_check p.
Proof.
  intros h p c l s s' E. unfold turn in E. destruct (p_going p); cbn [negb] in E; [|injection E as <-; split; [reflexivity|]; split; [reflexivity|]; discriminate].
  destruct (do_call (RunClock (negb (p_im p))) h) as [h1|]; [|discriminate E]. destruct (p_stoping p); [injection E as <-; split; [reflexivity|]; split; [reflexivity|]; discriminate|].
  destruct (get_register_value R_RI h1) as [v|]; [|discriminate E]. injection E as <-. split; [reflexivity|]. split; [reflexivity|]. intros q Hq. injection Hq as <-. auto.
Qed.
Lemma iturn_keeps : forall h ct g s s', iturn h ct g s = Some s' -> cycle s' = cycle s /\ immediate s' = immediate s /\ forall q, running s' <> Some (Prun q).
Proof.
  intros h ct g s s' E. unfold iturn in E. destruct g; cbn [negb] in E; [|injection E as <-; split; [reflexivity|]; split; [reflexivity|]; discriminate].
  destruct (do_call (RunClock true) h) as [h1|]; [|discriminate E]. destruct (get_next_state h1) as [q|]; [|discriminate E]. injection E as <-. split; [reflexivity|]. split; [reflexivity|]. intros x. cbn [running with_run]. destruct (q =? 0); discriminate.
Qed.
Lemma step_steady : forall e s s', told s -> steady s -> (forall n, e <> OtherTab n) -> ract e s = Some s' -> steady s'.
Proof.
  intros e s s' T (I & P) Ne E.
  assert (Tu : forall h p c l, turn h p c l s = Some s' -> (p_cycle p = 0 -> p_im p = true) -> steady s').
  { intros h p c l Et K. destruct (turn_keeps _ _ _ _ _ _ Et) as (E1 & E2 & E3). split; [congruence|]. intros q Hq _ Hc. destruct (E3 q Hq) as (A & B & _). rewrite B. apply K. congruence. }
  assert (Id : forall r, Some r = Some s' -> cycle r = cycle s -> immediate r = immediate s -> running r = running s -> steady s').
  { intros r H A B C. injection H as <-. split; [congruence|]. rewrite C. exact P. }
  assert (It : forall h ct g, iturn h ct g s = Some s' -> steady s').
  { intros h ct g Ei. destruct (iturn_keeps _ _ _ _ _ Ei) as (E1 & E2 & E3). split; [congruence|]. intros q Hq. destruct (E3 q Hq). }
  assert (Lo : forall p c, look p c s = Some s' -> (p_cycle p = 0 -> p_im p = true) -> steady s').
  { intros p c El K. unfold look in El. destruct (_ && _); [|eapply Tu; eauto]. injection El as <-. split; [exact I|]. intros q Hq _ Hc. injection Hq as <-. exact (K Hc). }
  unfold told in T. destruct e as [c| | |c|c|b c|n|b|n|bytes|x]; cbn [ract] in E.
  - destruct (running s) as [r|] eqn:R; [eapply Id; eauto|]. destruct (immediate s) eqn:Im; [injection E as <-; split; [cbn; congruence|]; intros q Hq W; injection Hq as <-; destruct W; reflexivity|].
    eapply Tu; [exact E|]. cbn [p_cycle p_im]. intros Hc. rewrite Hc in I. discriminate I.
  - destruct (running s) as [r|] eqn:R; [eapply Id; eauto|]. eapply It; eauto.
  - destruct (running s) as [r|] eqn:R; [eapply Id; eauto|]. destruct (do_call (RunClock true) (core s)) as [h|]; [|discriminate E]. injection E as <-. split; [exact I|]. discriminate.
  - destruct (running s) as [[p|ct g]|] eqn:R; [|eapply It; eauto|eapply Id; eauto]. destruct (p_wait p) eqn:W.
    + destruct T as (T & _). eapply Tu; [exact E|]. cbn. auto.
    + eapply Lo; [exact E|]. apply (P p eq_refl). congruence.
    + eapply Id; eauto.
    + eapply Tu; [exact E|]. cbn. apply (P p eq_refl). congruence.
  - destruct (running s) as [[p|ct g]|] eqn:R; [| |eapply Id; eauto]; (destruct (immediate s) eqn:Im; [eapply Id; eauto|]); [|eapply It; eauto]. destruct (p_wait p) eqn:W.
    + destruct T as (T & _). eapply Tu; [exact E|]. cbn. auto.
    + eapply Lo; [exact E|]. apply (P p eq_refl). congruence.
    + injection E as <-. split; [cbn; congruence|]. intros q Hq _ Hc. injection Hq as <-. apply (P p eq_refl); [congruence|exact Hc].
    + eapply Tu; [exact E|]. cbn. apply (P p eq_refl). congruence.
  - destruct (running s) as [[p|ct g]|] eqn:R; [|eapply Id; eauto|eapply Id; eauto]. destruct (p_wait p) eqn:W; [eapply Id; eauto|eapply Id; eauto| |eapply Id; eauto].
    destruct b; injection E as <-; (split; [exact I|]); [|discriminate]. intros q Hq _ Hc. injection Hq as <-. apply (P p eq_refl); [congruence|exact Hc].
  - injection E as <-. split; [reflexivity|]. exact P.
  - injection E as <-. split; [exact I|]. exact P.
  - destruct (Ne n eq_refl).
  - destruct (save_to_memory 0 bytes (core s)) as [h|]; [|destruct (running s) as [[]|]; discriminate E]. apply (Id (with_run h (running s) [] s)); [destruct (running s) as [[]|]; exact E|reflexivity|reflexivity|reflexivity].
  - destruct (do_call (SetPc x) (core s)) as [h|]; [|destruct (running s) as [[]|]; discriminate E]. apply (Id (with_run h (running s) [] s)); [destruct (running s) as [[]|]; exact E|reflexivity|reflexivity|reflexivity].
Qed.
Lemma story_steady : forall h n m es s, story (rstart h n m) es s -> one_tab es -> steady s.
Proof.
  intros h n m es s S. induction S as [|es s1 e s2 S IH P E]; intros O; [split; [reflexivity|discriminate]|].
  eapply step_steady; [exact (story_told _ _ _ _ _ S)| | |exact E]. { apply IH. intros k Hk. apply (O k), in_or_app. auto. } intros k ->. apply (O k), in_or_app. cbn. auto.
Qed.
(** The page stays frozen through the continuations [cs]. *)
Inductive stays_frozen : list clock -> rstate -> Prop :=
| Fr_nil : forall s, frozen s = true -> stays_frozen [] s
| Fr_one : forall c cs s s', frozen s = true -> ract (Elapse c) s = Some s' -> stays_frozen cs s' -> stays_frozen (c :: cs) s.
Lemma frozen_program : forall cs s, stays_frozen cs s -> told s -> steady s -> forall p, running s = Some (Prun p) -> forall c, In c cs -> t_now c - w_since (stopwatch (log s)) <= 10000.
Proof.
  intros cs s F. induction F as [s Fz|c cs s s' Fz E F IH]; intros T St p R x Hx; [destruct Hx|].
  pose proof (step_adds _ s s' T E) as (T' & _). pose proof (step_steady _ s s' T St (fun k (H : Elapse c = OtherTab k) => match H with eq_refl => I end) E) as St'.
  unfold frozen in Fz. rewrite R in Fz. destruct (p_wait p) eqn:W; try discriminate Fz.
  assert (Im : p_im p = true) by (apply (proj2 St p R); [congruence|lia]).
  assert (Ck : p_check p = w_since (stopwatch (log s))). { unfold told in T. rewrite R, W in T. apply T. }
  cbn [ract] in E. rewrite R, W in E. unfold look in E. destruct ((t_now c - p_check p >? max_time) && p_im p) eqn:D.
  - exfalso. injection E as <-. inversion F as [? Fs|? ? ? ? Fs]; subst; discriminate Fs.
  - rewrite Im, andb_true_r in D. destruct (turn_keeps _ _ _ _ _ _ E) as (_ & _ & K).
    assert (Fs : frozen s' = true) by (inversion F; assumption). unfold frozen in Fs. destruct (running s') as [[q|ct g]|] eqn:R'; [| |discriminate Fs].
    + destruct (K q eq_refl) as (_ & _ & Kc). destruct (p_wait q) eqn:Wq; try discriminate Fs.
      assert (Cq : p_check q = w_since (stopwatch (log s'))). { unfold told in T'. rewrite R', Wq in T'. apply T'. }
      destruct Hx as [<-|Hx]; [unfold max_time in D; lia|]. rewrite <- Ck, <- Kc, Cq. exact (IH T' St' q eq_refl x Hx).
    + exfalso. clear - E R'. unfold turn in E. destruct (p_going p); cbn [negb] in E; [|injection E as <-; discriminate R']. destruct (do_call _ _) as [h1|]; [|discriminate E].
      destruct (p_stoping p); [injection E as <-; discriminate R'|]. destruct (get_register_value R_RI h1); [|discriminate E]. injection E as <-. discriminate R'.
Qed.
Lemma frozen_instruction : forall cs s, stays_frozen cs s -> forall ct g, running s = Some (Irun ct g) -> forall h' n, instruction (core s) (repeat true n) h' -> (length cs < n)%nat.
Proof.
  intros cs s F. induction F as [s Fz|c cs s s' Fz E F IH]; intros ct g R h' n In.
  - destruct n; [destruct In as (_ & In & _); destruct In; reflexivity|cbn; lia].
  - cbn [ract] in E. rewrite R in E. unfold iturn in E. assert (Fs : frozen s' = true) by (inversion F; assumption).
    destruct g; cbn [negb] in E; [|injection E as <-; discriminate Fs]. destruct (do_call (RunClock true) (core s)) as [h1|] eqn:Ec; [|discriminate E].
    destruct (get_next_state h1) as [q|] eqn:Eq; [|discriminate E]. injection E as <-. unfold frozen, with_run in Fs. cbn [running] in Fs. destruct (Z.eqb_spec q 0) as [->|Nq]; [discriminate Fs|].
    destruct n as [|n]; [destruct In as (_ & In & _); destruct In; reflexivity|]. destruct n as [|n].
    + exfalso. destruct In as (A1 & _ & A3 & _). cbn [repeat] in A1. rewrite Reach.run_clocks_cons in A1. cbn [do_call] in Ec. rewrite Ec in A1. injection A1 as <-. congruence.
    + destruct (Runs.instruction_cons (core s) true (repeat true (S n)) h' ltac:(discriminate) In) as (h2 & E2 & _ & I2). cbn [do_call] in Ec. rewrite Ec in E2. injection E2 as <-.
      cbn [length]. apply -> Nat.succ_lt_mono. eapply IH; [cbn [running with_run]; destruct (Z.eqb_spec q 0); [congruence|reflexivity]|exact I2].
Qed.
(** In one tab the page answers again after at most eight more cycles (of an
    instruction), or when the clock has gone ten seconds past the start of the run or the
    last answer. *)
Theorem C86_unfreezes : forall l h n m es s cs, live l h true -> story (rstart h n m) es s -> Forall allowed_event es -> one_tab es -> stays_frozen cs s ->
  (length cs <= 8)%nat \/ forall c, In c cs -> t_now c - w_since (stopwatch (log s)) <= 10000.
Proof.
  intros l h n m es s cs L S F O Fz. pose proof (story_told _ _ _ _ _ S) as T. pose proof (story_steady _ _ _ _ _ S O) as St.
  destruct (running s) as [[p|ct g]|] eqn:R.
  - right. eapply frozen_program; eauto.
  - left. destruct (story_live l h n m es s L S F) as (l' & L'). destruct (PropsRun.C40_ends l' (core s) L') as (h' & Ri).
    destruct (PropsRun.C40_completes l' _ h' L' Ri) as (_ & k & Hk & Ik). pose proof (frozen_instruction cs s Fz ct g R h' k Ik). lia.
  - exfalso. assert (X : frozen s = true) by (inversion Fz; assumption). unfold frozen in X. rewrite R in X. discriminate X.
Qed.

(** With another tab it need not answer again.  [isRuningInmediate] follows the drawer of
    this tab, the cycle time a run uses is the stored one: when the other tab has set it
    to 0, a run started here waits at [sleep(0)] and is not stopped by the ten second
    check.  Of a program that does not come to FIN the page is frozen for ever. *)
Definition endless (a : arch) : Prop := forall k, opcode (steps k a) <> 255.
Lemma ends_here : forall u l h, live l h true -> exists h1, do_call (RunClock u) h = Some h1 /\ (exists v, get_register_value R_RI h1 = Some v) /\ exists l', live l' h1 true.
Proof.
  intros u l h L. destruct (PropsButtons.live_clock l h u L) as (h1 & Ec & L1). exists h1. split; [exact Ec|]. split; [|eauto].
  destruct (Reach.live_up _ _ true L1) as (_ & z & U). destruct (ApiFacts.up_obs h1 z U) as ((O & _) & _). rewrite O. eauto.
Qed.
Lemma goes_on_here : forall l h p c ls s, live l h true -> p_going p = true -> (forall h', ~ run_program (negb (p_im p)) (p_stoping p) h h') ->
  exists h1 st l', turn h p c ls s = Some (with_run h1 (Some (Prun (mkRun (p_im p) (p_cycle p) (p_start p) (p_check p) true st Between))) (ls ++ [Cycled (negb (p_im p))]) s) /\
    (forall h', ~ run_program (negb (p_im p)) st h1 h') /\ live l' h1 true.
Proof.
  intros l h p c ls s L G N. destruct (ends_here (negb (p_im p)) l h L) as (h1 & E1 & (v & Ev) & l' & L1). unfold turn. rewrite G. cbn [negb]. rewrite E1.
  destruct (p_stoping p) eqn:Sp. { exfalso. apply (N h1). apply RP_break. exact E1. }
  rewrite Ev. exists h1, (v =? max_representable), l'. split; [reflexivity|]. split; [|exact L1]. intros h' R. apply (N h'). apply (RP_again _ h h1 h' v); auto.
Qed.
Theorem C86_frozen_refuted : forall l h a n m c cs, live l h true -> boundary h -> shows h a -> endless a -> n <> 0 ->
  exists s, story (rstart h n m) ([OtherTab 0; PressProgram c] ++ map Elapse cs) s /\ frozen s = true.
Proof.
  intros l h a n m c cs L Bd Sh En Nn.
  assert (N : forall h', ~ run_program true false h h').
  { intros h' R. destruct (PropsRun.C41_stops_only_after_fin true l h true a h' ltac:(auto) L Bd Sh R) as (k & (F & _) & _). exact (En k F). }
  cut (exists s p, story (rstart h n m) ([OtherTab 0; PressProgram c] ++ map Elapse cs) s /\ running s = Some (Prun p) /\
    p_going p = true /\ p_im p = false /\ p_cycle p = 0 /\ p_wait p = Between /\ (forall h', ~ run_program true (p_stoping p) (core s) h') /\ exists l', live l' (core s) true).
  { intros (s & p & S & R & _ & _ & Pc & Pw & _). exists s. split; [exact S|]. unfold frozen. rewrite R, Pw, Pc. reflexivity. }
  induction cs as [|x cs IH] using rev_ind.
  - destruct (goes_on_here l h (mkRun false 0 (t_start c) (t_start c) true false Between) c [Started (t_start c) false] (mkR h 0 (n =? 0) m None []) L eq_refl N) as (h1 & st & l1 & E & K & L1).
    eassert (S : story (rstart h n m) ([OtherTab 0; PressProgram c] ++ map Elapse []) _).
    { change ([OtherTab 0; PressProgram c] ++ map Elapse []) with (([] ++ [OtherTab 0]) ++ [PressProgram c]).
      eapply St_event; [eapply St_event; [apply St_nil|reflexivity|reflexivity]|reflexivity|]. cbn [ract rstart running immediate core measure log]. replace (n =? 0) with false in * by lia. exact E. }
    eexists _, _. split; [exact S|]. split; [reflexivity|]. repeat (split; [reflexivity|]). split; [exact K|]. exists l1. exact L1.
  - destruct IH as (s & p & S & R & G & Im & Pc & Pw & Np & l' & L').
    destruct (goes_on_here l' (core s) p x [Looked (t_now x)] s L' G) as (h1 & st & l1 & E & K & L1). { rewrite Im. exact Np. }
    rewrite Im in E, K. eassert (S' : story (rstart h n m) ([OtherTab 0; PressProgram c] ++ map Elapse (cs ++ [x])) _).
    { rewrite map_app, app_assoc. cbn [map]. eapply St_event; [exact S|unfold possible; apply orb_true_r|]. cbn [ract]. rewrite R, Pw. unfold look. rewrite Im, andb_false_r. exact E. }
    eexists _, _. split; [exact S'|]. split; [reflexivity|]. split; [reflexivity|]. split; [reflexivity|]. split; [exact Pc|]. split; [reflexivity|]. split; [exact K|]. exists l1. exact L1.
Qed.
(** A machine with nothing but zeros in memory runs for ever. *)
Lemma zeros_step : forall a, (forall x, M a x = 0) -> forall x, M (step a) x = 0.
Proof. intros a Z x. unfold step. rewrite Z. unfold pc_next. destruct (PC a =? 65535); exact (Z x). Qed.
Example C86_endless_nonvacuous : exists l h a, live l h true /\ boundary h /\ shows h a /\ endless a.
Proof.
  set (a := mkArch 0 false false 0 0 0 0 0 0 (fun _ => 0) []). assert (V : valid a) by (repeat split; cbn; lia).
  destruct (PropsRun.C54_every_state_reachable a V eq_refl) as (l & h & L & Bd & Sh). exists l, h, a. split; [exact L|]. split; [exact Bd|]. split; [exact Sh|].
  assert (G : forall k b, (forall x, M b x = 0) -> opcode (steps k b) <> 255). { induction k as [|k IH]; intros b Zb; cbn [steps]; [unfold opcode; rewrite Zb; discriminate|]. apply IH, zeros_step, Zb. }
  intros k. apply G. reflexivity.
Qed.
(** An immediate run takes its cycle time 100 ms after the button was pressed.  When it is
    changed in between, the run waits between its cycles, the page can be used, and does
    not show them. *)
Theorem C86_blind_refuted : forall l h m c n, live l h true -> n <> 0 ->
  exists s, story (rstart h 0 m) [PressProgram c; SetCycle n; Elapse c] s /\ running s <> None /\ frozen s = false /\ fresh (log s) = false /\ cycles (log s) = 1%nat.
Proof.
  intros l h m c n L Nn.
  destruct (ends_here false l h L) as (h1 & E1 & (v & Ev) & _).
  eexists. split; [|split; [|split]].
  - change [PressProgram c; SetCycle n; Elapse c] with ((([] ++ [PressProgram c]) ++ [SetCycle n]) ++ [Elapse c]).
    eapply St_event; [eapply St_event; [eapply St_event; [apply St_nil|reflexivity|reflexivity]|reflexivity|reflexivity]|reflexivity|].
    cbn [ract with_run running p_wait begin rstart turn p_going negb p_im core cycle p_stoping]. unfold begin, turn. cbn [p_going p_im negb core p_stoping with_run]. rewrite E1, Ev. reflexivity.
  - discriminate.
  - cbn. lia.
  - split; reflexivity.
Qed.

(** A run that is asked about twice: the first time it is continued, the second time not. *)
Example C86_nonvacuous : exists l h s, live l h true /\
  story (rstart h 0 true) [PressProgram (mkClock 0 0 0 0 0 0); Elapse (mkClock 100 0 0 0 0 0); Elapse (mkClock 0 10101 0 0 0 0); Answer true (mkClock 0 0 0 0 0 0);
    Elapse (mkClock 0 0 0 20000 20001 0); Elapse (mkClock 0 30001 0 0 0 0); Answer false (mkClock 0 0 40000 0 0 40002)] s /\
  log s = [Started 100 true; Cycled false; Looked 10101; Redrawn; Asked 10101; Resumed 20000 20001; Cycled false; Looked 30001; Redrawn; Asked 30001;
    Refused 40000; Redrawn; Ended 40002; Time 20003].
Proof.
  destruct C86_endless_nonvacuous as (l & h & a & L & Bd & Sh & En).
  assert (N : forall h', ~ run_program false false h h').
  { intros h' R. destruct (PropsRun.C41_stops_only_after_fin false l h true a h' ltac:(auto) L Bd Sh R) as (k & (F & _) & _). exact (En k F). }
  exists l, h. destruct (goes_on_here l h (mkRun true 0 100 100 true false Between) (mkClock 100 0 0 0 0 0) [Started 100 true]
    (mkR h 0 true true (Some (Prun (mkRun true 0 0 0 true false Toast))) []) L eq_refl N) as (h1 & st1 & l1 & E1 & K1 & L1).
  cbn [p_im p_cycle p_start p_check negb with_run cycle immediate measure log app] in E1, K1.
  destruct (goes_on_here l1 h1 (mkRun true 0 10000 20000 true st1 Between) (mkClock 0 0 0 20000 20001 0) [Resumed 20000 20001]
    (mkR h1 0 true true (Some (Prun (mkRun true 0 100 100 true st1 (Dismissing 10101)))) [Started 100 true; Cycled false; Looked 10101; Redrawn; Asked 10101]) L1 eq_refl K1) as (h2 & st2 & l2 & E2 & K2 & L2).
  cbn [p_im p_cycle p_start p_check negb with_run cycle immediate measure log app] in E2, K2.
  eexists. split; [exact L|]. split.
  - match goal with |- story _ [?a; ?b; ?c; ?d; ?e; ?f; ?g] _ => change [a; b; c; d; e; f; g] with ([] ++ [a] ++ [b] ++ [c] ++ [d] ++ [e] ++ [f] ++ [g]) end. rewrite !app_assoc.
    eapply St_event; [eapply St_event; [eapply St_event; [eapply St_event; [eapply St_event; [eapply St_event; [eapply St_event; [apply St_nil|reflexivity|reflexivity]
      |reflexivity|exact E1]|reflexivity|reflexivity]|reflexivity|reflexivity]|reflexivity|exact E2]|reflexivity|reflexivity]|reflexivity|reflexivity].
  - reflexivity.
Qed.

Print Assumptions C86_time.
Print Assumptions C86_shown.
Print Assumptions C86_asks.
Print Assumptions C86_asks_in_time.
Print Assumptions C86_waits.
Print Assumptions C86_drawn.
Print Assumptions C86_drawn_cycles.
Print Assumptions C86_buttons.
Print Assumptions C86_defined.
Print Assumptions C86_stop.
Print Assumptions C86_stopped.
Print Assumptions C86_stopped_ends.
Print Assumptions C86_stop_refuted.
Print Assumptions C86_unfreezes.
Print Assumptions C86_frozen_refuted.
Print Assumptions C86_endless_nonvacuous.
Print Assumptions C86_blind_refuted.
Print Assumptions C86_nonvacuous.
