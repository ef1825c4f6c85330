(** * Theorems: the start of the page (C94) *)
From Coq Require Import ZArith List Bool Lia ZifyBool PeanoNat.
From Verif Require Import Prog Api Usage ApiFacts Connect AppStart PropsConnect.
From Verif Require PropsApi.
Import ListNotations.
Open Scope Z_scope.

(** ** Specification *)
(** The calls the table makes, the results of rand, and time, which does not go back. *)
Definition fair (e : aevent) : Prop :=
  match e with Start rnd => forall i, 0 <= rnd i | Use c => page_call c | Pass d => 0 <= d | _ => True end.
Definition mounts (l : list aevent) : nat := length (filter (fun e => match e with Mount => true | _ => false end) l).
(** A page as built for users: its first effects run once. *)
Definition visit (l : list aevent) : Prop := Forall fair l /\ (mounts l <= 1)%nat.
(** The milliseconds a history takes. *)
Definition elapsed (l : list aevent) : Z := fold_left (fun t e => match e with Pass d => t + d | _ => t end) l 0.
(** Nothing at all is on the screen. *)
Definition blank (a : apage) : Prop := welcome a = false /\ (table a = false \/ table_hidden a = true).

(** ** Invariant *)
(** The drawing that showed the table first lies between [l1] and [l2]. *)
Definition drawn_at (l l1 l2 : list aevent) : Prop := l = l1 ++ Draw :: l2 /\
  (exists a1, app_acts l1 app0 = Some a1 /\ table a1 = false) /\ exists a2, app_acts (l1 ++ [Draw]) app0 = Some a2 /\ table a2 = true.
Definition stage (l : list aevent) (a : apage) : Prop :=
  (mounts l = O /\ a = mkApp page0 false false false false [] (elapsed l)) \/
  (mounts l = 1%nat /\ (
    a = mkApp (mkPage None 1 0) false false false false [] (elapsed l) \/
    a = mkApp (mkPage (Some boot) 0 1) false false false false [] (elapsed l) \/
    a = mkApp (mkPage None 0 0) false false false false [] (elapsed l) \/
    exists h rnd cs, In (Start rnd) l /\ Forall page_call cs /\ live (Init rnd :: SetUi true :: cs) h true /\ (
      a = mkApp (mkPage (Some h) 0 0) true false false false [] (elapsed l) \/
      (exists l1 l2, drawn_at l l1 l2 /\ a = mkApp (mkPage (Some h) 0 0) true false true false [elapsed l1] (elapsed l)) \/
      (exists l1 l2 r, drawn_at l l1 l2 /\ 1000 <= elapsed l2 /\ a = mkApp (mkPage (Some h) 0 0) true true true r [] (elapsed l))))).
Lemma app_acts_app : forall x y a, app_acts (x ++ y) a = match app_acts x a with Some b => app_acts y b | None => None end.
Proof. induction x as [|e x IH]; intros y a; [reflexivity|]. cbn [app app_acts]. destruct (app_act e a); [apply IH|reflexivity]. Qed.
Lemma elapsed_from : forall l t, fold_left (fun t e => match e with Pass d => t + d | _ => t end) l t = t + elapsed l.
Proof.
  unfold elapsed. induction l as [|e l IH]; intros t; cbn [fold_left]; [lia|]. rewrite IH, (IH (match e with Pass d => _ | _ => _ end)). destruct e; lia.
Qed.
Lemma elapsed_app : forall x y, elapsed (x ++ y) = elapsed x + elapsed y.
Proof. intros. unfold elapsed at 1. rewrite fold_left_app, elapsed_from. reflexivity. Qed.
Lemma mounts_app : forall x y, mounts (x ++ y) = (mounts x + mounts y)%nat.
Proof. intros. unfold mounts. rewrite filter_app, app_length. reflexivity. Qed.
Lemma drawn_snoc : forall l l1 l2 e, drawn_at l l1 l2 -> drawn_at (l ++ [e]) l1 (l2 ++ [e]).
Proof. intros l l1 l2 e (-> & H). split; [rewrite <- app_assoc; reflexivity|exact H]. Qed.
Lemma drawn_time : forall l l1 l2, drawn_at l l1 l2 -> elapsed l = elapsed l1 + elapsed l2.
Proof. intros l l1 l2 (-> & _). rewrite elapsed_app. reflexivity. Qed.
Lemma live_app : forall h rnd cs h' c, live (Init rnd :: SetUi true :: cs) h true -> page_call c -> do_call c h = Some h' -> live (Init rnd :: SetUi true :: (cs ++ [c])) h' true.
Proof.
  intros h rnd cs h' c L Pc E. assert (A : allowed (mkUse true true) c (mkUse true true)) by (destruct Pc; constructor; auto).
  destruct (live_more _ h c L A) as (h2 & E2 & L2). rewrite E in E2. injection E2 as <-. exact L2.
Qed.
Lemma acts_step : forall e l a b, app_act e a = Some b -> app_acts (e :: l) a = app_acts l b.
Proof. intros e l a b E. cbn [app_acts]. rewrite E. reflexivity. Qed.
Lemma start_eq : forall rnd h n sl sr cl ir ti nw, run_calls [Init rnd; SetUi true] boot = Some h ->
  app_act (Start rnd) (mkApp (mkPage (Some boot) n 1) sl sr cl ir ti nw) = Some (mkApp (mkPage (Some h) n 0) true sr cl ir ti nw).
Proof. intros rnd h n sl sr cl ir ti nw E. unfold app_act, conn_do, conn_act; cbn [conn core loaded]; rewrite E. reflexivity. Qed.
Lemma act_stage : forall l a e, app_acts l app0 = Some a -> stage l a -> fair e -> (mounts (l ++ [e]) <= 1)%nat -> exists a', app_act e a = Some a' /\ stage (l ++ [e]) a'.
Proof.
  intros l a e Ea S F Mo. rewrite mounts_app in Mo. pose proof (elapsed_app l [e]) as El.
  assert (Iu : forall rnd, In (Start rnd) l -> In (Start rnd) (l ++ [e])) by (intros; apply in_or_app; auto).
  unfold stage. rewrite mounts_app. destruct S as [(N & ->)|(N & [->|[->|[->|(h & rnd & cs & Is & Pc & L & S)]]])].
  - rewrite N. destruct e as [| | |r| |d| |c]; cbn [app_act]; cbn in El; rewrite El, ?Z.add_0_r; eexists; (split; [reflexivity|]); [right; split; [reflexivity|]; left; reflexivity|left..]; (split; [reflexivity|]); reflexivity.
  - rewrite N. destruct e as [| | |r| |d| |c]; cbn [app_act]; cbn in El, Mo; rewrite El, ?Z.add_0_r; [lia|eexists; (split; [reflexivity|]); right; (split; [reflexivity|])..].
    + right; left. reflexivity.
    + right; right; left. reflexivity.
    + left. reflexivity.
    + left. reflexivity.
    + left. reflexivity.
    + left. reflexivity.
    + left. reflexivity.
  - rewrite N. destruct e as [| | |r| |d| |c]; [cbn in Mo; lia| | | | | | |].
    1, 2, 4, 5, 6, 7: cbn [app_act]; cbn in El; rewrite El, ?Z.add_0_r; eexists; (split; [reflexivity|]); right; split; [reflexivity|]; right; left; reflexivity.
    destruct (start_core [] boot false false r P_start eq_refl F) as (h & E & L). unfold app_act, conn_do, conn_act; cbn [conn core loaded]; rewrite E. eexists. split; [reflexivity|]. right. split; [reflexivity|]. right; right; right.
    exists h, r, []. split; [apply in_or_app; right; left; reflexivity|]. split; [constructor|]. split; [exact L|]. left. cbn in El. rewrite El, Z.add_0_r. reflexivity.
  - rewrite N. destruct e as [| | |r| |d| |c]; [cbn in Mo; lia| | | | | | |]; cbn [app_act]; cbn in El; rewrite El, ?Z.add_0_r; eexists; (split; [reflexivity|]); right; (split; [reflexivity|]); right; right; left; reflexivity.
  - rewrite N. destruct S as [->|[(l1 & l2 & Dr & ->)|(l1 & l2 & r0 & Dr & Le & ->)]].
    + destruct e as [| | |r| |d| |c]; [cbn in Mo; lia| | | | | | |]; cbn [app_act]; cbn in El; rewrite El, ?Z.add_0_r; eexists; (split; [reflexivity|]); right; (split; [reflexivity|]); right; right; right; exists h, rnd, cs; (split; [auto|]); do 2 (split; [assumption|]);
        try (left; reflexivity).
      right; left. exists l, []. split; [|reflexivity]. split; [reflexivity|]. split; [eexists; split; [exact Ea|reflexivity]|]. rewrite app_acts_app, Ea. eexists. split; [reflexivity|]. reflexivity.
    + pose proof (drawn_snoc _ _ _ e Dr) as Dr'. pose proof (drawn_time _ _ _ Dr) as Tm.
      destruct e as [| | |r| |d| |c]; [cbn in Mo; lia| | | | | | |]; cbn in El.
      * eexists. split; [reflexivity|]. right. split; [reflexivity|]. right; right; right. exists h, rnd, cs. split; [auto|]. do 2 (split; [assumption|]). right; left. exists l1, (l2 ++ [Loaded]). split; [exact Dr'|]. rewrite El, Z.add_0_r. reflexivity.
      * eexists. split; [reflexivity|]. right. split; [reflexivity|]. right; right; right. exists h, rnd, cs. split; [auto|]. do 2 (split; [assumption|]). right; left. exists l1, (l2 ++ [Failed]). split; [exact Dr'|]. rewrite El, Z.add_0_r. reflexivity.
      * eexists. split; [reflexivity|]. right. split; [reflexivity|]. right; right; right. exists h, rnd, cs. split; [auto|]. do 2 (split; [assumption|]). right; left. exists l1, (l2 ++ [Start r]). split; [exact Dr'|]. rewrite El, Z.add_0_r. reflexivity.
      * eexists. split; [reflexivity|]. right. split; [reflexivity|]. right; right; right. exists h, rnd, cs. split; [auto|]. do 2 (split; [assumption|]). right; left. exists l1, (l2 ++ [Draw]). split; [exact Dr'|]. rewrite El, Z.add_0_r. reflexivity.
      * eexists. split; [reflexivity|]. right. split; [reflexivity|]. right; right; right. exists h, rnd, cs. split; [auto|]. do 2 (split; [assumption|]). right; left. exists l1, (l2 ++ [Pass d]). split; [exact Dr'|]. rewrite El. reflexivity.
      * cbn [app_act timers now]. destruct (elapsed l1 + 1000 <=? elapsed l) eqn:Du; eexists; (split; [reflexivity|]); right; (split; [reflexivity|]); right; right; right; exists h, rnd, cs; (split; [auto|]); do 2 (split; [assumption|]).
        -- right; right. exists l1, (l2 ++ [Timer]), false. split; [exact Dr'|]. split; [rewrite elapsed_app; change (elapsed [Timer]) with 0; lia|]. rewrite El, Z.add_0_r. reflexivity.
        -- right; left. exists l1, (l2 ++ [Timer]). split; [exact Dr'|]. rewrite El, Z.add_0_r. reflexivity.
      * destruct (live_more _ h c L ltac:(destruct F; constructor; auto)) as (h' & E' & _). unfold app_act, conn_do, conn_act; cbn [conn core core_loaded]; rewrite E'. eexists. split; [reflexivity|]. right. split; [reflexivity|]. right; right; right.
        exists h', rnd, (cs ++ [c]). split; [auto|]. split; [apply Forall_app; auto|]. split; [exact (live_app h rnd cs h' c L F E')|]. right; left. exists l1, (l2 ++ [Use c]). split; [exact Dr'|]. rewrite El, Z.add_0_r. reflexivity.
    + pose proof (drawn_snoc _ _ _ e Dr) as Dr'. assert (Le' : 1000 <= elapsed (l2 ++ [e])). { rewrite elapsed_app. destruct e; cbn in F |- *; try lia. }
      assert (K : forall a', (exists r, a' = mkApp (mkPage (Some h) 0 0) true true true r [] (elapsed (l ++ [e]))) -> (mounts l + mounts [e])%nat = 1%nat -> stage (l ++ [e]) a').
      { intros a' (r & ->) Ne. right. rewrite mounts_app. split; [exact Ne|]. right; right; right. exists h, rnd, cs. split; [auto|]. do 2 (split; [assumption|]). right; right. exists l1, (l2 ++ [e]), r. auto. }
      unfold stage in K. rewrite mounts_app, N in K.
      destruct e as [| | |r| |d| |c]; [cbn in Mo; lia| | | | | | |]; cbn in El.
      7: { destruct (live_more _ h c L ltac:(destruct F; constructor; auto)) as (h' & E' & _). unfold app_act, conn_do, conn_act; cbn [conn core core_loaded]; rewrite E'. eexists. split; [reflexivity|]. right. split; [reflexivity|]. right; right; right.
        exists h', rnd, (cs ++ [c]). split; [auto|]. split; [apply Forall_app; auto|]. split; [exact (live_app h rnd cs h' c L F E')|]. right; right. exists l1, (l2 ++ [Use c]), r0. split; [exact Dr'|]. split; [exact Le'|]. rewrite El, Z.add_0_r. reflexivity. }
      all: eexists; (split; [reflexivity|]); apply K; [|reflexivity]; eexists; rewrite El, ?Z.add_0_r; reflexivity.
Qed.
Lemma visit_stage : forall l, visit l -> exists a, app_acts l app0 = Some a /\ stage l a.
Proof.
  intros l. induction l as [|e l IH] using rev_ind; intros (F & Mo); [exists app0; split; [reflexivity|left; auto]|].
  apply Forall_app in F. destruct F as (F & Fe). inversion Fe as [|? ? Fe' _]. rewrite mounts_app in Mo. assert (V : visit l) by (split; [exact F|lia]). destruct (IH V) as (a & E & S).
  destruct (act_stage l a e E S Fe' ltac:(rewrite mounts_app; exact Mo)) as (a' & E' & S'). exists a'. split; [|exact S']. rewrite app_acts_app, E. cbn [app_acts]. rewrite E'. reflexivity.
Qed.

(** ** C94 *)
(** Every visit is defined.  While the table is on the page, the core it uses was loaded
    and initialised once, its callback set after that, and the table's calls came later. *)
Theorem C94_started : forall l, visit l -> exists a, app_acts l app0 = Some a /\
  (table a = true -> exists h rnd cs, core (conn a) = Some h /\ In (Start rnd) l /\ Forall page_call cs /\ live (Init rnd :: SetUi true :: cs) h true).
Proof.
  intros l V. destruct (visit_stage l V) as (a & E & S). exists a. split; [exact E|]. intros T.
  destruct S as [(_ & ->)|(_ & [->|[->|[->|(h & rnd & cs & I & Pc & L & S)]]])]; try discriminate T. exists h, rnd, cs. split; [|auto].
  destruct S as [->|[(l1 & l2 & _ & ->)|(l1 & l2 & r & _ & _ & ->)]]; reflexivity.
Qed.
(** The page is never blank: there is the welcome screen, or the table in sight. *)
Theorem C94_never_blank : forall l a, visit l -> app_acts l app0 = Some a -> ~ blank a.
Proof.
  intros l a V E (W & T). destruct (visit_stage l V) as (a' & E' & S). rewrite E in E'. injection E' as <-. unfold welcome, table, table_hidden in *.
  destruct S as [(_ & ->)|(_ & [->|[->|[->|(h & rnd & cs & I & Pc & L & S)]]])]; try discriminate W.
  destruct S as [->|[(l1 & l2 & _ & ->)|(l1 & l2 & r & _ & _ & ->)]]; try discriminate W. destruct r; [|discriminate W]. destruct T as [T|T]; discriminate T.
Qed.
(** The welcome screen goes a second or more after the drawing that put the table behind
    it, and no sooner. *)
Theorem C94_second : forall l a, visit l -> app_acts l app0 = Some a -> welcome a = false -> exists l1 l2, drawn_at l l1 l2 /\ 1000 <= elapsed l2.
Proof.
  intros l a V E W. destruct (visit_stage l V) as (a' & E' & S). rewrite E in E'. injection E' as <-. unfold welcome in W.
  destruct S as [(_ & ->)|(_ & [->|[->|[->|(h & rnd & cs & I & Pc & L & S)]]])]; try discriminate W.
  destruct S as [->|[(l1 & l2 & _ & ->)|(l1 & l2 & r & Dr & Le & ->)]]; try discriminate W. exists l1, l2. auto.
Qed.
(** It does go: once a second has passed, the timer and a drawing take it away. *)
Theorem C94_goes : forall l l1 l2 a, visit l -> app_acts l app0 = Some a -> drawn_at l l1 l2 -> 1000 <= elapsed l2 -> exists a', app_acts [Timer; Draw] a = Some a' /\ welcome a' = false /\ table a' = true.
Proof.
  intros l l1 l2 a V E Dr Le. destruct (visit_stage l V) as (a' & E' & S). rewrite E in E'. injection E' as <-.
  pose proof Dr as (-> & (a1 & E1 & T1) & (a2 & E2 & T2)). pose proof (drawn_time _ _ _ Dr) as Tm.
  assert (V1 : visit (l1 ++ [Draw])). { destruct V as (F & Mo). replace (l1 ++ Draw :: l2) with ((l1 ++ [Draw]) ++ l2) in * by (rewrite <- app_assoc; reflexivity). apply Forall_app in F. rewrite mounts_app in Mo. split; [apply F|lia]. }
  assert (Keep : forall l' b, table b = true -> (exists h, core (conn b) = Some h /\ loading (conn b) = O /\ loaded (conn b) = O /\ set_loaded b = true) -> forall b', app_acts l' b = Some b' -> table b' = true /\ (exists h, core (conn b') = Some h /\ loading (conn b') = O /\ loaded (conn b') = O /\ set_loaded b' = true)).
  { induction l' as [|e l' IH]; intros b Tb (h & C1 & C2 & C3 & C4) b' Eb; [injection Eb as <-; split; [exact Tb|exists h; auto]|]. cbn [app_acts] in Eb.
    destruct b as [[co lo ld] sl sr cl ir ti nw]. unfold table in Tb. cbn [conn core loading loaded set_loaded core_loaded] in *. subst.
    destruct e as [| | |r| |d| |c]; unfold app_act, conn_do, conn_act in Eb; cbn [conn core loading loaded with_conn core_loaded timers now] in Eb.
    - refine (IH _ _ _ b' Eb); [reflexivity|exists h; repeat split].
    - refine (IH _ _ _ b' Eb); [reflexivity|exists h; repeat split].
    - refine (IH _ _ _ b' Eb); [reflexivity|exists h; repeat split].
    - refine (IH _ _ _ b' Eb); [reflexivity|exists h; repeat split].
    - refine (IH _ _ _ b' Eb); [reflexivity|exists h; repeat split].
    - refine (IH _ _ _ b' Eb); [reflexivity|exists h; repeat split].
    - destruct ti as [|t ti]; [|destruct (t + 1000 <=? nw)]; (refine (IH _ _ _ b' Eb); [reflexivity|exists h; repeat split]).
    - destruct (do_call c h) as [h2|]; [|discriminate Eb]. refine (IH _ _ _ b' Eb); [reflexivity|exists h2; repeat split]. }
  destruct (visit_stage _ V1) as (a2' & E2' & S2). rewrite E2 in E2'. injection E2' as <-.
  assert (H2 : exists h, core (conn a2) = Some h /\ loading (conn a2) = O /\ loaded (conn a2) = O /\ set_loaded a2 = true).
  { destruct S2 as [(_ & ->)|(_ & [->|[->|[->|(h & rnd & cs & I & Pc & L & S2)]]])]; try discriminate T2. destruct S2 as [->|[(m1 & m2 & _ & ->)|(m1 & m2 & r & _ & _ & ->)]]; eexists; repeat split. }
  assert (E3 : app_acts l2 a2 = Some a). { replace (l1 ++ Draw :: l2) with ((l1 ++ [Draw]) ++ l2) in E by (rewrite <- app_assoc; reflexivity). rewrite app_acts_app, E2 in E. exact E. }
  destruct (Keep l2 a2 T2 H2 a E3) as (T & _).
  destruct S as [(_ & ->)|(_ & [->|[->|[->|(h & rnd & cs & I & Pc & L & S)]]])]; try discriminate T.
  destruct S as [->|[(m1 & m2 & Dr2 & ->)|(m1 & m2 & r & _ & _ & ->)]]; [discriminate T| |eexists; split; [reflexivity|split; reflexivity]].
  assert (Em : m1 = l1).
  { destruct Dr2 as (Es & (b1 & F1 & U1) & (b2 & F2 & U2)). clear - Es E1 T1 E2 T2 F1 U1 F2 U2 Keep V H2.
    destruct (Nat.lt_trichotomy (length m1) (length l1)) as [G|[G|G]].
    - exfalso. assert (X : exists z, l1 = m1 ++ Draw :: z).
      { assert (Y : firstn (length l1) (m1 ++ Draw :: m2) = l1) by (rewrite <- Es; rewrite firstn_app, Nat.sub_diag, firstn_all, app_nil_r; reflexivity).
        rewrite firstn_app, firstn_all2 in Y by lia. destruct (length l1 - length m1)%nat as [|k] eqn:Ek; [lia|]. exists (firstn k m2). rewrite <- Y. reflexivity. }
      destruct X as (z & ->). assert (Vm : visit (m1 ++ [Draw])).
      { destruct V as (Fv & Mv). replace ((m1 ++ Draw :: z) ++ Draw :: l2) with ((m1 ++ [Draw]) ++ z ++ Draw :: l2) in Fv, Mv by (rewrite <- !app_assoc; reflexivity). apply Forall_app in Fv. rewrite mounts_app in Mv. split; [apply Fv|lia]. }
      assert (Hb : exists h, core (conn b2) = Some h /\ loading (conn b2) = O /\ loaded (conn b2) = O /\ set_loaded b2 = true).
      { destruct (visit_stage _ Vm) as (b2' & F2' & S2). rewrite F2 in F2'. injection F2' as <-. destruct S2 as [(_ & ->)|(_ & [->|[->|[->|(h0 & rnd0 & cs0 & I0 & Pc0 & L0 & S2)]]])]; try discriminate U2. destruct S2 as [->|[(x1 & x2 & _ & ->)|(x1 & x2 & r & _ & _ & ->)]]; eexists; repeat split. }
      replace (m1 ++ Draw :: z) with ((m1 ++ [Draw]) ++ z) in E1 by (rewrite <- app_assoc; reflexivity). rewrite app_acts_app, F2 in E1. destruct (Keep z b2 U2 Hb a1 E1) as (Tz & _). congruence.
    - assert (X : firstn (length m1) (l1 ++ Draw :: l2) = l1) by (rewrite G, firstn_app, Nat.sub_diag, firstn_all, app_nil_r; reflexivity). rewrite Es, firstn_app, Nat.sub_diag, firstn_all, app_nil_r in X. exact X.
    - exfalso. assert (X : exists z, m1 = l1 ++ Draw :: z).
      { assert (Y : firstn (length m1) (l1 ++ Draw :: l2) = m1) by (rewrite Es; rewrite firstn_app, Nat.sub_diag, firstn_all, app_nil_r; reflexivity).
        rewrite firstn_app, firstn_all2 in Y by lia. destruct (length m1 - length l1)%nat as [|k] eqn:Ek; [lia|]. exists (firstn k l2). rewrite <- Y. reflexivity. }
      destruct X as (z & ->). replace (l1 ++ Draw :: z) with ((l1 ++ [Draw]) ++ z) in F1 by (rewrite <- app_assoc; reflexivity). rewrite app_acts_app, E2 in F1. destruct (Keep z a2 T2 H2 b1 F1) as (Tz & _). congruence. }
  subst m1. cbn [app_acts app_act timers now]. replace (elapsed l1 + 1000 <=? elapsed (l1 ++ Draw :: l2)) with true by lia. eexists. split; [reflexivity|split; reflexivity].
Qed.
(** Once the table is in sight it stays in sight. *)
Theorem C94_stays : forall l l' a a', visit (l ++ l') -> app_acts l app0 = Some a -> app_acts l' a = Some a' -> (table a = true -> table a' = true) /\ (welcome a = false -> welcome a' = false).
Proof.
  intros l l'. revert l. induction l' as [|e l' IH]; intros l a a' V E E'; [injection E' as <-; auto|].
  cbn [app_acts] in E'. destruct (app_act e a) as [b|] eqn:Eb; [|discriminate E']. assert (V2 : visit ((l ++ [e]) ++ l')) by (rewrite <- app_assoc; exact V).
  destruct (IH (l ++ [e]) b a' V2 ltac:(rewrite app_acts_app, E; cbn [app_acts]; rewrite Eb; reflexivity) E') as (H1 & H2).
  assert (V1 : visit l). { destruct V as (F & Mo). apply Forall_app in F. rewrite mounts_app in Mo. split; [apply F|lia]. }
  destruct (visit_stage l V1) as (a2 & E2 & S). rewrite E in E2. injection E2 as <-. 
  assert (K : (table a = true -> table b = true) /\ (welcome a = false -> welcome b = false)).
  { assert (Me : mounts l = 1%nat -> e <> Mount). { intros M1 ->. destruct V as (_ & Mo). rewrite mounts_app, M1 in Mo. cbn in Mo. lia. }
    unfold table, welcome. destruct S as [(_ & ->)|(M1 & [->|[->|[->|(h & rnd & cs & I & Pc & L & S)]]])]; try (split; discriminate). specialize (Me M1).
    destruct S as [->|[(l1 & l2 & Dr & ->)|(l1 & l2 & r & Dr & Le & ->)]]; [split; discriminate| |]; (destruct e as [| | |r2| |d| |c]; [congruence|..]); unfold app_act, conn_do, conn_act in Eb; cbn [conn core loading loaded with_conn core_loaded timers now] in Eb; try (injection Eb as <-; auto; fail).
    - destruct (_ <=? _); injection Eb as <-; auto.
    - destruct (do_call c h); [injection Eb as <-; auto|discriminate].
    - destruct (do_call c h); [injection Eb as <-; auto|discriminate]. }
  destruct K as (K1 & K2). split; auto.
Qed.
(** Finding: when the module cannot be loaded, the welcome screen with its spinner stays
    for ever: nothing tries again. *)
Theorem C94_failed_refuted : forall l, visit ([Mount; Failed] ++ l) -> exists a, app_acts ([Mount; Failed] ++ l) app0 = Some a /\ welcome a = true /\ table a = false.
Proof.
  assert (K : forall l a, mounts l = O -> conn a = page0 -> set_loaded a = false -> core_loaded a = false -> set_ready a = false -> is_ready a = false -> timers a = [] -> exists a', app_acts l a = Some a' /\ welcome a' = true /\ table a' = false).
  { induction l as [|e l IH]; intros [cn sl sr cl ir ti nw] N C S1 S2 S3 S4 S5; cbn [conn set_loaded core_loaded set_ready is_ready timers] in *; subst; [eexists; split; [reflexivity|split; reflexivity]|].
    destruct e as [| | |r| |d| |c]; [discriminate N|..]; cbn [app_acts]; unfold app_act, conn_do; cbn; apply IH; auto. }
  intros l (_ & Mo). cbn [app]. do 2 (erewrite acts_step; [|reflexivity]). apply K; try reflexivity. cbn in Mo. unfold mounts. lia.
Qed.
(** Finding, in development only, where React runs the first effects twice: when the
    second load fails after the first one succeeded, the page goes blank for ever. *)
Theorem C94_twice_refuted : forall rnd l, (forall i, 0 <= rnd i) -> mounts l = O ->
  exists a, app_acts ([Mount; Mount; Loaded; Start rnd; Draw; Pass 1000; Timer; Draw; Failed; Draw] ++ l) app0 = Some a /\ blank a.
Proof.
  assert (K : forall l a, mounts l = O -> loading (conn a) = O -> loaded (conn a) = O -> set_loaded a = false -> core_loaded a = false -> set_ready a = true -> is_ready a = true -> exists a', app_acts l a = Some a' /\ blank a').
  { induction l as [|e l IH]; intros [[co lo ld] sl sr cl ir ti nw] N C0 C S1 S2 S3 S4; cbn [conn loading loaded set_loaded core_loaded set_ready is_ready timers] in *; subst; [eexists; split; [reflexivity|split; [reflexivity|left; reflexivity]]|].
    destruct e as [| | |r| |d| |c]; [discriminate N|..]; cbn [app_acts]; unfold app_act, conn_do; cbn; try (apply IH; auto).
    destruct ti as [|t ti]; [apply IH; auto|]. destruct (_ <=? _); apply IH; auto. }
  intros rnd l R N. destruct (start_core [] boot false false rnd P_start eq_refl R) as (h & E & _). cbn [app].
  rewrite (acts_step _ _ _ (mkApp (mkPage None 1 0) false false false false [] 0)) by reflexivity.
  rewrite (acts_step _ _ _ (mkApp (mkPage None 2 0) false false false false [] 0)) by reflexivity.
  rewrite (acts_step _ _ _ (mkApp (mkPage (Some boot) 1 1) false false false false [] 0)) by reflexivity.
  rewrite (acts_step _ _ _ (mkApp (mkPage (Some h) 1 0) true false false false [] 0)) by (apply start_eq; exact E).
  rewrite (acts_step _ _ _ (mkApp (mkPage (Some h) 1 0) true false true false [0] 0)) by reflexivity.
  rewrite (acts_step _ _ _ (mkApp (mkPage (Some h) 1 0) true false true false [0] 1000)) by reflexivity.
  rewrite (acts_step _ _ _ (mkApp (mkPage (Some h) 1 0) true true true false [] 1000)) by reflexivity.
  rewrite (acts_step _ _ _ (mkApp (mkPage (Some h) 1 0) true true true true [] 1000)) by reflexivity.
  rewrite (acts_step _ _ _ (mkApp (mkPage (Some h) 0 0) false true true true [] 1000)) by reflexivity.
  rewrite (acts_step _ _ _ (mkApp (mkPage (Some h) 0 0) false true false true [] 1000)) by reflexivity.
  apply K; try reflexivity. exact N.
Qed.
(** Whatever happened before, once the core is there mounting the page again and drawing it
    puts the table on the page, with that same core: no second one is loaded. *)
Theorem C94_mounted_again : forall l a h, app_acts l app0 = Some a -> core (conn a) = Some h ->
  exists a', app_acts (l ++ [Mount; Draw]) app0 = Some a' /\ table a' = true /\ core (conn a') = Some h /\
    loading (conn a') = loading (conn a) /\ loaded (conn a') = loaded (conn a) /\ welcome a' = negb (set_ready a).
Proof.
  intros l a h E C. rewrite app_acts_app, E. cbn [app_acts app_act]. rewrite C. eexists. split; [reflexivity|]. repeat split. exact C.
Qed.
Example C94_nonvacuous : let l := [Mount; Draw; Loaded; Start (fun _ => 7); Draw; Pass 400; Timer; Draw; Use (SetMem 3 9); Pass 600; Timer; Draw] in
  visit l /\ exists a, app_acts l app0 = Some a /\ welcome a = false /\ table a = true.
Proof.
  cbv zeta. split; [split; [repeat constructor; cbn; try lia|cbn; lia]|].
  set (l := [Mount; Draw; Loaded; Start (fun _ => 7); Draw; Pass 400; Timer; Draw; Use (SetMem 3 9); Pass 600]).
  assert (V : visit l) by (split; [repeat constructor; cbn; try lia|cbn; lia]).
  destruct (visit_stage l V) as (a & E & S).
  assert (Dr : drawn_at l [Mount; Draw; Loaded; Start (fun _ => 7)] [Pass 400; Timer; Draw; Use (SetMem 3 9); Pass 600]).
  { destruct (start_core [] boot false false (fun _ => 7) P_start eq_refl ltac:(intros; lia)) as (h & Eh & _). split; [reflexivity|].
    split; cbn [app].
    - rewrite (acts_step _ _ _ (mkApp (mkPage None 1 0) false false false false [] 0)) by reflexivity. rewrite (acts_step _ _ _ (mkApp (mkPage None 1 0) false false false false [] 0)) by reflexivity. rewrite (acts_step _ _ _ (mkApp (mkPage (Some boot) 0 1) false false false false [] 0)) by reflexivity. rewrite (acts_step _ _ _ (mkApp (mkPage (Some h) 0 0) true false false false [] 0)) by (apply start_eq; exact Eh). eexists. split; reflexivity.
    - rewrite (acts_step _ _ _ (mkApp (mkPage None 1 0) false false false false [] 0)) by reflexivity. rewrite (acts_step _ _ _ (mkApp (mkPage None 1 0) false false false false [] 0)) by reflexivity. rewrite (acts_step _ _ _ (mkApp (mkPage (Some boot) 0 1) false false false false [] 0)) by reflexivity. rewrite (acts_step _ _ _ (mkApp (mkPage (Some h) 0 0) true false false false [] 0)) by (apply start_eq; exact Eh). rewrite (acts_step _ _ _ (mkApp (mkPage (Some h) 0 0) true false true false [0] 0)) by reflexivity. eexists. split; reflexivity. }
  destruct (C94_goes l _ _ a V E Dr ltac:(cbn; lia)) as (a' & E' & W & T). exists a'. split; [|auto]. change (app_acts (l ++ [Timer; Draw]) app0 = Some a'). rewrite app_acts_app, E. exact E'.
Qed.
Print Assumptions C94_started.
Print Assumptions C94_never_blank.
Print Assumptions C94_second.
Print Assumptions C94_goes.
Print Assumptions C94_stays.
Print Assumptions C94_failed_refuted.
Print Assumptions C94_twice_refuted.
Print Assumptions C94_mounted_again.
Print Assumptions C94_nonvacuous.
