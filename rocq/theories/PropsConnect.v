(** * Theorems: loading the core (C63) and subscriptions (C66) *)
From Coq Require Import ZArith List Bool Lia ZifyBool PeanoNat.
From Verif Require Import Prog Api Usage ApiFacts Reach Connect.
From Verif Require PropsApi PropsLife PropsRun Isa.
Import ListNotations.
Open Scope Z_scope.

(** ** C63 *)
(** What the page may do with a connected core. *)
Inductive page_call : call -> Prop :=
| PC_clock : forall u, page_call (RunClock u)
| PC_reset : page_call ResetControl
| PC_mem : forall o v, 0 <= o < 65536 -> 0 <= v <= 255 -> page_call (SetMem o v)
| PC_pc : forall v, 0 <= v <= 65535 -> page_call (SetPc v).
(** A schedule: anything in any order, but between the loading of a module and the
    rest of the call that asked for it, which follow each other in the queue of
    microtasks, the page uses and closes nothing. *)
Inductive schedule : list conn_event -> page -> Prop :=
| Sc_start : schedule [] page0
| Sc_event : forall l p p' e, schedule l p -> conn_act e p = Some p' ->
    match e with
    | Use c => loaded p = O /\ page_call c
    | Disconnect => loaded p = O
    | Continue rnd => forall i, 0 <= rnd i
    | _ => True
    end -> schedule (l ++ [e]) p'.
(** The core is absent, or a module just loaded that waits to be initialised, or
    initialised with the page's callback. *)
Definition connected (p : page) : Prop := match core p with None => True | Some h => exists l, live l h true end.
Definition core_ok (p : page) : Prop := connected p \/ core p = Some boot /\ loaded p <> O.
Lemma live_more : forall l h c, live l h true -> allowed (mkUse true true) c (mkUse true true) -> exists h', do_call c h = Some h' /\ live (l ++ [c]) h' true.
Proof.
  intros l h c (P & E) A. assert (P' : proper (l ++ [c]) (mkUse true true)) by (econstructor; [exact P|exact A]).
  destruct (PropsApi.C17_defined _ _ P') as (h' & E'). exists h'. split; [|split; auto]. rewrite run_calls_app, E in E'. cbn [run_calls] in E'. destruct (do_call c h); congruence.
Qed.
Lemma start_core : forall l h k b rnd, proper l (mkUse b k) -> run_calls l boot = Some h -> (forall i, 0 <= rnd i) ->
  exists h', run_calls [Init rnd; SetUi true] h = Some h' /\ live (l ++ [Init rnd; SetUi true]) h' true.
Proof.
  intros l h k b rnd P E R. assert (P' : proper ((l ++ [Init rnd]) ++ [SetUi true]) (mkUse true true)).
  { econstructor; [econstructor; [exact P|apply A_init; exact R]|]. apply (A_set_ui (mkUse true _) true). }
  rewrite <- app_assoc in P'. cbn [app] in P'. destruct (PropsApi.C17_defined _ _ P') as (h' & E'). exists h'. split; [|split; auto]. rewrite run_calls_app, E in E'. exact E'.
Qed.
Lemma act_ok : forall p e, core_ok p ->
  match e with Use c => loaded p = O /\ page_call c | Disconnect => loaded p = O | Continue rnd => forall i, 0 <= rnd i | _ => True end ->
  exists p', conn_act e p = Some p' /\ core_ok p' /\ (loaded p = O -> match e with Ready => True | _ => connected p' end).
Proof.
  intros p e K G. assert (K0 : loaded p = O -> connected p) by (intros H; destruct K as [K|(_ & K)]; [exact K|congruence]).
  destruct e as [| |rnd| |c]; cbn [conn_act].
  - destruct (core p) as [h|] eqn:Ec; [exists p; auto|]. exists (mkPage None (S (loading p)) (loaded p)). split; [reflexivity|]. split; [left; exact I|intros _; exact I].
  - destruct (loading p) as [|n]; [exists p; auto|]. eexists. split; [reflexivity|]. split; [|auto]. right. split; [reflexivity|discriminate].
  - destruct (loaded p) as [|n] eqn:El; [exists p; auto|]. destruct (core p) as [h|] eqn:Ec.
    + assert (X : exists l b k, proper l (mkUse b k) /\ run_calls l boot = Some h).
      { destruct K as [K|(K & _)].
        - unfold connected in K. rewrite Ec in K. destruct K as (l & P & E). eauto.
        - rewrite Ec in K. injection K as ->. exists [], false, false. split; [constructor|reflexivity]. }
      destruct X as (l & b & k & P & E). destruct (start_core l h k b rnd P E G) as (h' & E' & L'). rewrite E'. eexists. split; [reflexivity|].
      assert (C : connected (mkPage (Some h') (loading p) n)) by (unfold connected; cbn [core]; eauto). split; [left; exact C|auto].
    + eexists. split; [reflexivity|]. split; [left; exact I|intros _; exact I].
  - specialize (K0 G). unfold connected in K0. destruct (core p) as [h|] eqn:Ec; [|exists p; split; [reflexivity|]; split; [exact K|]; intros _; unfold connected; rewrite Ec; exact I].
    destruct K0 as (l & P & E). assert (P' : proper (l ++ [Shutdown]) (mkUse false true)) by (econstructor; [exact P|constructor]).
    destruct (PropsApi.C17_defined _ _ P') as (h' & E'). rewrite run_calls_app, E in E'. cbn [run_calls] in E'. destruct (do_call Shutdown h) as [h2|]; [|discriminate E']. eexists. split; [reflexivity|]. split; [left; exact I|intros _; exact I].
  - destruct G as (G & Pc). specialize (K0 G). unfold connected in K0. destruct (core p) as [h|] eqn:Ec; [|exists p; split; [reflexivity|]; split; [exact K|]; intros _; unfold connected; rewrite Ec; exact I].
    destruct K0 as (l & L). assert (A : allowed (mkUse true true) c (mkUse true true)) by (destruct Pc; constructor; auto).
    destruct (live_more l h c L A) as (h' & E' & L'). rewrite E'. eexists. split; [reflexivity|]. assert (C : connected (mkPage (Some h') (loading p) (loaded p))) by (unfold connected; cbn [core]; eauto). split; [left; exact C|auto].
Qed.
(** Every schedule of connections, disconnections and uses is defined, and whenever
    no call of [connectBackend] is half-way the page has no core or one that was
    initialised and has the page's callback. *)
Theorem C63_safe : forall l p, schedule l p -> core_ok p /\ (loaded p = O -> connected p) /\
  forall e, match e with Use c => loaded p = O /\ page_call c | Disconnect => loaded p = O | Continue rnd => forall i, 0 <= rnd i | _ => True end -> conn_act e p <> None.
Proof.
  intros l p S. assert (K : core_ok p).
  { induction S as [|l p p' e S IH E G]; [left; exact I|]. destruct (act_ok p e IH G) as (p2 & E2 & K2 & _). rewrite E in E2. injection E2 as <-. exact K2. }
  split; [exact K|]. split; [intros H; destruct K as [K|(_ & K)]; [exact K|congruence]|]. intros e G. destruct (act_ok p e K G) as (p' & E & _). rewrite E. discriminate.
Qed.
(** One connection: afterwards the core is initialised and has the callback. *)
Theorem C63_connect : forall rnd, (forall i, 0 <= rnd i) -> exists h, conn_acts [Connect; Ready; Continue rnd] page0 = Some (mkPage (Some h) 0 0) /\
  live [Init rnd; SetUi true] h true.
Proof.
  intros rnd R. destruct (start_core [] boot false false rnd P_start eq_refl R) as (h & E & L). exists h. split; [|exact L].
  cbn [conn_acts conn_act page0 core loading loaded]. rewrite E. reflexivity.
Qed.
(** Connecting again changes nothing; disconnecting and connecting gives a new,
    initialised core whatever was done with the old one. *)
Theorem C63_again : forall l h, schedule l (mkPage (Some h) 0 0) -> conn_act Connect (mkPage (Some h) 0 0) = Some (mkPage (Some h) 0 0) /\
  forall rnd, (forall i, 0 <= rnd i) -> exists h2, conn_acts [Disconnect; Connect; Ready; Continue rnd] (mkPage (Some h) 0 0) = Some (mkPage (Some h2) 0 0) /\
    live [Init rnd; SetUi true] h2 true.
Proof.
  intros l h S. split; [reflexivity|]. intros rnd R. destruct (start_core [] boot false false rnd P_start eq_refl R) as (h2 & E2 & L2). exists h2. split; [|exact L2].
  destruct (C63_safe l _ S) as (_ & _ & D). specialize (D Disconnect eq_refl). cbn [conn_acts conn_act core loading loaded] in *. destruct (do_call Shutdown h) as [h3|]; [|congruence]. cbn [core loading loaded conn_act]. rewrite E2. reflexivity.
Qed.
(** Two overlapping calls (as React's strict mode makes in development): the second
    module replaces the core after the page started using the first one, and what
    was stored is lost. *)
Theorem C63_overlap_refuted : forall rnd rnd' o v, (forall i, 0 <= rnd i) -> (forall i, 0 <= rnd' i) -> 0 <= o < 65536 -> 0 <= v <= 255 ->
  exists h1 h2, conn_acts [Connect; Connect; Ready; Continue rnd; Use (SetMem o v)] page0 = Some (mkPage (Some h1) 1 0) /\ get_memory_value o h1 = Some v /\
    conn_acts [Ready; Continue rnd'] (mkPage (Some h1) 1 0) = Some (mkPage (Some h2) 0 0) /\ live [Init rnd'; SetUi true] h2 true /\
    conn_acts [Connect; Ready; Continue rnd'] page0 = Some (mkPage (Some h2) 0 0).
Proof.
  intros rnd rnd' o v R R' Ho Hv. destruct (start_core [] boot false false rnd P_start eq_refl R) as (h & E & L). destruct (start_core [] boot false false rnd' P_start eq_refl R') as (h2 & E2 & L2).
  cbn [app] in L, L2. destruct (live_up _ _ _ L) as (_ & z & U). destruct (up_obs h z U) as (O & _).
  assert (A : allowed (mkUse true true) (SetMem o v) (mkUse true true)) by (constructor; auto).
  destruct (live_more _ h _ L A) as (h1 & E1 & L1). exists h1, h2.
  assert (P1 : conn_acts [Connect; Connect; Ready; Continue rnd; Use (SetMem o v)] page0 = Some (mkPage (Some h1) 1 0)).
  { cbn [conn_acts conn_act page0 core loading loaded]. rewrite E. cbn [conn_acts conn_act core loading loaded]. rewrite E1. reflexivity. }
  split; [exact P1|]. split.
  { destruct (PropsApi.C33_memory_write _ _ o v L Ho Hv) as (hx & Ex & Gx & _). rewrite E1 in Ex. injection Ex as <-. rewrite Gx, Z.eqb_refl. reflexivity. }
  split; [cbn [conn_acts conn_act core loading loaded]; rewrite E2; reflexivity|]. split; [exact L2|]. cbn [conn_acts conn_act page0 core loading loaded]. rewrite E2. reflexivity.
Qed.
(** A schedule: two connections whose modules are loaded one right after the other,
    then a store and a cycle. *)
Example C63_nonvacuous : exists h, schedule [Connect; Connect; Ready; Ready; Continue (fun _ => 7); Continue (fun _ => 9); Use (SetMem 3 4); Use (RunClock true)] (mkPage (Some h) 0 0).
Proof.
  set (r1 := fun _ : Z => 7). set (r2 := fun _ : Z => 9).
  assert (R1 : forall i, 0 <= r1 i) by (intros; unfold r1; lia). assert (R2 : forall i, 0 <= r2 i) by (intros; unfold r2; lia).
  destruct (start_core [] boot false false r1 P_start eq_refl R1) as (h1 & E1 & L1).
  destruct (start_core _ h1 true true r2 (proj1 L1) (proj2 L1) R2) as (h2 & E2 & L2).
  destruct (live_more _ h2 (SetMem 3 4) L2) as (h3 & E3 & L3); [constructor; lia|]. destruct (live_more _ h3 (RunClock true) L3) as (h4 & E4 & L4); [constructor; auto|]. exists h4.
  pose proof Sc_start as S0.
  pose proof (Sc_event _ _ (mkPage None 1 0) Connect S0 eq_refl I) as S1. pose proof (Sc_event _ _ (mkPage None 2 0) Connect S1 eq_refl I) as S2.
  pose proof (Sc_event _ _ (mkPage (Some boot) 1 1) Ready S2 eq_refl I) as S3. pose proof (Sc_event _ _ (mkPage (Some boot) 0 2) Ready S3 eq_refl I) as S4.
  assert (A5 : conn_act (Continue r1) (mkPage (Some boot) 0 2) = Some (mkPage (Some h1) 0 1)) by (cbn [conn_act core loaded loading]; rewrite E1; reflexivity).
  pose proof (Sc_event _ _ _ (Continue r1) S4 A5 R1) as S5.
  assert (A6 : conn_act (Continue r2) (mkPage (Some h1) 0 1) = Some (mkPage (Some h2) 0 0)) by (cbn [conn_act core loaded loading]; rewrite E2; reflexivity).
  pose proof (Sc_event _ _ _ (Continue r2) S5 A6 R2) as S6.
  assert (A7 : conn_act (Use (SetMem 3 4)) (mkPage (Some h2) 0 0) = Some (mkPage (Some h3) 0 0)) by (cbn [conn_act core loaded loading]; rewrite E3; reflexivity).
  assert (G7 : loaded (mkPage (Some h2) 0 0) = O /\ page_call (SetMem 3 4)) by (split; [reflexivity|constructor; lia]).
  pose proof (Sc_event _ _ _ (Use (SetMem 3 4)) S6 A7 G7) as S7.
  assert (A8 : conn_act (Use (RunClock true)) (mkPage (Some h3) 0 0) = Some (mkPage (Some h4) 0 0)) by (cbn [conn_act core loaded loading]; rewrite E4; reflexivity).
  assert (G8 : loaded (mkPage (Some h3) 0 0) = O /\ page_call (RunClock true)) by (split; [reflexivity|constructor]).
  exact (Sc_event _ _ _ (Use (RunClock true)) S7 A8 G8).
Qed.

(** ** C66 *)
(** [f] is subscribed after [l]: it was subscribed, and not unsubscribed since. *)
Definition subscribed (l : list sub_event) (f : nat) : Prop := exists l1 l2, l = l1 ++ Subscribe f :: l2 /\ ~ In (Unsubscribe f) l2.
Lemma subscribed_snoc : forall l e f, subscribed (l ++ [e]) f <-> e = Subscribe f \/ subscribed l f /\ e <> Unsubscribe f.
Proof.
  intros l e f. split.
  - intros (l1 & l2 & E & N). destruct l2 as [|x l2 _] using rev_ind.
    + apply app_inj_tail in E. destruct E as (_ & ->). auto.
    + change (l1 ++ Subscribe f :: l2 ++ [x]) with (l1 ++ (Subscribe f :: l2) ++ [x]) in E. rewrite app_assoc in E. apply app_inj_tail in E. destruct E as (-> & ->). right. split.
      * exists l1, l2. split; [reflexivity|]. intros H. apply N. apply in_or_app. auto.
      * intros ->. apply N. apply in_or_app. cbn. auto.
  - intros [->|((l1 & l2 & -> & N) & Ne)].
    + exists l, []. split; [reflexivity|intros []].
    + exists l1, (l2 ++ [e]). split; [rewrite <- app_assoc; reflexivity|]. intros H. apply in_app_or in H. destruct H as [H|[H|[]]]; auto.
Qed.
(** A notification calls every subscribed callback, once, and no other. *)
Theorem C66_notify : forall l, NoDup (notify (sub_acts l)) /\ forall f, In f (notify (sub_acts l)) <-> subscribed l f.
Proof.
  unfold notify. induction l as [|e l (ND & H)] using rev_ind.
  - split; [constructor|]. intros f. split; [intros []|]. intros (l1 & l2 & E & _). destruct l1; discriminate E.
  - unfold sub_acts in *. rewrite fold_left_app. cbn [fold_left]. set (s := fold_left (fun s e => sub_act e s) l []) in *. destruct e as [g|g]; cbn [sub_act].
    + unfold subscribe. destruct (existsb (Nat.eqb g) s) eqn:Ex.
      * split; [exact ND|]. intros f. rewrite subscribed_snoc, H. split; [intros X; right; split; [exact X|discriminate]|]. intros [X|(X & _)]; [injection X as ->|exact X].
        apply H. apply existsb_exists in Ex. destruct Ex as (x & Hx & Q). apply Nat.eqb_eq in Q. subst x. exact Hx.
      * assert (N : ~ In g s). { intros X. assert (existsb (Nat.eqb g) s = true); [|congruence]. apply existsb_exists. exists g. split; [exact X|apply Nat.eqb_refl]. }
        split. { apply NoDup_Add with (a := g) (l := s); [|split; auto]. rewrite <- (app_nil_r s) at 1. apply Add_app. }
        intros f. rewrite subscribed_snoc, in_app_iff, H. split; [intros [X|[<-|[]]]; [right; split; [exact X|discriminate]|auto]|]. intros [X|(X & _)]; [injection X as ->; cbn; auto|auto].
    + unfold unsubscribe. split; [apply NoDup_filter; exact ND|]. intros f. rewrite subscribed_snoc, filter_In, H. split.
      * intros (X & Q). right. split; [exact X|]. intros Y. injection Y as ->. rewrite Nat.eqb_refl in Q. discriminate Q.
      * intros [X|(X & Y)]; [discriminate X|]. split; [exact X|]. destruct (Nat.eqb_spec g f); [subst; congruence|reflexivity].
Qed.
Example C66_nonvacuous : notify (sub_acts [Subscribe 1; Subscribe 2; Subscribe 1; Unsubscribe 3; Subscribe 4; Unsubscribe 2]) = [1; 4]%nat.
Proof. reflexivity. Qed.
Print Assumptions C63_safe.
Print Assumptions C63_connect.
Print Assumptions C63_again.
Print Assumptions C63_overlap_refuted.
Print Assumptions C66_notify.
