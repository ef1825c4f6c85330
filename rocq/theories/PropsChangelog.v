(** * Theorems: the changelog under every order of answers (C80) *)
From Coq Require Import List Bool Arith Lia Permutation.
From Verif Require Import Changelog.
Import ListNotations.

(** All answers of batch [n], without error, in the order of [l]. *)
Definition good_answers (n : nat) (l : list sha) : list cevent := map (fun i => Item n i None) l.

Lemma take_spec : forall i l, In i l -> exists a b, take i l = Some (a ++ b) /\ l = a ++ i :: b /\ Permutation l (i :: a ++ b).
Proof.
  intros i. induction l as [|x l IH]; intros H; [destruct H|]. cbn [take]. destruct (Nat.eqb_spec x i) as [->|N].
  - exists [], l. auto.
  - destruct IH as (a & b & E & -> & P); [destruct H; [contradiction|assumption]|]. rewrite E. exists (x :: a), b. split; [reflexivity|]. split; [reflexivity|].
    cbn [app]. rewrite P. apply perm_swap.
Qed.
Lemma take_in : forall i l r, take i l = Some r -> In i l /\ (forall x, In x r -> In x l) /\ List.length l = S (List.length r).
Proof.
  intros i. induction l as [|x l IH]; intros r H; [discriminate H|]. cbn [take] in H. destruct (Nat.eqb_spec x i) as [->|N].
  - injection H as <-. cbn. auto.
  - destruct (take i l) as [r'|] eqn:E; [|discriminate H]. injection H as <-. destruct (IH r' eq_refl) as (A & B & C). cbn. intuition.
Qed.
Lemma put_same : forall l b c n, nth_error l n = Some b -> nth_error (put n c l) n = Some c.
Proof. induction l as [|x l IH]; intros b c [|n] H; try discriminate H; [reflexivity|]. cbn in *. eapply IH; eassumption. Qed.
Lemma put_put : forall l b c n, put n c (put n b l) = put n c l.
Proof. induction l as [|x l IH]; intros b c [|n]; cbn; try reflexivity. f_equal. apply IH. Qed.

(** The answers of one open batch, in any order, on any state. *)
Lemma batch_answers : forall items l n rest s, nth_error (batches s) n = Some (mkBatch rest false) -> Permutation l rest -> rest <> [] ->
  csteps items (good_answers n l) s = Some (mkLog (released s ++ l) (commits s) false (loading_commits s) (released_error s) (commits_error s) (put n (mkBatch [] false) (batches s)) (asked s)).
Proof.
  intros items. induction l as [|i l IH]; intros n rest s H P N; [apply Permutation_nil in P; congruence|].
  destruct (take_spec i rest) as (a & b & E & Er & Pr); [eapply Permutation_in; [exact P|left; reflexivity]|].
  cbn [good_answers map csteps cstep]. unfold answer. rewrite H. cbn [open settled]. rewrite E.
  assert (P' : Permutation l (a ++ b)) by (apply (Permutation_cons_inv (a := i)); rewrite P; exact Pr).
  destruct (a ++ b) as [|y z].
  - apply Permutation_sym, Permutation_nil in P'. subst l. reflexivity.
  - fold (good_answers n l). rewrite (IH n (y :: z)).
    + cbn [released commits loading_commits released_error commits_error batches asked]. rewrite <- app_assoc, put_put. reflexivity.
    + cbn [batches]. eapply put_same. exact H.
    + exact P'.
    + discriminate.
Qed.
Lemma batch_some : forall items l n rest rem s, nth_error (batches s) n = Some (mkBatch rest false) -> Permutation rest (l ++ rem) -> rem <> [] ->
  exists rest', Permutation rest' rem /\
  csteps items (good_answers n l) s = Some (mkLog (released s ++ l) (commits s) (loading_released s) (loading_commits s) (released_error s) (commits_error s) (put n (mkBatch rest' false) (batches s)) (asked s)).
Proof.
  intros items. induction l as [|i l IH]; intros n rest rem s H P N.
  - exists rest. split; [exact P|]. cbn [good_answers map csteps]. rewrite app_nil_r. f_equal. destruct s as [r c lr lc re ce bs k]. cbn [batches released commits loading_released loading_commits released_error commits_error asked] in *. f_equal.
    clear - H. revert n H. induction bs as [|x bs IH]; intros [|n] H; try discriminate H; cbn in *; [congruence|]. f_equal. apply IH. exact H.
  - destruct (take_spec i rest) as (a & b & E & Er & Pr); [apply (Permutation_in i (Permutation_sym P)); left; reflexivity|].
    assert (P' : Permutation (a ++ b) (l ++ rem)) by (apply (Permutation_cons_inv (a := i)); rewrite <- Pr; exact P).
    assert (Ne : a ++ b <> []) by (intros X; rewrite X in P'; apply Permutation_nil in P'; apply app_eq_nil in P'; tauto).
    destruct (IH n (a ++ b) rem (mkLog (released s ++ [i]) (commits s) (loading_released s) (loading_commits s) (released_error s) (commits_error s) (put n (mkBatch (a ++ b) false) (batches s)) (asked s))) as (rest' & Q & Eq); [cbn [batches]; eapply put_same; exact H|exact P'|exact N|].
    exists rest'. split; [exact Q|]. cbn [good_answers map csteps cstep]. unfold answer. rewrite H. cbn [open settled]. rewrite E.
    destruct (a ++ b) as [|y z]; [congruence|]. fold (good_answers n l). rewrite Eq. cbn [released commits loading_released loading_commits released_error commits_error batches asked]. rewrite <- app_assoc, put_put. reflexivity.
Qed.
Lemma csteps_app : forall items a b s s', csteps items a s = Some s' -> csteps items (a ++ b) s = csteps items b s'.
Proof.
  intros items. induction a as [|e a IH]; intros b s s' H; cbn [app csteps] in *; [congruence|]. destruct (cstep items e s); [|discriminate H]. apply IH. exact H.
Qed.

(** ** C80 *)
(** Left alone, the list ends up with every item once, whatever the order of the answers. *)
Theorem C80_once : forall items l, items <> [] -> Permutation l items ->
  exists s, csteps items (good_answers 0 l) (appear items) = Some s /\ Permutation (released s) items /\ loading_released s = false /\ released_error s = None.
Proof.
  intros items l N P. eexists. split; [apply (batch_answers items l 0 items); [reflexivity|exact P|exact N]|]. cbn. auto.
Qed.
(** The order shown is that of the answers, not that of the release. *)
Theorem C80_order_refuted : forall a b rest, exists s, csteps (a :: b :: rest) (good_answers 0 (b :: a :: rest)) (appear (a :: b :: rest)) = Some s /\ released s = b :: a :: rest.
Proof.
  intros a b rest. eexists. split; [apply (batch_answers (a :: b :: rest) _ 0 (a :: b :: rest)); [reflexivity|apply perm_swap|discriminate]|]. reflexivity.
Qed.
(** Nothing else is ever listed, and the page never waits for nothing. *)
Definition sound (items : list sha) (s : log) : Prop :=
  (forall x, In x (released s) -> In x items) /\ (forall b x, In b (batches s) -> In x (open b) -> In x items) /\
  (loading_released s = true -> exists n b, nth_error (batches s) n = Some b /\ open b <> [] /\ settled b = false) /\
  (asked s = 0 -> loading_commits s = false).
Lemma put_in : forall l n b c, In c (put n b l) -> c = b \/ In c l.
Proof. induction l as [|x l IH]; intros [|n] b c H; cbn in *; intuition. destruct (IH _ _ _ H0); auto. Qed.
Lemma put_other : forall l n m b, n <> m -> nth_error (put n b l) m = nth_error l m.
Proof. induction l as [|x l IH]; intros [|n] [|m] b H; cbn; try reflexivity; try congruence. apply IH. congruence. Qed.
Lemma sound_step : forall items e s s', items <> [] -> sound items s -> cstep items e s = Some s' -> sound items s'.
Proof.
  intros items e s s' N (R & B & L & A) H. destruct e as [| |n i err|r]; cbn [cstep] in H.
  - injection H as <-. unfold get_released. destruct (released s) eqn:E; [|split; [rewrite E; exact R|auto]]. split; [intros x []|]. split; [|split; [|exact A]].
    + intros b x Hb Hx. cbn [batches] in Hb. apply in_app_or in Hb. destruct Hb as [Hb|[<-|[]]]; [apply (B b x Hb Hx)|exact Hx].
    + intros _. exists (List.length (batches s)), (mkBatch items false). cbn [batches open settled]. rewrite nth_error_app2, Nat.sub_diag by lia. auto.
  - injection H as <-. unfold get_commits. destruct (commits s) eqn:E; [|split; [exact R|auto]]. split; [intros x []|]. split; [exact B|]. split; [exact L|]. cbn. discriminate.
  - unfold answer in H. destruct (nth_error (batches s) n) as [b|] eqn:En; [|discriminate H]. destruct (take i (open b)) as [rest|] eqn:Et; [|discriminate H].
    destruct (take_in _ _ _ Et) as (T1 & T2 & T3). pose proof (nth_error_In _ _ En) as Hb.
    assert (B' : forall st c x, In c (put n (mkBatch rest st) (batches s)) -> In x (open c) -> In x items).
    { intros st c x Hc Hx. apply put_in in Hc. destruct Hc as [->|Hc]; [apply (B b x Hb); apply T2; exact Hx|apply (B c x Hc Hx)]. }
    assert (Lw : forall st, (settled b = false -> st = false /\ rest <> []) -> loading_released s = true ->
                 exists m c, nth_error (put n (mkBatch rest st) (batches s)) m = Some c /\ open c <> [] /\ settled c = false).
    { intros st Hst Hl. destruct (L Hl) as (m & c & Em & Oc & Sc). destruct (Nat.eq_dec n m) as [<-|D].
      - rewrite En in Em. injection Em as <-. destruct (Hst Sc) as (-> & Nr). exists n, (mkBatch rest false). split; [eapply put_same; exact En|]. auto.
      - exists m, c. rewrite put_other by exact D. auto. }
    destruct err as [e|]; injection H as <-; (split; [|split; [|split]]); cbn [released batches loading_released asked loading_commits]; auto; try (intros c x; apply B').
    + destruct (settled b) eqn:Sb; [|discriminate]. apply Lw. discriminate.
    + intros x Hx. apply in_app_or in Hx. destruct Hx as [Hx|[<-|[]]]; [apply R; exact Hx|apply (B b i Hb T1)].
    + destruct rest as [|y z]; [destruct (settled b) eqn:Sb; cbn [negb]; [apply Lw; discriminate|discriminate]|]. apply Lw. intros Sb. split; [exact Sb|discriminate].
  - unfold answer_history in H. destruct (asked s) as [|k] eqn:Ea; [discriminate H|]. destruct r as [l|e]; injection H as <-; (split; [exact R|]; split; [exact B|]; split; [exact L|]; reflexivity).
Qed.
Lemma sound_all : forall items l s s', items <> [] -> sound items s -> csteps items l s = Some s' -> sound items s'.
Proof.
  intros items. induction l as [|e l IH]; intros s s' N S H; cbn [csteps] in H; [congruence|]. destruct (cstep items e s) as [s1|] eqn:E; [|discriminate H].
  apply (IH s1 s' N); [eapply sound_step; eassumption|exact H].
Qed.
Lemma sound_appear : forall items, items <> [] -> sound items (appear items).
Proof.
  intros items N. split; [intros x []|]. split; [intros b x [<-|[]] Hx; exact Hx|]. split; [|reflexivity]. intros _. exists 0, (mkBatch items false). auto.
Qed.
Theorem C80_only : forall items l s, items <> [] -> csteps items l (appear items) = Some s ->
  (forall x, In x (released s) -> In x items) /\
  (loading_released s = true -> exists n i, In i items /\ forall e, answer n i e s <> None) /\
  (loading_commits s = true -> forall r, answer_history r s <> None).
Proof.
  intros items l s N H. destruct (sound_all items l _ s N (sound_appear items N) H) as (R & B & L & A). split; [exact R|]. split.
  - intros Hl. destruct (L Hl) as (n & b & En & Ob & Sb). destruct (open b) as [|i o] eqn:Eo; [congruence|].
    exists n, i. split; [apply (B b i (nth_error_In _ _ En)); rewrite Eo; left; reflexivity|]. intros e. unfold answer. rewrite En, Eo. cbn [take]. rewrite Nat.eqb_refl. destruct e; discriminate.
  - intros Hl r. unfold answer_history. destruct (asked s) eqn:Ea; [rewrite A in Hl by reflexivity; discriminate Hl|]. destruct r; discriminate.
Qed.
(** The history is either empty or an answer of the server, and once it is there no click
    asks again or changes anything. *)
Theorem C80_history : forall items l s, csteps items l (appear items) = Some s -> (commits s = [] \/ In (History (inl (commits s))) l) /\
  (commits s <> [] -> cstep items Tab_history s = Some s).
Proof.
  intros items l s H. split.
  - assert (G : forall l s0, csteps items l s0 = Some s -> commits s = commits s0 \/ commits s = [] \/ In (History (inl (commits s))) l).
    { clear l H. induction l as [|e l IH]; intros s0 H; cbn [csteps] in H; [left; congruence|]. destruct (cstep items e s0) as [s1|] eqn:E; [|discriminate H].
      destruct (IH s1 H) as [C|[C|C]]; [|auto|right; right; right; exact C].
      destruct e as [| |n i err|[r|e]]; cbn [cstep] in E.
      - injection E as <-. left. rewrite C. unfold get_released. destruct (released s0); reflexivity.
      - injection E as <-. left. rewrite C. unfold get_commits. destruct (commits s0) eqn:F; [reflexivity|exact F].
      - left. rewrite C. unfold answer in E. destruct (nth_error (batches s0) n) as [b|]; [|discriminate E]. destruct (take i (open b)); [|discriminate E]. destruct err; injection E as <-; reflexivity.
      - unfold answer_history in E. destruct (asked s0); [discriminate E|]. injection E as <-. cbn [commits] in C. right. right. left. rewrite C. reflexivity.
      - unfold answer_history in E. destruct (asked s0); [discriminate E|]. injection E as <-. left. exact C. }
    destruct (G l _ H) as [C|[C|C]]; auto.
  - intros N. cbn [cstep]. unfold get_commits. destruct (commits s); [congruence|reflexivity].
Qed.
(** Clicking the tab again before the first answer lists everything twice. *)
Theorem C80_twice_refuted : forall items l l', items <> [] -> Permutation l items -> Permutation l' items ->
  exists s, csteps items ([Tab_current] ++ good_answers 0 l ++ good_answers 1 l') (appear items) = Some s /\ released s = l ++ l' /\ loading_released s = false.
Proof.
  intros items l l' N P P'. eexists. split; [|split].
  - erewrite csteps_app by reflexivity. erewrite csteps_app by (apply (batch_answers items l 0 items); [reflexivity|exact P|exact N]).
    apply (batch_answers items l' 1 items); [reflexivity|exact P'|exact N].
  - reflexivity.
  - reflexivity.
Qed.
(** Looking at the history while the list is loading loses the items already there: they
    do not come back, however often the tabs are clicked. *)
Lemma stuck_clicks : forall items k s, released s <> [] -> csteps items (repeat Tab_current k) s = Some s.
Proof.
  intros items k s N. induction k as [|k IH]; [reflexivity|]. cbn [repeat csteps cstep]. unfold get_released at 1. destruct (released s) eqn:E; [congruence|exact IH].
Qed.
Theorem C80_lost_refuted : forall items l1 l2 k, NoDup items -> Permutation (l1 ++ l2) items -> l1 <> [] -> l2 <> [] ->
  exists s, csteps items (good_answers 0 l1 ++ [Tab_history] ++ good_answers 0 l2 ++ repeat Tab_current k) (appear items) = Some s /\
    loading_released s = false /\ released_error s = None /\ exists x, In x items /\ ~ In x (released s).
Proof.
  intros items l1 l2 k D P N1 N2.
  destruct (batch_some items l1 0 items l2 (appear items)) as (rest & Q & E); [reflexivity|apply Permutation_sym; exact P|exact N2|].
  erewrite csteps_app by exact E. erewrite csteps_app by reflexivity.
  erewrite csteps_app.
  2:{ apply (batch_answers items l2 0 rest); [reflexivity|apply Permutation_sym; exact Q|]. intros X. subst rest. apply Permutation_nil in Q. congruence. }
  rewrite stuck_clicks; [|cbn; exact N2]. eexists. split; [reflexivity|]. cbn. split; [reflexivity|]. split; [reflexivity|].
  destruct l1 as [|x l1]; [congruence|]. exists x. split; [apply (Permutation_in x P); left; reflexivity|].
  apply (Permutation_NoDup (Permutation_sym P)) in D. cbn [app] in D. inversion D as [|? ? Nx _]. intros X. apply Nx. apply in_or_app. right. exact X.
Qed.
(** After an error one answer is enough to make the list incomplete for good; and an error
    stays on the screen although the list was loaded again without one. *)
Theorem C80_incomplete_refuted : forall a b rest e k, a <> b ->
  exists s, csteps (a :: b :: rest) ([Item 0 a None; Item 0 b (Some e)] ++ repeat Tab_current k) (appear (a :: b :: rest)) = Some s /\ released s = [a].
Proof.
  intros a b rest e k N. eexists. split.
  - erewrite csteps_app.
    2:{ cbn [csteps cstep]. unfold answer at 1. cbn [appear get_released released batches app nth_error open settled take]. rewrite Nat.eqb_refl. cbn [app released commits loading_released loading_commits released_error commits_error batches asked put].
        unfold answer. cbn [batches nth_error open settled take]. rewrite Nat.eqb_refl. reflexivity. }
    apply stuck_clicks. discriminate.
  - reflexivity.
Qed.
Theorem C80_error_refuted : forall items i e l, In i items -> Permutation l items ->
  exists s, csteps items ([Item 0 i (Some e); Tab_current] ++ good_answers 1 l) (appear items) = Some s /\ Permutation (released s) items /\ loading_released s = false /\ released_error s = Some e.
Proof.
  intros items i e l Hi P. destruct (take_spec i items Hi) as (a & b & E & _ & _). assert (N : items <> []) by (intros ->; destruct Hi).
  eexists. split; [|split; [|split]].
  - erewrite csteps_app.
    2:{ cbn [csteps cstep]. unfold answer at 1. cbn [appear get_released released batches app nth_error open settled]. rewrite E. reflexivity. }
    apply (batch_answers items l 1 items); [reflexivity|exact P|exact N].
  - cbn. exact P.
  - reflexivity.
  - reflexivity.
Qed.
(** The release has seven items. *)
Example C80_nonvacuous : let items := [1; 2; 3; 4; 5; 6; 7] in items <> [] /\ NoDup items /\ Permutation ([3; 1] ++ [2; 4; 7; 6; 5]) items /\
  exists s, csteps items ([Item 0 3 None; Tab_history; Item 0 1 None; History (inl [9; 8]); Tab_current]) (appear items) = Some s /\ released s = [1] /\ commits s = [9; 8] /\ loading_released s = true.
Proof.
  cbv zeta. split; [discriminate|]. split; [repeat constructor; cbn; lia|]. split.
  { cbn [app]. apply Permutation_trans with [1; 3; 2; 4; 7; 6; 5]; [apply perm_swap|]. apply perm_skip. apply Permutation_trans with [2; 3; 4; 7; 6; 5]; [apply perm_swap|].
    do 3 apply perm_skip. apply Permutation_trans with [6; 7; 5]; [apply perm_swap|]. apply Permutation_trans with [6; 5; 7]; [apply perm_skip; apply perm_swap|]. apply perm_swap. }
  eexists. split; [reflexivity|]. repeat split.
Qed.
Print Assumptions C80_once.
Print Assumptions C80_order_refuted.
Print Assumptions C80_only.
Print Assumptions C80_history.
Print Assumptions C80_twice_refuted.
Print Assumptions C80_lost_refuted.
Print Assumptions C80_incomplete_refuted.
Print Assumptions C80_error_refuted.
