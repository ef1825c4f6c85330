(** * C103: notifications during which the callbacks subscribe and unsubscribe *)
From Coq Require Import List Bool Arith Lia.
From Verif Require Import Connect PropsConnect Notify.
Import ListNotations.

(** ** Specification *)
(** The calls of [subscribeToUIUpdates] and [unsubscribeToUIUpdates] made so far. *)
Fixpoint done (tr : list seen) : list sub_event :=
  match tr with
  | [] => []
  | Did e :: tr' => e :: done tr'
  | _ :: tr' => done tr'
  end.
(** [f] was called, and has not been unsubscribed since. *)
Definition served (f : nat) (tr : list seen) : Prop :=
  exists a b, tr = a ++ Called f :: b /\ ~ In (Did (Unsubscribe f)) b.

(** ** Proofs *)
Fixpoint live (s : slots) : list nat :=
  match s with [] => [] | Some f :: s' => f :: live s' | None :: s' => live s' end.
Lemma live_app : forall a b, live (a ++ b) = live a ++ live b.
Proof. induction a as [|[f|] a IH]; intros b; cbn; rewrite ?IH; reflexivity. Qed.
Lemma live_in : forall s f, In f (live s) <-> In (Some f) s.
Proof.
  induction s as [|[g|] s IH]; intros f; cbn; [tauto| |].
  - rewrite IH. split; [intros [->|H]; auto|intros [H|H]; [injection H as ->|]; auto].
  - rewrite IH. split; [auto|intros [H|H]; [discriminate|auto]].
Qed.
Lemma live_add : forall f s, live (slot_add f s) = subscribe f (live s).
Proof.
  intros f s. unfold slot_add, subscribe.
  assert (E : existsb (holds f) s = existsb (Nat.eqb f) (live s)). { induction s as [|[g|] s IH]; cbn; rewrite ?IH; reflexivity. }
  rewrite E. destruct (existsb _ (live s)); [reflexivity|]. rewrite live_app. reflexivity.
Qed.
Lemma live_delete : forall f s, live (slot_delete f s) = unsubscribe f (live s).
Proof.
  intros f s. unfold slot_delete, unsubscribe. induction s as [|[g|] s IH]; cbn; [reflexivity| |exact IH].
  destruct (Nat.eqb f g); cbn; rewrite IH; reflexivity.
Qed.
Lemma live_act : forall e s, live (slot_act e s) = sub_act e (live s).
Proof. intros [f|f] s; [apply live_add|apply live_delete]. Qed.
Lemma sub_acts_snoc : forall l e, sub_acts (l ++ [e]) = sub_act e (sub_acts l).
Proof. intros l e. unfold sub_acts. rewrite fold_left_app. reflexivity. Qed.
Lemma slot_acts_snoc : forall l e s, slot_acts (l ++ [e]) s = slot_act e (slot_acts l s).
Proof. intros l e s. unfold slot_acts. rewrite fold_left_app. reflexivity. Qed.
Lemma live_acts : forall l, live (slot_acts l []) = sub_acts l.
Proof. induction l as [|e l IH] using rev_ind; [reflexivity|]. rewrite slot_acts_snoc, sub_acts_snoc, live_act, IH. reflexivity. Qed.
Lemma acts_nodup : forall l, NoDup (sub_acts l).
Proof. intros l. exact (proj1 (C66_notify l)). Qed.
Lemma done_app : forall a b, done (a ++ b) = done a ++ done b.
Proof. induction a as [|[f|e|] a IH]; intros b; cbn; rewrite ?IH; reflexivity. Qed.
Lemma done_did : forall es, done (map Did es) = es.
Proof. induction es as [|e es IH]; cbn; rewrite ?IH; reflexivity. Qed.

Lemma snoc_split : forall (tr a b : list seen) x y, tr ++ [x] = a ++ y :: b -> (b = [] /\ tr = a /\ x = y) \/ (exists b', b = b' ++ [x] /\ tr = a ++ y :: b').
Proof.
  intros tr a b x y H. destruct b as [|z b _] using rev_ind.
  - apply app_inj_tail in H. destruct H as (-> & ->). auto.
  - right. exists b. change (y :: b ++ [z]) with ((y :: b) ++ [z]) in H. rewrite app_assoc in H. apply app_inj_tail in H. destruct H as (-> & ->). auto.
Qed.
Lemma served_called : forall f tr, served f (tr ++ [Called f]).
Proof. intros f tr. exists tr, []. auto. Qed.
Lemma served_snoc : forall f tr x, x <> Called f -> (served f (tr ++ [x]) <-> served f tr /\ x <> Did (Unsubscribe f)).
Proof.
  intros f tr x N. split.
  - intros (a & b & E & H). apply snoc_split in E. destruct E as [(-> & -> & ->)|(b' & -> & ->)]; [congruence|].
    rewrite in_app_iff in H. cbn in H. split; [exists a, b'; split; [reflexivity|tauto]|intros ->; tauto].
  - intros ((a & b & -> & H) & X). exists a, (b ++ [x]). rewrite <- app_assoc. split; [reflexivity|]. rewrite in_app_iff. cbn. intros [Q|[Q|[]]]; auto.
Qed.

(** The trace so far, and the position in the slots. *)
Record inv (l : list sub_event) (i : nat) (s : slots) (tr : list seen) : Prop := mkInv {
  inv_live : live s = sub_acts (l ++ done tr);
  inv_len : i <= length s;
  inv_in : forall f, served f tr -> In f (live s);
  inv_pos : forall k f, nth_error s k = Some (Some f) -> (k < i <-> served f tr) }.
Lemma nth_live : forall s k f, nth_error s k = Some (Some f) -> In f (live s).
Proof. intros s k f H. apply live_in. eapply nth_error_In. exact H. Qed.
Lemma live_nth : forall s f, In f (live s) -> exists k, nth_error s k = Some (Some f).
Proof. intros s f H. apply live_in in H. apply In_nth_error in H. exact H. Qed.
Lemma inv_did : forall l i s tr e, inv l i s tr -> inv l i (slot_act e s) (tr ++ [Did e]).
Proof.
  intros l i s tr e [L N I P].
  assert (LL : live (slot_act e s) = sub_acts (l ++ done (tr ++ [Did e]))). { rewrite done_app. cbn [done]. rewrite app_assoc, sub_acts_snoc, <- L. apply live_act. }
  destruct e as [g|g]; cbn [slot_act] in *.
  - assert (S0 : forall f, served f (tr ++ [Did (Subscribe g)]) <-> served f tr).
    { intros f. rewrite served_snoc by discriminate. split; [tauto|]. intros H; split; [exact H|discriminate]. }
    unfold slot_add in *. destruct (existsb (holds g) s) eqn:E.
    + constructor; [exact LL|exact N| |]; intros; [apply I|rewrite P by eassumption]; rewrite S0 in *; tauto.
    + assert (G : ~ In g (live s)).
      { intros X. apply live_in in X. assert (existsb (holds g) s = true); [|congruence]. apply existsb_exists. exists (Some g). split; [exact X|apply Nat.eqb_refl]. }
      constructor; [exact LL|rewrite app_length; lia| |].
      * intros f H. apply S0 in H. rewrite live_app, in_app_iff. left. apply I. exact H.
      * intros k f H. rewrite S0. destruct (Nat.lt_ge_cases k (length s)) as [Lk|Lk].
        -- rewrite nth_error_app1 in H by exact Lk. apply P. exact H.
        -- rewrite nth_error_app2 in H by exact Lk. destruct (k - length s) as [|j] eqn:Ej; [|destruct j; discriminate H].
           cbn in H. injection H as ->. split; [lia|]. intros H. apply I in H. contradiction.
  - assert (S0 : forall f, served f (tr ++ [Did (Unsubscribe g)]) <-> served f tr /\ f <> g).
    { intros f. rewrite served_snoc by discriminate. split; intros (A & B); (split; [exact A|]); congruence. }
    constructor; [exact LL|unfold slot_delete; rewrite map_length; exact N| |].
    + intros f H. apply S0 in H. destruct H as (H & Q). rewrite live_delete. unfold unsubscribe. apply filter_In. split; [apply I; exact H|].
      destruct (Nat.eqb_spec g f); [congruence|reflexivity].
    + intros k f H. unfold slot_delete in H. rewrite nth_error_map in H. destruct (nth_error s k) as [[h|]|] eqn:Ek; cbn in H; try discriminate.
      destruct (Nat.eqb_spec g h); [discriminate H|]. injection H as ->. rewrite S0, (P _ _ Ek). split; [intros X; split; [exact X|congruence]|tauto].
Qed.
Lemma inv_dids : forall l i es s tr, inv l i s tr -> inv l i (slot_acts es s) (tr ++ map Did es).
Proof.
  intros l i. induction es as [|e es IH] using rev_ind; intros s tr H; [rewrite app_nil_r; exact H|].
  rewrite slot_acts_snoc, map_app, app_assoc. apply inv_did. apply IH. exact H.
Qed.
Lemma nodup_nth : forall s i k f, NoDup (live s) -> nth_error s i = Some (Some f) -> nth_error s k = Some (Some f) -> i = k.
Proof.
  induction s as [|x s IH]; intros i k f N A B; [destruct i; discriminate A|].
  assert (N' : NoDup (live s)) by (destruct x; cbn in N; [inversion N|]; assumption).
  destruct i as [|i], k as [|k]; cbn in A, B; [reflexivity| | |f_equal; eapply IH; eassumption].
  - injection A as ->. apply nth_live in B. cbn in N. inversion N. contradiction.
  - injection B as ->. apply nth_live in A. cbn in N. inversion N. contradiction.
Qed.
Lemma inv_called : forall l i s tr f, inv l i s tr -> nth_error s i = Some (Some f) -> inv l (S i) s (tr ++ [Called f]).
Proof.
  intros l i s tr f [L N I P] E.
  assert (S0 : forall g, served g (tr ++ [Called f]) <-> g = f \/ served g tr).
  { intros g. destruct (Nat.eq_dec g f) as [->|D]; [split; [auto|intros _; apply served_called]|].
    rewrite served_snoc by congruence. split; [tauto|]. intros [X|X]; [contradiction|split; [exact X|discriminate]]. }
  constructor.
  - rewrite done_app. cbn [done]. rewrite app_nil_r. exact L.
  - apply nth_error_Some. congruence.
  - intros g H. apply S0 in H. destruct H as [->|H]; [eapply nth_live; exact E|apply I; exact H].
  - intros k g H. rewrite S0, <- (P _ _ H). split.
    + intros Q. destruct (Nat.eq_dec k i) as [->|D]; [left; congruence|right; lia].
    + intros [->|Q]; [|lia]. rewrite (nodup_nth s k i f) by (try eassumption; rewrite L; apply acts_nodup). lia.
Qed.
(** What holds when [f] is called, after [a]. *)
Definition turn (l : list sub_event) (a : list seen) (f : nat) : Prop :=
  exists x y, sub_acts (l ++ done a) = x ++ f :: y /\ (forall g, In g x -> served g a) /\ (forall g, In g (f :: y) -> ~ served g a).
Lemma inv_turn : forall l i s tr f, inv l i s tr -> nth_error s i = Some (Some f) -> turn l tr f.
Proof.
  intros l i s tr f [L N I P] E.
  pose proof (nth_error_split _ _ E) as (u & v & Es & Eu). exists (live u), (live v).
  split; [rewrite <- L, Es, live_app; reflexivity|]. split.
  - intros g H. apply live_nth in H. destruct H as (k & H). assert (k < i) by (rewrite <- Eu; apply nth_error_Some; congruence).
    apply (P k g); [|assumption]. rewrite Es, nth_error_app1 by (rewrite Eu; assumption). exact H.
  - intros g H X. cbn in H. assert (Q : exists k, i <= k /\ nth_error s k = Some (Some g)).
    { destruct H as [->|H]; [exists i; auto|]. apply live_nth in H. destruct H as (k & H). exists (S i + k). split; [lia|].
      rewrite Es, nth_error_app2 by lia. replace (S i + k - length u) with (S k) by lia. exact H. }
    destruct Q as (k & Hk & Q). apply (P k g Q) in X. lia.
Qed.

Lemma turns_snoc : forall l tr x, (forall a f b, tr = a ++ Called f :: b -> turn l a f) -> (forall f, x = Called f -> turn l tr f) ->
  forall a f b, tr ++ [x] = a ++ Called f :: b -> turn l a f.
Proof.
  intros l tr x A B a f b E. apply snoc_split in E. destruct E as [(-> & -> & ->)|(b' & -> & ->)]; [apply B; reflexivity|eapply A; reflexivity].
Qed.
Lemma turns_dids : forall l es tr, (forall a f b, tr = a ++ Called f :: b -> turn l a f) -> forall a f b, tr ++ map Did es = a ++ Called f :: b -> turn l a f.
Proof.
  intros l. induction es as [|e es IH] using rev_ind; intros tr A; [rewrite app_nil_r; exact A|].
  rewrite map_app, app_assoc. apply turns_snoc; [apply IH; exact A|]. intros f Q. discriminate Q.
Qed.
Lemma run_inv : forall l body fuel i s tr s' tr', inv l i s tr -> ~ In Threw tr -> (forall a f b, tr = a ++ Called f :: b -> turn l a f) ->
  for_each body fuel i s tr = Some (s', tr') ->
  live s' = sub_acts (l ++ done tr') /\
  (forall a f b, tr' = a ++ Called f :: b -> turn l a f) /\
  ((~ In Threw tr' /\ forall f, In f (live s') -> served f tr') \/ (exists a f es, tr' = a ++ Called f :: map Did es ++ [Threw] /\ ~ In Threw a)).
Proof.
  intros l body. induction fuel as [|n IH]; intros i s tr s' tr' V T A H; [discriminate H|]. cbn [for_each] in H.
  destruct (nth_error s i) as [[f|]|] eqn:E.
  - pose proof (inv_called _ _ _ _ _ V E) as V1. destruct (body tr f) as [es thrown].
    pose proof (inv_dids _ _ es _ _ V1) as V2. rewrite <- app_assoc in V2. cbn [app] in V2.
    assert (A2 : forall a g b, tr ++ Called f :: map Did es = a ++ Called g :: b -> turn l a g).
    { change (tr ++ Called f :: map Did es) with (tr ++ [Called f] ++ map Did es). rewrite app_assoc. apply turns_dids. apply turns_snoc; [exact A|].
      intros g Q. injection Q as <-. exact (inv_turn _ _ _ _ _ V E). }
    destruct thrown.
    + injection H as <- <-. split; [rewrite done_app; cbn [done]; rewrite app_nil_r; exact (inv_live _ _ _ _ V2)|]. split.
      * apply turns_snoc; [exact A2|]. intros g Q. discriminate Q.
      * right. exists tr, f, es. rewrite <- app_assoc. split; [reflexivity|exact T].
    + apply (IH _ _ _ _ _ V2); [|exact A2|exact H]. rewrite in_app_iff. cbn. rewrite in_map_iff. intros [X|[X|(z & X & _)]]; [auto|discriminate|discriminate].
  - apply (IH (S i) s tr); [|exact T|exact A|exact H]. destruct V as [L N I P]. constructor; [exact L|apply nth_error_Some; congruence|exact I|].
    intros k f Q. rewrite <- (P _ _ Q). split; [|lia]. intros X. destruct (Nat.eq_dec k i) as [->|D]; [congruence|lia].
  - injection H as <- <-. split; [exact (inv_live _ _ _ _ V)|]. split; [exact A|]. left. split; [exact T|]. intros f Q. apply live_nth in Q. destruct Q as (k & Q).
    apply (inv_pos _ _ _ _ V k f Q). apply nth_error_None in E. assert (k < length s) by (apply nth_error_Some; congruence). lia.
Qed.
Lemma inv0 : forall l, inv l 0 (slot_acts l []) [].
Proof.
  intros l. constructor; [rewrite live_acts; cbn; rewrite app_nil_r; reflexivity|lia| |].
  - intros f (a & b & E & _). destruct a; discriminate E.
  - intros k f _. split; [lia|]. intros (a & b & E & _). destruct a; discriminate E.
Qed.
Lemma notification_inv : forall body fuel l s tr, notification body fuel l = Some (s, tr) ->
  live s = sub_acts (l ++ done tr) /\ (forall a f b, tr = a ++ Called f :: b -> turn l a f) /\
  ((~ In Threw tr /\ forall f, In f (live s) -> served f tr) \/ (exists a f es, tr = a ++ Called f :: map Did es ++ [Threw] /\ ~ In Threw a)).
Proof.
  intros body fuel l s tr H. apply (run_inv l body fuel 0 (slot_acts l []) []); [apply inv0|intros []| |exact H].
  intros a f b E. destruct a; discriminate E.
Qed.

(** ** Theorems *)
(** Whatever the callbacks subscribe and unsubscribe while they are called: whenever
    one is called it is subscribed at that moment, those subscribed before it have
    had their call, and neither it nor those subscribed after it have. *)
Theorem C103_turn : forall body fuel l s tr a f b, notification body fuel l = Some (s, tr) -> tr = a ++ Called f :: b ->
  subscribed (l ++ done a) f /\
  exists x y, notify (sub_acts (l ++ done a)) = x ++ f :: y /\ (forall g, In g x -> served g a) /\ (forall g, In g (f :: y) -> ~ served g a).
Proof.
  intros body fuel l s tr a f b H E. destruct (notification_inv _ _ _ _ _ H) as (_ & T & _). destruct (T _ _ _ E) as (x & y & Q & X & Y).
  split; [|exists x, y; auto]. apply C66_notify. unfold notify. rewrite Q. apply in_elt.
Qed.
(** When it is over and nothing was thrown, everything subscribed at that moment was
    called, and not unsubscribed since: also what was subscribed on the way. *)
Theorem C103_everyone : forall body fuel l s tr f, notification body fuel l = Some (s, tr) -> ~ In Threw tr ->
  subscribed (l ++ done tr) f -> served f tr.
Proof.
  intros body fuel l s tr f H N S. destruct (notification_inv _ _ _ _ _ H) as (L & _ & [(_ & X)|(a & g & es & -> & _)]).
  - apply X. rewrite L. apply C66_notify. exact S.
  - exfalso. apply N. rewrite in_app_iff. right. right. apply in_app_iff. right. left. reflexivity.
Qed.
Lemma served_dec : forall f b, {In (Did (Unsubscribe f)) b} + {~ In (Did (Unsubscribe f)) b}.
Proof. intros f b. apply in_dec. repeat decide equality. Qed.
Lemma done_in : forall e tr, In e (done tr) -> In (Did e) tr.
Proof. intros e. induction tr as [|[f|d|] tr IH]; cbn; intros H; auto. destruct H as [->|H]; auto. Qed.
Lemma in_done : forall e tr, In (Did e) tr -> In e (done tr).
Proof. intros e. induction tr as [|[f|d|] tr IH]; cbn; intros H; [auto| | |]; destruct H as [H|H]; try discriminate; auto. injection H as ->. auto. Qed.
Lemma last_unsub : forall f b, In (Did (Unsubscribe f)) b -> exists b1 b2, b = b1 ++ Did (Unsubscribe f) :: b2 /\ ~ In (Did (Unsubscribe f)) b2.
Proof.
  intros f. induction b as [|x b IH] using rev_ind; [intros []|]. intros H.
  destruct (in_app_or _ _ _ H) as [Q|[->|[]]]; [|exists b, []; auto].
  destruct (IH Q) as (b1 & b2 & -> & Z). assert (D : {x = Did (Unsubscribe f)} + {x <> Did (Unsubscribe f)}) by (repeat decide equality).
  destruct D as [->|D]; [exists (b1 ++ Did (Unsubscribe f) :: b2), []; auto|]. exists b1, (b2 ++ [x]). rewrite <- app_assoc. split; [reflexivity|].
  rewrite in_app_iff. cbn. tauto.
Qed.
(** It is called again in the same notification only if it was unsubscribed and
    subscribed again in between. *)
Theorem C103_once : forall body fuel l s tr a f b c, notification body fuel l = Some (s, tr) -> tr = a ++ Called f :: b ++ Called f :: c ->
  exists b1 b2 b3, b = b1 ++ Did (Unsubscribe f) :: b2 ++ Did (Subscribe f) :: b3.
Proof.
  intros body fuel l s tr a f b c H E. replace (a ++ Called f :: b ++ Called f :: c) with ((a ++ Called f :: b) ++ Called f :: c) in E by (rewrite <- app_assoc; reflexivity).
  destruct (C103_turn _ _ _ _ _ _ _ _ H E) as (S & x & y & _ & _ & Y). specialize (Y f (or_introl eq_refl)).
  destruct (served_dec f b) as [U|U]; [|exfalso; apply Y; exists a, b; auto].
  destruct (last_unsub _ _ U) as (b1 & b2 & -> & Z). exists b1. 
  assert (In (Did (Subscribe f)) b2) as W.
  { assert (forall d m, ~ In (Unsubscribe f) d -> ~ In (Subscribe f) d -> ~ subscribed ((m ++ [Unsubscribe f]) ++ d) f) as K.
    { induction d as [|e d IH] using rev_ind; intros m A B C.
      - rewrite app_nil_r, subscribed_snoc in C. destruct C as [C|(_ & C)]; congruence.
      - rewrite app_assoc, subscribed_snoc in C. rewrite in_app_iff in A, B. cbn in A, B. destruct C as [C|(C & _)]; [subst; tauto|]. apply (IH m); tauto. }
    destruct (in_dec (fun x y : seen => ltac:(repeat decide equality)) (Did (Subscribe f)) b2) as [W|W]; [exact W|]. exfalso.
    apply (K (done b2) (l ++ done (a ++ Called f :: b1))).
    - intros Q. apply Z. apply done_in. exact Q.
    - intros Q. apply W. apply done_in. exact Q.
    - assert (QQ : l ++ done (a ++ Called f :: b1 ++ Did (Unsubscribe f) :: b2) = ((l ++ done (a ++ Called f :: b1)) ++ [Unsubscribe f]) ++ done b2); [|rewrite <- QQ; exact S].
      change (Called f :: b1 ++ Did (Unsubscribe f) :: b2) with ((Called f :: b1) ++ [Did (Unsubscribe f)] ++ b2).
      rewrite !done_app. cbn [done app]. rewrite <- !app_assoc. reflexivity. }
  apply in_split in W. destruct W as (b2' & b3 & ->). exists b2', b3. reflexivity.
Qed.
Lemma served_count : forall f tr, served f tr -> In (Called f) tr.
Proof. intros f tr (a & b & -> & _). apply in_elt. Qed.
(** A callback that is subscribed and that nobody unsubscribes meanwhile is called
    exactly once. *)
Theorem C103_exactly_once : forall body fuel l s tr f, notification body fuel l = Some (s, tr) -> ~ In Threw tr ->
  subscribed l f -> ~ In (Did (Unsubscribe f)) tr ->
  exists a b, tr = a ++ Called f :: b /\ ~ In (Called f) a /\ ~ In (Called f) b.
Proof.
  intros body fuel l s tr f H N S U.
  assert (S' : subscribed (l ++ done tr) f).
  { assert (forall d, ~ In (Unsubscribe f) d -> subscribed (l ++ d) f) as K; [|apply K; intros Q; apply U; apply done_in; exact Q].
    induction d as [|e d IH] using rev_ind; intros Q; [rewrite app_nil_r; exact S|]. rewrite in_app_iff in Q. cbn in Q. rewrite app_assoc, subscribed_snoc. right.
    split; [apply IH; tauto|]. intros ->. tauto. }
  destruct (C103_everyone _ _ _ _ _ _ H N S') as (a & b & E & _). exists a, b. split; [exact E|].
  split; intros Q; apply in_split in Q; destruct Q as (q1 & q2 & ->); apply U; rewrite E.
  - rewrite <- app_assoc in E. cbn [app] in E. destruct (C103_once _ _ _ _ _ _ _ _ _ H E) as (b1 & b2 & b3 & ->).
    rewrite !in_app_iff. left. right. right. rewrite in_app_iff. right. left. reflexivity.
  - destruct (C103_once _ _ _ _ _ _ _ _ _ H E) as (b1 & b2 & b3 & ->). rewrite in_app_iff. right. right. rewrite !in_app_iff. left. right. left. reflexivity.
Qed.
(** What is subscribed after the notification is what the calls made before and in
    it leave, in the order in which the next one calls them. *)
Theorem C103_after : forall body fuel l s tr more, notification body fuel l = Some (s, tr) ->
  live (slot_acts more s) = notify (sub_acts (l ++ done tr ++ more)).
Proof.
  intros body fuel l s tr more H. destruct (notification_inv _ _ _ _ _ H) as (L & _). unfold notify. rewrite app_assoc.
  induction more as [|e more IH] using rev_ind; [rewrite app_nil_r; exact L|]. rewrite slot_acts_snoc, app_assoc, sub_acts_snoc, live_act, IH. reflexivity.
Qed.
(** A callback that throws ends the notification. *)
Theorem C103_throw : forall body fuel l s tr, notification body fuel l = Some (s, tr) -> In Threw tr ->
  exists a f es, tr = a ++ Called f :: map Did es ++ [Threw] /\ body a f = (es, true) /\ ~ In Threw a.
Proof.
  intros body fuel l s tr H T. unfold notification in H.
  assert (K : forall n i s0 tr0, for_each body n i s0 tr0 = Some (s, tr) -> ~ In Threw tr0 -> exists a f es, tr = a ++ Called f :: map Did es ++ [Threw] /\ body a f = (es, true) /\ ~ In Threw a).
  { induction n as [|n IH]; intros i s0 tr0 Q N; [discriminate Q|]. cbn [for_each] in Q. destruct (nth_error s0 i) as [[f|]|].
    - destruct (body tr0 f) as [es [|]] eqn:B.
      + injection Q as _ <-. exists tr0, f, es. rewrite <- app_assoc. auto.
      + apply (IH _ _ _ Q). rewrite in_app_iff. cbn. rewrite in_map_iff. intros [X|[X|(z & X & _)]]; [auto|discriminate|discriminate].
    - exact (IH _ _ _ Q N).
    - injection Q as _ <-. contradiction. }
  exact (K _ _ _ _ H (fun x => x)).
Qed.
(** So a subscribed callback may miss a notification: one subscribed before it threw. *)
Theorem C103_missed_refuted : exists body fuel l s tr f, notification body fuel l = Some (s, tr) /\
  subscribed l f /\ done tr = [] /\ ~ In (Called f) tr.
Proof.
  exists (fun _ f => ([], Nat.eqb f 1)), 3, [Subscribe 1; Subscribe 2], [Some 1; Some 2], [Called 1; Threw], 2.
  split; [reflexivity|]. split; [exists [Subscribe 1], []; split; [reflexivity|intros []]|]. split; [reflexivity|]. cbn. intuition discriminate.
Qed.

(** ** It ends *)
(** If the callbacks subscribe only members of [U] and unsubscribe none of them, it
    ends: here with at most one slot more for each of them.  With [U] empty, whatever they unsubscribe. *)
Lemma act_length : forall es s, length s <= length (slot_acts es s).
Proof.
  induction es as [|e es IH] using rev_ind; intros s; [apply le_n|]. rewrite slot_acts_snoc. eapply Nat.le_trans; [apply IH|].
  destruct e as [f|f]; cbn; [unfold slot_add; destruct (existsb _ _); rewrite ?app_length; lia|unfold slot_delete; rewrite map_length; lia].
Qed.
Definition missing (U : list nat) (s : slots) : nat := length (filter (fun f => negb (existsb (holds f) s)) U).
Lemma filter_le : forall (A : Type) (p q : A -> bool) U, (forall x, In x U -> p x = true -> q x = true) -> length (filter p U) <= length (filter q U).
Proof.
  intros A p q. induction U as [|x U IH]; intros H; [apply le_n|]. cbn. pose proof (IH (fun y Hy => H y (or_intror Hy))) as L.
  destruct (p x) eqn:P; [rewrite (H x (or_introl eq_refl) P)|destruct (q x)]; cbn; lia.
Qed.
Lemma filter_lt : forall (A : Type) (p q : A -> bool) U x, (forall y, In y U -> p y = true -> q y = true) -> In x U -> p x = false -> q x = true ->
  S (length (filter p U)) <= length (filter q U).
Proof.
  intros A p q. induction U as [|y U IH]; intros x H I P Q; [destruct I|]. cbn. destruct I as [->|I].
  - rewrite P, Q. cbn. apply le_n_S. apply filter_le. intros z Z. apply H. right. exact Z.
  - pose proof (IH x (fun z Z => H z (or_intror Z)) I P Q) as L. destruct (p y) eqn:Py; [rewrite (H y (or_introl eq_refl) Py)|destruct (q y)]; cbn; lia.
Qed.
Definition modest (U : list nat) (e : sub_event) : Prop := match e with Subscribe f => In f U | Unsubscribe f => ~ In f U end.
Lemma act_measure : forall U e s, modest U e -> length (slot_act e s) + missing U (slot_act e s) <= length s + missing U s.
Proof.
  intros U [f|f] s M; cbn in M |- *.
  - unfold slot_add. destruct (existsb (holds f) s) eqn:E; [apply le_n|]. rewrite app_length. cbn [length].
    enough (S (missing U (s ++ [Some f])) <= missing U s) by lia. apply filter_lt with (x := f); [|exact M| |rewrite E; reflexivity].
    + intros y _. rewrite existsb_app. destruct (existsb (holds y) s); [discriminate|reflexivity].
    + rewrite existsb_app. cbn. rewrite Nat.eqb_refl, orb_true_r. reflexivity.
  - unfold slot_delete at 1. rewrite map_length. apply Nat.add_le_mono_l. apply filter_le. intros y Hy. unfold slot_delete.
    intros P. destruct (existsb (holds y) s) eqn:E; [|reflexivity]. exfalso. apply negb_true_iff in P. apply existsb_exists in E. destruct E as ([g|] & I & Q); [|discriminate Q].
    cbn in Q. apply Nat.eqb_eq in Q. subst g. assert (X : existsb (holds y) (map (fun x => if holds f x then None else x) s) = true); [|congruence].
    apply existsb_exists. exists (Some y). split; [|apply Nat.eqb_refl]. apply in_map_iff. exists (Some y). split; [|exact I]. cbn. destruct (Nat.eqb_spec f y); [subst; contradiction|reflexivity].
Qed.
Lemma acts_measure : forall U es s, Forall (modest U) es -> length (slot_acts es s) + missing U (slot_acts es s) <= length s + missing U s.
Proof.
  intros U. induction es as [|e es IH] using rev_ind; intros s H; [apply le_n|]. apply Forall_app in H. destruct H as (A & B). inversion B as [|? ? M _]; subst.
  rewrite slot_acts_snoc. eapply Nat.le_trans; [apply act_measure; exact M|apply IH; exact A].
Qed.
Theorem C103_ends : forall U body l, (forall tr f, Forall (modest U) (fst (body tr f))) -> exists fuel r, notification body fuel l = Some r.
Proof.
  intros U body l M. unfold notification.
  assert (K : forall m i s tr, length s + missing U s <= m + i -> exists fuel r, for_each body fuel i s tr = Some r).
  { induction m as [|m IH]; intros i s tr L.
    - exists 1, (s, tr). cbn. assert (nth_error s i = None) as -> by (apply nth_error_None; lia). reflexivity.
    - destruct (nth_error s i) as [[f|]|] eqn:E.
      + destruct (body tr f) as [es thrown] eqn:B. destruct thrown.
        * exists 1. cbn. rewrite E, B. eexists. reflexivity.
        * destruct (IH (S i) (slot_acts es s) (tr ++ Called f :: map Did es)) as (n & r & H).
          { pose proof (M tr f) as Q. rewrite B in Q. pose proof (acts_measure U es s Q). lia. }
          exists (S n), r. cbn [for_each]. rewrite E, B. exact H.
      + destruct (IH (S i) s tr) as (n & r & H); [lia|]. exists (S n), r. cbn [for_each]. rewrite E. exact H.
      + exists 1, (s, tr). cbn. rewrite E. reflexivity. }
  apply (K (length (slot_acts l []) + missing U (slot_acts l []))). lia.
Qed.
(** It does not always: a callback that unsubscribes and subscribes itself, as an
    effect that is cleaned up and run again does, is called for ever. *)
Theorem C103_endless_refuted : exists body l, forall fuel, notification body fuel l = None.
Proof.
  exists (fun _ f => ([Unsubscribe f; Subscribe f], false)), [Subscribe 1].
  assert (K : forall fuel n tr, for_each (fun _ f => ([Unsubscribe f; Subscribe f], false)) fuel n (repeat None n ++ [Some 1]) tr = None).
  { induction fuel as [|fuel IH]; intros n tr; [reflexivity|]. cbn [for_each].
    rewrite nth_error_app2 by (rewrite repeat_length; apply le_n). rewrite repeat_length, Nat.sub_diag. cbn [nth_error].
    replace (slot_acts [Unsubscribe 1; Subscribe 1] (repeat None n ++ [Some 1])) with (repeat (@None nat) (S n) ++ [Some 1]); [apply IH|].
    unfold slot_acts. cbn [fold_left slot_act]. assert (E : slot_delete 1 (repeat None n ++ [Some 1]) = repeat None (S n)).
    { unfold slot_delete. rewrite map_app. cbn [map holds Nat.eqb repeat]. rewrite (repeat_cons n (@None nat)). f_equal. induction n as [|n IHn]; cbn; rewrite ?IHn; reflexivity. }
    rewrite E. unfold slot_add. assert (X : existsb (holds 1) (repeat None (S n)) = false) by (generalize (S n) as m; induction m as [|m IHm]; cbn; auto). rewrite X. reflexivity. }
  intros fuel. exact (K fuel 0 []).
Qed.
(** The callbacks of the page neither subscribe nor unsubscribe nor throw: every one
    subscribed is called, once, in the order of their subscriptions. *)
Theorem C103_quiet : forall l fuel s tr, notification (fun _ _ => ([], false)) fuel l = Some (s, tr) -> tr = map Called (notify (sub_acts l)).
Proof.
  intros l fuel s tr H. unfold notification, notify in *. rewrite <- live_acts. set (s0 := slot_acts l []) in *. clearbody s0.
  assert (K : forall n u v t, for_each (fun _ _ => ([], false)) n (length u) (u ++ v) t = Some (s, tr) -> tr = t ++ map Called (live v)).
  { induction n as [|n IH]; intros u v t Q; [discriminate Q|]. cbn [for_each] in Q. rewrite nth_error_app2, Nat.sub_diag in Q by apply le_n.
    destruct v as [|x v]; cbn [nth_error] in Q; [injection Q as _ <-; cbn; rewrite app_nil_r; reflexivity|].
    assert (Eu : S (length u) = length (u ++ [x])) by (rewrite app_length; cbn; lia).
    destruct x as [f|].
    - cbn [map slot_acts fold_left] in Q. rewrite Eu in Q. change (u ++ Some f :: v) with (u ++ [Some f] ++ v) in Q. rewrite app_assoc in Q. apply IH in Q. rewrite Q, <- app_assoc. reflexivity.
    - rewrite Eu in Q. change (u ++ None :: v) with (u ++ [None] ++ v) in Q. rewrite app_assoc in Q. apply IH in Q. exact Q. }
  exact (K fuel [] s0 [] H).
Qed.
(** 1 unsubscribes 2 and subscribes 5; 3 unsubscribes and subscribes itself the first time. *)
Example C103_nonvacuous :
  let body := fun tr f => (if Nat.eqb f 1 then [Unsubscribe 2; Subscribe 5; Subscribe 3]
                           else if Nat.eqb f 3 && Nat.eqb (length (filter (fun x => match x with Called 3 => true | _ => false end) tr)) 0 then [Unsubscribe 3; Subscribe 3] else [], false) in
  notification body 9 [Subscribe 1; Subscribe 2; Subscribe 3; Subscribe 4] =
  Some ([Some 1; None; None; Some 4; Some 5; Some 3],
        [Called 1; Did (Unsubscribe 2); Did (Subscribe 5); Did (Subscribe 3); Called 3; Did (Unsubscribe 3); Did (Subscribe 3); Called 4; Called 5; Called 3]).
Proof. reflexivity. Qed.
Example C103_ends_nonvacuous : let body : behaviour := fun tr f => (if Nat.eqb f 1 then [Unsubscribe 2; Subscribe 7] else [Unsubscribe 1; Subscribe 7], false) in
  (forall tr f, Forall (modest [7]) (fst (body tr f))) /\
  notification body 9 [Subscribe 1; Subscribe 2; Subscribe 3] =
  Some ([None; None; Some 3; Some 7], [Called 1; Did (Unsubscribe 2); Did (Subscribe 7); Called 3; Did (Unsubscribe 1); Did (Subscribe 7); Called 7; Did (Unsubscribe 1); Did (Subscribe 7)]).
Proof. split; [|reflexivity]. intros tr f. cbn. destruct (Nat.eqb f 1); repeat constructor; cbn; intros [X|[]]; lia. Qed.
Print Assumptions C103_turn.
Print Assumptions C103_everyone.
Print Assumptions C103_once.
Print Assumptions C103_exactly_once.
Print Assumptions C103_after.
Print Assumptions C103_throw.
Print Assumptions C103_missed_refuted.
Print Assumptions C103_ends.
Print Assumptions C103_endless_refuted.
Print Assumptions C103_quiet.
