(** * Theorems: what the machine keeps allocated (C85)
    The objects obtained from [malloc] are the buses, the subscriptions, the nodes of the
    list of subscriptions and of the list of watched registers, and the memory array.
    [PubSub.v] and [Api.v] say when each is allocated and freed. *)
From Coq Require Import ZArith List Bool Lia.
From Verif Require Import Word Prog Components Machine LinkedList PubSub Api ZRefine ApiFacts HeapSim Lifecycle Usage Reach PropsApi.
From Verif Require PropsLife.
Import ListNotations.
Open Scope Z_scope.

(** ** What is counted *)
Definition taken {A} (x : option A) : bool := match x with Some _ => true | None => false end.
(** Buses allocated and not freed: addresses are given out in order. *)
Definition buses (h : hstate) : Z := Z.of_nat (length (filter (fun a => taken (hb (ps h) a)) (seq 0 (hn (ps h))))).
(** Subscriptions: allocated in order, never freed (pubsub.c:112). *)
Definition subscriptions (h : hstate) : Z := Z.of_nat (sc (ps h)).
Definition nodes (h : hstate) : Z := Z.of_nat (length (sl (ps h))).
Definition watchers (h : hstate) : Z := Z.of_nat (length (wl h)).
Definition has_memory (h : hstate) : bool := match hm h with Mem _ => true | _ => false end.
(** Calls of [init] and of [shutdown] in a history. *)
Definition inits (l : list call) : Z := Z.of_nat (length (filter (fun c => match c with Init _ => true | _ => false end) l)).
Definition shutdowns (l : list call) : Z := Z.of_nat (length (filter (fun c => match c with Shutdown => true | _ => false end) l)).
Definition starts_or_stops (c : call) : Prop := match c with Init _ | Shutdown => True | _ => False end.
(** The same objects are allocated, at the same addresses. *)
Record same_blocks (h h' : hstate) : Prop := {
  sb_bus : forall a, hb (ps h') a = None <-> hb (ps h) a = None;
  sb_next : hn (ps h') = hn (ps h);
  sb_subs : sc (ps h') = sc (ps h);
  sb_nodes : sl (ps h') = sl (ps h);
  sb_watchers : wl h' = wl h;
  sb_memory : has_memory h' = has_memory h }.

Lemma sb_refl : forall h, same_blocks h h.
Proof. intros h. constructor; tauto || reflexivity. Qed.
Lemma sb_trans : forall a b c, same_blocks a b -> same_blocks b c -> same_blocks a c.
Proof. intros a b c [A1 A2 A3 A4 A5 A6] [B1 B2 B3 B4 B5 B6]. constructor; try congruence. intros x. rewrite B1. apply A1. Qed.

(** ** Running allocates nothing *)
Lemma deliver_blocks : forall t w subs l h n h' n', deliver t w subs l h n = Some (h', n') -> forall a, h' a = None <-> h a = None.
Proof.
  intros t w subs. induction l as [|i l IH]; intros h n h' n' E a; cbn [deliver] in E; [injection E as <- _; tauto|].
  destruct (subs i) as [s|]; [|discriminate E]. destruct (negb (sact s)); [exact (IH _ _ _ _ E a)|]. destruct (negb (topic_eqb (stop s) t)); [exact (IH _ _ _ _ E a)|].
  destruct (sbus s) as [b|]; [|discriminate E]. destruct (h b) as [x|] eqn:Eb; [|discriminate E]. rewrite (IH _ _ _ _ E a). unfold upd. destruct (Nat.eqb_spec a b) as [->|]; [|tauto]. rewrite Eb. split; discriminate.
Qed.
Lemma hexec_blocks : forall p h h', hexec p h = Some h' -> same_blocks h h'.
Proof.
  induction p as [|b k IH|b k IH|b k IH|t w k IH|r k IH|r w k IH|o k IH|o v k IH|m k IH|]; intros h h' E; cbn [hexec] in E.
  - injection E as <-. apply sb_refl.
  - unfold update_bus_data in E. destruct (bp h b) as [a|]; [|discriminate E]. destruct (hb (ps h) a) as [x|] eqn:Ea; [|discriminate E]. eapply sb_trans; [|exact (IH _ _ E)].
    constructor; try reflexivity. intros y. cbn [ps set_ps hb]. unfold upd. destruct (Nat.eqb_spec y a) as [->|]; [|tauto]. rewrite Ea. split; discriminate.
  - destruct (get_bus h b); [|discriminate E]. exact (IH _ _ _ E).
  - destruct (get_bus h b); [|discriminate E]. exact (IH _ _ _ E).
  - unfold publish_message_to in E. destruct (middlewares_pass t w (ps h)); [|destruct h; exact (IH _ _ E)]. destruct (deliver t w (ss (ps h)) (sl (ps h)) (hb (ps h)) 0) as [(g & n)|] eqn:Ed; [|discriminate E].
    eapply sb_trans; [|exact (IH _ _ E)]. constructor; try reflexivity. exact (deliver_blocks _ _ _ _ _ _ _ _ Ed).
  - exact (IH _ _ _ E).
  - eapply sb_trans; [|exact (IH _ _ E)]. constructor; reflexivity.
  - destruct (valid_offset o); [|exact (IH _ _ _ E)]. destruct (hm h); try discriminate E. exact (IH _ _ _ E).
  - destruct (valid_offset o); [|discriminate E]. destruct (hm h) as [| |f] eqn:Em; try discriminate E. eapply sb_trans; [|exact (IH _ _ E)]. constructor; try reflexivity. unfold has_memory. cbn [hm set_hm]. rewrite Em. reflexivity.
  - eapply sb_trans; [|exact (IH _ _ E)]. constructor; reflexivity.
  - discriminate E.
Qed.
Lemma clock_blocks : forall n h h', clock_loop n h = Some h' -> same_blocks h h'.
Proof.
  induction n as [|n IH]; intros h h' E; cbn [clock_loop] in E; [discriminate E|]. destruct (hexec _ _) as [h2|] eqn:E2; [|discriminate E].
  apply hexec_blocks in E2. assert (S : same_blocks h h2) by (eapply sb_trans; [|exact E2]; constructor; reflexivity).
  match type of E with (if ?c then _ else _) = _ => destruct c end; [injection E as <-; exact S|]. eapply sb_trans; [exact S|exact (IH _ _ E)].
Qed.
Lemma ui_blocks : forall h h', call_update_ui h = Some h' -> same_blocks h h'.
Proof. intros h h' E. unfold call_update_ui in E. destruct (ui h); [|discriminate E]. injection E as <-. apply sb_refl. Qed.
Lemma call_blocks : forall c h h', ~ starts_or_stops c -> do_call c h = Some h' -> same_blocks h h'.
Proof.
  intros c h h' N E. destruct c; cbn [do_call starts_or_stops] in *; try tauto.
  - injection E as <-. constructor; reflexivity.
  - unfold api_run_clock_cycle in E. destruct (run_cu_clock_cycle h) as [h1|] eqn:E1; [|discriminate E]. apply clock_blocks in E1. destruct update; [|injection E as <-; exact E1]. exact (sb_trans _ _ _ E1 (ui_blocks _ _ E)).
  - exact (hexec_blocks _ _ _ E).
  - unfold api_set_memory_value in E. destruct (hexec _ h) as [h1|] eqn:E1; [|discriminate E]. exact (sb_trans _ _ _ (hexec_blocks _ _ _ E1) (ui_blocks _ _ E)).
  - unfold api_set_register_pc in E. destruct (get_register R_PC h); [|discriminate E]. destruct (hexec _ h) as [h1|] eqn:E1; [|discriminate E]. exact (sb_trans _ _ _ (hexec_blocks _ _ _ E1) (ui_blocks _ _ E)).
Qed.

(** ** Counting *)
Lemma filter_ext_len : forall (f g : nat -> bool) l, (forall x, In x l -> f x = g x) -> filter f l = filter g l.
Proof. intros f g l H. apply filter_ext_in. exact H. Qed.
Lemma buses_same : forall h h', same_blocks h h' -> buses h' = buses h.
Proof.
  intros h h' [B N _ _ _ _]. unfold buses. rewrite N. f_equal. f_equal. apply filter_ext_in. intros a _. specialize (B a). destruct (hb (ps h') a), (hb (ps h) a); auto; cbn [taken]; destruct B as (B1 & B2); [discriminate (B2 eq_refl)|discriminate (B1 eq_refl)].
Qed.
Lemma count_add : forall (f : nat -> option bus) n x, length (filter (fun a => taken (upd f n (Some x) a)) (seq 0 (S n))) = S (length (filter (fun a => taken (f a)) (seq 0 n))).
Proof.
  intros f n x. rewrite seq_S, filter_app, app_length. cbn [filter plus]. unfold upd at 2. rewrite Nat.eqb_refl. cbn [taken length]. rewrite Nat.add_1_r. f_equal. f_equal.
  apply filter_ext_in. intros a Ha. apply in_seq in Ha. unfold upd. destruct (Nat.eqb_spec a n); [lia|reflexivity].
Qed.
Lemma count_del : forall (f : nat -> option bus) a b n, f a = Some b -> (a < n)%nat -> S (length (filter (fun x => taken (upd f a None x)) (seq 0 n))) = length (filter (fun x => taken (f x)) (seq 0 n)).
Proof.
  intros f a b n E L. replace n with (a + (1 + (n - a - 1)))%nat by lia. rewrite !seq_app, !filter_app, !app_length. cbn [plus seq filter]. unfold upd at 2. rewrite Nat.eqb_refl, E. cbn [taken length].
  rewrite <- !plus_n_Sm, <- !plus_n_O, plus_n_Sm.
  rewrite (filter_ext_in (fun x => taken (upd f a None x)) (fun x => taken (f x)) (seq 0 a)). 2:{ intros x Hx. apply in_seq in Hx. unfold upd. destruct (Nat.eqb_spec x a); [lia|reflexivity]. }
  rewrite (filter_ext_in (fun x => taken (upd f a None x)) (fun x => taken (f x)) (seq _ (n - a - 1))). 2:{ intros x Hx. apply in_seq in Hx. unfold upd. destruct (Nat.eqb_spec x a); [lia|reflexivity]. }
  lia.
Qed.
Lemma remove_first_len : forall i l, In i l -> S (length (remove_first i l)) = length l.
Proof. intros i. induction l as [|x l IH]; intros H; [destruct H|]. cbn [remove_first]. destruct (Nat.eqb_spec x i); [reflexivity|]. destruct H as [->|H]; [congruence|]. cbn [length]. rewrite IH by exact H. reflexivity. Qed.
(** What a statement adds. *)
Record amount := mkAmount { am_bus : Z; am_sub : Z; am_node : Z; am_watch : Z }.
Definition adds (c : lstmt) : amount :=
  match c with
  | Create _ => mkAmount 1 0 0 0 | Destroy _ => mkAmount (-1) 0 0 0
  | Sub _ => mkAmount 0 1 1 0 | Unsub _ => mkAmount 0 0 (-1) 0
  | Watch _ => mkAmount 0 0 0 1 | Unwatch _ => mkAmount 0 0 0 (-1)
  | _ => mkAmount 0 0 0 0
  end.
Definition plus_amount (x y : amount) := mkAmount (am_bus x + am_bus y) (am_sub x + am_sub y) (am_node x + am_node y) (am_watch x + am_watch y).
Definition sum (l : list lstmt) : amount := fold_right (fun c n => plus_amount (adds c) n) (mkAmount 0 0 0 0) l.
Definition grown (h h' : hstate) (x : amount) : Prop :=
  buses h' = buses h + am_bus x /\ subscriptions h' = subscriptions h + am_sub x /\ nodes h' = nodes h + am_node x.
Lemma grown_app : forall a b c x y, grown a b x -> grown b c y -> grown a c (plus_amount x y).
Proof. intros a b c x y (A1 & A2 & A3) (B1 & B2 & B3). unfold grown, plus_amount. cbn [am_bus am_sub am_node]. repeat split; lia. Qed.

(** Statements of [init]: nothing is freed. *)
Definition only_allocates (c : lstmt) : bool := match c with Unsub _ | Destroy _ | Unwatch _ | FreeMem => false | _ => true end.
Lemma alloc_step : forall rnd c h h', only_allocates c = true -> lexec rnd c h = Some h' -> grown h h' (adds c) /\ watchers h' = watchers h + am_watch (adds c).
Proof.
  intros rnd c h h' O E. destruct c; try discriminate O; cbn [lexec] in E; try (injection E as <-; unfold grown, buses, subscriptions, nodes, watchers; cbn; repeat split; lia).
  - cbn [create_bus_data] in E. injection E as <-. unfold grown, buses, subscriptions, nodes, watchers. cbn [set_bp set_ps ps hb hn sc sl wl adds am_bus am_sub am_node am_watch]. rewrite count_add. repeat split; lia.
  - cbn [subscribe_to] in E. injection E as <-. unfold grown, buses, subscriptions, nodes, watchers. cbn [set_sp set_ps ps hb hn sc sl wl adds am_bus am_sub am_node am_watch]. rewrite app_length. cbn [length]. repeat split; lia.
  - injection E as <-. unfold grown, buses, subscriptions, nodes, watchers. cbn [set_wl ps wl adds am_bus am_sub am_node am_watch]. rewrite app_length. cbn [length]. repeat split; lia.
Qed.
Lemma alloc_steps : forall rnd l h h', forallb only_allocates l = true -> lrun rnd l h = Some h' -> grown h h' (sum l) /\ watchers h' = watchers h + am_watch (sum l).
Proof.
  intros rnd. induction l as [|c l IH]; intros h h' O E; cbn [lrun] in E.
  - injection E as <-. unfold grown. cbn. repeat split; lia.
  - cbn [forallb] in O. apply andb_prop in O as (O1 & O2). destruct (lexec rnd c h) as [h1|] eqn:E1; [|discriminate E]. destruct (alloc_step rnd c h h1 O1 E1) as (G1 & W1). destruct (IH h1 h' O2 E) as (G2 & W2).
    change (sum (c :: l)) with (plus_amount (adds c) (sum l)). split; [exact (grown_app _ _ _ _ _ G1 G2)|]. cbn [plus_amount am_watch]. lia.
Qed.
(** Statements of [shutdown]: nothing is freed twice. *)
Lemma free_step : forall rnd h g c g' h', dst h (dU g) (dD g) (dM g) -> dstep c g = Some g' -> lexec rnd c h = Some h' -> grown h h' (adds c).
Proof.
  intros rnd h g c g' h' [XA XB XI XS XG XF XM] E L. destruct c; cbn [dstep] in E; try discriminate E; cbn [lexec] in L.
  - destruct (hm h); try discriminate L; injection L as <-; unfold grown, buses, subscriptions, nodes; cbn; repeat split; lia.
  - destruct (memb b all_buses) eqn:Eb; [|discriminate E]. destruct (memb b (dU g)) eqn:Eu; [discriminate E|]. apply memb_in in Eb. apply memb_out in Eu. destruct (XS b Eb Eu) as (i & a & E1 & E2 & E3 & E4).
    unfold unsubscribe_for in L. rewrite E1 in L. destruct (sl (ps h)) as [|x0 l0] eqn:El; [destruct E3|]. rewrite <- El in *. rewrite E4 in L. destruct (sn_sub _ XA i E3) as (Lt & _).
    replace (Nat.leb (sc (ps h)) i) with false in L by (symmetry; apply Nat.leb_gt; lia).
    replace (existsb (Nat.eqb i) (sl (ps h))) with true in L by (symmetry; apply existsb_exists; exists i; split; [exact E3|apply Nat.eqb_refl]).
    injection L as <-. pose proof (remove_first_len i _ E3). unfold grown, buses, subscriptions, nodes. cbn [set_ps ps hb hn sc sl adds am_bus am_sub am_node]. repeat split; lia.
  - destruct (memb b (dU g)) eqn:Eu; [|discriminate E]. destruct (memb b (dD g)) eqn:Ed; [discriminate E|]. apply memb_in in Eu. apply memb_out in Ed. destruct (XG b Eu) as (Eb & _). destruct (XB b Eb Ed) as (a & bs & E1 & E2).
    unfold destroy_bus_data in L. rewrite E1, E2 in L. injection L as <-. pose proof (count_del (hb (ps h)) a bs _ E2 (sn_fresh _ XA a bs E2)). unfold grown, buses, subscriptions, nodes. cbn [set_ps ps hb hn sc sl adds am_bus am_sub am_node]. repeat split; lia.
  - injection L as <-. unfold grown, buses, subscriptions, nodes. cbn. repeat split; lia.
Qed.
Lemma free_steps : forall rnd l h g g' h', dst h (dU g) (dD g) (dM g) -> dsteps l g = Some g' -> lrun rnd l h = Some h' -> grown h h' (sum l).
Proof.
  intros rnd. induction l as [|c l IH]; intros h g g' h' X D E; cbn [lrun] in E.
  - injection E as <-. unfold grown. cbn. repeat split; lia.
  - cbn [dsteps] in D. destruct (dstep c g) as [g1|] eqn:D1; [|discriminate D]. destruct (dstep_ok rnd h g c g1 X D1) as (h1 & E1 & X1 & _). rewrite E1 in E.
    change (sum (c :: l)) with (plus_amount (adds c) (sum l)). exact (grown_app _ _ _ _ _ (free_step rnd h g c g1 h1 X D1 E1) (IH h1 g1 g' h' X1 D E)).
Qed.
Fixpoint unwatched (l : list lstmt) : list regid := match l with [] => [] | Unwatch r :: l' => r :: unwatched l' | _ :: l' => unwatched l' end.
Lemma lexec_wl : forall rnd c h h', lexec rnd c h = Some h' -> wl h' = match c with Watch r => wl h ++ [r] | Unwatch r => remove_reg r (wl h) | _ => wl h end.
Proof.
  intros rnd c h h' E. destruct c; cbn [lexec] in E; try (injection E as <-; reflexivity).
  - destruct (hm h); try discriminate E; injection E as <-; reflexivity.
  - destruct (unsubscribe_for _ _) as [(p & r)|]; [|discriminate E]. injection E as <-. reflexivity.
  - destruct (destroy_bus_data _ _); [|discriminate E]. injection E as <-. reflexivity.
Qed.
Lemma remove_reg_in : forall r x l, x <> r -> In x l -> In x (remove_reg r l).
Proof. intros r x. induction l as [|y l IH]; intros N H; [destruct H|]. cbn [remove_reg]. destruct (regid_eqb y r) eqn:E; [apply regid_eqb_eq in E; subst y; destruct H as [H|H]; [congruence|exact H]|]. destruct H as [->|H]; [left; reflexivity|right; auto]. Qed.
Lemma remove_reg_len : forall r l, In r l -> S (length (remove_reg r l)) = length l.
Proof. intros r. induction l as [|y l IH]; intros H; [destruct H|]. cbn [remove_reg]. destruct (regid_eqb y r) eqn:E; [reflexivity|]. destruct H as [->|H]; [|cbn [length]; rewrite IH by exact H; reflexivity]. rewrite (proj2 (regid_eqb_eq r r) eq_refl) in E. discriminate E. Qed.
Lemma unwatch_steps : forall rnd l h h', forallb (fun c => match c with Watch _ => false | _ => true end) l = true -> NoDup (unwatched l) -> (forall r, In r (unwatched l) -> In r (wl h)) -> lrun rnd l h = Some h' ->
  watchers h' = watchers h - Z.of_nat (length (unwatched l)).
Proof.
  intros rnd. induction l as [|c l IH]; intros h h' O ND W E; cbn [lrun] in E; [injection E as <-; cbn; lia|].
  cbn [forallb] in O. apply andb_prop in O as (O1 & O2). destruct (lexec rnd c h) as [h1|] eqn:E1; [|discriminate E]. apply lexec_wl in E1. unfold watchers in *.
  destruct c; try discriminate O1; cbn [unwatched] in *; try (rewrite (IH h1 h' O2 ND ltac:(rewrite E1; exact W) E), E1; reflexivity).
  inversion ND as [|? ? N1 N2]; subst. rewrite (IH h1 h' O2 N2); [|intros x Hx; rewrite E1; apply remove_reg_in; [intros ->; contradiction|apply W; right; exact Hx]|exact E].
  rewrite E1. pose proof (remove_reg_len r (wl h) (W r (or_introl eq_refl))). cbn [length]. lia.
Qed.
Lemma init_adds : sum init_list = mkAmount 79 79 79 15 /\ forallb only_allocates init_list = true.
Proof. split; vm_compute; reflexivity. Qed.
Lemma shutdown_adds : sum shutdown_list = mkAmount (-78) 0 (-78) (-15).
Proof. vm_compute. reflexivity. Qed.
Lemma shutdown_unwatched : forallb (fun c => match c with Watch _ => false | _ => true end) shutdown_list = true /\ NoDup (unwatched shutdown_list) /\ length (unwatched shutdown_list) = 15%nat.
Proof.
  split; [vm_compute; reflexivity|]. assert (E : exists l, unwatched shutdown_list = l /\ NoDup l /\ length l = 15%nat); [|destruct E as (l & -> & E); exact E].
  eexists. split; [vm_compute; reflexivity|]. split; [|reflexivity]. repeat (constructor; [cbn [In]; intuition discriminate|]). constructor.
Qed.
Opaque init_list shutdown_list.
Transparent api_init api_shutdown.
Lemma init_run : forall rnd h, do_call (Init rnd) h = lrun rnd init_list h.
Proof. intros. cbn [do_call]. unfold api_init. reflexivity. Qed.
Lemma shutdown_run : forall h, do_call Shutdown h = lrun (fun _ => 0) shutdown_list h.
Proof. intros. cbn [do_call]. unfold api_shutdown. reflexivity. Qed.
Opaque api_init api_shutdown.
Lemma init_grown : forall rnd h h', do_call (Init rnd) h = Some h' -> grown h h' (mkAmount 79 79 79 15) /\ watchers h' = watchers h + 15.
Proof. intros rnd h h' E. rewrite init_run in E. destruct init_adds as (A & B). pose proof (alloc_steps rnd init_list h h' B E) as G. rewrite A in G. exact G. Qed.
Lemma shutdown_grown : forall h s h', sim h s -> do_call Shutdown h = Some h' -> grown h h' (mkAmount (-78) 0 (-78) (-15)) /\ watchers h' = watchers h - 15.
Proof.
  intros h s h' [SA SB SI SR SM SL SW] E. rewrite shutdown_run in E. split.
  - rewrite <- shutdown_adds. apply (free_steps (fun _ => 0) shutdown_list h (mkDP [] [] true) dend h'); [|exact dend_eq|exact E].
    cbn. constructor; auto; try (intros ? []; fail).
    + intros b Hb _. destruct (SB b Hb) as (a & i & E1 & E2 & _). eauto.
    + intros b Hb _. destruct (SB b Hb) as (a & i & E1 & E2 & E3 & E4 & E5). eauto 8.
    + intros _. destruct SM as (f & E1 & _). eauto.
  - destruct shutdown_unwatched as (A & B & C). pose proof (unwatch_steps (fun _ => 0) shutdown_list h h' A B ltac:(auto) E) as W. rewrite C in W. exact W.
Qed.

(** ** C85 *)
(** However long the machine runs, and whatever the client does short of [init] and
    [shutdown], the objects allocated are the same, at the same addresses. *)
Theorem C85_running : forall cs h h', (forall c, In c cs -> ~ starts_or_stops c) -> run_calls cs h = Some h' -> same_blocks h h'.
Proof.
  induction cs as [|c cs IH]; intros h h' N E; cbn [run_calls] in E; [injection E as <-; apply sb_refl|]. destruct (do_call c h) as [h1|] eqn:E1; [|discriminate E].
  eapply sb_trans; [exact (call_blocks c h h1 (N c (or_introl eq_refl)) E1)|]. apply IH; [|exact E]. intros x Hx. apply N. right. exact Hx.
Qed.
Lemma inits_app : forall l c, inits (l ++ [c]) = inits l + match c with Init _ => 1 | _ => 0 end.
Proof. intros l c. unfold inits. rewrite filter_app, app_length. destruct c; cbn; lia. Qed.
Lemma shutdowns_app : forall l c, shutdowns (l ++ [c]) = shutdowns l + match c with Shutdown => 1 | _ => 0 end.
Proof. intros l c. unfold shutdowns. rewrite filter_app, app_length. destruct c; cbn; lia. Qed.
(** Exactly what is allocated after any history of allowed calls: a start takes 79 buses,
    79 subscriptions and list nodes, and 15 nodes for the registers; a stop gives back all
    but one bus and its node, and keeps all 79 subscriptions. *)
Theorem C85_exact : forall l u h, proper l u -> run_calls l boot = Some h ->
  buses h = 79 * inits l - 78 * shutdowns l /\ subscriptions h = 79 * inits l /\ nodes h = 79 * inits l - 78 * shutdowns l /\
  watchers h = 15 * (inits l - shutdowns l).
Proof.
  intros l u h P. revert h. induction P as [|l u c u' P IH A]; intros h E.
  - injection E as <-. unfold buses, subscriptions, nodes, watchers. cbn. repeat split; lia.
  - rewrite run_calls_app in E. destruct (run_calls l boot) as [h0|] eqn:E0; [|discriminate E]. destruct (IH h0 eq_refl) as (I1 & I2 & I3 & I4). cbn [run_calls] in E. destruct (do_call c h0) as [h1|] eqn:E1; [|discriminate E]. injection E as <-.
    rewrite inits_app, shutdowns_app. destruct c.
    + destruct (init_grown _ _ _ E1) as ((G1 & G2 & G3) & G4). cbn [am_bus am_sub am_node] in *. repeat split; lia.
    + inversion A as [|k0| | | | |]; subst. assert (L : live l h0 k0) by (split; assumption). destruct (live_up l h0 k0 L) as (_ & z & [(s & S & _) _ _ _]).
      destruct (shutdown_grown h0 s h1 S E1) as ((G1 & G2 & G3) & G4). cbn [am_bus am_sub am_node] in *. repeat split; lia.
    + assert (B : same_blocks h0 h1) by (refine (call_blocks _ _ _ _ E1); cbn; tauto). rewrite (buses_same _ _ B). destruct B as [_ _ B3 B4 B5 _]. unfold subscriptions, nodes, watchers in *. rewrite B3, B4, B5. repeat split; lia.
    + assert (B : same_blocks h0 h1) by (refine (call_blocks _ _ _ _ E1); cbn; tauto). rewrite (buses_same _ _ B). destruct B as [_ _ B3 B4 B5 _]. unfold subscriptions, nodes, watchers in *. rewrite B3, B4, B5. repeat split; lia.
    + assert (B : same_blocks h0 h1) by (refine (call_blocks _ _ _ _ E1); cbn; tauto). rewrite (buses_same _ _ B). destruct B as [_ _ B3 B4 B5 _]. unfold subscriptions, nodes, watchers in *. rewrite B3, B4, B5. repeat split; lia.
    + assert (B : same_blocks h0 h1) by (refine (call_blocks _ _ _ _ E1); cbn; tauto). rewrite (buses_same _ _ B). destruct B as [_ _ B3 B4 B5 _]. unfold subscriptions, nodes, watchers in *. rewrite B3, B4, B5. repeat split; lia.
    + assert (B : same_blocks h0 h1) by (refine (call_blocks _ _ _ _ E1); cbn; tauto). rewrite (buses_same _ _ B). destruct B as [_ _ B3 B4 B5 _]. unfold subscriptions, nodes, watchers in *. rewrite B3, B4, B5. repeat split; lia.
Qed.
(** A session: one [init], then anything but [init] and [shutdown]; what is allocated does
    not depend on its length. *)
Theorem C85_session : forall l u h, proper l u -> run_calls l boot = Some h -> inits l = 1 -> shutdowns l = 0 ->
  buses h = 79 /\ subscriptions h = 79 /\ nodes h = 79 /\ watchers h = 15.
Proof. intros l u h P E I S. destruct (C85_exact l u h P E) as (A & B & C & D). rewrite I, S in *. repeat split; lia. Qed.
(** "Shutdown gives everything back" is false: after [n] starts and stops there are still
    [n] buses, [n] list nodes and 79 [n] subscriptions. *)
Theorem C85_restarts_refuted : forall n, exists h, run_calls (PropsLife.restarts n) boot = Some h /\ buses h = Z.of_nat n /\ nodes h = Z.of_nat n /\ subscriptions h = 79 * Z.of_nat n /\ watchers h = 0.
Proof.
  intros n. destruct (PropsLife.C37_leak_unbounded_refuted n) as (h & P & E & _). exists h. split; [exact E|]. destruct (C85_exact _ _ h P E) as (A & B & C & D).
  assert (I : inits (PropsLife.restarts n) = Z.of_nat n /\ shutdowns (PropsLife.restarts n) = Z.of_nat n).
  { clear. induction n as [|n IH]; [split; reflexivity|]. cbn [PropsLife.restarts]. change [Init (fun _ : Z => 0); Shutdown] with ([Init (fun _ : Z => 0)] ++ [Shutdown]). rewrite app_assoc, !inits_app, !shutdowns_app. lia. }
  destruct I as (I1 & I2). rewrite I1, I2 in *. repeat split; lia.
Qed.
(** A session of any length exists. *)
Example C85_nonvacuous : forall n, exists l u h, proper l u /\ run_calls l boot = Some h /\ inits l = 1 /\ shutdowns l = 0 /\ (n <= length l)%nat.
Proof.
  intros n. assert (P : proper (Init (fun _ => 0) :: repeat (RunClock false) n) (mkUse true false)).
  { induction n as [|n IH]; [apply (P_call [] (mkUse false false) (Init (fun _ => 0))); [constructor|apply (A_init (mkUse false false)); intros; lia]|].
    change (repeat (RunClock false) (S n)) with (RunClock false :: repeat (RunClock false) n). rewrite repeat_cons, app_comm_cons. econstructor; [exact IH|]. constructor. discriminate. }
  destruct (proper_good _ _ P) as (h & E & _). exists (Init (fun _ => 0) :: repeat (RunClock false) n), (mkUse true false), h. split; [exact P|]. split; [exact E|].
  assert (K : inits (Init (fun _ => 0) :: repeat (RunClock false) n) = 1 /\ shutdowns (Init (fun _ => 0) :: repeat (RunClock false) n) = 0).
  { clear. unfold inits, shutdowns. cbn [filter]. assert (F : filter (fun c => match c with Init _ => true | _ => false end) (repeat (RunClock false) n) = [] /\ filter (fun c => match c with Shutdown => true | _ => false end) (repeat (RunClock false) n) = []) by (induction n as [|n (I1 & I2)]; [auto|]; cbn; auto).
    destruct F as (-> & ->). split; reflexivity. }
  destruct K as (K1 & K2). split; [exact K1|]. split; [exact K2|]. cbn [length]. rewrite repeat_length. lia.
Qed.
Print Assumptions C85_running.
Print Assumptions C85_exact.
Print Assumptions C85_session.
Print Assumptions C85_restarts_refuted.
