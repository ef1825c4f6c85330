(** * The heap machine behaves like the one-value-per-topic machine *)
From Coq Require Import ZArith List Bool Lia.
From Verif Require Import Word Prog Tables Components Machine LinkedList PubSub Api ZRefine.
Import ListNotations.
Open Scope nat_scope.

(** ** Delivery *)
Definition hit (t : topic) (a : nat) (s : psub) : bool :=
  sact s && topic_eqb (stop s) t && match sbus s with Some x => Nat.eqb x a | None => false end.
Definition hits (subs : nat -> option psub) (t : topic) (l : list nat) (a : nat) : bool :=
  existsb (fun i => match subs i with Some s => hit t a s | None => false end) l.
Definition counted (subs : nat -> option psub) (t : topic) (l : list nat) : Z :=
  Z.of_nat (length (filter (fun i => match subs i with Some s => sact s && topic_eqb (stop s) t | None => false end) l)).

Lemma deliver_spec : forall t w subs l h n,
  (forall i, In i l -> exists s, subs i = Some s /\ (sact s = true -> exists a b, sbus s = Some a /\ h a = Some b)) ->
  exists h', deliver t w subs l h n = Some (h', (n + counted subs t l)%Z) /\
    forall a, h' a = match h a with None => None | Some b => Some (if hits subs t l a then mkBus (bcur b) w else b) end.
Proof.
  induction l as [|i l IH]; intros h n H.
  - cbn. exists h. split. { unfold counted; cbn. rewrite Z.add_0_r. reflexivity. } intros a. destruct (h a); reflexivity.
  - destruct (H i (or_introl eq_refl)) as (s & Hs & Hb). cbn [deliver]. rewrite Hs.
    assert (H' : forall j, In j l -> exists s, subs j = Some s /\ (sact s = true -> exists a b, sbus s = Some a /\ h a = Some b)).
    { intros j Hj. apply H. right; auto. }
    destruct (sact s) eqn:Ea; cbn [negb].
    2:{ destruct (IH h n H') as (h' & E & K). exists h'. split.
        - rewrite E. unfold counted. cbn [filter]. rewrite Hs, Ea. reflexivity.
        - intros a. rewrite K. unfold hits. cbn [existsb]. rewrite Hs. unfold hit at 2. rewrite Ea. reflexivity. }
    destruct (topic_eqb (stop s) t) eqn:Et; cbn [negb].
    2:{ destruct (IH h n H') as (h' & E & K). exists h'. split.
        - rewrite E. unfold counted. cbn [filter]. rewrite Hs, Ea, Et. reflexivity.
        - intros a. rewrite K. unfold hits. cbn [existsb]. rewrite Hs. unfold hit at 2. rewrite Ea, Et. reflexivity. }
    destruct (Hb eq_refl) as (a & b & Esb & Eh). rewrite Esb, Eh.
    destruct (IH (upd h a (Some (mkBus (bcur b) w))) (n + 1)%Z) as (h' & E & K).
    { intros j Hj. destruct (H' j Hj) as (s' & Hs' & Hb'). exists s'. split; auto. intros Ea'.
      destruct (Hb' Ea') as (a' & b' & E1 & E2). unfold upd. destruct (Nat.eqb_spec a' a) as [->|N].
      - eexists a, _. split; auto. rewrite Nat.eqb_refl. reflexivity.
      - exists a', b'. split; auto. destruct (Nat.eqb_spec a' a); [tauto|auto]. }
    exists h'. split.
    + rewrite E. unfold counted. cbn [filter]. rewrite Hs, Ea, Et. cbn [andb length]. f_equal. f_equal. lia.
    + intros x. rewrite K. unfold hits. cbn [existsb]. rewrite Hs. unfold hit at 2. rewrite Ea, Et, Esb. cbn [andb].
      unfold upd. destruct (Nat.eqb_spec x a) as [->|N].
      * rewrite Nat.eqb_refl, Eh. cbn [bcur orb]. destruct (existsb _ l); reflexivity.
      * replace (Nat.eqb a x) with false by (symmetry; apply Nat.eqb_neq; auto). reflexivity.
Qed.

(** ** Sane pubsub states: every listed subscription is active and points to an
    allocated bus, no bus is subscribed twice, there is no middleware. *)
Record sane (p : pstate) : Prop := {
  sn_nodup : NoDup (sl p);
  sn_sub : forall i, In i (sl p) -> i < sc p /\ exists s a b, ss p i = Some s /\ sact s = true /\ sbus s = Some a /\ hb p a = Some b;
  sn_inj : forall i j si sj, In i (sl p) -> In j (sl p) -> ss p i = Some si -> ss p j = Some sj -> sbus si = sbus sj -> i = j;
  sn_fresh : forall a b, hb p a = Some b -> a < hn p;
  sn_mids : mids p = []
}.

Lemma sane0 : sane ps0.
Proof. constructor; cbn; auto; try constructor; try tauto; try discriminate. Qed.

Definition all_buses : list busid :=
  flat_map (fun c => match c with Create b => [b] | _ => [] end) init_list.

Opaque all_buses.

Record sim (h : hstate) (s : mstate) : Prop := {
  sim_sane : sane (ps h);
  sim_bus : forall b, In b all_buses -> exists a i,
    bp h b = Some a /\ hb (ps h) a = Some (mkBus (cv s b) (nx s (topic_of b))) /\
    sp h b = Some i /\ In i (sl (ps h)) /\ ss (ps h) i = Some (mkSub (topic_of b) (Some a) true);
  sim_inj : forall b b', In b all_buses -> In b' all_buses -> bp h b = bp h b' -> b = b';
  sim_reg : forall r, hr h r = rg s r;
  sim_mem : exists f, hm h = Mem f /\ forall o, valid_offset o = true -> f o = mm s o;
  sim_log : hl h = lg s;
  sim_watch : forall r, In r (wl h)
}.

Definition same_env (h h' : hstate) : Prop := tick h' = tick h /\ ui h' = ui h.

Fixpoint wfp (p : prog) : Prop :=
  match p with
  | Done => True
  | Upd b k => In b all_buses /\ wfp k
  | Cur b k => In b all_buses /\ forall w, wfp (k w)
  | Nxt b k => In b all_buses /\ forall w, wfp (k w)
  | Pub t w k => wfp k
  | RdR r k => forall w, wfp (k w)
  | WrR r w k => wfp k
  | LdM o k => forall v, wfp (k v)
  | StM o v k => wfp k
  | Notice m k => wfp k
  | Undef => True
  end.

Lemma wfp_Call : forall p k, wfp p -> wfp k -> wfp (Call p k).
Proof. induction p; cbn; intros k0 Hp Hk; intuition auto. Qed.

Lemma publish_sim : forall h s t w, sim h s ->
  exists p' n, publish_message_to t w (ps h) = Some (p', n) /\
    sim (set_ps h p') (mkM (tset (nx s) t w) (cv s) (rg s) (mm s) (lg s)).
Proof.
  intros h s t w S. destruct S as [SA SB SI SR SM SL SW]. destruct SA as [A1 A2 A3 A4 A5].
  unfold publish_message_to, middlewares_pass. rewrite A5. cbn [forallb].
  destruct (deliver_spec t w (ss (ps h)) (sl (ps h)) (hb (ps h)) 0%Z) as (h' & E & K).
  { intros i Hi. destruct (A2 i Hi) as (_ & su & a & b & E1 & E2 & E3 & E4). exists su. split; auto. intros _. eauto. }
  rewrite E. eexists _, _. split; [reflexivity|].
  constructor; cbn [set_ps ps hb ss sl sc hn mids bp sp hr hm hl wl nx cv rg mm lg]; auto.
  - constructor; cbn [hb ss sl sc hn mids]; auto.
    + intros i Hi. destruct (A2 i Hi) as (L & su & a & b & E1 & E2 & E3 & E4). split; auto.
      exists su, a. rewrite K, E4. eauto 6.
    + intros a b Hb. rewrite K in Hb. destruct (hb (ps h) a) as [b0|] eqn:Eb; [|discriminate]. eauto.
  - intros b Hb. destruct (SB b Hb) as (a & i & E1 & E2 & E3 & E4 & E5). exists a, i.
    split; auto. split; [|auto]. rewrite K, E2. cbn [bcur].
    assert (Eh : hits (ss (ps h)) t (sl (ps h)) a = topic_eqb (topic_of b) t).
    { destruct (topic_eqb (topic_of b) t) eqn:Et.
      - unfold hits. apply existsb_exists. exists i. split; auto. rewrite E5. unfold hit. cbn. rewrite Et, Nat.eqb_refl. reflexivity.
      - unfold hits. apply not_true_iff_false. intros Hx. apply existsb_exists in Hx.
        destruct Hx as (j & Hj & Hx). destruct (ss (ps h) j) as [sj|] eqn:Ej; [|discriminate].
        unfold hit in Hx. apply andb_true_iff in Hx. destruct Hx as (Hx & Hy). apply andb_true_iff in Hx. destruct Hx as (_ & Hx).
        destruct (sbus sj) as [x|] eqn:Ex; [|discriminate]. apply Nat.eqb_eq in Hy. subst x.
        assert (i = j). { apply (A3 i j _ _ E4 Hj E5 Ej). cbn. congruence. }
        subst j. rewrite E5 in Ej. injection Ej as <-. cbn in Hx. congruence. }
    rewrite Eh. unfold tset. destruct (topic_eqb (topic_of b) t); reflexivity.
Qed.

Lemma upd_sim : forall h s b, sim h s -> In b all_buses ->
  exists p', update_bus_data (bp h b) (ps h) = Some p' /\
    sim (set_ps h p') (mkM (nx s) (bset (cv s) b (nx s (topic_of b))) (rg s) (mm s) (lg s)).
Proof.
  intros h s b S Hb. destruct S as [SA SB SI SR SM SL SW]. destruct SA as [A1 A2 A3 A4 A5].
  destruct (SB b Hb) as (a & i & E1 & E2 & E3 & E4 & E5).
  unfold update_bus_data. rewrite E1, E2. eexists. split; [reflexivity|].
  constructor; cbn [set_ps ps hb ss sl sc hn mids bp sp hr hm hl wl nx cv rg mm lg]; auto.
  - constructor; cbn [hb ss sl sc hn mids]; auto.
    + intros j Hj. destruct (A2 j Hj) as (L & su & a' & b' & F1 & F2 & F3 & F4). split; auto.
      exists su, a'. unfold upd. destruct (Nat.eqb a' a); eauto 6.
    + intros a' b' Hb'. unfold upd in Hb'. destruct (Nat.eqb_spec a' a) as [->|]; eauto.
  - intros b' Hb'. destruct (SB b' Hb') as (a' & i' & F1 & F2 & F3 & F4 & F5). exists a', i'.
    split; auto. split; [|auto]. unfold upd, bset. destruct (Nat.eqb_spec a' a) as [->|N].
    + assert (b' = b) by (apply SI; auto; congruence). subst b'.
      replace (busid_eqb b b) with true by (symmetry; apply busid_eqb_eq; reflexivity).
      cbn [bnxt]. reflexivity.
    + replace (busid_eqb b' b) with false. auto.
      symmetry. apply not_true_iff_false. intros Hx.
      apply busid_eqb_eq in Hx. subst. congruence.
Qed.

Lemma hexec_sim : forall p h s s', wfp p -> sim h s -> exec p s = Some s' ->
  exists h', hexec p h = Some h' /\ sim h' s' /\ same_env h h'.
Proof.
  induction p; intros h s s' W S E; cbn [wfp exec hexec] in *.
  - injection E as <-. exists h. split; auto. split; auto. split; reflexivity.
  - destruct W as (Hb & W). destruct (upd_sim h s b S Hb) as (p' & E1 & S1). rewrite E1.
    destruct (IHp _ _ _ W S1 E) as (h' & E2 & S2 & F). exists h'. split; auto.
  - destruct W as (Hb & W). pose proof (sim_bus _ _ S b Hb) as (a & i & E1 & E2 & _).
    unfold get_bus. rewrite E1, E2. cbn [bcur]. eauto.
  - destruct W as (Hb & W). pose proof (sim_bus _ _ S b Hb) as (a & i & E1 & E2 & _).
    unfold get_bus. rewrite E1, E2. cbn [bnxt]. eauto.
  - destruct (publish_sim h s t w S) as (p' & n & E1 & S1). rewrite E1.
    destruct (IHp _ _ _ W S1 E) as (h' & E2 & S2 & F). exists h'. split; auto.
  - rewrite (sim_reg _ _ S). eauto.
  - edestruct (IHp (set_hr h (rset (hr h) r w))) as (h' & E2 & S2 & F); [exact W| |exact E|].
    { destruct S as [SA SB SI SR SM SL SW]. constructor; cbn; auto. intros x. unfold rset. destruct (regid_eqb x r); auto. }
    exists h'. split; auto.
  - destruct (sim_mem _ _ S) as (f & E1 & E2). rewrite E1.
    destruct (valid_offset o) eqn:Eo; [rewrite E2 by exact Eo|]; eauto.
  - destruct (sim_mem _ _ S) as (f & E1 & E2). rewrite E1.
    destruct (valid_offset o) eqn:Eo; [|discriminate].
    edestruct (IHp (set_hm h (Mem (mset f o v)))) as (h' & E3 & S3 & F); [exact W| |exact E|].
    { destruct S as [SA SB SI SR SM SL SW]. constructor; cbn; auto. exists (mset f o v). split; auto.
      intros x Hx. unfold mset. destruct (x =? o)%Z; auto. }
    exists h'. split; auto.
  - edestruct (IHp (set_hl h (m :: hl h))) as (h' & E3 & S3 & F); [exact W| |exact E|].
    { destruct S as [SA SB SI SR SM SL SW]. constructor; cbn; auto. congruence. }
    exists h'. split; auto.
  - discriminate.
Qed.

(** The component code only uses buses that [init] creates. *)
Lemma in_buses : forall b, existsb (busid_eqb b) all_buses = true -> In b all_buses.
Proof. intros b H. apply existsb_exists in H. destruct H as (x & H & E). apply busid_eqb_eq in E. subst; auto. Qed.

Ltac wf :=
  repeat first
    [ apply wfp_Call
    | match goal with
      | |- True => exact I
      | |- In _ all_buses => apply in_buses; vm_compute; reflexivity
      | |- _ /\ _ => split
      | |- wfp (if ?b then _ else _) => destruct b
      | |- wfp (match ?b with _ => _ end) => destruct b
      | |- wfp (ToInt ?w _) => unfold ToInt
      | |- wfp (Int ?w _) => unfold Int
      | |- forall _, _ => intro
      | |- wfp (?f _) => progress cbn [wfp]
      | |- wfp _ => progress cbn [wfp]
      end ].

Lemma wfp_acumm : wfp run_acumm. Proof. unfold run_acumm. wf. Qed.
Lemma wfp_addsub : wfp run_addsub. Proof. unfold run_addsub. wf. Qed.
Lemma wfp_alu : wfp run_alu. Proof. unfold run_alu. wf. Qed.
Lemma wfp_fffc : wfp run_fffc. Proof. unfold run_fffc. wf. Qed.
Lemma wfp_flags : wfp run_flags. Proof. unfold run_flags. wf. Qed.
Lemma wfp_greg : wfp run_greg. Proof. unfold run_greg. wf. Qed.
Lemma wfp_hl : wfp run_hl. Proof. unfold run_hl. wf. Qed.
Lemma wfp_mem : wfp run_mem. Proof. unfold run_mem. wf. Qed.
Lemma wfp_mxdir : wfp run_mxdir. Proof. unfold run_mxdir. wf. Qed.
Lemma wfp_mxfldx : wfp cll_run_mxfldx. Proof. unfold cll_run_mxfldx, run_mxfld7, run_mxfld0. wf. Qed.
Lemma wfp_mxreg : wfp run_mxreg. Proof. unfold run_mxreg. wf. Qed.
Lemma wfp_op2 : wfp run_op2. Proof. unfold run_op2. wf. Qed.
Lemma wfp_pc : wfp run_pc. Proof. unfold run_pc. wf. Qed.
Lemma wfp_sp : wfp run_sp. Proof. unfold run_sp. wf. Qed.
Lemma wfp_flagsinta : wfp cll_run_flagsinta. Proof. unfold cll_run_flagsinta. wf. Qed.
Lemma wfp_mxreg_jnr : wfp run_cu_mxreg_jnr. Proof. unfold run_cu_mxreg_jnr. wf. Qed.
Lemma wfp_seq_b_jnr : wfp run_cu_seq_b_jnr. Proof. unfold run_cu_seq_b_jnr. wf. Qed.
Lemma wfp_seq : wfp run_cu_seq. Proof. unfold run_cu_seq. wf. Qed.
Lemma wfp_rom : wfp run_cu_rom. Proof. unfold run_cu_rom. wf. Qed.
Lemma wfp_cu_0 : wfp run_cu_0. Proof. unfold run_cu_0, run_cu_dxflipflop. wf. Qed.
Create HintDb wfdb.
Global Hint Resolve wfp_acumm wfp_addsub wfp_alu wfp_fffc wfp_flags wfp_greg wfp_hl wfp_mem wfp_mxdir wfp_mxfldx
  wfp_mxreg wfp_op2 wfp_pc wfp_sp wfp_flagsinta wfp_mxreg_jnr wfp_seq_b_jnr wfp_seq wfp_rom wfp_cu_0 : wfdb.
Lemma wfp_async : wfp run_asyncronus_components.
Proof. unfold run_asyncronus_components. repeat match goal with |- wfp (Call _ _) => apply wfp_Call end; auto with wfdb; exact I. Qed.
Lemma wfp_sync : forall p, wfp p -> wfp (run_sync_comp p).
Proof. intros. unfold run_sync_comp. apply wfp_Call; [exact H|]. apply wfp_Call; [exact wfp_async|exact I]. Qed.
Ltac calls := repeat match goal with |- wfp (Call _ _) => apply wfp_Call | |- wfp (run_sync_comp _) => apply wfp_sync | |- wfp Done => exact I end.
Lemma wfp_tail : wfp run_cu_tail.
Proof.
  unfold run_cu_tail, run_acumm_or_flags, acumm_or_flags_once.
  calls; auto with wfdb.
Qed.
Lemma wfp_cu_1 : wfp run_cu_1.
Proof.
  unfold run_cu_1. do 5 (apply wfp_Call; [auto using wfp_async with wfdb|]).
  pose proof wfp_tail as T. generalize dependent run_cu_tail. intros tl T. wf; exact T.
Qed.
Lemma wfp_reset : wfp reset_control. Proof. cbn [reset_control wfp]. exact I. Qed.
Lemma wfp_set_pc : forall v, wfp (set_register_pc v). Proof. intros. unfold set_register_pc. wf. Qed.
Lemma wfp_set_mem : forall o v, wfp (set_memory_value o v). Proof. intros. unfold set_memory_value. wf. Qed.
