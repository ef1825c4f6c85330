(** * Theorems: buses, subscriptions, middlewares, lists and watchers (C27-C32) *)
From Coq Require Import ZArith List Bool Lia ZifyBool.
From Verif Require Import Word WordFacts Prog LinkedList PubSub PubSubPtr PubSubSpec.
Import ListNotations.
Open Scope nat_scope.

(** ** List facts *)
Lemma NoDup_bound : forall n (l : list nat), NoDup l -> (forall a, In a l -> a < n) -> length l <= n.
Proof.
  intros n l ND H. rewrite <- (seq_length n 0). apply NoDup_incl_length; auto. intros a Ha. apply in_seq. specialize (H a Ha). lia.
Qed.
Lemma represents_len : forall h p vals, represents h p vals -> length vals <= lfresh h.
Proof.
  intros h p vals (addrs & ND & Lt & Ch). rewrite <- (chain_len _ _ _ _ Ch). apply NoDup_bound; auto.
Qed.
Lemma represents_nil : forall h vals, represents h None vals -> vals = [].
Proof. intros h vals (addrs & _ & _ & Ch). destruct addrs, vals; cbn in Ch; auto; try tauto. destruct Ch as (X & _). discriminate. Qed.
Lemma represents_cons : forall h a vals, represents h (Some a) vals -> vals <> [].
Proof. intros h a vals (addrs & _ & _ & Ch). destruct addrs, vals; cbn in Ch; try discriminate; tauto. Qed.
Lemma remove_first_nodup : forall (A : Type) i (l : list (nat * A)), NoDup (map fst l) ->
  remove_first i (map fst l) = map fst (filter (fun x => negb (Nat.eqb (fst x) i)) l).
Proof.
  intros A i l. induction l as [|[j y] l IH]; cbn [map fst remove_first filter]; auto. intros ND. inversion ND; subst.
  destruct (Nat.eqb_spec j i) as [->|N]; cbn [negb].
  - clear IH ND. induction l as [|[k z] l IH]; cbn in *; auto. inversion H2; subst.
    destruct (Nat.eqb_spec k i); [exfalso; auto|]. cbn. f_equal. apply IH; auto.
  - cbn [map fst]. f_equal. auto.
Qed.

(** ** The code keeps its promise *)
Definition to_bus (x : Word * Word) : bus := mkBus (fst x) (snd x).
Record agrees (q : pheap) (w : world) : Prop := {
  ag_bus : forall a, qb q a = option_map to_bus (w_bus w a);
  ag_n : qn q = w_buses w;
  ag_fresh : forall a, w_buses w <= a -> w_bus w a = None;
  ag_c : qc q = w_subs w;
  ag_list : represents (ql q) (qh q) (map fst (w_live w));
  ag_nodup : NoDup (map fst (w_live w));
  ag_ids : forall i, In i (map fst (w_live w)) -> i < w_subs w;
  ag_live : forall i t a, In (i, (t, a)) (w_live w) -> qs q i = Some (mkSub t (Some a) true) /\ w_bus w a <> None;
  ag_made : forall i, i < w_subs w -> qs q i <> None;
  ag_len : qk q = length (qa q);
  ag_mids : Forall2 (fun o m => exists x, o = Some x /\ x < qmn q /\ qm q x = Some m) (qa q) (w_mids w)
}.

Lemma agrees0 : agrees ph0 world0.
Proof.
  constructor; cbn; auto; try tauto; try lia; try constructor.
  exists []. split; [constructor|]. split; [intros a []|reflexivity].
Qed.

Lemma middlewares_ok : forall t v objs l ms n, Forall2 (fun o m => exists x, o = Some x /\ x < n /\ objs x = Some m) l ms ->
  p_middlewares t v objs l = Some (negb (existsb (fun m => topic_eqb (fst m) t && negb (snd m v)) ms)).
Proof.
  intros t v objs l ms n F. induction F as [|o m l ms (x & -> & _ & Hx) F IH]; cbn [p_middlewares existsb]; auto.
  rewrite Hx. destruct m as (t' & f). cbn [fst snd]. destruct (topic_eqb t' t); cbn [negb andb orb]; auto. destruct (f v); cbn [negb orb]; auto.
Qed.

Lemma deliver_ok : forall t v subs h live addrs cur b sent fuel,
  chain h cur addrs (map fst live) -> length live < fuel ->
  (forall i t' a, In (i, (t', a)) live -> subs i = Some (mkSub t' (Some a) true) /\ b a <> None) ->
  exists b', p_deliver fuel t v subs h cur b sent = Some (b', (sent + Z.of_nat (length (filter (on_topic t) live)))%Z) /\
    forall a, b' a = option_map (fun x => if existsb (fun y => on_topic t y && on_bus a y) live then mkBus (bcur x) v else x) (b a).
Proof.
  intros t v subs h live. induction live as [|(i & t' & a) live IH]; intros addrs cur b sent fuel Ch Hf Hs; (destruct fuel as [|fuel]; [cbn in Hf; lia|]).
  - destruct addrs; [|cbn in Ch; tauto]. cbn in Ch. subst cur. exists b. cbn [p_deliver filter length existsb]. split; [f_equal; f_equal; lia|].
    intros a. destruct (b a); reflexivity.
  - destruct addrs as [|c addrs]; [cbn in Ch; tauto|]. cbn [map fst chain] in Ch. destruct Ch as (-> & nx & Hn & Ch).
    cbn [p_deliver]. rewrite Hn. cbn [nval nnext]. destruct (Hs i t' a (or_introl eq_refl)) as (Hi & Ha). rewrite Hi. cbn [sact stop sbus negb].
    cbn [filter existsb]. change (on_topic t (i, (t', a))) with (topic_eqb t' t). cbn [length] in Hf.
    destruct (topic_eqb t' t) eqn:Et; cbn [negb andb orb].
    + unfold on_bus at 1. cbn [fst snd]. destruct (b a) as [x|] eqn:Eb; [|congruence].
      destruct (IH addrs nx (upd b a (Some (mkBus (bcur x) v))) (sent + 1)%Z fuel Ch ltac:(lia)) as (b' & E' & Hb').
      { intros j tj aj Hj. destruct (Hs j tj aj (or_intror Hj)) as (K1 & K2). split; auto. unfold upd. destruct (Nat.eqb aj a); congruence. }
      exists b'. split. { rewrite E'. f_equal. f_equal. cbn [length]. lia. }
      intros y. rewrite Hb'. unfold upd. rewrite (Nat.eqb_sym y a). destruct (Nat.eqb_spec a y) as [->|Ny].
      * rewrite Eb. cbn [option_map bcur]. cbn [orb]. destruct (existsb _ live); reflexivity.
      * cbn [orb]. reflexivity.
    + destruct (IH addrs nx b sent fuel Ch ltac:(lia)) as (b' & E' & Hb'). { intros j tj aj Hj. apply Hs. right; exact Hj. }
      exists b'. split; [exact E'|exact Hb'].
Qed.

Lemma Forall2_impl : forall (A C : Type) (R1 R2 : A -> C -> Prop) l m, (forall x y, R1 x y -> R2 x y) -> Forall2 R1 l m -> Forall2 R2 l m.
Proof. intros A C R1 R2 l m H F. induction F; constructor; auto. Qed.

Lemma event_ok : forall e q w w' r, agrees q w -> promised e w = Some (w', r) -> exists q', p_event e q = Some (q', r) /\ agrees q' w'.
Proof.
  intros e q w w' r [A1 A2 A3 A4 A5 A6 A7 A8 A9 A10 A11] E.
  destruct e as [|a|a|t a|i|t v|t f]; cbn [promised p_event p_create_bus] in *.
  - injection E as <- <-. eexists. split; [rewrite A2; reflexivity|].
    constructor; cbn [qb qn qs qc ql qh qa qk qm qmn w_bus w_buses w_live w_subs w_mids]; auto.
    + intros a. unfold upd. destruct (Nat.eqb a (w_buses w)); auto.
    + intros a Ha. destruct (Nat.eqb_spec a (w_buses w)); [lia|]. apply A3. lia.
    + intros i t a Hi. destruct (A8 i t a Hi) as (K1 & K2). split; auto. destruct (Nat.eqb a (w_buses w)); [discriminate|auto].
  - destruct (w_bus w a) as [x|] eqn:Ea; [|discriminate]. destruct (existsb (on_bus a) (w_live w)) eqn:El; [discriminate|].
    injection E as <- <-. unfold p_destroy_bus. rewrite A1, Ea. cbn [option_map]. eexists. split; [reflexivity|].
    constructor; cbn [qb qn qs qc ql qh qa qk qm qmn w_bus w_buses w_live w_subs w_mids]; auto.
    + intros y. unfold upd. destruct (Nat.eqb y a); auto.
    + intros y Hy. destruct (Nat.eqb y a); auto.
    + intros i t y Hi. destruct (A8 i t y Hi) as (K1 & K2). split; auto. destruct (Nat.eqb_spec y a) as [->|]; auto. exfalso.
      assert (X : existsb (on_bus a) (w_live w) = true); [|congruence]. apply existsb_exists. exists (i, (t, a)). split; auto. unfold on_bus. cbn. apply Nat.eqb_refl.
  - destruct (w_bus w a) as [(c & n)|] eqn:Ea; [|discriminate]. injection E as <- <-. unfold p_update_bus. rewrite A1, Ea. cbn [option_map].
    eexists. split; [reflexivity|].
    constructor; cbn [qb qn qs qc ql qh qa qk qm qmn w_bus w_buses w_live w_subs w_mids]; auto.
    + intros y. unfold upd. destruct (Nat.eqb y a); auto.
    + intros y Hy. destruct (Nat.eqb_spec y a) as [->|]; auto. rewrite A3 in Ea by exact Hy. discriminate.
    + intros i t y Hi. destruct (A8 i t y Hi) as (K1 & K2). split; auto. destruct (Nat.eqb y a); [discriminate|auto].
  - destruct (w_bus w a) as [x|] eqn:Ea; [|discriminate]. injection E as <- <-. unfold p_subscribe.
    assert (X : exists h' p', match qh q with
        | None => let '(h, c) := create_ll_node (qc q) None (ql q) in
            Some (mkPH (qb q) (qn q) (upd (qs q) (qc q) (Some (mkSub t (Some a) true))) (S (qc q)) h (Some c) (qa q) (qk q) (qm q) (qmn q), qc q)
        | Some _ => match push_ll_node (loops (ql q)) (qh q) (qc q) (ql q) with
              | None => None
              | Some (h, _) => Some (mkPH (qb q) (qn q) (upd (qs q) (qc q) (Some (mkSub t (Some a) true))) (S (qc q)) h (qh q) (qa q) (qk q) (qm q) (qmn q), qc q)
              end
        end = Some (mkPH (qb q) (qn q) (upd (qs q) (qc q) (Some (mkSub t (Some a) true))) (S (qc q)) h' p' (qa q) (qk q) (qm q) (qmn q), qc q)
        /\ represents h' p' (map fst (w_live w) ++ [qc q])).
    { destruct (qh q) as [hd|] eqn:Eh.
      - destruct (push_ok (ql q) (Some hd) (map fst (w_live w)) (qc q) (loops (ql q)) A5) as (h' & c & E' & R'); [discriminate| |].
        { pose proof (represents_len _ _ _ A5). unfold loops. lia. }
        rewrite E'. eauto.
      - apply represents_nil in A5. rewrite A5. destruct (create_ok (ql q) (qc q)) as (h' & c & E' & R'). rewrite E'. exists h', (Some c). auto. }
    destruct X as (h' & p' & Ex & Rx). cbv zeta. rewrite Ex. cbn [option_map fst snd]. rewrite A4 in *. eexists. split; [reflexivity|].
    constructor; cbn [qb qn qs qc ql qh qa qk qm qmn w_bus w_buses w_live w_subs w_mids]; auto.
    + rewrite map_app. exact Rx.
    + rewrite map_app. cbn [map fst]. apply NoDup_Add with (a := w_subs w) (l := map fst (w_live w)).
      * apply Add_app_nil || (rewrite <- (app_nil_r (map fst (w_live w))) at 1; apply Add_app).
      * split; auto. intros Hi. apply A7 in Hi. lia.
    + intros i Hi. rewrite map_app in Hi. apply in_app_or in Hi. destruct Hi as [Hi|[<-|[]]]; [apply A7 in Hi; lia|cbn; lia].
    + intros i t' a' Hi. unfold upd. apply in_app_or in Hi. destruct Hi as [Hi|[Hi|[]]].
      * destruct (A8 i t' a' Hi) as (K1 & K2). split; auto. destruct (Nat.eqb_spec i (w_subs w)) as [->|]; auto.
        exfalso. apply (in_map fst) in Hi. cbn in Hi. apply A7 in Hi. lia.
      * injection Hi as <- <- <-. rewrite Nat.eqb_refl. split; congruence.
    + intros i Hi. unfold upd. destruct (Nat.eqb_spec i (w_subs w)); [discriminate|]. apply A9. lia.
  - destruct (Nat.ltb_spec i (w_subs w)) as [Hi|]; [|discriminate]. injection E as <- <-. unfold p_unsubscribe.
    assert (Hb : existsb (has_id i) (w_live w) = true <-> In i (map fst (w_live w))).
    { rewrite existsb_exists, in_map_iff. unfold has_id. split.
      - intros (x & Hx & Ex). apply Nat.eqb_eq in Ex. eauto.
      - intros (x & Ex & Hx). exists x. split; auto. apply Nat.eqb_eq. auto. }
    assert (Hfil : ~ In i (map fst (w_live w)) -> filter (fun x => negb (has_id i x)) (w_live w) = w_live w).
    { intros Hn. clear - Hn. induction (w_live w) as [|(j & y) l IH]; cbn in *; auto. unfold has_id at 1. cbn [fst].
      destruct (Nat.eqb_spec j i); [exfalso; auto|]. cbn. f_equal. apply IH. auto. }
    destruct (qh q) as [hd|] eqn:Eh.
    + destruct (qs q i) as [s|] eqn:Es; [|exfalso; exact (A9 i Hi Es)]. rewrite A4.
      destruct (Nat.leb_spec (w_subs w) i); [lia|].
      destruct (in_dec Nat.eq_dec i (map fst (w_live w))) as [Hin|Hout].
      * destruct (delete_found (ql q) (Some hd) _ i (loops (ql q)) A5 Hin) as (h' & p' & E' & R').
        { pose proof (represents_len _ _ _ A5). unfold loops. lia. }
        rewrite E'. cbn [option_map fst snd]. rewrite (proj2 Hb Hin). eexists. split; [reflexivity|].
        assert (Hsub : forall x, In x (filter (fun x => negb (has_id i x)) (w_live w)) -> In x (w_live w) /\ fst x <> i).
        { intros x Hx. apply filter_In in Hx. destruct Hx as (H1 & H2). split; auto. unfold has_id in H2. destruct (Nat.eqb_spec (fst x) i); [discriminate|auto]. }
        constructor; cbn [qb qn qs qc ql qh qa qk qm qmn w_bus w_buses w_live w_subs w_mids]; auto.
        -- rewrite remove_first_nodup in R' by exact A6. exact R'.
        -- clear - A6. induction (w_live w) as [|x l IH]; cbn in *; auto. inversion A6; subst. destruct (negb (has_id i x)); cbn; auto.
           constructor; auto. intros Hx. apply H1. apply in_map_iff in Hx. destruct Hx as (y & Ey & Hy). apply filter_In in Hy. destruct Hy as (Hy & _).
           apply in_map_iff. eauto.
        -- intros j Hj. apply in_map_iff in Hj. destruct Hj as (y & <- & Hy). apply Hsub in Hy. apply A7. apply in_map. apply Hy.
        -- intros j t a Hj. apply Hsub in Hj. destruct Hj as (Hj & Nj). destruct (A8 j t a Hj) as (K1 & K2). split; auto.
           unfold upd. cbn in Nj. destruct (Nat.eqb_spec j i); [congruence|auto].
        -- intros j Hj. unfold upd. destruct (Nat.eqb j i); [discriminate|]. apply A9. exact Hj.
      * rewrite (delete_missing (ql q) (Some hd) _ i (loops (ql q)) A5 Hout). 2:{ pose proof (represents_len _ _ _ A5). unfold loops. lia. }
        cbn [option_map fst snd]. destruct (existsb (has_id i) (w_live w)) eqn:Eb; [exfalso; apply Hout; apply Hb; reflexivity|].
        eexists. split; [reflexivity|]. rewrite (Hfil Hout).
        constructor; cbn [qb qn qs qc ql qh qa qk qm qmn w_bus w_buses w_live w_subs w_mids]; auto.
    + pose proof (represents_nil _ _ A5) as Hnil. cbn [option_map fst snd].
      assert (Hl : w_live w = []) by (destruct (w_live w); [reflexivity|discriminate]).
      rewrite Hl in *. cbn [existsb filter]. exists q. split; [reflexivity|].
      constructor; cbn [w_bus w_buses w_live w_subs w_mids]; rewrite ?Eh; auto; try (intros ? []; fail).
  - unfold p_publish. assert (Hfn : firstn (qk q) (qa q) = qa q) by (rewrite A10; apply firstn_all). rewrite Hfn.
    rewrite (middlewares_ok t v (qm q) (qa q) (w_mids w) (qmn q) A11).
    destruct (existsb (fun m => topic_eqb (fst m) t && negb (snd m v)) (w_mids w)); cbn [negb].
    + injection E as <- <-. exists q. split; [reflexivity|]. constructor; auto.
    + injection E as <- <-. pose proof (represents_len _ _ _ A5) as Hlen. rewrite map_length in Hlen. destruct A5 as (addrs & ND & Lt & Ch).
      destruct (deliver_ok t v (qs q) (ql q) (w_live w) addrs (qh q) (qb q) 0 (loops (ql q)) Ch) as (b' & E' & Hb').
      { unfold loops. lia. }
      { intros i t' a Hi. destruct (A8 i t' a Hi) as (K1 & K2). split; auto. rewrite A1. destruct (w_bus w a); [discriminate|congruence]. }
      rewrite E'. eexists. split; [reflexivity|].
      constructor; cbn [qb qn qs qc ql qh qa qk qm qmn w_bus w_buses w_live w_subs w_mids]; auto.
      * intros a. rewrite Hb', A1. destruct (w_bus w a) as [(c & n)|]; cbn [option_map to_bus fst snd bcur]; auto. destruct (existsb _ (w_live w)); reflexivity.
      * intros a Ha. rewrite A3 by exact Ha. reflexivity.
      * exists addrs. auto.
      * intros i t' a Hi. destruct (A8 i t' a Hi) as (K1 & K2). split; auto. destruct (w_bus w a) as [(c & n)|]; [discriminate|auto].
  - injection E as <- <-. eexists. split; [reflexivity|]. unfold p_add_middleware.
    constructor; cbn [qb qn qs qc ql qh qa qk qm qmn w_bus w_buses w_live w_subs w_mids]; auto.
    + rewrite A10, firstn_all, app_length. cbn. lia.
    + rewrite A10, firstn_all. apply Forall2_app.
      * eapply Forall2_impl; [|exact A11]. intros o m (x & -> & Hx & Hm). exists x. split; auto. split; [lia|]. unfold upd. destruct (Nat.eqb_spec x (qmn q)); [lia|auto].
      * constructor; [|constructor]. exists (qmn q). split; auto. split; [lia|]. unfold upd. rewrite Nat.eqb_refl. reflexivity.
Qed.

Lemma run_ok : forall es q w w' rs, agrees q w -> promised_run es w = Some (w', rs) -> exists q', p_run es q = Some (q', rs) /\ agrees q' w'.
Proof.
  induction es as [|e es IH]; intros q w w' rs A E; cbn [promised_run p_run] in *.
  - injection E as <- <-. eauto.
  - destruct (promised e w) as [(w1 & r)|] eqn:E1; [|discriminate]. destruct (promised_run es w1) as [(w2 & rs2)|] eqn:E2; [|discriminate].
    injection E as <- <-. destruct (event_ok e q w w1 r A E1) as (q1 & Eq & A1). destruct (IH q1 w1 w2 rs2 A1 E2) as (q2 & Eq2 & A2).
    exists q2. rewrite Eq, Eq2. auto.
Qed.
Lemma p_run_app : forall es1 es2 q, p_run (es1 ++ es2) q =
  match p_run es1 q with None => None | Some (q1, rs1) => match p_run es2 q1 with None => None | Some (q2, rs2) => Some (q2, rs1 ++ rs2) end end.
Proof.
  induction es1 as [|e es1 IH]; intros es2 q; cbn [p_run app].
  - destruct (p_run es2 q) as [(q2 & rs2)|]; reflexivity.
  - destruct (p_event e q) as [(q1 & r)|]; auto. rewrite IH. destruct (p_run es1 q1) as [(q2 & rs1)|]; auto. destruct (p_run es2 q2) as [(q3 & rs2)|]; auto.
Qed.
Lemma promised_app : forall es1 es2 w, promised_run (es1 ++ es2) w =
  match promised_run es1 w with None => None | Some (w1, rs1) => match promised_run es2 w1 with None => None | Some (w2, rs2) => Some (w2, rs1 ++ rs2) end end.
Proof.
  induction es1 as [|e es1 IH]; intros es2 w; cbn [promised_run app].
  - destruct (promised_run es2 w) as [(w2 & rs2)|]; reflexivity.
  - destruct (promised e w) as [(w1 & r)|]; auto. rewrite IH. destruct (promised_run es1 w1) as [(w2 & rs1)|]; auto. destruct (promised_run es2 w2) as [(w3 & rs2)|]; auto.
Qed.

(** What a client sees of a bus: its current and its next value. *)
Definition seen (q : pheap) (a : nat) : option (Word * Word) := option_map (fun b => (bcur b, bnxt b)) (qb q a).
Lemma agrees_seen : forall q w a, agrees q w -> seen q a = w_bus w a.
Proof. intros q w a A. unfold seen. rewrite (ag_bus _ _ A). destruct (w_bus w a) as [(c & n)|]; reflexivity. Qed.

(** ** C27: publishing *)
(** Every history a client may make runs without undefined behaviour, returns what
    is promised call by call, and leaves every bus as promised. *)
Theorem C27_histories : forall es w rs, promised_run es world0 = Some (w, rs) ->
  exists q, p_run es ph0 = Some (q, rs) /\ forall a, seen q a = w_bus w a.
Proof.
  intros es w rs E. destruct (run_ok es ph0 world0 w rs agrees0 E) as (q & Eq & A). exists q. split; auto. intros a. apply agrees_seen. exact A.
Qed.

(** After any such history, [publish] of a value that no middleware of the topic
    rejects returns the number of live subscriptions to the topic; a bus with one
    of them has the value next, any other bus is as it was, and no current value
    changes. *)
Theorem C27_publish : forall es w rs q rs' t v, promised_run es world0 = Some (w, rs) -> p_run es ph0 = Some (q, rs') ->
  (forall f, In (t, f) (w_mids w) -> f v = true) ->
  exists q', p_event (Publish t v) q = Some (q', Z.of_nat (length (filter (fun s => topic_eqb (fst (snd s)) t) (w_live w)))) /\
    (forall i a, In (i, (t, a)) (w_live w) -> exists c n, seen q a = Some (c, n) /\ seen q' a = Some (c, v)) /\
    (forall a, (forall i, ~ In (i, (t, a)) (w_live w)) -> seen q' a = seen q a).
Proof.
  intros es w rs q rs' t v E Eq Hm. destruct (run_ok es ph0 world0 w rs agrees0 E) as (q0 & Eq0 & A). rewrite Eq0 in Eq. injection Eq as <- <-.
  assert (Ep : promised (Publish t v) w = Some (mkW (fun a => match w_bus w a with
                               | Some (c, n) => Some (c, if existsb (fun x => on_topic t x && on_bus a x) (w_live w) then v else n)
                               | None => None
                               end) (w_buses w) (w_live w) (w_subs w) (w_mids w),
                 Z.of_nat (length (filter (on_topic t) (w_live w))))).
  { cbn [promised]. destruct (existsb (fun m => topic_eqb (fst m) t && negb (snd m v)) (w_mids w)) eqn:Ex; auto.
    apply existsb_exists in Ex. destruct Ex as ((t' & f) & Hin & Hx). cbn [fst snd] in Hx. apply andb_prop in Hx. destruct Hx as (H1 & H2).
    assert (t' = t) by (destruct t', t; cbn in H1; congruence). subst t'. rewrite (Hm f Hin) in H2. discriminate. }
  destruct (event_ok _ q0 w _ _ A Ep) as (q' & E' & A'). exists q'. split; [exact E'|]. split.
  - intros i a Hi. destruct (ag_live _ _ A i t a Hi) as (_ & Hb). destruct (w_bus w a) as [(c & n)|] eqn:Ew; [|congruence].
    exists c, n. rewrite (agrees_seen _ _ a A), Ew. split; auto. rewrite (agrees_seen _ _ a A'). cbn [w_bus]. rewrite Ew.
    assert (X : existsb (fun x => on_topic t x && on_bus a x) (w_live w) = true).
    { apply existsb_exists. exists (i, (t, a)). split; auto. unfold on_topic, on_bus. cbn. rewrite Nat.eqb_refl. destruct t; reflexivity. }
    rewrite X. reflexivity.
  - intros a Ha. rewrite (agrees_seen _ _ a A), (agrees_seen _ _ a A'). cbn [w_bus].
    assert (X : existsb (fun x => on_topic t x && on_bus a x) (w_live w) = false).
    { apply not_true_is_false. intros X. apply existsb_exists in X. destruct X as ((i & t' & a') & Hin & Hx). unfold on_topic, on_bus in Hx. cbn in Hx.
      apply andb_prop in Hx. destruct Hx as (H1 & H2). apply Nat.eqb_eq in H2. subst a'.
      assert (t' = t) by (destruct t', t; cbn in H1; congruence). subst t'. exact (Ha i Hin). }
    rewrite X. destruct (w_bus w a) as [(c & n)|]; reflexivity.
Qed.

(** ** C28: unsubscribing *)
(** [unsubscribe_for] returns true exactly when the subscription was live; after it,
    that subscription is not live, all others are as before, and calling it again
    returns false. *)
Theorem C28_unsubscribe : forall es w rs q rs' i, promised_run es world0 = Some (w, rs) -> p_run es ph0 = Some (q, rs') -> i < w_subs w ->
  exists w' q' r, promised_run (es ++ [Unsubscribe i]) world0 = Some (w', rs ++ [r]) /\ p_event (Unsubscribe i) q = Some (q', r) /\
    (r = 1%Z <-> In i (map fst (w_live w))) /\ (r = 0%Z <-> ~ In i (map fst (w_live w))) /\
    ~ In i (map fst (w_live w')) /\ (forall j x, j <> i -> (In (j, x) (w_live w') <-> In (j, x) (w_live w))) /\
    (forall a, seen q' a = seen q a) /\ exists q'', p_event (Unsubscribe i) q' = Some (q'', 0%Z).
Proof.
  intros es w rs q rs' i E Eq Hi. destruct (run_ok es ph0 world0 w rs agrees0 E) as (q0 & Eq0 & A). rewrite Eq0 in Eq. injection Eq as <- <-.
  assert (Hb : existsb (has_id i) (w_live w) = true <-> In i (map fst (w_live w))).
  { rewrite existsb_exists, in_map_iff. unfold has_id. split.
    - intros (x & Hx & Ex). apply Nat.eqb_eq in Ex. eauto.
    - intros (x & Ex & Hx). exists x. split; auto. apply Nat.eqb_eq. auto. }
  assert (Ep : promised (Unsubscribe i) w = Some (mkW (w_bus w) (w_buses w) (filter (fun x => negb (has_id i x)) (w_live w)) (w_subs w) (w_mids w),
                                Z.b2z (existsb (has_id i) (w_live w)))).
  { cbn [promised]. destruct (Nat.ltb_spec i (w_subs w)); [reflexivity|lia]. }
  destruct (event_ok _ q0 w _ _ A Ep) as (q' & E' & A').
  assert (Hout : ~ In i (map fst (filter (fun x => negb (has_id i x)) (w_live w)))).
  { rewrite in_map_iff. intros (x & Ex & Hx). apply filter_In in Hx. destruct Hx as (_ & Hx). unfold has_id in Hx. rewrite Ex, Nat.eqb_refl in Hx. discriminate. }
  exists (mkW (w_bus w) (w_buses w) (filter (fun x => negb (has_id i x)) (w_live w)) (w_subs w) (w_mids w)), q', (Z.b2z (existsb (has_id i) (w_live w))).
  split. { rewrite promised_app, E. cbn [promised_run]. rewrite Ep. reflexivity. }
  split; [exact E'|]. split. { rewrite <- Hb. destruct (existsb (has_id i) (w_live w)); cbn; split; try congruence; intros X; exfalso; apply X; reflexivity. }
  split. { rewrite <- Hb. destruct (existsb (has_id i) (w_live w)); cbn; split; try congruence; intros X; exfalso; apply X; reflexivity. }
  split; [exact Hout|]. split.
  { intros j x Nj. cbn [w_live]. rewrite filter_In. split; [tauto|]. intros Hx. split; auto. unfold has_id. cbn [fst]. destruct (Nat.eqb_spec j i); [congruence|reflexivity]. }
  split. { intros a. rewrite (agrees_seen _ _ a A), (agrees_seen _ _ a A'). reflexivity. }
  match type of A' with agrees _ ?w1 => assert (X : exists w2, promised (Unsubscribe i) w1 = Some (w2, Z.b2z (existsb (has_id i) (w_live w1)))) end.
  { cbn [promised w_subs w_live]. destruct (Nat.ltb_spec i (w_subs w)); [eexists; reflexivity|lia]. }
  destruct X as (w2 & X). destruct (event_ok (Unsubscribe i) q' _ _ _ A' X) as (q'' & E'' & _). cbn [w_live] in E''. clear X.
  exists q''. rewrite E''. f_equal. f_equal.
  destruct (existsb (has_id i) (filter (fun x => negb (has_id i x)) (w_live w))) eqn:X; [exfalso|reflexivity].
  apply Hout. apply existsb_exists in X. destruct X as (x & Hx & Ex). apply in_map_iff. exists x. split; auto. unfold has_id in Ex. apply Nat.eqb_eq. exact Ex.
Qed.

(** A subscription that is not live keeps out for ever: ids are not reused. *)
Lemma live_old : forall e w w' r i, promised e w = Some (w', r) -> i < w_subs w -> ~ In i (map fst (w_live w)) -> i < w_subs w' /\ ~ In i (map fst (w_live w')).
Proof.
  intros e w w' r i E Hi Hn. destruct e as [|a|a|t a|j|t v|t f]; cbn [promised] in E.
  - injection E as <- _. auto.
  - destruct (w_bus w a); [|discriminate]. destruct (existsb (on_bus a) (w_live w)); [discriminate|]. injection E as <- _. auto.
  - destruct (w_bus w a) as [(c & n)|]; [|discriminate]. injection E as <- _. auto.
  - destruct (w_bus w a); [|discriminate]. injection E as <- _. cbn [w_subs w_live]. split; [lia|]. rewrite map_app. intros X. apply in_app_or in X. cbn in X. destruct X as [X|[X|[]]]; [auto|lia].
  - destruct (Nat.ltb j (w_subs w)); [|discriminate]. injection E as <- _. cbn [w_subs w_live]. split; auto.
    intros X. apply Hn. apply in_map_iff in X. destruct X as (x & <- & Hx). apply filter_In in Hx. apply in_map. tauto.
  - destruct (existsb _ (w_mids w)); injection E as <- _; auto.
  - injection E as <- _. auto.
Qed.
Lemma live_old_run : forall es w w' rs i, promised_run es w = Some (w', rs) -> i < w_subs w -> ~ In i (map fst (w_live w)) -> ~ In i (map fst (w_live w')).
Proof.
  induction es as [|e es IH]; intros w w' rs i E Hi Hn; cbn [promised_run] in E; [injection E as <- _; auto|].
  destruct (promised e w) as [(w1 & r)|] eqn:E1; [|discriminate]. destruct (promised_run es w1) as [(w2 & rs2)|] eqn:E2; [|discriminate]. injection E as <- _.
  destruct (live_old e w w1 r i E1 Hi Hn). eapply IH; eauto.
Qed.
(** Once unsubscribed, a subscription is never live again, whatever is called next. *)
Theorem C28_final : forall es w rs i es' w' rs', promised_run es world0 = Some (w, rs) -> i < w_subs w ->
  promised_run (es ++ Unsubscribe i :: es') world0 = Some (w', rs') -> ~ In i (map fst (w_live w')).
Proof.
  intros es w rs i es' w' rs' E Hi E'. rewrite promised_app, E in E'. cbn [promised_run] in E'.
  destruct (promised (Unsubscribe i) w) as [(w1 & r)|] eqn:E1; [|discriminate]. destruct (promised_run es' w1) as [(w2 & rs2)|] eqn:E2; [|discriminate].
  injection E' as <- _. refine (live_old_run es' w1 w2 rs2 i E2 _ _).
  - cbn [promised] in E1. destruct (Nat.ltb i (w_subs w)); [|discriminate]. injection E1 as <- _. exact Hi.
  - cbn [promised] in E1. destruct (Nat.ltb i (w_subs w)); [|discriminate]. injection E1 as <- _. cbn [w_live].
    rewrite in_map_iff. intros (x & Ex & Hx). apply filter_In in Hx. destruct Hx as (_ & Hx). unfold has_id in Hx. rewrite Ex, Nat.eqb_refl in Hx. discriminate.
Qed.
(** Seen on the buses: the bus of a lone unsubscribed subscription is not written by
    any later publish to its topic. *)
Theorem C28_silent : forall es w rs i t a q rs' v, promised_run es world0 = Some (w, rs) -> In (i, (t, a)) (w_live w) ->
  (forall j, In (j, (t, a)) (w_live w) -> j = i) -> p_run (es ++ [Unsubscribe i]) ph0 = Some (q, rs') ->
  exists q' n, p_event (Publish t v) q = Some (q', n) /\ seen q' a = seen q a.
Proof.
  intros es w rs i t a q rs' v E Hin Hone Eq. destruct (run_ok es ph0 world0 w rs agrees0 E) as (q0 & Eq0 & A).
  assert (Hi : i < w_subs w) by (apply (ag_ids _ _ A); apply (in_map fst) in Hin; exact Hin).
  destruct (C28_unsubscribe es w rs q0 rs i E Eq0 Hi) as (w' & q' & r & Ew & E' & _ & _ & Hout & Hoth & _ & _).
  destruct (run_ok _ ph0 world0 w' _ agrees0 Ew) as (q1 & Eq1 & A1). rewrite Eq1 in Eq. injection Eq as <- <-.
  destruct (existsb (fun m => topic_eqb (fst m) t && negb (snd m v)) (w_mids w')) eqn:Ex.
  - destruct (event_ok (Publish t v) q1 w' w' (-1)%Z A1) as (q2 & E2 & A2); [cbn [promised]; rewrite Ex; reflexivity|].
    exists q2, (-1)%Z. split; auto. rewrite (agrees_seen _ _ a A1), (agrees_seen _ _ a A2). reflexivity.
  - assert (Hm : forall f, In (t, f) (w_mids w') -> f v = true).
    { intros f Hf. destruct (f v) eqn:Ef; auto. exfalso. assert (X : existsb (fun m => topic_eqb (fst m) t && negb (snd m v)) (w_mids w') = true); [|congruence].
      apply existsb_exists. exists (t, f). split; auto. cbn [fst snd]. rewrite Ef. destruct t; reflexivity. }
    destruct (C27_publish _ w' _ q1 _ t v Ew Eq1 Hm) as (q2 & E2 & _ & Hk). exists q2. eexists. split; [exact E2|]. apply Hk.
    intros j Hj. destruct (Nat.eq_dec j i) as [->|Nj]; [apply Hout; apply (in_map fst) in Hj; exact Hj|]. apply Nj. apply Hone. apply (Hoth j (t, a) Nj). exact Hj.
Qed.

(** ** C29: middlewares *)
Theorem C29_veto : forall es w rs q rs' t v, promised_run es world0 = Some (w, rs) -> p_run es ph0 = Some (q, rs') ->
  exists q' n, p_event (Publish t v) q = Some (q', n) /\
    (n = (-1)%Z <-> exists f, In (t, f) (w_mids w) /\ f v = false) /\
    (n = (-1)%Z -> forall a, seen q' a = seen q a).
Proof.
  intros es w rs q rs' t v E Eq. destruct (run_ok es ph0 world0 w rs agrees0 E) as (q0 & Eq0 & A). rewrite Eq0 in Eq. injection Eq as <- <-.
  destruct (existsb (fun m => topic_eqb (fst m) t && negb (snd m v)) (w_mids w)) eqn:Ex.
  - destruct (event_ok (Publish t v) q0 w w (-1)%Z A) as (q2 & E2 & A2); [cbn [promised]; rewrite Ex; reflexivity|].
    exists q2, (-1)%Z. split; auto. split.
    + split; [intros _|reflexivity]. apply existsb_exists in Ex. destruct Ex as ((t' & f) & Hin & Hx). cbn [fst snd] in Hx. apply andb_prop in Hx. destruct Hx as (H1 & H2).
      assert (t' = t) by (destruct t', t; cbn in H1; congruence). subst t'. exists f. split; auto. destruct (f v); [discriminate|reflexivity].
    + intros _ a. rewrite (agrees_seen _ _ a A), (agrees_seen _ _ a A2). reflexivity.
  - assert (Hm : forall f, In (t, f) (w_mids w) -> f v = true).
    { intros f Hf. destruct (f v) eqn:Ef; auto. exfalso. assert (X : existsb (fun m => topic_eqb (fst m) t && negb (snd m v)) (w_mids w) = true); [|congruence].
      apply existsb_exists. exists (t, f). split; auto. cbn [fst snd]. rewrite Ef. destruct t; reflexivity. }
    destruct (C27_publish _ w _ q0 _ t v E Eq0 Hm) as (q2 & E2 & _ & _). exists q2. eexists. split; [exact E2|]. split; [|intros X; lia].
    split; [intros X; lia|]. intros (f & Hf & Ef). rewrite (Hm f Hf) in Ef. discriminate.
Qed.

(** [init_buses], electronic/bus.c:53-62, as events. *)
Definition init_buses_events : list event :=
  [AddMiddleware T_DATA check_data_bus_overflow; AddMiddleware T_DIR1 check_dir_bus_overflow; AddMiddleware T_DIR2 check_dir_bus_overflow].
(** The width a topic's bus is meant to have. *)
Definition bus_width (t : topic) : option Z :=
  match t with T_DATA => Some 8%Z | T_DIR1 => Some 16%Z | T_DIR2 => Some 16%Z | _ => None end.

Lemma mids_kept : forall es w w' rs m, promised_run es w = Some (w', rs) -> In m (w_mids w) -> In m (w_mids w').
Proof.
  induction es as [|e es IH]; intros w w' rs m E Hm; cbn [promised_run] in E; [injection E as <- _; auto|].
  destruct (promised e w) as [(w1 & r)|] eqn:E1; [|discriminate]. destruct (promised_run es w1) as [(w2 & rs2)|] eqn:E2; [|discriminate]. injection E as <- _.
  eapply IH; [exact E2|]. destruct e as [|a|a|t a|j|t v|t f]; cbn [promised] in E1;
    repeat match type of E1 with context [match ?x with _ => _ end] => destruct x; try discriminate end;
    injection E1 as <- _; cbn [w_mids]; auto. apply in_or_app. auto.
Qed.
(** If [init_buses] is called first, then in every later history a publish of a value
    that does not fit the topic's bus returns -1 and changes nothing. *)
Theorem C29_init_buses : forall es w rs q rs' t v n, promised_run (init_buses_events ++ es) world0 = Some (w, rs) ->
  p_run (init_buses_events ++ es) ph0 = Some (q, rs') -> bus_width t = Some n -> (n < get_used_bits v)%Z ->
  exists q', p_event (Publish t v) q = Some (q', (-1)%Z) /\ forall a, seen q' a = seen q a.
Proof.
  intros es w rs q rs' t v n E Eq Hw Hv. destruct (C29_veto _ w rs q rs' t v E Eq) as (q' & r & E' & Hiff & Hsame).
  assert (Hr : r = (-1)%Z).
  { apply Hiff. rewrite promised_app in E. cbn [init_buses_events promised_run promised] in E.
    match type of E with match promised_run es ?w1 with _ => _ end = _ => destruct (promised_run es w1) as [(w2 & rs2)|] eqn:E2; [|discriminate] end.
    injection E as <- _. destruct t; cbn [bus_width] in Hw; try discriminate; injection Hw as <-.
    - exists check_data_bus_overflow. split; [eapply mids_kept; [exact E2|]; cbn; auto|]. unfold check_data_bus_overflow. lia.
    - exists check_dir_bus_overflow. split; [eapply mids_kept; [exact E2|]; cbn; auto|]. unfold check_dir_bus_overflow. lia.
    - exists check_dir_bus_overflow. split; [eapply mids_kept; [exact E2|]; cbn; auto|]. unfold check_dir_bus_overflow. lia. }
  subst r. exists q'. split; auto.
Qed.

(** These events are [init_buses]. *)
Theorem C29_init_buses_code : forall p, init_buses p = fold_left (fun p e => match e with AddMiddleware t f => add_topic_middleware t f p | _ => p end) init_buses_events p.
Proof. reflexivity. Qed.
Lemma mids_only : forall es w w' rs, (forall t f, ~ In (AddMiddleware t f) es) -> promised_run es w = Some (w', rs) -> w_mids w' = w_mids w.
Proof.
  induction es as [|e es IH]; intros w w' rs N E; cbn [promised_run] in E; [injection E as <- _; auto|].
  destruct (promised e w) as [(w1 & r)|] eqn:E1; [|discriminate]. destruct (promised_run es w1) as [(w2 & rs2)|] eqn:E2; [|discriminate]. injection E as <- _.
  rewrite (IH w1 w2 rs2 ltac:(intros t f I; apply (N t f); right; exact I) E2). destruct e as [|a|a|t a|j|t v|t f]; cbn [promised] in E1; [..|destruct (N t f); left; reflexivity];
    repeat match type of E1 with context [match ?x with _ => _ end] => destruct x; try discriminate end; injection E1 as <- _; reflexivity.
Qed.
(** With no other check added, a value that fits is not refused. *)
Theorem C29_init_buses_fits : forall es w rs q rs' t v, promised_run (init_buses_events ++ es) world0 = Some (w, rs) ->
  p_run (init_buses_events ++ es) ph0 = Some (q, rs') -> (forall t f, ~ In (AddMiddleware t f) es) -> (forall n, bus_width t = Some n -> (get_used_bits v <= n)%Z) ->
  exists q' r, p_event (Publish t v) q = Some (q', r) /\ r <> (-1)%Z.
Proof.
  intros es w rs q rs' t v E Eq N Hv. destruct (C29_veto _ w rs q rs' t v E Eq) as (q' & r & E' & Hiff & Hsame). exists q', r. split; [exact E'|]. intros Hr. apply Hiff in Hr. destruct Hr as (f & Hf & Ef).
  rewrite promised_app in E. cbn [init_buses_events promised_run promised] in E.
  match type of E with match promised_run es ?w1 with _ => _ end = _ => destruct (promised_run es w1) as [(w2 & rs2)|] eqn:E2; [|discriminate] end.
  injection E as <- _. rewrite (mids_only _ _ _ _ N E2) in Hf. cbn in Hf. destruct Hf as [Hf|[Hf|[Hf|[]]]]; injection Hf as <- <-.
  - specialize (Hv 8%Z eq_refl). unfold check_data_bus_overflow in Ef. lia.
  - specialize (Hv 16%Z eq_refl). unfold check_dir_bus_overflow in Ef. lia.
  - specialize (Hv 16%Z eq_refl). unfold check_dir_bus_overflow in Ef. lia.
Qed.

(** ** C30: removing a middleware *)
Lemma store_cell_end : forall l v, store_cell l (length l) v = None.
Proof. induction l as [|x l IH]; intros v; cbn; auto. rewrite IH. reflexivity. Qed.
Lemma mids_hit : forall t v objs l ms n m, Forall2 (fun o x => exists k, o = Some k /\ k < n /\ objs k = Some x) l ms ->
  In (Some m) l -> (forall f, In (t, f) ms -> f v = true) -> p_middlewares t v (upd objs m None) l = None.
Proof.
  intros t v objs l ms n m F. induction F as [|o x l ms (k & -> & _ & Hk) F IH]; intros Hin Hp; [destruct Hin|].
  cbn [p_middlewares]. unfold upd at 1. destruct (Nat.eqb_spec k m) as [->|Nk]; [reflexivity|].
  assert (Hin' : In (Some m) l) by (destruct Hin as [X|X]; [congruence|exact X]).
  rewrite Hk. destruct x as (t' & f). rewrite (IH Hin') by (intros g Hg; apply Hp; right; exact Hg).
  destruct (topic_eqb t' t) eqn:Et; cbn [negb]; auto. assert (t' = t) by (destruct t', t; cbn in Et; congruence). subst t'. rewrite (Hp f (or_introl eq_refl)). reflexivity.
Qed.
(** Whatever the history and whichever middleware, [rm_topic_middleware] is undefined
    behaviour: it stores past the end of the array. *)
Theorem C30_store_refuted : forall es w rs q rs' m, promised_run es world0 = Some (w, rs) -> p_run es ph0 = Some (q, rs') -> p_rm_middleware m q = None.
Proof.
  intros es w rs q rs' m E Eq. destruct (run_ok es ph0 world0 w rs agrees0 E) as (q0 & Eq0 & A). rewrite Eq0 in Eq. injection Eq as <- <-.
  unfold p_rm_middleware. destruct (p_free_middleware m q0) as [q1|] eqn:Ef; auto. unfold p_free_middleware in Ef. destruct (qm q0 m); [|discriminate]. injection Ef as <-.
  cbn [qa qk]. rewrite (ag_len _ _ A), store_cell_end. reflexivity.
Qed.
(** And were that store harmless, the freed record is still in the array: the next
    publish on any topic whose middlewares accept the value reads it. *)
Theorem C30_dangling_refuted : forall es w rs q rs' m q1 t v, promised_run es world0 = Some (w, rs) -> p_run es ph0 = Some (q, rs') ->
  In (Some m) (qa q) -> p_free_middleware m q = Some q1 -> (forall f, In (t, f) (w_mids w) -> f v = true) -> p_event (Publish t v) q1 = None.
Proof.
  intros es w rs q rs' m q1 t v E Eq Hm Ef Hp. destruct (run_ok es ph0 world0 w rs agrees0 E) as (q0 & Eq0 & A). rewrite Eq0 in Eq. injection Eq as <- <-.
  unfold p_free_middleware in Ef. destruct (qm q0 m); [|discriminate]. injection Ef as <-.
  cbn [p_event]. unfold p_publish. cbn [qm qk qa]. rewrite (ag_len _ _ A), firstn_all. rewrite (mids_hit t v (qm q0) (qa q0) (w_mids w) (qmn q0) m (ag_mids _ _ A) Hm Hp). reflexivity.
Qed.
(** The record returned by [add_topic_middleware] is one to which both apply. *)
Theorem C30_added : forall es w rs q rs' t f, promised_run es world0 = Some (w, rs) -> p_run (es ++ [AddMiddleware t f]) ph0 = Some (q, rs') ->
  exists m q1, In (Some m) (qa q) /\ qm q m = Some (t, f) /\ p_free_middleware m q = Some q1.
Proof.
  intros es w rs q rs' t f E Eq. rewrite p_run_app in Eq. destruct (p_run es ph0) as [(q0 & rs0)|]; [|discriminate]. cbn in Eq. injection Eq as <- _.
  exists (qmn q0). unfold p_free_middleware. cbn [p_add_middleware qa qm]. unfold upd. rewrite Nat.eqb_refl. eexists. split; [|split; reflexivity].
  apply in_or_app. right. left. reflexivity.
Qed.

(** ** C31: the linked list *)
(** The way the code uses a list: a head pointer; pushing on an empty list creates
    the head. *)
Inductive lop := LPush (v : nat) | LDelete (v : nat) | LFind (v : nat).
Definition l_op (o : lop) (h : lheap) (p : option nat) : option (lheap * option nat * bool) :=
  match o with
  | LPush v => match p with
               | None => let '(h', c) := create_ll_node v None h in Some (h', Some c, true)
               | Some _ => match push_ll_node (loops h) p v h with Some (h', _) => Some (h', p, true) | None => None end
               end
  | LDelete v => delete_node_from_value (loops h) p v h
  | LFind v => match get_node (loops h) h None p v with
               | None => None
               | Some None => Some (h, p, false)
               | Some (Some _) => Some (h, p, true)
               end
  end.
Fixpoint l_run (os : list lop) (h : lheap) (p : option nat) : option (lheap * option nat * list bool) :=
  match os with
  | [] => Some (h, p, [])
  | o :: os' => match l_op o h p with
                | None => None
                | Some (h1, p1, r) => match l_run os' h1 p1 with None => None | Some (h2, p2, rs) => Some (h2, p2, r :: rs) end
                end
  end.
(** The same calls on a sequence. *)
Fixpoint seq_run (os : list lop) (l : list nat) : list nat * list bool :=
  match os with
  | [] => (l, [])
  | LPush v :: os' => let '(l', rs) := seq_run os' (l ++ [v]) in (l', true :: rs)
  | LDelete v :: os' => let '(l', rs) := seq_run os' (remove_first v l) in (l', existsb (Nat.eqb v) l :: rs)
  | LFind v :: os' => let '(l', rs) := seq_run os' l in (l', existsb (Nat.eqb v) l :: rs)
  end.
(** The nodes allocated are exactly those of the list, in order. *)
Definition exactly (h : lheap) (p : option nat) (l : list nat) : Prop :=
  exists addrs, NoDup addrs /\ chain h p addrs l /\ forall a, lnode h a <> None <-> In a addrs.

Definition allocated (h : lheap) : list nat := filter (fun a => match lnode h a with Some _ => true | None => false end) (seq 0 (lfresh h)).
Record inv31 (h : lheap) (p : option nat) (l : list nat) : Prop := {
  i_rep : represents h p l;
  i_dom : forall a, lnode h a <> None -> a < lfresh h;
  i_cnt : length (allocated h) = length l
}.
Lemma chain_in : forall h addrs vals p a, chain h p addrs vals -> In a addrs -> lnode h a <> None.
Proof.
  induction addrs as [|x addrs IH]; destruct vals as [|v vals]; cbn [chain]; intros p a H Ha; try tauto.
  destruct H as (-> & nx & Hn & H). destruct Ha as [<-|Ha]; [congruence|eauto].
Qed.
Lemma inv31_exactly : forall h p l, inv31 h p l -> exactly h p l.
Proof.
  intros h p l [(addrs & ND & Lt & Ch) Dom Cnt]. exists addrs. split; auto. split; auto.
  assert (NDa : NoDup (allocated h)) by (apply NoDup_filter; apply seq_NoDup).
  assert (Inc : incl addrs (allocated h)).
  { intros a Ha. apply filter_In. split; [apply in_seq; specialize (Lt a Ha); lia|]. pose proof (chain_in _ _ _ _ a Ch Ha) as Hne. destruct (lnode h a); [reflexivity|congruence]. }
  intros a. split; [|apply (chain_in _ _ _ _ a Ch)]. intros Ha.
  apply (@NoDup_length_incl nat addrs (allocated h) ND); [rewrite Cnt, (chain_len _ _ _ _ Ch); lia|exact Inc|].
  apply filter_In. split; [apply in_seq; specialize (Dom a Ha); lia|]. destruct (lnode h a); [reflexivity|congruence].
Qed.
Lemma filter_same : forall (A : Type) (f g : A -> bool) l, (forall a, In a l -> f a = g a) -> filter f l = filter g l.
Proof.
  intros A f g l. induction l as [|x l IH]; intros H; cbn; auto. rewrite (H x (or_introl eq_refl)), IH; auto. intros a Ha. apply H. right; exact Ha.
Qed.
Lemma count_remove : forall (f g : nat -> bool) a l, NoDup l -> In a l -> f a = true -> g a = false -> (forall x, x <> a -> g x = f x) ->
  length (filter f l) = S (length (filter g l)).
Proof.
  intros f g a l. induction l as [|x l IH]; intros ND Hin Hf Hg Hx; [destruct Hin|]. inversion ND; subst. cbn [filter].
  destruct (Nat.eq_dec x a) as [->|Nx].
  - rewrite Hf, Hg. cbn [length]. f_equal. f_equal. apply filter_same. intros y Hy. symmetry. apply Hx. intros ->. contradiction.
  - destruct Hin as [E|Hin]; [congruence|]. rewrite (Hx x Nx). destruct (f x); cbn [length]; rewrite (IH H2 Hin Hf Hg Hx); reflexivity.
Qed.
Lemma allocated_ext : forall h h', lfresh h' = lfresh h -> (forall a, lnode h' a = None <-> lnode h a = None) -> allocated h' = allocated h.
Proof.
  intros h h' E H. unfold allocated. rewrite E. apply filter_same. intros a _. specialize (H a). destruct (lnode h' a), (lnode h a); auto; exfalso; intuition congruence.
Qed.
Lemma create_alloc : forall h h' c v, create_ll_node v None h = (h', c) -> (forall a, lnode h a <> None -> a < lfresh h) ->
  length (allocated h') = S (length (allocated h)) /\ (forall a, lnode h' a <> None -> a < lfresh h').
Proof.
  intros h h' c v E Dom. injection E as <- <-. split.
  - unfold allocated. cbn [lfresh lnode]. rewrite seq_S, filter_app, app_length. cbn [filter plus]. rewrite Nat.eqb_refl. cbn [length].
    rewrite Nat.add_1_r. f_equal. f_equal. apply filter_same. intros a Ha. apply in_seq in Ha. destruct (Nat.eqb_spec a (lfresh h)); [lia|reflexivity].
  - cbn [lfresh lnode]. intros a Ha. destruct (Nat.eqb_spec a (lfresh h)); [lia|]. specialize (Dom a Ha). lia.
Qed.
Lemma push_alloc : forall f p v h h' c, push_ll_node f p v h = Some (h', c) -> (forall a, lnode h a <> None -> a < lfresh h) ->
  length (allocated h') = S (length (allocated h)) /\ (forall a, lnode h' a <> None -> a < lfresh h').
Proof.
  intros f p v h h' c E Dom. unfold push_ll_node in E. destruct p as [a|]; [|discriminate]. destruct (last_node f h a) as [b|]; [|discriminate].
  destruct (create_ll_node v None h) as (h1 & c1) eqn:Ec. destruct (create_alloc _ _ _ _ Ec Dom) as (K1 & K2). destruct (lnode h1 b) as [n|] eqn:En; [|discriminate]. injection E as <- <-.
  assert (X : forall y, lnode (lput h1 b (Some (mkNode (nval n) (Some c1)))) y = None <-> lnode h1 y = None).
  { intros y. cbn [lput lnode]. destruct (Nat.eqb_spec y b) as [->|]; [split; congruence|tauto]. }
  split; [rewrite <- K1; f_equal; apply allocated_ext; [reflexivity|exact X]|].
  intros y Hy. apply K2. intros Z. apply X in Z. contradiction.
Qed.
Lemma delete_alloc : forall f p v h h' p', delete_node_from_value f p v h = Some (h', p', true) -> (forall a, lnode h a <> None -> a < lfresh h) ->
  length (allocated h) = S (length (allocated h')) /\ (forall a, lnode h' a <> None -> a < lfresh h').
Proof.
  intros f p v h h' p' E Dom. unfold delete_node_from_value in E. destruct (get_node f h None p v) as [[(prev & a)|]|]; try discriminate.
  destruct (lnode h a) as [n|] eqn:Ea; [|discriminate].
  assert (Hkey : exists h1, h' = lput h1 a None /\ lfresh h1 = lfresh h /\ forall y, lnode h1 y = None <-> lnode h y = None).
  { destruct prev as [b|].
    - destruct (lnode h b) as [m|] eqn:Eb; [|discriminate]. injection E as <- _. eexists. split; [reflexivity|]. split; [reflexivity|].
      intros y. cbn [lput lnode]. destruct (Nat.eqb_spec y b) as [->|]; [split; congruence|tauto].
    - injection E as <- _. exists h. split; [reflexivity|]. split; [reflexivity|]. tauto. }
  destruct Hkey as (h1 & -> & Ef & X). split.
  - rewrite <- (allocated_ext h h1 Ef X). unfold allocated. cbn [lput lnode lfresh]. apply count_remove with (a := a).
    + apply seq_NoDup.
    + apply in_seq. rewrite Ef. assert (a < lfresh h) by (apply Dom; congruence). lia.
    + destruct (lnode h1 a) eqn:E1; auto. apply X in E1. congruence.
    + rewrite Nat.eqb_refl. reflexivity.
    + intros x Nx. destruct (Nat.eqb_spec x a); [congruence|reflexivity].
  - cbn [lput lnode lfresh]. intros y Hy. rewrite Ef. apply Dom. destruct (Nat.eqb y a); [congruence|]. intros Z. apply X in Z. contradiction.
Qed.
Lemma existsb_in : forall v l, existsb (Nat.eqb v) l = true <-> In v l.
Proof.
  intros v l. rewrite existsb_exists. split; [intros (x & Hx & E); apply Nat.eqb_eq in E; subst; auto|]. intros H. exists v. split; auto. apply Nat.eqb_refl.
Qed.
Lemma remove_first_length : forall v l, In v l -> length l = S (length (remove_first v l)).
Proof.
  intros v l. induction l as [|x l IH]; intros H; [destruct H|]. cbn [remove_first]. destruct (Nat.eqb_spec x v) as [->|N]; cbn [length]; auto.
  f_equal. apply IH. destruct H; [congruence|auto].
Qed.
Lemma l_run_ok : forall os h p l, inv31 h p l -> exists h' p', l_run os h p = Some (h', p', snd (seq_run os l)) /\ inv31 h' p' (fst (seq_run os l)).
Proof.
  induction os as [|o os IH]; intros h p l I; cbn [l_run seq_run]; [eauto|].
  assert (Len : length l < loops h) by (pose proof (represents_len _ _ _ (i_rep _ _ _ I)); unfold loops; lia).
  destruct o as [v|v|v]; cbn [l_op].
  - assert (X : exists h1 p1, match p with
               | None => let '(h', c) := create_ll_node v None h in Some (h', Some c, true)
               | Some _ => match push_ll_node (loops h) p v h with Some (h', _) => Some (h', p, true) | None => None end
               end = Some (h1, p1, true) /\ inv31 h1 p1 (l ++ [v])).
    { destruct I as [Rp Dom Cnt]. destruct p as [a|].
      - destruct (push_ok h (Some a) l v (loops h) Rp) as (h1 & c & E1 & R1); [discriminate|lia|]. rewrite E1. exists h1, (Some a). split; auto.
        destruct (push_alloc _ _ _ _ _ _ E1 Dom) as (K1 & K2). constructor; auto. rewrite K1, Cnt, app_length. cbn. lia.
      - pose proof (represents_nil _ _ Rp) as ->. destruct (create_ok h v) as (h1 & c & E1 & R1). rewrite E1. exists h1, (Some c). split; auto.
        destruct (create_alloc _ _ _ _ E1 Dom) as (K1 & K2). constructor; auto. rewrite K1, Cnt. reflexivity. }
    destruct X as (h1 & p1 & E1 & I1). rewrite E1. destruct (IH h1 p1 _ I1) as (h2 & p2 & E2 & I2). rewrite E2. destruct (seq_run os (l ++ [v])) as (l' & rs). eauto.
  - destruct (existsb (Nat.eqb v) l) eqn:Ex.
    + pose proof (proj1 (existsb_in v l) Ex) as Hin. destruct I as [Rp Dom Cnt]. destruct (delete_found h p l v (loops h) Rp Hin ltac:(lia)) as (h1 & p1 & E1 & R1). rewrite E1.
      destruct (delete_alloc _ _ _ _ _ _ E1 Dom) as (K1 & K2). pose proof (remove_first_length v l Hin).
      assert (I1 : inv31 h1 p1 (remove_first v l)) by (constructor; auto; lia).
      destruct (IH h1 p1 _ I1) as (h2 & p2 & E2 & I2). rewrite E2. destruct (seq_run os (remove_first v l)) as (l' & rs). eauto.
    + assert (Hn : ~ In v l) by (rewrite <- existsb_in; congruence). rewrite (delete_missing h p l v (loops h) (i_rep _ _ _ I) Hn ltac:(lia)).
      rewrite (remove_first_none v l Hn). destruct (IH h p _ I) as (h2 & p2 & E2 & I2). rewrite E2. destruct (seq_run os l) as (l' & rs). eauto.
  - destruct (i_rep _ _ _ I) as (addrs & ND & Lt & Ch). destruct (existsb (Nat.eqb v) l) eqn:Ex.
    + pose proof (proj1 (existsb_in v l) Ex) as Hin. destruct (get_node_found h addrs l p None v Ch Hin (loops h) ltac:(lia)) as (pre & a & post & vpre & vpost & nx & _ & _ & _ & _ & Eg & _).
      rewrite Eg. destruct (IH h p _ I) as (h2 & p2 & E2 & I2). rewrite E2. destruct (seq_run os l) as (l' & rs). eauto.
    + assert (Hn : ~ In v l) by (rewrite <- existsb_in; congruence). rewrite (get_node_missing h addrs l p None v Ch Hn (loops h) ltac:(lia)).
      destruct (IH h p _ I) as (h2 & p2 & E2 & I2). rewrite E2. destruct (seq_run os l) as (l' & rs). eauto.
Qed.
(** Any history of push, delete and find on a list that starts empty behaves as on a
    sequence, never touches a freed node, and at its end the allocated nodes are
    exactly the nodes of the list. *)
Theorem C31_histories : forall os l rs, seq_run os [] = (l, rs) ->
  exists h p, l_run os (mkLH (fun _ => None) 0) None = Some (h, p, rs) /\ exactly h p l.
Proof.
  intros os l rs E. destruct (l_run_ok os (mkLH (fun _ => None) 0) None []) as (h & p & E1 & I1).
  - constructor; [exists []; split; [constructor|split; [intros a []|reflexivity]]| |reflexivity]. intros a Ha. cbn in Ha. congruence.
  - rewrite E in E1, I1. exists h, p. split; auto. apply inv31_exactly. exact I1.
Qed.
(** Finding returns the first node with the value and the node before it. *)
Theorem C31_find : forall h p pre v post, represents h p (pre ++ v :: post) -> ~ In v pre ->
  exists prev a nx, get_node (loops h) h None p v = Some (Some (prev, a)) /\ lnode h a = Some (mkNode v nx) /\ represents h nx post /\
    match prev with
    | None => pre = [] /\ p = Some a
    | Some b => exists pre' u, pre = pre' ++ [u] /\ lnode h b = Some (mkNode u (Some a))
    end.
Proof.
  intros h p pre v post R Hn. pose proof (represents_len _ _ _ R) as Len. destruct R as (addrs & ND & Lt & Ch).
  revert p addrs ND Lt Ch.
  assert (G : forall fuel pre p addrs prev, NoDup addrs -> (forall a, In a addrs -> a < lfresh h) -> chain h p addrs (pre ++ v :: post) -> ~ In v pre -> length pre < fuel ->
    exists r a nx, get_node fuel h prev p v = Some (Some (r, a)) /\ lnode h a = Some (mkNode v nx) /\ represents h nx post /\
    (pre = [] /\ p = Some a /\ r = prev \/ exists pre' u b, pre = pre' ++ [u] /\ r = Some b /\ lnode h b = Some (mkNode u (Some a)))).
  { clear. induction fuel as [|fuel IH]; intros pre p addrs prev ND Lt Ch Hn Hf; [lia|].
    destruct pre as [|x pre]; cbn [app] in Ch; destruct addrs as [|a addrs]; cbn [chain] in Ch; try tauto; destruct Ch as (-> & nx & Ha & Ch); cbn [get_node]; rewrite Ha; cbn [nval nnext]; inversion ND; subst.
    - rewrite Nat.eqb_refl. exists prev, a, nx. split; auto. split; auto. split; [|left; auto]. exists addrs. split; auto. split; auto. intros y Hy. apply Lt. right; auto.
    - destruct (Nat.eqb_spec x v) as [->|N]; [exfalso; apply Hn; left; auto|]. cbn [length] in Hf.
      destruct (IH pre nx addrs (Some a) H2 ltac:(intros y Hy; apply Lt; right; auto) Ch ltac:(intros X; apply Hn; right; auto) ltac:(lia)) as (r & c & nx' & E1 & E2 & E3 & E4).
      exists r, c, nx'. split; auto. split; auto. split; auto. right. destruct E4 as [(-> & -> & ->)|(pre' & u & b & -> & -> & E4)].
      + exists [], x, a. auto.
      + exists (x :: pre'), u, b. auto. }
  intros p addrs ND Lt Ch. destruct (G (loops h) pre p addrs None ND Lt Ch Hn) as (r & a & nx & E1 & E2 & E3 & E4).
  { rewrite app_length in Len. cbn in Len. unfold loops. lia. }
  exists r, a, nx. split; auto. split; auto. split; auto. destruct E4 as [(-> & -> & ->)|(pre' & u & b & -> & -> & E4)]; eauto.
Qed.

(** ** C32: the watcher registry *)
Inductive wop := WReg (x : nat) | WUnreg (x : nat) | WGet (t : regid).
(** Results: [true]/[false] for unregister, the watcher found for get. *)
Inductive wres := WNone | WBool (b : bool) | WFound (x : option nat).
Definition w_op (wtype : nat -> regid) (o : wop) (q : wheap) : option (wheap * wres) :=
  match o with
  | WReg x => option_map (fun q' => (q', WNone)) (register_watcher x q)
  | WUnreg x => option_map (fun r => (fst r, WBool (snd r))) (unregister_watcher x q)
  | WGet t => option_map (fun r => (q, WFound r)) (get_register wtype t q)
  end.
Fixpoint w_run (wtype : nat -> regid) (os : list wop) (q : wheap) : option (wheap * list wres) :=
  match os with
  | [] => Some (q, [])
  | o :: os' => match w_op wtype o q with
                | None => None
                | Some (q1, r) => match w_run wtype os' q1 with None => None | Some (q2, rs) => Some (q2, r :: rs) end
                end
  end.
(** The same on the sequence of registered watchers. *)
Fixpoint reg_run (wtype : nat -> regid) (os : list wop) (l : list nat) : list nat * list wres :=
  match os with
  | [] => (l, [])
  | WReg x :: os' => let '(l', rs) := reg_run wtype os' (l ++ [x]) in (l', WNone :: rs)
  | WUnreg x :: os' => let '(l', rs) := reg_run wtype os' (remove_first x l) in (l', WBool (existsb (Nat.eqb x) l) :: rs)
  | WGet t :: os' => let '(l', rs) := reg_run wtype os' l in (l', WFound (find (fun x => regid_eqb (wtype x) t) l) :: rs)
  end.
Lemma find_watcher_ok : forall wtype t h addrs vals p fuel, chain h p addrs vals -> length vals < fuel ->
  find_watcher fuel wtype h p t = Some (find (fun x => regid_eqb (wtype x) t) vals).
Proof.
  intros wtype t h. induction addrs as [|a addrs IH]; intros vals p fuel Ch Hf; destruct vals as [|v vals]; cbn [chain] in Ch; try tauto; (destruct fuel as [|fuel]; [cbn in Hf; lia|]).
  - subst p. reflexivity.
  - destruct Ch as (-> & nx & Ha & Ch). cbn [find_watcher find]. rewrite Ha. cbn [nval nnext]. destruct (regid_eqb (wtype v) t); auto. apply IH; auto. cbn in Hf. lia.
Qed.
Lemma register_ok : forall x q l, represents (wlh q) (whead q) l -> exists q', register_watcher x q = Some q' /\ represents (wlh q') (whead q') (l ++ [x]).
Proof.
  intros x q l R. unfold register_watcher. destruct (whead q) as [a|] eqn:Eh.
  - pose proof (represents_len _ _ _ R) as Len. destruct (push_ok (wlh q) (Some a) l x (loops (wlh q)) R ltac:(discriminate) ltac:(unfold loops; lia)) as (h' & c & E1 & R1).
    unfold push_ll_node in E1. destruct (last_node (loops (wlh q)) (wlh q) a) as [b|] eqn:El; [|discriminate].
    destruct (create_ll_node x None (wlh q)) as (h1 & c1) eqn:Ec.
    assert (El' : last_node (loops h1) h1 a = Some b).
    { destruct R as (addrs & ND & Lt & Ch). injection Ec as <- <-.
      set (h1 := mkLH (fun x0 => if Nat.eqb x0 (lfresh (wlh q)) then Some (mkNode x None) else lnode (wlh q) x0) (S (lfresh (wlh q)))).
      assert (Ch1 : chain h1 (Some a) addrs l).
      { apply chain_frame with (h := wlh q); auto. intros y Hy. cbn. specialize (Lt y Hy). destruct (Nat.eqb_spec y (lfresh (wlh q))); [lia|reflexivity]. }
      destruct (last_node_ok h1 addrs l (Some a) a Ch1 eq_refl (loops h1) ltac:(unfold loops; cbn [h1 lfresh]; lia)) as (b1 & pre1 & v1 & A1 & L1 & _).
      destruct (last_node_ok (wlh q) addrs l (Some a) a Ch eq_refl (loops (wlh q)) ltac:(unfold loops; lia)) as (b2 & pre2 & v2 & A2 & L2 & _).
      rewrite L1. rewrite L2 in El. injection El as <-. rewrite A1 in A2. apply app_inj_tail in A2. destruct A2 as (_ & ->). reflexivity. }
    rewrite El'. destruct (lnode h1 b) as [n|]; [|discriminate]. injection E1 as <- <-. eexists. split; [reflexivity|]. cbn [wlh whead]. rewrite <- Eh. rewrite Eh. exact R1.
  - apply represents_nil in R. subst l. destruct (create_ok (wlh q) x) as (h' & c & E1 & R1). rewrite E1. eexists. split; [reflexivity|]. exact R1.
Qed.
Lemma w_run_ok : forall wtype os q l, represents (wlh q) (whead q) l ->
  exists q', w_run wtype os q = Some (q', snd (reg_run wtype os l)) /\ represents (wlh q') (whead q') (fst (reg_run wtype os l)).
Proof.
  intros wtype. induction os as [|o os IH]; intros q l R; cbn [w_run reg_run]; [eauto|].
  pose proof (represents_len _ _ _ R) as Len. destruct o as [x|x|t]; cbn [w_op].
  - destruct (register_ok x q l R) as (q1 & E1 & R1). rewrite E1. cbn [option_map]. destruct (IH q1 _ R1) as (q2 & E2 & R2). rewrite E2. destruct (reg_run wtype os (l ++ [x])). eauto.
  - assert (X : exists q1, unregister_watcher x q = Some (q1, existsb (Nat.eqb x) l) /\ represents (wlh q1) (whead q1) (remove_first x l)).
    { unfold unregister_watcher. destruct (whead q) as [a|] eqn:Eh.
      - destruct (existsb (Nat.eqb x) l) eqn:Ex.
        + destruct (delete_found (wlh q) (Some a) l x (loops (wlh q)) R (proj1 (existsb_in x l) Ex) ltac:(unfold loops; lia)) as (h1 & p1 & E1 & R1). rewrite E1. eexists. split; [reflexivity|exact R1].
        + assert (Hn : ~ In x l) by (rewrite <- existsb_in; congruence). rewrite (delete_missing (wlh q) (Some a) l x (loops (wlh q)) R Hn ltac:(unfold loops; lia)).
          eexists. split; [reflexivity|]. rewrite (remove_first_none x l Hn). exact R.
      - pose proof (represents_nil _ _ R) as ->. exists q. split; [reflexivity|]. cbn. rewrite Eh. exact R. }
    destruct X as (q1 & E1 & R1). rewrite E1. cbn [option_map fst snd]. destruct (IH q1 _ R1) as (q2 & E2 & R2). rewrite E2. destruct (reg_run wtype os (remove_first x l)). eauto.
  - unfold get_register. destruct R as (addrs & ND & Lt & Ch). rewrite (find_watcher_ok wtype t (wlh q) addrs l (whead q) (loops (wlh q)) Ch) by (unfold loops; lia).
    cbn [option_map]. destruct (IH q l) as (q2 & E2 & R2); [exists addrs; auto|]. rewrite E2. destruct (reg_run wtype os l). eauto.
Qed.
(** Any history of register, unregister and get calls, on watchers of any types,
    returns what the sequence of registered watchers says: get returns the earliest
    registered one of the type, and nothing exactly when there is none. *)
Theorem C32_histories : forall wtype os l rs, reg_run wtype os [] = (l, rs) ->
  exists q, w_run wtype os wh0 = Some (q, rs) /\
    forall t, exists r, get_register wtype t q = Some r /\
      match r with
      | None => forall x, In x l -> wtype x <> t
      | Some x => exists pre post, l = pre ++ x :: post /\ wtype x = t /\ forall y, In y pre -> wtype y <> t
      end.
Proof.
  intros wtype os l rs E. destruct (w_run_ok wtype os wh0 []) as (q & E1 & R1). { exists []. split; [constructor|split; [intros a []|reflexivity]]. }
  rewrite E in E1, R1. cbn [fst snd] in E1, R1. exists q. split; auto. intros t. pose proof (represents_len _ _ _ R1) as Len. destruct R1 as (addrs & ND & Lt & Ch).
  unfold get_register. rewrite (find_watcher_ok wtype t (wlh q) addrs l (whead q) (loops (wlh q)) Ch) by (unfold loops; lia). eexists. split; [reflexivity|].
  assert (Hq : forall u w, regid_eqb u w = true <-> u = w) by (intros u w; destruct u, w; cbn; split; congruence).
  clear - Hq. induction l as [|x l IH]; cbn [find]; [intros x []|]. destruct (regid_eqb (wtype x) t) eqn:Ex.
  - exists [], l. split; auto. split; [apply Hq; exact Ex|]. intros y [].
  - assert (Nx : wtype x <> t) by (intros X; apply Hq in X; congruence). destruct (find _ l) as [y|].
    + destruct IH as (pre & post & -> & Hy & Hp). exists (x :: pre), post. split; auto. split; auto. intros z [<-|Hz]; auto.
    + intros y [<-|Hy]; auto.
Qed.

(** ** The lists of PubSub.v stand for the nodes and cells of PubSubPtr.v
    [PubSub.v], on which the rest of the model rests, keeps Coq lists.  Every
    history that is defined there is defined here, with the same results and the
    same heap contents. *)
Definition ps_event (e : event) (p : pstate) : option (pstate * Z) :=
  match e with
  | NewBus => let '(p', a) := create_bus_data p in Some (p', Z.of_nat a)
  | FreeBus a => option_map (fun p' => (p', 0%Z)) (destroy_bus_data (Some a) p)
  | Update a => option_map (fun p' => (p', 0%Z)) (update_bus_data (Some a) p)
  | Subscribe t a => let '(p', i) := subscribe_to t (Some a) p in Some (p', Z.of_nat i)
  | Unsubscribe i => option_map (fun r => (fst r, Z.b2z (snd r))) (unsubscribe_for (Some i) p)
  | Publish t w => publish_message_to t w p
  | AddMiddleware t f => Some (add_topic_middleware t f p, 0%Z)
  end.
Fixpoint ps_run (es : list event) (p : pstate) : option (pstate * list Z) :=
  match es with
  | [] => Some (p, [])
  | e :: es' => match ps_event e p with
                | None => None
                | Some (p1, r) => match ps_run es' p1 with None => None | Some (p2, rs) => Some (p2, r :: rs) end
                end
  end.
Record stands (p : pstate) (q : pheap) : Prop := {
  st_b : forall a, qb q a = hb p a;
  st_n : qn q = hn p;
  st_s : forall i, qs q i = ss p i;
  st_c : qc q = sc p;
  st_l : represents (ql q) (qh q) (sl p);
  st_k : qk q = length (qa q);
  st_m : Forall2 (fun o m => exists x, o = Some x /\ x < qmn q /\ qm q x = Some m) (qa q) (mids p)
}.
Lemma deliver_stands : forall t v subs subs' h l addrs cur b b1 sent fuel r n,
  chain h cur addrs l -> length l < fuel -> (forall i, subs' i = subs i) -> (forall a, b1 a = b a) ->
  deliver t v subs l b sent = Some (r, n) -> exists r1, p_deliver fuel t v subs' h cur b1 sent = Some (r1, n) /\ forall a, r1 a = r a.
Proof.
  intros t v subs subs' h l. induction l as [|i l IH]; intros addrs cur b b1 sent fuel r n Ch Hf Hs Hb E; (destruct fuel as [|fuel]; [cbn in Hf; lia|]).
  - destruct addrs; [|cbn in Ch; tauto]. cbn in Ch. subst cur. cbn in E. injection E as <- <-. exists b1. auto.
  - destruct addrs as [|c addrs]; [cbn in Ch; tauto|]. cbn [chain] in Ch. destruct Ch as (-> & nx & Hn & Ch). cbn [length] in Hf.
    cbn [p_deliver deliver] in *. rewrite Hn. cbn [nval nnext]. rewrite Hs. destruct (subs i) as [s|]; [|discriminate].
    destruct (negb (sact s)); [eapply IH; eauto; lia|]. destruct (negb (topic_eqb (stop s) t)); [eapply IH; eauto; lia|].
    destruct (sbus s) as [a|]; [|discriminate]. rewrite Hb. destruct (b a) as [x|]; [|discriminate].
    apply (IH addrs nx (upd b a (Some (mkBus (bcur x) v))) (upd b1 a (Some (mkBus (bcur x) v))) _ fuel r n Ch ltac:(lia) Hs); auto.
    intros y. unfold upd. destruct (Nat.eqb y a); auto.
Qed.
Lemma event_stands : forall e p q p' r, stands p q -> ps_event e p = Some (p', r) -> exists q', p_event e q = Some (q', r) /\ stands p' q'.
Proof.
  intros e p q p' r [B1 B2 B3 B4 B5 B6 B7] E. pose proof (represents_len _ _ _ B5) as Len.
  destruct e as [|a|a|t a|i|t v|t f]; cbn [ps_event p_event p_create_bus create_bus_data subscribe_to destroy_bus_data update_bus_data] in *.
  - injection E as <- <-. eexists. split; [rewrite B2; reflexivity|]. constructor; cbn [fst snd hb hn ss sc sl mids qb qn qs qc ql qh qa qk qm qmn]; auto.
    intros a. unfold upd. destruct (Nat.eqb a (hn p)); auto.
  - destruct (hb p a) as [x|] eqn:Ea; [|discriminate]. injection E as <- <-. unfold p_destroy_bus. rewrite B1, Ea. eexists. split; [reflexivity|].
    constructor; cbn [fst snd hb hn ss sc sl mids qb qn qs qc ql qh qa qk qm qmn]; auto. intros y. unfold upd. destruct (Nat.eqb y a); auto.
  - destruct (hb p a) as [x|] eqn:Ea; [|discriminate]. injection E as <- <-. unfold p_update_bus. rewrite B1, Ea. eexists. split; [reflexivity|].
    constructor; cbn [fst snd hb hn ss sc sl mids qb qn qs qc ql qh qa qk qm qmn]; auto. intros y. unfold upd. destruct (Nat.eqb y a); auto.
  - injection E as <- <-. unfold p_subscribe. cbv zeta. rewrite B4. destruct (qh q) as [hd|] eqn:Eh.
    + destruct (push_ok (ql q) (Some hd) (sl p) (sc p) (loops (ql q)) B5) as (h' & c & E' & R'); [discriminate|unfold loops; lia|]. rewrite E'. eexists. split; [reflexivity|].
      constructor; cbn [fst snd hb hn ss sc sl mids qb qn qs qc ql qh qa qk qm qmn]; auto. intros i. unfold upd. destruct (Nat.eqb i (sc p)); auto.
    + apply represents_nil in B5. destruct (create_ok (ql q) (sc p)) as (h' & c & E' & R'). rewrite E'. eexists. split; [reflexivity|].
      constructor; cbn [fst snd hb hn ss sc sl mids qb qn qs qc ql qh qa qk qm qmn]; auto; [|rewrite B5; exact R']. intros i. unfold upd. destruct (Nat.eqb i (sc p)); auto.
  - unfold unsubscribe_for in E. unfold p_unsubscribe. destruct (qh q) as [hd|] eqn:Eh.
    + destruct (sl p) as [|i0 l0] eqn:El; [exfalso; exact (represents_cons _ _ _ B5 eq_refl)|]. rewrite <- El in *. rewrite B3, B4. destruct (ss p i) as [s|] eqn:Es; [|discriminate].
      destruct (Nat.leb (sc p) i). { injection E as <- <-. exists q. split; [reflexivity|]. constructor; auto. rewrite Eh. exact B5. }
      destruct (existsb (Nat.eqb i) (sl p)) eqn:Ex.
      * injection E as <- <-. destruct (delete_found (ql q) (Some hd) (sl p) i (loops (ql q)) B5 (proj1 (existsb_in i (sl p)) Ex) ltac:(unfold loops; lia)) as (h' & p1 & E' & R').
        rewrite E'. eexists. split; [reflexivity|]. constructor; cbn [fst snd hb hn ss sc sl mids qb qn qs qc ql qh qa qk qm qmn]; auto. intros y. unfold upd. destruct (Nat.eqb y i); auto.
      * injection E as <- <-. assert (Hn : ~ In i (sl p)) by (rewrite <- existsb_in; congruence). rewrite (delete_missing (ql q) (Some hd) (sl p) i (loops (ql q)) B5 Hn ltac:(unfold loops; lia)).
        eexists. split; [reflexivity|]. constructor; cbn [fst snd qb qn qs qc ql qh qa qk qm qmn]; auto.
    + pose proof (represents_nil _ _ B5) as Hl. rewrite Hl in E. injection E as <- <-. exists q. split; [reflexivity|]. constructor; auto. rewrite Eh. exact B5.
  - unfold publish_message_to in E. unfold p_publish. rewrite B6, firstn_all, (middlewares_ok t v (qm q) (qa q) (mids p) (qmn q) B7).
    assert (Hp : middlewares_pass t v p = negb (existsb (fun m => topic_eqb (fst m) t && negb (snd m v)) (mids p))).
    { unfold middlewares_pass. clear. induction (mids p) as [|m l IH]; cbn; auto. rewrite IH. destruct (topic_eqb (fst m) t), (snd m v); reflexivity. }
    rewrite <- Hp. destruct (middlewares_pass t v p).
    + destruct (deliver t v (ss p) (sl p) (hb p) 0) as [(b & n)|] eqn:Ed; [|discriminate]. injection E as <- <-. destruct B5 as (addrs & ND & Lt & Ch).
      destruct (deliver_stands t v (ss p) (qs q) (ql q) (sl p) addrs (qh q) (hb p) (qb q) 0 (loops (ql q)) b n Ch ltac:(unfold loops; lia) B3 B1 Ed) as (b1 & E1 & Hb1).
      rewrite E1. eexists. split; [reflexivity|]. constructor; cbn [fst snd hb hn ss sc sl mids qb qn qs qc ql qh qa qk qm qmn]; auto. exists addrs. auto.
    + injection E as <- <-. exists q. split; [reflexivity|]. constructor; auto.
  - injection E as <- <-. eexists. split; [reflexivity|]. unfold p_add_middleware, add_topic_middleware.
    constructor; cbn [fst snd hb hn ss sc sl mids qb qn qs qc ql qh qa qk qm qmn]; auto.
    + rewrite B6, firstn_all, app_length. cbn. lia.
    + rewrite B6, firstn_all. apply Forall2_app.
      * eapply Forall2_impl; [|exact B7]. intros o m (x & -> & Hx & Hm). exists x. split; auto. split; [lia|]. unfold upd. destruct (Nat.eqb_spec x (qmn q)); [lia|auto].
      * constructor; [|constructor]. exists (qmn q). split; auto. split; [lia|]. unfold upd. rewrite Nat.eqb_refl. reflexivity.
Qed.
Theorem C27_abstraction : forall es p rs, ps_run es ps0 = Some (p, rs) -> exists q, p_run es ph0 = Some (q, rs) /\ stands p q.
Proof.
  assert (G : forall es p q p' rs, stands p q -> ps_run es p = Some (p', rs) -> exists q', p_run es q = Some (q', rs) /\ stands p' q').
  { induction es as [|e es IH]; intros p q p' rs St E; cbn [ps_run p_run] in *; [injection E as <- <-; eauto|].
    destruct (ps_event e p) as [(p1 & r)|] eqn:E1; [|discriminate]. destruct (ps_run es p1) as [(p2 & rs2)|] eqn:E2; [|discriminate]. injection E as <- <-.
    destruct (event_stands e p q p1 r St E1) as (q1 & Eq & S1). destruct (IH p1 q1 p2 rs2 S1 E2) as (q2 & Eq2 & S2). exists q2. rewrite Eq, Eq2. auto. }
  intros es p rs E. apply (G es ps0 ph0 p rs); auto. constructor; cbn; auto. exists []. split; [constructor|split; [intros a []|reflexivity]].
Qed.

(** ** A history that meets all hypotheses
    Two buses, three subscriptions, a middleware that rejects words with bit 8 set,
    publishes before and after, unsubscribing, freeing a bus. *)
Definition w5 : Word := int_to_word 5.
Definition w256 : Word := int_to_word 256.
Definition sample : list event :=
  [NewBus; NewBus; Subscribe T_DATA 0; Subscribe T_DIR1 1; Subscribe T_DATA 1; Publish T_DATA w256; Update 1;
   AddMiddleware T_DATA check_data_bus_overflow; Publish T_DATA w256; Publish T_DATA w5; Unsubscribe 0; Unsubscribe 0; Publish T_DIR1 w256; Publish T_DATA w5; FreeBus 0].
Example bus_nonvacuous : exists w, promised_run sample world0 = Some (w, [0; 1; 0; 1; 2; 2; 0; 0; -1; 2; 1; 0; 1; 1; 0]%Z) /\
  w_bus w 0 = None /\ w_bus w 1 = Some (w256, w5) /\ w_live w = [(1, (T_DIR1, 1)); (2, (T_DATA, 1))] /\ w_subs w = 3 /\
  (forall f, In (T_DATA, f) (w_mids w) -> f w5 = true) /\ (exists f, In (T_DATA, f) (w_mids w) /\ f w256 = false) /\ get_used_bits w256 = 9%Z.
Proof.
  eexists. split; [vm_compute; reflexivity|]. split; [vm_compute; reflexivity|]. split; [vm_compute; reflexivity|]. split; [reflexivity|]. split; [reflexivity|].
  split; [|split; [|vm_compute; reflexivity]].
  - cbn [w_mids In]. intros f [X|[]]. injection X as <-. vm_compute. reflexivity.
  - cbn [w_mids In]. eexists. split; [left; reflexivity|]. vm_compute. reflexivity.
Qed.
Example list_nonvacuous : seq_run [LPush 3; LPush 4; LPush 3; LPush 5; LDelete 3; LFind 3; LDelete 9; LDelete 4] [] = ([3; 5], [true; true; true; true; true; true; false; true]).
Proof. reflexivity. Qed.
Example watch_nonvacuous : reg_run (fun x => if Nat.ltb x 2 then R_AC else R_PC) [WReg 1; WReg 0; WReg 5; WGet R_AC; WUnreg 1; WGet R_AC; WGet R_PC; WUnreg 1; WGet R_SP] []
  = ([0; 5], [WNone; WNone; WNone; WFound (Some 1); WBool true; WFound (Some 0); WFound (Some 5); WBool false; WFound None]).
Proof. reflexivity. Qed.

Print Assumptions C27_histories.
Print Assumptions C27_publish.
Print Assumptions C27_abstraction.
Print Assumptions C28_unsubscribe.
Print Assumptions C28_final.
Print Assumptions C28_silent.
Print Assumptions C29_veto.
Print Assumptions C29_init_buses.
Print Assumptions C29_init_buses_code.
Print Assumptions C29_init_buses_fits.
Print Assumptions C30_store_refuted.
Print Assumptions C30_dangling_refuted.
Print Assumptions C30_added.
Print Assumptions C31_histories.
Print Assumptions C31_find.
Print Assumptions C32_histories.
Print Assumptions bus_nonvacuous.
