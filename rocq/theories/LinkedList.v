(** * The linked list of linkedlist.c, node by node
    Nodes live in a heap; a [void *] value is a number; [None] results are
    undefined behaviour (NULL or dangling dereference, double free) or a loop
    that does not end within the fuel.  [malloc] is assumed to succeed
    (linkedlist.c does not check it). *)
From Coq Require Import ZArith List Bool Lia.
Import ListNotations.

(** [struct node], linkedlist.h:3-6.  [next = None] is NULL. *)
Record node := mkNode { nval : nat; nnext : option nat }.
(** Heap of nodes: [None] = not allocated (never allocated or freed). *)
Record lheap := mkLH { lnode : nat -> option node; lfresh : nat }.

Definition lput (h : lheap) (a : nat) (n : option node) : lheap :=
  mkLH (fun x => if Nat.eqb x a then n else lnode h x) (lfresh h).

(** [create_ll_node], linkedlist.c:6-11. *)
Definition create_ll_node (v : nat) (nx : option nat) (h : lheap) : lheap * nat :=
  let a := lfresh h in
  (mkLH (fun x => if Nat.eqb x a then Some (mkNode v nx) else lnode h x) (S a), a).

(** The loop of [push_ll_node], linkedlist.c:14-17: last node reached from [a]. *)
Fixpoint last_node (fuel : nat) (h : lheap) (a : nat) : option nat :=
  match fuel with
  | O => None
  | S f => match lnode h a with
           | None => None
           | Some n => match nnext n with None => Some a | Some b => last_node f h b end
           end
  end.

(** [push_ll_node], linkedlist.c:13-22 (all callers pass [next = NULL]).
    [head = NULL] is dereferenced: undefined. *)
Definition push_ll_node (fuel : nat) (head : option nat) (v : nat) (h : lheap) : option (lheap * nat) :=
  match head with
  | None => None
  | Some a =>
    match last_node fuel h a with
    | None => None
    | Some b =>
      let '(h1, c) := create_ll_node v None h in
      match lnode h1 b with
      | None => None
      | Some n => Some (lput h1 b (Some (mkNode (nval n) (Some c))), c)
      end
    end
  end.

(** [get_node_from_value], linkedlist.c:24-48: (previous, node) or [None] inside
    when not found. *)
Fixpoint get_node (fuel : nat) (h : lheap) (prev cur : option nat) (v : nat)
  : option (option (option nat * nat)) :=
  match fuel with
  | O => None
  | S f => match cur with
           | None => Some None
           | Some a => match lnode h a with
                       | None => None
                       | Some n => if Nat.eqb (nval n) v then Some (Some (prev, a))
                                   else get_node f h (Some a) (nnext n) v
                       end
           end
  end.

(** [delete_node_from_value], linkedlist.c:57-72: new heap, new head, result. *)
Definition delete_node_from_value (fuel : nat) (head : option nat) (v : nat) (h : lheap)
  : option (lheap * option nat * bool) :=
  match get_node fuel h None head v with
  | None => None
  | Some None => Some (h, head, false)
  | Some (Some (prev, a)) =>
    match lnode h a with
    | None => None
    | Some n =>
      match prev with
      | None => Some (lput h a None, nnext n, true)
      | Some p => match lnode h p with
                  | None => None
                  | Some m => let h1 := lput h p (Some (mkNode (nval m) (nnext n))) in
                              Some (lput h1 a None, head, true)
                  end
      end
    end
  end.

(** ** Specification: a C list represents a Coq list *)
Fixpoint chain (h : lheap) (p : option nat) (addrs : list nat) (vals : list nat) : Prop :=
  match addrs, vals with
  | [], [] => p = None
  | a :: addrs', v :: vals' => p = Some a /\ exists nx, lnode h a = Some (mkNode v nx) /\ chain h nx addrs' vals'
  | _, _ => False
  end.
Definition represents (h : lheap) (p : option nat) (vals : list nat) : Prop :=
  exists addrs, NoDup addrs /\ (forall a, In a addrs -> a < lfresh h) /\ chain h p addrs vals.

(** remove the first occurrence *)
Fixpoint remove_first (v : nat) (l : list nat) : list nat :=
  match l with
  | [] => []
  | x :: l' => if Nat.eqb x v then l' else x :: remove_first v l'
  end.

(** ** Proofs *)
Lemma chain_len : forall h addrs vals p, chain h p addrs vals -> length addrs = length vals.
Proof. induction addrs; destruct vals; cbn; intros p H; try tauto. destruct H as (? & ? & ? & H). f_equal; eauto. Qed.

Lemma chain_frame : forall h h' addrs vals p,
  (forall a, In a addrs -> lnode h' a = lnode h a) -> chain h p addrs vals -> chain h' p addrs vals.
Proof.
  induction addrs; destruct vals; cbn; intros p E H; try tauto.
  destruct H as (Hp & nx & Hn & H). split; auto. exists nx. split. rewrite E; auto. apply IHaddrs; auto.
Qed.

Lemma last_node_ok : forall h addrs vals p a, chain h p addrs vals -> p = Some a ->
  forall fuel, length vals <= fuel ->
  exists b pre v, addrs = pre ++ [b] /\ last_node fuel h a = Some b /\ lnode h b = Some (mkNode v None)
    /\ exists vpre, vals = vpre ++ [v] /\ forall h', (forall x, In x pre -> lnode h' x = lnode h x) ->
      forall c w, lnode h' b = Some (mkNode v (Some c)) -> lnode h' c = Some (mkNode w None) ->
        chain h' p (pre ++ [b; c]) (vpre ++ [v; w]).
Proof.
  induction addrs as [|x addrs IH]; destruct vals as [|v vals]; cbn [chain]; intros p a H Hp fuel Hf; try tauto; [congruence|].
  destruct H as (Hx & nx & Hn & H). rewrite Hp in Hx. injection Hx as <-.
  destruct fuel as [|fuel]; [cbn in Hf; lia|].
  destruct nx as [nx|].
  - destruct (IH vals (Some nx) nx H eq_refl fuel ltac:(cbn in Hf; lia)) as (b & pre & v' & E & L & Hb & vpre & Ev & K).
    exists b, (a :: pre), v'. split; [cbn; congruence|]. split. { cbn. rewrite Hn. exact L. }
    split; auto. exists (v :: vpre). split; [cbn; congruence|]. intros h' Hh c w Hc Hw. cbn. split; auto.
    exists (Some nx). split. { rewrite Hh; [exact Hn|left; reflexivity]. }
    apply K; auto. intros y Hy. apply Hh. right; auto.
  - destruct addrs, vals; cbn in H; try tauto; [|destruct H as (H & _); discriminate].
    exists a, [], v. split; auto. split. { cbn. rewrite Hn. reflexivity. } split; auto.
    exists []. split; auto. intros h' _ c w Hc Hw. cbn. split; auto. exists (Some c). split; auto.
    split; auto. exists None. split; auto.
Qed.

Lemma push_ok : forall h p vals v fuel, represents h p vals -> p <> None -> length vals <= fuel ->
  exists h' c, push_ll_node fuel p v h = Some (h', c) /\ represents h' p (vals ++ [v]).
Proof.
  intros h p vals v fuel (addrs & ND & Lt & Ch) Hp Hf.
  destruct p as [a|]; [|congruence].
  destruct (last_node_ok h addrs vals (Some a) a Ch eq_refl fuel Hf) as (b & pre & w & E & L & Hb & vpre & Ev & K).
  unfold push_ll_node. rewrite L. cbn [create_ll_node lnode].
  assert (Hbl : b < lfresh h). { apply Lt. rewrite E. apply in_or_app. right; left; reflexivity. }
  replace (Nat.eqb b (lfresh h)) with false by (symmetry; apply Nat.eqb_neq; lia).
  rewrite Hb. cbn [nval nnext].
  eexists _, _. split; [reflexivity|].
  assert (Hnb : ~ In b pre). { rewrite E in ND. apply NoDup_remove_2 in ND. rewrite app_nil_r in ND. exact ND. }
  exists (pre ++ [b; lfresh h]). split; [|split].
  - rewrite E in ND. change [b; lfresh h] with ([b] ++ [lfresh h]). rewrite app_assoc. 
    assert (Hfr : ~ In (lfresh h) (pre ++ [b])). { intros Hin. rewrite <- E in Hin. apply Lt in Hin. lia. }
    clear - ND Hfr. induction (pre ++ [b]) as [|y l IH]; cbn. { repeat constructor; auto. }
    inversion ND; subst. constructor.
    + intros Hin. apply in_app_or in Hin. destruct Hin as [Hin|[Hin|[]]]; [tauto|]. subst. apply Hfr; left; auto.
    + apply IH; auto. intros Hin; apply Hfr; right; auto.
  - cbn [lput lfresh]. intros x Hx. apply in_app_or in Hx. destruct Hx as [Hx|[Hx|[Hx|[]]]]; subst; try lia.
    enough (x < lfresh h) by lia. apply Lt. apply in_or_app. auto.
  - rewrite Ev. rewrite <- app_assoc. cbn [app].
    apply K.
    + intros x Hx. cbn. assert (x < lfresh h). { apply Lt. rewrite E. apply in_or_app; auto. }
      replace (Nat.eqb x (lfresh h)) with false by (symmetry; apply Nat.eqb_neq; lia).
      destruct (Nat.eqb_spec x b); [subst; tauto|reflexivity].
    + cbn. rewrite Nat.eqb_refl. reflexivity.
    + cbn. rewrite Nat.eqb_refl. replace (Nat.eqb (lfresh h) b) with false by (symmetry; apply Nat.eqb_neq; lia).
      reflexivity.
Qed.

Lemma create_ok : forall h v, exists h' c, create_ll_node v None h = (h', c) /\ represents h' (Some c) [v].
Proof.
  intros h v. eexists _, _. split; [reflexivity|]. exists [lfresh h]. split; [|split].
  - constructor; [intros []|constructor].
  - cbn. intros a [<-|[]]. lia.
  - cbn. split; auto. rewrite Nat.eqb_refl. exists None. auto.
Qed.

Lemma last_cons_default : forall (A : Type) (l : list A) (f : A) d,
  last (map Some l) (Some f) = last (map Some (f :: l)) d.
Proof.
  induction l as [|x l IH]; intros f d; [reflexivity|].
  change (last (map Some (f :: x :: l)) d) with (last (map Some (x :: l)) d).
  rewrite <- (IH x d). rewrite <- (IH x (Some f)). reflexivity.
Qed.

Lemma get_node_found : forall h addrs vals p prev v, chain h p addrs vals -> In v vals ->
  forall fuel, length vals <= fuel ->
  exists pre a post vpre vpost nx,
    addrs = pre ++ a :: post /\ vals = vpre ++ v :: vpost /\ ~ In v vpre /\ length pre = length vpre /\
    get_node fuel h prev p v = Some (Some (last (map Some pre) prev, a)) /\
    lnode h a = Some (mkNode v nx) /\ chain h nx post vpost.
Proof.
  induction addrs as [|x addrs IH]; destruct vals as [|w vals]; cbn [chain]; intros p prev v H Hv fuel Hf; try tauto.
  { destruct Hv. }
  destruct H as (-> & nx & Hn & H). destruct fuel as [|fuel]; [cbn in Hf; lia|].
  destruct (Nat.eqb_spec w v) as [->|N].
  - exists [], x, addrs, [], vals, nx. cbn [app map last length get_node]. rewrite Hn; cbn [nval]. rewrite Nat.eqb_refl.
    repeat split; auto.
  - destruct Hv as [Hv|Hv]; [congruence|].
    destruct (IH vals nx (Some x) v H Hv fuel ltac:(cbn in Hf; lia)) as (pre & a & post & vpre & vpost & nx' & E1 & E2 & E3 & E0 & E4 & E5 & E6).
    exists (x :: pre), a, post, (w :: vpre), vpost, nx'. cbn [app].
    split; [congruence|]. split; [congruence|]. split. { intros [?|?]; [congruence|tauto]. }
    split; [cbn; congruence|].
    split; [|auto]. cbn [get_node]. rewrite Hn; cbn [nval nnext].
    replace (Nat.eqb w v) with false by (symmetry; apply Nat.eqb_neq; auto).
    rewrite E4. f_equal. f_equal. f_equal. apply last_cons_default.
Qed.

Lemma get_node_missing : forall h addrs vals p prev v, chain h p addrs vals -> ~ In v vals ->
  forall fuel, length vals < fuel -> get_node fuel h prev p v = Some None.
Proof.
  induction addrs as [|x addrs IH]; destruct vals as [|w vals]; cbn [chain]; intros p prev v H Hv fuel Hf; try tauto.
  { subst. destruct fuel; [cbn in Hf; lia|reflexivity]. }
  destruct H as (-> & nx & Hn & H). destruct fuel as [|fuel]; [cbn in Hf; lia|].
  cbn [get_node]. rewrite Hn; cbn [nval nnext].
  replace (Nat.eqb w v) with false by (symmetry; apply Nat.eqb_neq; intros ->; apply Hv; left; auto).
  apply IH with (vals := vals); auto. intros ?; apply Hv; right; auto. cbn in Hf; lia.
Qed.

Lemma remove_first_app : forall v pre post, ~ In v pre -> remove_first v (pre ++ v :: post) = pre ++ post.
Proof.
  induction pre as [|x pre IH]; cbn; intros post H. { rewrite Nat.eqb_refl. reflexivity. }
  replace (Nat.eqb x v) with false by (symmetry; apply Nat.eqb_neq; intros ->; apply H; auto).
  f_equal. apply IH. tauto.
Qed.
Lemma remove_first_none : forall v l, ~ In v l -> remove_first v l = l.
Proof.
  induction l as [|x l IH]; cbn; intros H; auto.
  replace (Nat.eqb x v) with false by (symmetry; apply Nat.eqb_neq; intros ->; apply H; auto).
  f_equal. apply IH. tauto.
Qed.

(** splitting a chain in the middle and relinking it *)
Lemma chain_relink : forall h h' pre pl vpre vpl a v post vpost p nx,
  chain h p (pre ++ pl :: a :: post) (vpre ++ vpl :: v :: vpost) -> length pre = length vpre ->
  lnode h a = Some (mkNode v nx) ->
  NoDup (pre ++ pl :: a :: post) ->
  (forall x, x <> pl -> x <> a -> lnode h' x = lnode h x) ->
  lnode h' pl = Some (mkNode vpl nx) ->
  chain h' p (pre ++ pl :: post) (vpre ++ vpl :: vpost).
Proof.
  induction pre as [|x pre IH]; destruct vpre as [|w vpre]; cbn [app chain length];
    intros vpl a v post vpost p nx H Hl Ha ND Hf Hpl; try discriminate.
  - destruct H as (-> & nx1 & H1 & H). split; auto. exists nx. split; auto.
    destruct H as (-> & nx2 & H2 & H). rewrite Ha in H2. injection H2 as <-.
    apply chain_frame with (h := h); auto.
    intros y Hy. apply Hf.
    + inversion ND as [|? ? Hn _]; subst. intros ->. apply Hn; right; auto.
    + inversion ND as [|? ? _ ND']; subst. inversion ND' as [|? ? Hn _]; subst. intros ->. tauto.
  - destruct H as (-> & nx1 & H1 & H). split; auto. exists nx1.
    inversion ND as [|? ? Hn ND']; subst. split.
    + rewrite Hf; auto.
      * intros ->. apply Hn. apply in_or_app; right; left; auto.
      * intros ->. apply Hn. apply in_or_app; right; right; left; auto.
    + eapply IH; eauto.
Qed.

Lemma delete_found : forall h p vals v fuel, represents h p vals -> In v vals -> length vals <= fuel ->
  exists h' p', delete_node_from_value fuel p v h = Some (h', p', true) /\ represents h' p' (remove_first v vals).
Proof.
  intros h p vals v fuel (addrs & ND & Lt & Ch) Hv Hf.
  destruct (get_node_found h addrs vals p None v Ch Hv fuel Hf)
    as (pre & a & post & vpre & vpost & nx & E1 & E2 & E3 & E0 & E4 & E5 & E6).
  unfold delete_node_from_value. rewrite E4, E5. cbn [nnext nval].
  destruct pre as [|y0 pre0] eqn:Epre.
  - cbn [map last]. eexists _, _. split; [reflexivity|].
    destruct vpre as [|? ?]; [|cbn in E0; discriminate].
    rewrite E2. rewrite (remove_first_app v [] vpost E3). cbn [app].
    cbn [app] in E1. subst addrs. inversion ND; subst.
    exists post. split; [auto|]. split. { intros x Hx. cbn. apply Lt. right; auto. }
    apply chain_frame with (h := h); auto. intros x Hx. cbn.
    destruct (Nat.eqb_spec x a); [subst; tauto|reflexivity].
  - destruct (@exists_last _ (y0 :: pre0) ltac:(discriminate)) as (pre' & pl & Epl).
    rewrite <- Epre in *. rewrite Epl in *. clear y0 pre0 Epre Epl pre.
    destruct (@exists_last _ vpre) as (vpre' & vpl & Evpl).
    { intros ->. rewrite app_length in E0. cbn in E0. lia. }
    subst vpre. rewrite !app_length in E0. cbn in E0.
    rewrite map_app. cbn [map]. rewrite last_last.
    rewrite E1, E2 in Ch. rewrite <- !app_assoc in Ch. cbn [app] in Ch.
    rewrite E1 in ND. rewrite <- app_assoc in ND. cbn [app] in ND.
    assert (Hpl : exists m, lnode h pl = Some m /\ nval m = vpl).
    { assert (E : length pre' = length vpre') by lia. clear - Ch E. revert p vpre' E Ch.
      induction pre' as [|x pre IH]; intros p vpre' E Ch; destruct vpre' as [|w vpre]; cbn in E, Ch; try lia.
      - destruct Ch as (? & nx' & H & _). eauto.
      - destruct Ch as (? & nx' & H & Ch). exact (IH nx' vpre ltac:(lia) Ch). }
    destruct Hpl as (m & Hm & Hmv). rewrite Hm. 
    eexists _, _. split; [reflexivity|].
    assert (Hne : pl <> a).
    { apply NoDup_remove_2 in ND. intros ->. apply ND. apply in_or_app. right; left; auto. }
    rewrite E2. rewrite remove_first_app by auto. rewrite <- app_assoc. cbn [app].
    exists (pre' ++ pl :: post). split; [|split].
    + change (pl :: a :: post) with ([pl] ++ a :: post) in ND. rewrite app_assoc in ND.
      apply NoDup_remove_1 in ND. rewrite <- app_assoc in ND. exact ND.
    + intros x Hx. cbn. apply Lt. rewrite E1. rewrite <- app_assoc. cbn [app]. apply in_app_or in Hx. apply in_or_app.
      destruct Hx as [Hx|[Hx|Hx]]; [left|right;left|right;right;right]; auto.
    + eapply chain_relink; eauto; [lia| |].
      * intros x Hx1 Hx2. cbn. destruct (Nat.eqb_spec x a); [tauto|]. destruct (Nat.eqb_spec x pl); [tauto|reflexivity].
      * cbn. destruct (Nat.eqb_spec pl a); [tauto|]. rewrite Nat.eqb_refl. rewrite Hmv. reflexivity.
Qed.

Lemma delete_missing : forall h p vals v fuel, represents h p vals -> ~ In v vals -> length vals < fuel ->
  delete_node_from_value fuel p v h = Some (h, p, false).
Proof.
  intros h p vals v fuel (addrs & ND & Lt & Ch) Hv Hf.
  unfold delete_node_from_value. rewrite (get_node_missing h addrs vals p None v Ch Hv fuel Hf). reflexivity.
Qed.
