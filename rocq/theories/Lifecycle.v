(** * [init] and [shutdown] never misuse memory; [init] gives a fresh machine *)
From Coq Require Import ZArith List Bool Lia.
From Verif Require Import Word Prog Tables Components Machine LinkedList PubSub Api ZRefine HeapSim.
Import ListNotations.
Open Scope nat_scope.

Lemma busid_eqb_refl : forall b, busid_eqb b b = true.
Proof. intros. apply busid_eqb_eq. reflexivity. Qed.
Lemma busid_eqb_ne : forall a b, a <> b -> busid_eqb a b = false.
Proof. intros a b H. apply not_true_iff_false. intros E. apply H. apply busid_eqb_eq. exact E. Qed.
Lemma bset_same : forall A (f : busid -> A) b v, bset f b v b = v.
Proof. intros. unfold bset. rewrite busid_eqb_refl. reflexivity. Qed.
Lemma bset_other : forall A (f : busid -> A) b v b', b' <> b -> bset f b v b' = f b'.
Proof. intros. unfold bset. rewrite busid_eqb_ne; auto. Qed.

(** ** init *)
Record progress := mkPr { pC : list busid; pS : list busid; pZ : list regid; pW : list regid; pM : bool }.

Record ist (rnd : Z -> Z) (h0 h : hstate) (g : progress) : Prop := {
  i_sane : sane (ps h);
  i_C : forall b, In b (pC g) -> exists a, bp h b = Some a /\ hb (ps h) a = Some (mkBus zero_word zero_word);
  i_inj : forall b b', In b (pC g) -> In b' (pC g) -> bp h b = bp h b' -> b = b';
  i_S : forall b, In b (pS g) -> In b (pC g) /\ exists i a, sp h b = Some i /\ bp h b = Some a /\
          In i (sl (ps h)) /\ ss (ps h) i = Some (mkSub (topic_of b) (Some a) true);
  i_noS : forall b, In b (pC g) -> ~ In b (pS g) -> forall i s, In i (sl (ps h)) -> ss (ps h) i = Some s -> sbus s <> bp h b;
  i_Z : forall r, In r (pZ g) -> hr h r = zero_word;
  i_W : forall r, In r (pW g) -> In r (wl h);
  i_M : pM g = true -> exists f, hm h = Mem f /\ forall i, f i = random_int (rnd i) 0 255;
  i_env : same_env h0 h /\ hl h = hl h0
}.

Definition memb (b : busid) (l : list busid) := existsb (busid_eqb b) l.
Lemma memb_in : forall b l, memb b l = true <-> In b l.
Proof.
  intros b l. unfold memb. rewrite existsb_exists. split.
  - intros (x & H & E). apply busid_eqb_eq in E. subst; auto.
  - intros H. exists b. split; auto. apply busid_eqb_refl.
Qed.
Lemma memb_out : forall b l, memb b l = false <-> ~ In b l.
Proof. intros. rewrite <- memb_in. destruct (memb b l); split; congruence. Qed.

Definition istep (c : lstmt) (g : progress) : option progress :=
  match c with
  | FillMem => Some (mkPr (pC g) (pS g) (pZ g) (pW g) true)
  | Zero r => Some (mkPr (pC g) (pS g) (r :: pZ g) (pW g) (pM g))
  | Watch r => Some (mkPr (pC g) (pS g) (pZ g) (r :: pW g) (pM g))
  | Create b => if memb b (pC g) then None else Some (mkPr (b :: pC g) (pS g) (pZ g) (pW g) (pM g))
  | Sub b => if memb b (pC g) && negb (memb b (pS g)) then Some (mkPr (pC g) (b :: pS g) (pZ g) (pW g) (pM g)) else None
  | _ => None
  end.
Fixpoint isteps (l : list lstmt) (g : progress) : option progress :=
  match l with [] => Some g | c :: l' => match istep c g with Some g' => isteps l' g' | None => None end end.

Lemma istep_ok : forall rnd h0 h g c g', ist rnd h0 h g -> istep c g = Some g' ->
  exists h', lexec rnd c h = Some h' /\ ist rnd h0 h' g'.
Proof.
  intros rnd h0 h g c g' I E. destruct I as [IA IC II IS IN IZ IW IM IE].
  destruct c; cbn [istep] in E; try discriminate.
  - injection E as <-. eexists. split; [reflexivity|]. constructor; cbn; eauto.
  - injection E as <-. eexists. split; [reflexivity|]. constructor; cbn; auto.
    intros x [<-|Hx]; unfold rset.
    + replace (regid_eqb r r) with true by (symmetry; apply regid_eqb_eq; auto). reflexivity.
    + destruct (regid_eqb x r); auto.
  - destruct (memb b (pC g)) eqn:Eb; [discriminate|]. injection E as <-. apply memb_out in Eb.
    cbn. eexists. split; [reflexivity|].
    destruct IA as [A1 A2 A3 A4 A5].
    assert (Fr : forall a b, hb (ps h) a = Some b -> a <> hn (ps h)). { intros a b' Ha. apply A4 in Ha. lia. }
    assert (Fs : forall i s, In i (sl (ps h)) -> ss (ps h) i = Some s -> sbus s <> Some (hn (ps h))).
    { intros i s Hi Hs. destruct (A2 i Hi) as (_ & s' & a & b' & E1 & E2 & E3 & E4). rewrite Hs in E1. injection E1 as <-.
      rewrite E3. intros [=->]. apply Fr in E4. tauto. }
    constructor; cbn; auto.
    + constructor; cbn; auto.
      * intros i Hi. destruct (A2 i Hi) as (L & s' & a & b' & E1 & E2 & E3 & E4). split; auto.
        exists s', a, b'. unfold upd. destruct (Nat.eqb_spec a (hn (ps h))) as [->|]; auto; exfalso; eapply Fr; eauto.
      * intros a b' Ha. unfold upd in Ha. destruct (Nat.eqb_spec a (hn (ps h))) as [->|]; [lia|]. apply A4 in Ha; lia.
    + intros b' [<-|Hb'].
      * rewrite bset_same. eexists. split; [reflexivity|]. unfold upd. rewrite Nat.eqb_refl. reflexivity.
      * rewrite bset_other by (intros ->; tauto). destruct (IC b' Hb') as (a & E1 & E2). exists a. split; auto.
        unfold upd. destruct (Nat.eqb_spec a (hn (ps h))) as [->|]; auto; exfalso; eapply Fr; eauto.
    + assert (Hf : forall b', In b' (pC g) -> bp h b' <> Some (hn (ps h))).
      { intros b' Hb'. destruct (IC b' Hb') as (a & E1 & E2). rewrite E1. intros [=->]. apply Fr in E2. tauto. }
      intros b1 b2 [<-|H1] [<-|H2] Ex; auto.
      * rewrite bset_same, bset_other in Ex by (intros ->; tauto). exfalso. apply (Hf b2 H2). auto.
      * rewrite bset_same, bset_other in Ex by (intros ->; tauto). exfalso. apply (Hf b1 H1). auto.
      * rewrite !bset_other in Ex by (intros ->; tauto). auto.
    + intros b' Hb'. destruct (IS b' Hb') as (Hc & i & a & E1 & E2 & E3 & E4). split; auto.
      exists i, a. rewrite bset_other by (intros ->; tauto). auto.
    + intros b' [<-|Hb'] Hn i s Hi Hs.
      * rewrite bset_same. eauto.
      * rewrite bset_other by (intros ->; tauto). eauto.
  - destruct (memb b (pC g)) eqn:Eb; [|discriminate]. destruct (memb b (pS g)) eqn:Es; [discriminate|].
    injection E as <-. apply memb_in in Eb. apply memb_out in Es.
    cbn. eexists. split; [reflexivity|].
    destruct IA as [A1 A2 A3 A4 A5].
    destruct (IC b Eb) as (a & Ea & Ha).
    assert (Hlt : forall i, In i (sl (ps h)) -> i <> sc (ps h)). { intros i Hi. destruct (A2 i Hi). lia. }
    assert (Ho : forall i, In i (sl (ps h)) -> upd (ss (ps h)) (sc (ps h)) (Some (mkSub (topic_of b) (bp h b) true)) i = ss (ps h) i).
    { intros i Hi. unfold upd. destruct (Nat.eqb_spec i (sc (ps h))); auto. apply Hlt in Hi; tauto. }
    assert (Hn : upd (ss (ps h)) (sc (ps h)) (Some (mkSub (topic_of b) (bp h b) true)) (sc (ps h)) = Some (mkSub (topic_of b) (bp h b) true)).
    { unfold upd. rewrite Nat.eqb_refl. reflexivity. }
    constructor; cbn; auto.
    + constructor; cbn; auto.
      * clear - A1 Hlt.
        induction (sl (ps h)) as [|x l IH]; cbn. { repeat constructor; auto. }
        inversion A1; subst. constructor.
        -- intros Hin. apply in_app_or in Hin. destruct Hin as [Hin|[Hin|[]]]; [tauto|].
           apply (Hlt x); [left; auto|auto].
        -- apply IH; auto. intros i Hi. apply Hlt. right; auto.
      * intros i Hi. apply in_app_or in Hi. destruct Hi as [Hi|[<-|[]]].
        -- destruct (A2 i Hi) as (L & s' & a' & b' & E1 & E2 & E3 & E4). split; [lia|]. rewrite Ho by auto. eauto 8.
        -- split; [lia|]. rewrite Hn. rewrite Ea. eexists _, a, _. cbn. eauto.
      * intros i j si sj Hi Hj Hsi Hsj Ex. apply in_app_or in Hi. apply in_app_or in Hj.
        destruct Hi as [Hi|[<-|[]]]; destruct Hj as [Hj|[<-|[]]]; auto.
        -- rewrite Ho in Hsi, Hsj by auto. eauto.
        -- rewrite Ho in Hsi by auto. rewrite Hn in Hsj. injection Hsj as <-. cbn in Ex. exfalso. eapply IN; eauto.
        -- rewrite Ho in Hsj by auto. rewrite Hn in Hsi. injection Hsi as <-. cbn in Ex. exfalso. eapply IN; eauto.
    + intros b' [<-|Hb'].
      * split; auto. exists (sc (ps h)), a. rewrite bset_same. split; auto. split; auto. split.
        -- apply in_or_app. right; left; auto.
        -- rewrite Hn, Ea. reflexivity.
      * destruct (IS b' Hb') as (Hc & i & a' & E1 & E2 & E3 & E4). split; auto.
        exists i, a'. rewrite bset_other by (intros ->; tauto). split; auto. split; auto. split.
        -- apply in_or_app; auto.
        -- rewrite Ho; auto.
    + intros b' Hb' Hn' i s Hi Hs. apply in_app_or in Hi. destruct Hi as [Hi|[<-|[]]].
      * rewrite Ho in Hs by auto. apply (IN b' Hb') with (i := i); auto.
      * rewrite Hn in Hs. injection Hs as <-. cbn. intros Ex. apply Hn'. left. apply II; auto.
  - injection E as <-. eexists. split; [reflexivity|]. constructor; cbn; auto.
    intros x [<-|Hx]; apply in_or_app; [right; left; auto|left; auto].
Qed.

Lemma isteps_ok : forall rnd h0 l h g g', ist rnd h0 h g -> isteps l g = Some g' ->
  exists h', lrun rnd l h = Some h' /\ ist rnd h0 h' g'.
Proof.
  induction l as [|c l IH]; cbn; intros h g g' I E.
  - injection E as <-. eauto.
  - destruct (istep c g) as [g1|] eqn:E1; [|discriminate].
    destruct (istep_ok _ _ _ _ _ _ I E1) as (h1 & L1 & I1). rewrite L1. eauto.
Qed.

Definition g0 := mkPr [] [] [] [] false.
Definition gend := match isteps init_list g0 with Some g => g | None => g0 end.

Opaque gend.
Lemma gend_eq : isteps init_list g0 = Some gend.
Proof. vm_compute; reflexivity. Qed.
Lemma gend_S : forall b, In b all_buses -> In b (pS gend).
Proof.
  intros b Hb. refine (proj1 (memb_in _ _) _).
  assert (X : forallb (fun b => memb b (pS gend)) all_buses = true) by (vm_compute; reflexivity).
  exact (proj1 (forallb_forall _ _) X b Hb).
Qed.
Lemma gend_R : forall r, In r (pZ gend) /\ In r (pW gend).
Proof.
  intros r. assert (X : forallb (fun r => existsb (regid_eqb r) (pZ gend) && existsb (regid_eqb r) (pW gend))
    [R_AC; R_FC; R_FZ; R_B; R_C; R_D; R_E; R_H; R_L; R_2OP; R_PCH; R_PCL; R_PC; R_SP; R_RI] = true) by (vm_compute; reflexivity).
  pose proof (proj1 (forallb_forall _ _) X r ltac:(destruct r; cbn; tauto)) as Y.
  apply andb_true_iff in Y. destruct Y as (Y1 & Y2).
  apply existsb_exists in Y1, Y2. destruct Y1 as (x & Hx & Ex). destruct Y2 as (y & Hy & Ey).
  apply regid_eqb_eq in Ex, Ey. subst x y. exact (conj Hx Hy).
Qed.
Lemma gend_M : pM gend = true.
Proof. vm_compute; reflexivity. Qed.

(** A freshly initialised machine: all buses and registers 0, memory filled by [rnd]. *)
Definition fresh (rnd : Z -> Z) (log : list msg) : mstate :=
  mkM (fun _ => zero_word) (fun _ => zero_word) (fun _ => zero_word) (fun i => random_int (rnd i) 0 255) log.

Definition all_regs := [R_AC; R_FC; R_FZ; R_B; R_C; R_D; R_E; R_H; R_L; R_2OP; R_PCH; R_PCL; R_PC; R_SP; R_RI].

Lemma init_ok : forall rnd h, sane (ps h) -> exists h', api_init rnd h = Some h' /\ sim h' (fresh rnd (hl h)) /\ same_env h h'.
Proof.
  intros rnd h S.
  assert (I : ist rnd h h g0).
  { constructor; cbn; auto; try tauto; try discriminate. split; auto. split; reflexivity. }
  pose proof gend_eq as E. pose proof gend_S as AC. pose proof gend_R as AR. pose proof gend_M as AM.
 generalize dependent gend. intros gend E AC AR AM.
  destruct (isteps_ok rnd h init_list h g0 gend I E) as (h' & L & I'). exists h'. split; [exact L|].
  destruct I' as [IA IC II IS IN IZ IW IM (IE & IL)]. split; [|exact IE].
  constructor; auto.
  - intros b Hb. destruct (IS b (AC b Hb)) as (Hc & i & a & E1 & E2 & E3 & E4).
    destruct (IC b Hc) as (a' & E5 & E6). exists a, i. rewrite E2 in E5. injection E5 as <-. cbn. auto.
  - intros b b' Hb Hb'. apply II; [apply (IS b (AC b Hb))|apply (IS b' (AC b' Hb'))].
  - intros r. cbn. apply IZ. apply AR.
  - destruct (IM AM) as (f & F1 & F2). exists f. split; [auto|intros o _; apply F2].
  - intros r. apply IW. apply AR.
Qed.

(** ** shutdown *)
Record dst (h : hstate) (U D : list busid) (m : bool) : Prop := {
  d_sane : sane (ps h);
  d_bus : forall b, In b all_buses -> ~ In b D -> exists a bs, bp h b = Some a /\ hb (ps h) a = Some bs;
  d_inj : forall b b', In b all_buses -> In b' all_buses -> bp h b = bp h b' -> b = b';
  d_sub : forall b, In b all_buses -> ~ In b U -> exists i a, sp h b = Some i /\ bp h b = Some a /\ In i (sl (ps h)) /\
            ss (ps h) i = Some (mkSub (topic_of b) (Some a) true);
  d_gone : forall b, In b U -> In b all_buses /\ forall i s, In i (sl (ps h)) -> ss (ps h) i = Some s -> sbus s <> bp h b;
  d_freed : forall b, In b D -> exists a, bp h b = Some a /\ hb (ps h) a = None;
  d_mem : m = true -> exists f, hm h = Mem f
}.

Record dprog := mkDP { dU : list busid; dD : list busid; dM : bool }.
Definition dstep (c : lstmt) (g : dprog) : option dprog :=
  match c with
  | FreeMem => if dM g then Some (mkDP (dU g) (dD g) false) else None
  | Unwatch r => Some g
  | Unsub b => if memb b all_buses && negb (memb b (dU g)) then Some (mkDP (b :: dU g) (dD g) (dM g)) else None
  | Destroy b => if memb b (dU g) && negb (memb b (dD g)) then Some (mkDP (dU g) (b :: dD g) (dM g)) else None
  | _ => None
  end.
Fixpoint dsteps (l : list lstmt) (g : dprog) : option dprog :=
  match l with [] => Some g | c :: l' => match dstep c g with Some g' => dsteps l' g' | None => None end end.

Lemma in_remove_first : forall x i l, NoDup l -> In x (remove_first i l) <-> In x l /\ x <> i.
Proof.
  intros x i l. induction l as [|y l IH]; cbn; intros ND; [tauto|].
  inversion ND; subst. destruct (Nat.eqb_spec y i) as [->|N].
  - split. { intros Hx. split; auto. intros ->. tauto. } intros ([?|?] & ?); [congruence|auto].
  - cbn. rewrite IH by auto. split. { intros [->|[? ?]]; auto. } intros ([?|?] & ?); auto.
Qed.
Lemma nodup_remove_first : forall i l, NoDup l -> NoDup (remove_first i l).
Proof.
  intros i l. induction l as [|y l IH]; cbn; intros ND; auto. inversion ND; subst.
  destruct (Nat.eqb_spec y i); auto. constructor; auto. intros Hx. apply in_remove_first in Hx; tauto.
Qed.

Lemma dstep_ok : forall rnd h g c g', dst h (dU g) (dD g) (dM g) -> dstep c g = Some g' ->
  exists h', lexec rnd c h = Some h' /\ dst h' (dU g') (dD g') (dM g') /\ same_env h h' /\ hl h' = hl h.
Proof.
  intros rnd h g c g' X E. destruct X as [XA XB XI XS XG XF XM].
  destruct c; cbn [dstep] in E; try discriminate.
  - destruct (dM g); [|discriminate]. injection E as <-. destruct XM as (f & Ef); auto.
    cbn. rewrite Ef. eexists. split; [reflexivity|]. split; [|split; [split; reflexivity|reflexivity]].
    constructor; cbn; auto. discriminate.
  - destruct (memb b all_buses) eqn:Eb; [|discriminate]. destruct (memb b (dU g)) eqn:Eu; [discriminate|].
    injection E as <-. apply memb_in in Eb. apply memb_out in Eu.
    destruct (XS b Eb Eu) as (i & a & E1 & E2 & E3 & E4).
    destruct XA as [A1 A2 A3 A4 A5].
    cbn [lexec]. unfold unsubscribe_for. rewrite E1. destruct (sl (ps h)) as [|x0 l0] eqn:El; [destruct E3|]. rewrite <- El in *.
    rewrite E4. destruct (A2 i E3) as (Lt & _).
    replace (Nat.leb (sc (ps h)) i) with false by (symmetry; apply Nat.leb_gt; lia).
    replace (existsb (Nat.eqb i) (sl (ps h))) with true.
    2:{ symmetry. apply existsb_exists. exists i. split; auto. apply Nat.eqb_refl. }
    eexists. split; [reflexivity|]. split; [|split; [split; reflexivity|reflexivity]].
    assert (Ho : forall j, j <> i -> upd (ss (ps h)) i (Some (mkSub (topic_of b) (Some a) false)) j = ss (ps h) j).
    { intros j Hj. unfold upd. destruct (Nat.eqb_spec j i); tauto. }
    cbn [dU dD dM]. constructor; cbn [set_ps ps hb hn ss sc sl mids bp sp hm stop sbus]; auto.
    + constructor; cbn [hb hn ss sc sl mids]; auto.
      * apply nodup_remove_first; auto.
      * intros j Hj. apply in_remove_first in Hj; auto. destruct Hj as (Hj & Nj). rewrite Ho by auto. auto.
      * intros j k sj sk Hj Hk. apply in_remove_first in Hj; auto. apply in_remove_first in Hk; auto.
        destruct Hj, Hk. rewrite !Ho by auto. eauto.
    + intros b' Hb' Nb'. destruct (XS b' Hb') as (i' & a' & F1 & F2 & F3 & F4). { intros ?; apply Nb'; right; auto. }
      assert (i' <> i). { intros ->. rewrite E4 in F4. injection F4 as _ <-. apply Nb'. left. apply XI; auto. congruence. }
      exists i', a'. rewrite Ho by auto. split; auto. split; auto. split; auto. apply in_remove_first; auto.
    + intros b' [<-|Hb'].
      * split; auto. intros j s Hj Hs. apply in_remove_first in Hj; auto. destruct Hj as (Hj & Nj). rewrite Ho in Hs by auto.
        rewrite E2. intros Ex. apply Nj. apply (A3 j i _ _ Hj E3 Hs E4). exact Ex.
      * destruct (XG b' Hb') as (G1 & G2). split; auto. intros j s Hj Hs. apply in_remove_first in Hj; auto.
        destruct Hj as (Hj & Nj). rewrite Ho in Hs by auto. eauto.
  - destruct (memb b (dU g)) eqn:Eu; [|discriminate]. destruct (memb b (dD g)) eqn:Ed; [discriminate|].
    injection E as <-. apply memb_in in Eu. apply memb_out in Ed.
    destruct (XG b Eu) as (Eb & G). destruct (XB b Eb Ed) as (a & bs & E1 & E2).
    destruct XA as [A1 A2 A3 A4 A5].
    cbn [lexec]. unfold destroy_bus_data. rewrite E1, E2.
    eexists. split; [reflexivity|]. split; [|split; [split; reflexivity|reflexivity]].
    assert (Ho : forall x, x <> a -> upd (hb (ps h)) a None x = hb (ps h) x).
    { intros j Hj. unfold upd. destruct (Nat.eqb_spec j a); tauto. }
    cbn [dU dD dM]. constructor; cbn [set_ps ps hb hn ss sc sl mids bp sp hm]; auto.
    + constructor; cbn [hb hn ss sc sl mids]; auto.
      * intros i Hi. destruct (A2 i Hi) as (L & s & a' & b' & F1 & F2 & F3 & F4). split; auto.
        exists s, a', b'. rewrite Ho. auto. intros ->. apply (G i s Hi F1). congruence.
      * intros x b' Hx. unfold upd in Hx. destruct (Nat.eqb x a); [discriminate|eauto].
    + intros b' Hb' Nb'. destruct (XB b' Hb') as (a' & bs' & F1 & F2). { intros ?; apply Nb'; right; auto. }
      exists a', bs'. rewrite Ho. auto. intros ->. apply Nb'. left. apply XI; auto. congruence.
    + intros b' [<-|Hb'].
      * exists a. split; auto. unfold upd. rewrite Nat.eqb_refl. reflexivity.
      * destruct (XF b' Hb') as (a' & F1 & F2). exists a'. split; auto. unfold upd. destruct (Nat.eqb a' a); auto.
  - injection E as <-. eexists. split; [reflexivity|]. split; [|split; [split; reflexivity|reflexivity]]. constructor; cbn; auto.
Qed.

Lemma dsteps_ok : forall rnd l h g g', dst h (dU g) (dD g) (dM g) -> dsteps l g = Some g' ->
  exists h', lrun rnd l h = Some h' /\ dst h' (dU g') (dD g') (dM g') /\ same_env h h' /\ hl h' = hl h.
Proof.
  induction l as [|c l IH]; cbn; intros h g g' I E.
  - injection E as <-. exists h. split; auto. split; auto. split; [split|]; reflexivity.
  - destruct (dstep c g) as [g1|] eqn:E1; [|discriminate].
    destruct (dstep_ok rnd _ _ _ _ I E1) as (h1 & L1 & I1 & (F1 & F2) & F3). rewrite L1.
    destruct (IH h1 g1 g' I1 E) as (h2 & L2 & I2 & (F4 & F5) & F6). exists h2. split; auto. split; auto.
    split; [split|]; congruence.
Qed.

Definition dend := match dsteps shutdown_list (mkDP [] [] true) with Some g => g | None => mkDP [] [] true end.
Opaque dend.
Lemma dend_eq : dsteps shutdown_list (mkDP [] [] true) = Some dend.
Proof. vm_compute; reflexivity. Qed.
Lemma dend_D : forall b, In b all_buses -> b <> B K_MXREG T_CONTROL -> In b (dD dend).
Proof.
  intros b Hb Nb.
  assert (Y : forallb (fun b => busid_eqb b (B K_MXREG T_CONTROL) || memb b (dD dend)) all_buses = true) by (vm_compute; reflexivity).
  pose proof (proj1 (forallb_forall _ _) Y b Hb) as Z. cbv beta in Z. rewrite busid_eqb_ne in Z by auto.
  exact (proj1 (memb_in _ _) Z).
Qed.

Lemma shutdown_ok : forall h s, sim h s ->
  exists h', api_shutdown h = Some h' /\ sane (ps h') /\ same_env h h' /\ hl h' = hl h /\
    forall b, In b all_buses -> b <> B K_MXREG T_CONTROL -> exists a, bp h' b = Some a /\ hb (ps h') a = None.
Proof.
  intros h s S. destruct S as [SA SB SI SR SM SL SW].
  pose proof dend_eq as E. pose proof dend_D as Y. generalize dependent dend. intros gf E Y.
  edestruct (dsteps_ok (fun _ => 0%Z) shutdown_list h (mkDP [] [] true) gf) as (h' & L & X & F & G).
  - cbn. constructor; auto; try (intros ? []; fail).
    + intros b Hb _. destruct (SB b Hb) as (a & i & E1 & E2 & _). eauto.
    + intros b Hb _. destruct (SB b Hb) as (a & i & E1 & E2 & E3 & E4 & E5). eauto 8.
    + intros _. destruct SM as (f & E1 & _). eauto.
  - exact E.
  - exists h'. split; [exact L|]. split; [apply (d_sane _ _ _ _ X)|]. split; auto. split; auto.
    intros b Hb Nb. apply (d_freed _ _ _ _ X). auto.
Qed.

Lemma second_shutdown_undefined : forall h s h', sim h s -> api_shutdown h = Some h' -> api_shutdown h' = None.
Proof.
  intros h s h' S E. destruct (shutdown_ok h s S) as (h1 & E1 & _ & _ & _ & F). rewrite E in E1. injection E1 as <-.
  destruct (F (B K_LCU T_Q5)) as (a & Fa & Fb). { apply in_buses. vm_compute. reflexivity. } { discriminate. }
  unfold api_shutdown, shutdown_list, shutdown_linker_cu, unsubs, destroys.
  change (map (fun t => Destroy (B K_LCU t)) (Qs ++ Ds)) with (Destroy (B K_LCU T_Q5) :: map (fun t => Destroy (B K_LCU t)) (tl Qs ++ Ds)).
  rewrite <- app_assoc. cbn [app].
  generalize (map (fun t => Destroy (B K_LCU t)) (tl Qs ++ Ds) ++ shutdown_linker_mem ++ shutdown_linker_bus ++ shutdown_components).
  intros tl. clear S E F. revert h' Fa Fb. induction (Qs ++ Ds) as [|t l IH]; intros h' Fa Fb.
  - cbn. rewrite Fa. cbn. rewrite Fb. reflexivity.
  - cbn [map app lrun lexec].
    destruct (unsubscribe_for (sp h' (B K_LCU t)) (ps h')) as [[p r]|] eqn:Eu; [|reflexivity].
    apply IH; cbn; auto.
    unfold unsubscribe_for in Eu. destruct (sp h' (B K_LCU t)); [|injection Eu as <- _; auto].
    destruct (sl (ps h')); [injection Eu as <- _; auto|]. destruct (ss (ps h') n); [|discriminate].
    destruct (Nat.leb _ _); [injection Eu as <- _; auto|]. destruct (existsb _ _); injection Eu as <- _; auto.
Qed.
