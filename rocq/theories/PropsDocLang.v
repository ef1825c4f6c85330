(** * C105, C106: the language of a documentation page, and the contributors it names *)
From Coq Require Import String ZArith NArith List Bool Lia ZifyBool ZifyN.
From Verif Require Import JsStr DocLang.
Import ListNotations.
Open Scope N_scope.

(** ** Specification *)
(** A language code: two small letters, perhaps a hyphen, at most two capitals. *)
Definition code (c : str) : Prop :=
  exists a b h u, c = a :: b :: h ++ u /\ (97 <= a <= 122) /\ (97 <= b <= 122) /\
                  (h = [] \/ h = [45]) /\ (length u <= 2)%nat /\ Forall (fun x => 65 <= x <= 90) u.
(** The address of a page: the directories it is in, each after a slash, and its name. *)
Definition address (dirs : list str) (page : str) : str :=
  concat (map (fun d => 47 :: d) dirs) ++ 47 :: page.
Definition plain (d : str) : Prop := ~ In 47 d.

(** ** The match *)
Lemma lang_at_sound s c r : lang_at s = Some (c, r) -> s = c ++ 47 :: r /\ code c.
Proof.
  unfold lang_at. destruct s as [|a [|b s]]; try discriminate.
  destruct (small a && small b) eqn:Eab; [|discriminate].
  apply andb_prop in Eab. destruct Eab as [Ea Eb]. unfold small in Ea, Eb.
  set (hr := match s with x :: r' => if x =? 45 then ([x], r') else ([], s) | [] => ([], s) end).
  assert (Hh : s = fst hr ++ snd hr /\ (fst hr = [] \/ fst hr = [45])).
  { unfold hr. destruct s as [|x s']; simpl; auto.
    destruct (x =? 45) eqn:E; simpl; auto. apply N.eqb_eq in E. subst. auto. }
  destruct hr as [h s1]. simpl in Hh. destruct Hh as [-> Hh].
  set (cr := match s1 with
             | x :: y :: r' => if capital x then if capital y then ([x; y], r') else ([x], y :: r') else ([], s1)
             | [x] => if capital x then ([x], []) else ([], s1)
             | [] => ([], s1) end).
  assert (Hc : s1 = fst cr ++ snd cr /\ (length (fst cr) <= 2)%nat /\ Forall (fun x => 65 <= x <= 90) (fst cr)).
  { unfold cr, capital. destruct s1 as [|x [|y s']]; simpl; auto.
    - destruct ((65 <=? x) && (x <=? 90)) eqn:E; simpl; repeat split; auto. constructor; [lia|auto].
    - destruct ((65 <=? x) && (x <=? 90)) eqn:E; [destruct ((65 <=? y) && (y <=? 90)) eqn:E2|]; simpl;
        (split; [reflexivity|split; [lia|]]); auto.
      + constructor; [lia|]. constructor; [lia|auto].
      + constructor; [lia|auto]. }
  destruct cr as [u s2]. simpl in Hc. destruct Hc as (-> & Hl & Hu).
  destruct s2 as [|x s2]; [discriminate|]. destruct (x =? 47) eqn:Ex; [|discriminate].
  apply N.eqb_eq in Ex. subst x. intro H. injection H as <- <-. split.
  - simpl. rewrite <- !app_assoc. reflexivity.
  - exists a, b, h, u. repeat split; auto; lia.
Qed.
Lemma lang_at_complete c r : code c -> lang_at (c ++ 47 :: r) = Some (c, r).
Proof.
  intros (a & b & h & u & -> & Ha & Hb & Hh & Hl & Hu).
  assert (Ea : small a = true) by (unfold small; lia).
  assert (Eb : small b = true) by (unfold small; lia).
  assert (Hcap : forall x, 65 <= x <= 90 -> capital x = true /\ (x =? 45) = false) by (intros; unfold capital; lia).
  destruct u as [|x [|y [|z u]]]; [| | |simpl in Hl; lia];
    repeat match goal with H : Forall _ (_ :: _) |- _ => inversion H; clear H; subst end;
    repeat match goal with H : 65 <= ?x <= 90 |- _ => destruct (Hcap _ H); clear H end;
    destruct Hh as [-> | ->]; unfold lang_at; cbn [app]; rewrite Ea, Eb; cbn [andb];
    repeat match goal with H : _ = _ |- _ => rewrite H end; cbn;
    repeat (match goal with H : _ = _ |- _ => rewrite H end; cbn); try reflexivity;
    destruct r; reflexivity.
Qed.
Lemma code_plain c : code c -> plain c.
Proof.
  intros (a & b & h & u & -> & Ha & Hb & Hh & Hl & Hu) [E|[E|Hin]]; try lia.
  apply in_app_or in Hin. destruct Hin as [Hin|Hin].
  - destruct Hh as [-> | ->]; simpl in Hin; [auto|]. destruct Hin as [E|[]]. discriminate.
  - rewrite Forall_forall in Hu. specialize (Hu _ Hin). lia.
Qed.
Lemma split_slash a : forall b r r', plain a -> plain b -> a ++ 47 :: r = b ++ 47 :: r' -> a = b /\ r = r'.
Proof.
  unfold plain. induction a as [|x a IH]; intros [|y b] r r' Ha Hb E; simpl in *.
  - injection E as E. auto.
  - injection E as E1 E2. exfalso. apply Hb. auto.
  - injection E as E1 E2. exfalso. apply Ha. auto.
  - injection E as E1 E2. destruct (IH b r r') as [-> ->]; subst; auto.
Qed.
Lemma lang_at_not d r : plain d -> ~ code d -> lang_at (d ++ 47 :: r) = None.
Proof.
  intros Hp Hn. destruct (lang_at (d ++ 47 :: r)) as [[c r']|] eqn:E; [|reflexivity].
  apply lang_at_sound in E. destruct E as [E Hc].
  apply split_slash in E; [|assumption|apply code_plain; assumption]. destruct E as [-> _]. contradiction.
Qed.
Lemma lang_at_last p : plain p -> lang_at p = None.
Proof.
  intro Hp. destruct (lang_at p) as [[c r']|] eqn:E; [|reflexivity].
  apply lang_at_sound in E. destruct E as [-> _]. exfalso. apply Hp, in_or_app. simpl. auto.
Qed.
Lemma lang_match_skip d : forall s, plain d ->
  lang_match (d ++ s) = match lang_match s with Some (x, c, r) => Some (d ++ x, c, r) | None => None end.
Proof.
  induction d as [|x d IH]; intros s Hp; simpl.
  - destruct (lang_match s) as [[[? ?] ?]|]; reflexivity.
  - destruct (x =? 47) eqn:E; [exfalso; apply N.eqb_eq in E; apply Hp; subst; left; reflexivity|].
    rewrite IH by (intro; apply Hp; right; assumption).
    destruct (lang_match s) as [[[? ?] ?]|]; reflexivity.
Qed.
Lemma address_cons d ds p : address (d :: ds) p = 47 :: d ++ address ds p.
Proof. unfold address. simpl. rewrite <- app_assoc. reflexivity. Qed.
Lemma address_head ds p : exists r, address ds p = 47 :: r.
Proof. destruct ds; [eexists; reflexivity|rewrite address_cons; eauto]. Qed.
Lemma address_app l1 l2 p : address (l1 ++ l2) p = concat (map (fun d => 47 :: d) l1) ++ address l2 p.
Proof. unfold address. rewrite map_app, concat_app, <- app_assoc. reflexivity. Qed.
Lemma lang_match_none ds p : Forall plain ds -> plain p -> (forall d, In d ds -> ~ code d) ->
  lang_match (address ds p) = None.
Proof.
  intros Hd Hp Hn. induction Hd as [|d ds Hd Hds IH].
  - unfold address. simpl. rewrite lang_at_last by assumption.
    rewrite <- (app_nil_r p). rewrite lang_match_skip by assumption. reflexivity.
  - rewrite address_cons. destruct (address_head ds p) as [r Er]. simpl.
    rewrite Er at 1. rewrite lang_at_not by (auto; apply Hn; left; reflexivity).
    rewrite lang_match_skip by assumption. rewrite IH by (intros; apply Hn; right; assumption). reflexivity.
Qed.
Lemma lang_match_some l1 c l2 p : Forall plain l1 -> (forall d, In d l1 -> ~ code d) -> code c ->
  exists r, address l2 p = 47 :: r /\
    lang_match (address (l1 ++ c :: l2) p) = Some (concat (map (fun d => 47 :: d) l1), c, r).
Proof.
  intros Hd Hn Hc. destruct (address_head l2 p) as [r Er]. exists r. split; [assumption|].
  induction Hd as [|d ds Hd Hds IH]; cbn [app].
  - rewrite address_cons, Er. simpl. rewrite lang_at_complete by assumption. reflexivity.
  - rewrite address_cons. destruct (address_head (ds ++ c :: l2) p) as [r1 Er1]. simpl.
    rewrite Er1 at 1. rewrite lang_at_not by (auto; apply Hn; left; reflexivity).
    rewrite lang_match_skip by assumption. rewrite IH by (intros; apply Hn; right; assumption). reflexivity.
Qed.

(** ** C105 *)
(** The language of a page is the first of its directories that is a language code, and
    Spanish when none is. *)
Theorem C105_language dirs page : Forall plain dirs -> plain page ->
  (forall before c after, dirs = before ++ c :: after -> (forall d, In d before -> ~ code d) -> code c ->
     get_language (address dirs page) = c) /\
  ((forall d, In d dirs -> ~ code d) -> get_language (address dirs page) = s2l "es").
Proof.
  intros Hd Hp. split.
  - intros before c after -> Hn Hc. apply Forall_app in Hd. destruct Hd as [Hd _].
    destruct (lang_match_some before c after page Hd Hn Hc) as (r & _ & E). unfold get_language. rewrite E. reflexivity.
  - intro Hn. unfold get_language. rewrite lang_match_none by assumption. reflexivity.
Qed.
(** Changing the language of a page that is in the directory of a language leads to the page of
    the same name in the directory of the other one. *)
Lemma str_eqb_slash s : str_eqb s [47] = true -> s = [47].
Proof.
  destruct s as [|x [|y s]]; simpl; try discriminate.
  - rewrite andb_true_r. intro E. apply N.eqb_eq in E. subst. reflexivity.
  - rewrite andb_false_r. discriminate.
Qed.
Theorem C105_switch old new dirs page : code old -> (dirs <> [] \/ page <> []) ->
  change_language new (address (old :: dirs) page) = address (new :: dirs) page.
Proof.
  intros Hc Hne. unfold change_language.
  destruct (lang_match_some [] old dirs page) as (r & Er & E); [constructor|intros d []|assumption|].
  cbn [app] in E. rewrite E. cbn [map concat app]. rewrite <- Er.
  destruct (str_eqb (address dirs page) [47]) eqn:E1.
  - apply str_eqb_slash in E1. exfalso. destruct dirs as [|d ds].
    + unfold address in E1. simpl in E1. injection E1 as E1. destruct Hne; contradiction.
    + rewrite address_cons in E1. injection E1 as E1. destruct (address_head ds page) as [r1 E2].
      rewrite E2 in E1. destruct d; discriminate.
  - rewrite address_cons. reflexivity.
Qed.
(** The page so reached is in the new language, and changing back leads to the first page. *)
Theorem C105_back old new dirs page : code old -> code new -> (dirs <> [] \/ page <> []) ->
  get_language (change_language new (address (old :: dirs) page)) = new /\
  change_language old (change_language new (address (old :: dirs) page)) = address (old :: dirs) page.
Proof.
  intros Ho Hn Hne. rewrite C105_switch by assumption. split; [|apply C105_switch; assumption].
  destruct (lang_match_some [] new dirs page) as (r & _ & E); [constructor|intros d []|assumption|].
  unfold get_language. cbn [app] in E. rewrite E. reflexivity.
Qed.
(** From the root of a language, or of the site, it leads to the introduction. *)
Theorem C105_root old new : code old ->
  change_language new (address [old] []) = address [new] (s2l "introduction") /\
  change_language new (address [] []) = address [new] (s2l "introduction").
Proof.
  intro Hc. split.
  - unfold change_language. destruct (lang_match_some [] old [] []) as (r & Er & E); [constructor|intros d []|assumption|].
    cbn [app] in E. rewrite E. injection Er as <-. rewrite address_cons. reflexivity.
  - rewrite address_cons. reflexivity.
Qed.
(** Whatever page it is asked on, the page reached is in the new language. *)
Theorem C105_reached new pathname : code new -> (exists r, pathname = 47 :: r) ->
  get_language (change_language new pathname) = new.
Proof.
  intros Hn (r0 & ->). unfold change_language.
  set (d := match lang_match (47 :: r0) with Some (b, _, rest) => b ++ 47 :: rest | None => 47 :: r0 end).
  assert (Hd : exists r, d = 47 :: r).
  { unfold d. destruct (lang_match (47 :: r0)) as [[[b c] rest]|] eqn:E; [|eauto].
    simpl in E. destruct (lang_at r0) as [[c' r']|]; [injection E as <- _ _; simpl; eauto|].
    destruct (lang_match r0) as [[[b' c'] r']|]; [injection E as <- _ _; simpl; eauto|discriminate]. }
  assert (Hd' : exists r, (if str_eqb d [47] then s2l "/introduction" else d) = 47 :: r)
    by (destruct (str_eqb d [47]); [eexists; reflexivity|assumption]).
  destruct Hd' as [r Er]. rewrite Er. unfold get_language. simpl. rewrite lang_at_complete by assumption. reflexivity.
Qed.
(** Not so when the language is not the first directory: it is then put in another place,
    and changing back does not lead to the first page.  Nor for the root of a language
    written without its last slash, which counts as a page. *)
Theorem C105_place_refuted :
  change_language (s2l "en") (address [s2l "mpp"; s2l "es"] (s2l "assembly")) = address [s2l "en"; s2l "mpp"] (s2l "assembly") /\
  change_language (s2l "es") (change_language (s2l "en") (address [s2l "mpp"; s2l "es"] (s2l "assembly")))
    <> address [s2l "mpp"; s2l "es"] (s2l "assembly") /\
  change_language (s2l "en") (address [] (s2l "es")) = address [s2l "en"] (s2l "es").
Proof. repeat split; vm_compute; congruence. Qed.
Lemma code_es : code (s2l "es").
Proof. exists 101, 115, [], []. repeat split; simpl; auto; lia. Qed.
Lemma code_ptBR : code (s2l "pt-BR").
Proof. exists 112, 116, [45], [66; 82]. repeat split; simpl; auto; try lia. repeat constructor; lia. Qed.
Example C105_nonvacuous :
  get_language (s2l "/es/assembly.html") = s2l "es" /\
  get_language (s2l "/pt-BR/mpp/assembly.html") = s2l "pt-BR" /\
  get_language (s2l "/docs/introduction.html") = s2l "es" /\
  change_language (s2l "pt-BR") (s2l "/es/assembly.html") = s2l "/pt-BR/assembly.html" /\
  address [s2l "es"] (s2l "assembly.html") = s2l "/es/assembly.html" /\ code (s2l "es") /\ code (s2l "pt-BR").
Proof. repeat split; try reflexivity; [apply code_es|apply code_ptBR]. Qed.

(** ** C106 *)
(** Authors in the order of their first commit in the list (the most recent one). *)
Fixpoint order (seen : list Z) (l : list person) : list Z :=
  match l with
  | [] => []
  | p :: l' => if in_dec Z.eq_dec (id p) seen then order seen l' else id p :: order (id p :: seen) l'
  end.
Lemma map_set_ids p m : map id (map_set p m) = if in_dec Z.eq_dec (id p) (map id m) then map id m else map id m ++ [id p].
Proof.
  induction m as [|q m IH]; [reflexivity|]. cbn [map_set]. destruct (id q =? id p)%Z eqn:E.
  - apply Z.eqb_eq in E. cbn [map].
    destruct (in_dec Z.eq_dec (id p) (id q :: map id m)) as [H|H]; [rewrite E; reflexivity|].
    exfalso. apply H. left. assumption.
  - apply Z.eqb_neq in E. cbn [map]. rewrite IH.
    destruct (in_dec Z.eq_dec (id p) (map id m)) as [H|H];
      destruct (in_dec Z.eq_dec (id p) (id q :: map id m)) as [H'|H']; try reflexivity.
    + exfalso. apply H'. right. assumption.
    + exfalso. destruct H' as [H'|H']; contradiction.
Qed.
Lemma order_ext l : forall s1 s2, (forall x, In x s1 <-> In x s2) -> order s1 l = order s2 l.
Proof.
  induction l as [|p l IH]; intros s1 s2 H; [reflexivity|]. simpl.
  destruct (in_dec Z.eq_dec (id p) s1) as [H1|H1]; destruct (in_dec Z.eq_dec (id p) s2) as [H2|H2].
  - auto.
  - exfalso. apply H2, H, H1.
  - exfalso. apply H1, H, H2.
  - f_equal. apply IH. intro x. simpl. rewrite H. reflexivity.
Qed.
Lemma remove_dups_ids l : forall m u, remove_dups (map Some l) m = Some u -> map id u = map id m ++ order (map id m) l.
Proof.
  induction l as [|p l IH]; intros m u H; simpl in H.
  - injection H as <-. rewrite app_nil_r. reflexivity.
  - apply IH in H. rewrite H, map_set_ids. simpl. destruct (in_dec Z.eq_dec (id p) (map id m)); [reflexivity|].
    rewrite <- app_assoc. simpl. do 2 f_equal. apply order_ext. intro x. rewrite in_app_iff. simpl. tauto.
Qed.
Lemma order_in l : forall seen x, In x (order seen l) <-> In x (map id l) /\ ~ In x seen.
Proof.
  induction l as [|p l IH]; intros seen x; simpl; [tauto|].
  destruct (in_dec Z.eq_dec (id p) seen) as [H|H]; simpl; rewrite IH; simpl.
  - split; [tauto|]. intros [[<-|H1] H2]; [contradiction|auto].
  - destruct (Z.eq_dec (id p) x) as [<-|N]; [tauto|]. tauto.
Qed.
Lemma order_nodup l : forall seen, NoDup (order seen l).
Proof.
  induction l as [|p l IH]; intro seen; simpl; [constructor|].
  destruct (in_dec Z.eq_dec (id p) seen) as [H|H]; [apply IH|].
  constructor; [|apply IH]. rewrite order_in. simpl. tauto.
Qed.
Lemma order_before l : forall seen a x b y, order seen l = a ++ x :: b -> In y b ->
  exists l1 l2, l = l1 ++ l2 /\ In x (map id l1) /\ ~ In y (map id l1).
Proof.
  induction l as [|p l IH]; intros seen a x b y H Hy; simpl in H; [destruct a; discriminate|].
  pose proof (order_nodup (p :: l) seen) as HN. simpl in HN.
  destruct (in_dec Z.eq_dec (id p) seen) as [Hi|Hi].
  - destruct (IH _ _ _ _ _ H Hy) as (l1 & l2 & -> & H1 & H2). exists (p :: l1), l2. repeat split; simpl; auto.
    intros [<-|H3]; [|auto]. assert (Hs : In (id p) (order seen (l1 ++ l2))).
    { rewrite H. apply in_or_app. right. right. assumption. }
    apply order_in in Hs. tauto.
  - destruct a as [|x' a]; simpl in H; injection H as E H.
    + exists [p], l. repeat split; simpl; auto. intros [<-|[]]. rewrite H in HN. inversion HN. contradiction.
    + destruct (IH _ _ _ _ _ H Hy) as (l1 & l2 & -> & H1 & H2). exists (p :: l1), l2. repeat split; simpl; auto.
      intros [<-|H3]; [|auto]. rewrite H in HN. inversion HN. apply H4. apply in_or_app. right. right. assumption.
Qed.
Lemma map_set_in p m : forall q, In q (map_set p m) -> NoDup (map id m) -> q = p \/ (In q m /\ id q <> id p).
Proof.
  induction m as [|r m IH]; simpl; intros q H HN; [destruct H as [H|[]]; auto|].
  inversion HN; subst. destruct (id r =? id p)%Z eqn:E.
  - apply Z.eqb_eq in E. destruct H as [H|H]; [auto|]. right. split; [auto|].
    intro E1. apply H2. rewrite E, <- E1. apply in_map. assumption.
  - apply Z.eqb_neq in E. destruct H as [<-|H]; [right; auto|].
    destruct (IH q H H3) as [H4|[H4 H5]]; auto.
Qed.
Lemma map_set_nodup p m : NoDup (map id m) -> NoDup (map id (map_set p m)).
Proof.
  intro H. rewrite map_set_ids. destruct (in_dec _ _ _) as [Hi|Hi]; [assumption|].
  apply NoDup_rev in H. rewrite <- (rev_involutive (map id m ++ [id p])). apply NoDup_rev.
  rewrite rev_app_distr. simpl. constructor; [rewrite <- in_rev; assumption|assumption].
Qed.
Lemma remove_dups_last l : forall m u q, remove_dups (map Some l) m = Some u -> NoDup (map id m) -> In q u ->
  (exists l1 l2, l = l1 ++ q :: l2 /\ ~ In (id q) (map id l2)) \/ (In q m /\ ~ In (id q) (map id l)).
Proof.
  induction l as [|p l IH]; intros m u q H HN Hq; simpl in H.
  - injection H as <-. right. auto.
  - destruct (IH _ _ _ H (map_set_nodup p m HN) Hq) as [(l1 & l2 & -> & H1)|[H1 H2]].
    + left. exists (p :: l1), l2. auto.
    + destruct (map_set_in p m q H1 HN) as [->|[H3 H4]].
      * left. exists [], l. auto.
      * right. split; [assumption|]. simpl. intros [E|H5]; [symmetry in E|]; contradiction.
Qed.
Lemma remove_dups_total l : forall m, exists u, remove_dups (map Some l) m = Some u.
Proof. induction l; intro m; simpl; eauto. Qed.

(** The list of commits is most recent first.  At most three people are named, each once, and
    the number of the others is exact. *)
Theorem C106_count commits shown more : contributors (map Some commits) = Some (shown, more) ->
  NoDup (map id shown) /\ (length shown <= 3)%nat /\ ((length shown < 3)%nat -> more = 0%Z) /\
  (Z.of_nat (length shown) + more = Z.of_nat (length (nodup Z.eq_dec (map id commits))))%Z.
Proof.
  unfold contributors. destruct (remove_dups (map Some commits) []) as [u|] eqn:E; [|discriminate].
  intro H. assert (H1 : shown = firstn 3 u) by congruence.
  assert (H2 : more = (Z.of_nat (length u) - Z.of_nat (length shown))%Z) by congruence. clear H.
  pose proof (remove_dups_ids _ _ _ E) as Hu. simpl in Hu.
  assert (HN : NoDup (map id u)) by (rewrite Hu; apply order_nodup).
  assert (HL : length u = length (nodup Z.eq_dec (map id commits))).
  { rewrite <- (map_length id u). apply Nat.le_antisymm; apply NoDup_incl_length.
    - assumption.
    - intros x Hx. apply nodup_In. rewrite Hu in Hx. apply order_in in Hx. tauto.
    - apply NoDup_nodup.
    - intros x Hx. apply nodup_In in Hx. rewrite Hu. apply order_in. simpl. tauto. }
  assert (Hlen : length shown = Nat.min 3 (length u)) by (rewrite H1; apply firstn_length).
  repeat split; try lia.
  rewrite <- (firstn_skipn 3 u), map_app, <- H1 in HN.
  clear - HN. induction (map id shown) as [|x s IH]; [constructor|]. simpl in HN. inversion HN; subst.
  constructor; [|auto]. intro Hx. apply H1. apply in_or_app. auto.
Qed.
(** They are the ones whose last commit is the most recent, and in that order: of somebody named
    and somebody named later or not named, the first has a commit more recent than all of the other. *)
Theorem C106_recent commits shown more x y first others :
  contributors (map Some commits) = Some (shown, more) ->
  map id shown = first ++ x :: others -> In y (map id commits) -> ~ In y (first ++ [x]) ->
  exists recent older, commits = recent ++ older /\ In x (map id recent) /\ ~ In y (map id recent).
Proof.
  unfold contributors. destruct (remove_dups (map Some commits) []) as [u|] eqn:E; [|discriminate].
  intros H Hs Hy Hn. assert (H1 : shown = firstn 3 u) by congruence. clear H.
  pose proof (remove_dups_ids _ _ _ E) as Hu. simpl in Hu.
  assert (Hsp : map id u = first ++ x :: (others ++ map id (skipn 3 u))).
  { rewrite <- (firstn_skipn 3 u) at 1. rewrite map_app, <- H1, Hs, <- app_assoc. reflexivity. }
  rewrite Hu in Hsp. apply (order_before commits [] _ _ _ y Hsp).
  assert (Hin : In y (order [] commits)) by (apply order_in; simpl; tauto).
  rewrite Hsp in Hin. apply in_app_or in Hin. destruct Hin as [Hin|[Hin|Hin]].
  - exfalso. apply Hn, in_or_app. auto.
  - exfalso. apply Hn, in_or_app. right. left. assumption.
  - assumption.
Qed.
(** Each is named as in the oldest of the commits that are theirs. *)
Theorem C106_name commits shown more p : contributors (map Some commits) = Some (shown, more) -> In p shown ->
  exists newer older, commits = newer ++ p :: older /\ ~ In (id p) (map id older).
Proof.
  unfold contributors. destruct (remove_dups (map Some commits) []) as [u|] eqn:E; [|discriminate].
  intros H Hp. assert (H1 : shown = firstn 3 u) by congruence.
  assert (Hq : In p u) by (rewrite <- (firstn_skipn 3 u); apply in_or_app; left; rewrite <- H1; assumption).
  destruct (remove_dups_last _ _ _ _ E (NoDup_nil _) Hq) as [H2|[[] _]]. exact H2.
Qed.
(** The list cannot be made exactly when a commit has no known author. *)
Theorem C106_unknown commits : contributors commits = None <-> In None commits.
Proof.
  assert (H : forall m, remove_dups commits m = None <-> In None commits).
  { induction commits as [|[p|] l IH]; intro m; simpl; [split; [discriminate|tauto]| |tauto].
    rewrite IH. split; [auto|intros [H|H]; [discriminate|assumption]]. }
  unfold contributors. rewrite <- (H []). destruct (remove_dups commits []); split; congruence.
Qed.
Definition ann := mkPerson (s2l "ann") 1.
Definition ann' := mkPerson (s2l "ann-old") 1.
Definition bob := mkPerson (s2l "bob") 2.
Definition cid := mkPerson (s2l "cid") 3.
Definition dan := mkPerson (s2l "dan") 4.
Example C106_nonvacuous :
  contributors (map Some [bob; ann; bob; cid; ann'; dan]) = Some ([bob; ann'; cid], 1%Z) /\
  contributors (map Some [bob; bob]) = Some ([bob], 0%Z) /\
  contributors [Some bob; None; Some ann] = None.
Proof. repeat split. Qed.

Print Assumptions C105_language.
Print Assumptions C105_switch.
Print Assumptions C105_back.
Print Assumptions C105_root.
Print Assumptions C105_reached.
Print Assumptions C105_place_refuted.
Print Assumptions C106_count.
Print Assumptions C106_recent.
Print Assumptions C106_name.
Print Assumptions C106_unknown.
