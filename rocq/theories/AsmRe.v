(** * The regular expressions of operations.json on single lines
    Each of them accepts exactly the lines of one shape: a name; a name, a white
    space and a word; the same with a comma and a second word. *)
From Coq Require Import String ZArith NArith List Bool Lia ZifyBool ZifyN.
From Verif Require Import JsStr AsmTable Asm AsmSpec.
Import ListNotations.
Open Scope Z_scope.

Inductive karg := KLit (w : str) | KWord.
Inductive kind := K0 (m : str) | K1 (m : str) (a : karg) | K2 (m : str) (a : karg) (b : str).
Definition karg_item (a : karg) : item := match a with KLit w => CapLit w | KWord => CapWord end.
Definition items_of (k : kind) : list item :=
  match k with
  | K0 m => [Bol; CapLit m; Eol]
  | K1 m a => [Bol; CapLit m; Sp; karg_item a; Eol]
  | K2 m a b => [Bol; CapLit m; Sp; karg_item a; Lit 44; OptSp; CapLit b; Eol]
  end.
Definition kind_of (l : list item) : option kind :=
  match l with
  | [Bol; CapLit m; Eol] => Some (K0 m)
  | [Bol; CapLit m; Sp; CapLit a; Eol] => Some (K1 m (KLit a))
  | [Bol; CapLit m; Sp; CapWord; Eol] => Some (K1 m KWord)
  | [Bol; CapLit m; Sp; CapLit a; Lit 44; OptSp; CapLit b; Eol] => Some (K2 m (KLit a) b)
  | [Bol; CapLit m; Sp; CapWord; Lit 44; OptSp; CapLit b; Eol] => Some (K2 m KWord b)
  | _ => None
  end.
Definition is_upper (c : N) : bool := ((65 <=? c) && (c <=? 90))%N.
Definition good_lit (w : str) : bool := negb (Nat.eqb (List.length w) 0) && forallb is_upper w.
Definition good_arg (a : karg) : bool := match a with KLit w => good_lit w | KWord => true end.
Definition good_kind (k : kind) : bool :=
  match k with
  | K0 m => good_lit m
  | K1 m a => good_lit m && good_arg a
  | K2 m a b => good_lit m && good_arg a && good_lit b
  end.
Definition ikind (i : instruction) : option kind := kind_of (new_regexp (REGEX i)).

Lemma kind_of_items : forall l k, kind_of l = Some k -> l = items_of k.
Proof.
  intros l k H.
  repeat (let x := fresh in destruct l as [|x l]; [try discriminate H; injection H as <-; reflexivity|]; destruct x; try discriminate H).
  all: try (injection H as <-; reflexivity).
  all: cbn in H;
    repeat match type of H with
           | context [match ?x with _ => _ end] => is_var x; destruct x; try discriminate H; cbn in H
           end.
  all: try (injection H as <-; reflexivity).
Qed.

Definition kinds_ok : bool :=
  forallb (fun i => match ikind i with Some k => good_kind k | None => false end) operations.
Lemma kinds_ok_true : kinds_ok = true. Proof. vm_compute. reflexivity. Qed.
Lemma ikind_ok : forall i, In i operations -> exists k, ikind i = Some k /\ good_kind k = true /\ new_regexp (REGEX i) = items_of k.
Proof.
  intros i H. pose proof kinds_ok_true as K. unfold kinds_ok in K. rewrite forallb_forall in K. specialize (K i H).
  destruct (ikind i) as [k|] eqn:E; [|discriminate]. exists k. split; auto. split; auto. apply kind_of_items. exact E.
Qed.

(** ** Shapes *)
Fixpoint span (s : str) : str * str :=
  match s with
  | [] => ([], [])
  | x :: r => if is_word x then let '(w, r') := span r in (x :: w, r') else ([], s)
  end.
Definition opt_ws (r : str) : str := match r with z :: r' => if is_ws z then r' else r | [] => [] end.
Inductive shp := S0 (w : str) | S1 (w a : str) | S2 (w a b : str) | SX.
Definition shape (s : str) : shp :=
  let '(w, r) := span s in
  match r with
  | [] => S0 w
  | x :: r1 =>
      if is_ws x then
        let '(a, r2) := span r1 in
        match r2 with
        | [] => S1 w a
        | y :: r3 =>
            if N.eqb y 44 then
              let r4 := opt_ws r3 in
              let '(b, r6) := span r4 in
              match r6 with [] => S2 w a b | _ => SX end
            else SX
        end
      else SX
  end.
Definition nonnil (s : str) : bool := match s with [] => false | _ => true end.
Definition arg_match (a : karg) (x : str) : bool :=
  match a with KLit l => str_eqb (upper x) l | KWord => nonnil x end.
Definition kmatch (k : kind) (sh : shp) : option (list str) :=
  match k, sh with
  | K0 m, S0 w => if str_eqb (upper w) m then Some [w] else None
  | K1 m a, S1 w x => if str_eqb (upper w) m && arg_match a x then Some [w; x] else None
  | K2 m a b, S2 w x y => if str_eqb (upper w) m && arg_match a x && str_eqb (upper y) b then Some [w; x; y] else None
  | _, _ => None
  end.

Lemma str_eqb_eq : forall a b, str_eqb a b = true <-> a = b.
Proof.
  induction a as [|x a IH]; destruct b as [|y b]; cbn; try (split; congruence).
  rewrite andb_true_iff, N.eqb_eq, IH. split; [intros [-> ->]; auto|intros H; injection H; auto].
Qed.
Lemma str_eqb_refl : forall a, str_eqb a a = true.
Proof. intros. apply str_eqb_eq. reflexivity. Qed.

Lemma span_app : forall s w r, span s = (w, r) -> s = w ++ r /\ (forall c, In c w -> is_word c = true) /\
  (forall c r', r = c :: r' -> is_word c = false).
Proof.
  induction s as [|x s IH]; intros w r H; cbn in H.
  - injection H as <- <-. repeat split; auto; try discriminate; intros c [].
  - destruct (is_word x) eqn:E.
    + destruct (span s) as [w' r'] eqn:Es. injection H as <- <-. destruct (IH w' r' eq_refl) as (-> & H1 & H2).
      split; auto. split; auto. intros c [<-|Hc]; auto.
    + injection H as <- <-. split; auto. split; [intros c []|]. intros c r' H. injection H as <- <-. exact E.
Qed.
Lemma span_of : forall w r, (forall c, In c w -> is_word c = true) -> (forall c r', r = c :: r' -> is_word c = false) ->
  span (w ++ r) = (w, r).
Proof.
  induction w as [|x w IH]; intros r Hw Hr; cbn [app].
  - destruct r as [|c r]; cbn; auto. rewrite (Hr c r eq_refl). reflexivity.
  - cbn. rewrite (Hw x) by (cbn; auto). rewrite IH; auto. intros; apply Hw; cbn; auto.
Qed.

Lemma is_upper_up : forall c, is_upper c = true -> up c = c.
Proof. intros c H. unfold is_upper in H. unfold up. destruct ((97 <=? c) && (c <=? 122))%N eqn:E; auto. lia. Qed.
Lemma up_upper_word : forall c x, is_upper c = true -> up x = c -> is_word x = true.
Proof.
  intros c x H E. unfold is_upper in H. unfold up in E. unfold is_word.
  destruct ((97 <=? x) && (x <=? 122))%N eqn:E2; lia.
Qed.
Lemma word_not_ws : forall c, is_word c = true -> is_ws c = false.
Proof. intros c H. unfold is_word in H. unfold is_ws. cbn [existsb]. repeat rewrite orb_false_iff. repeat split; try (apply N.eqb_neq; lia). Qed.
Lemma lt_ws : forall c, is_lt c = true -> is_ws c = true.
Proof. intros c H. unfold is_lt in H. cbn [existsb] in H. unfold is_ws. cbn [existsb]. lia. Qed.
Lemma word_not_lt : forall c, is_word c = true -> is_lt c = false.
Proof. intros c H. apply word_not_ws in H. destruct (is_lt c) eqn:E; auto. apply lt_ws in E. congruence. Qed.
Lemma ws_not_word : forall c, is_ws c = true -> is_word c = false.
Proof. intros c H. destruct (is_word c) eqn:E; auto. apply word_not_ws in E. congruence. Qed.

(** Without [^] the character before the position does not matter. *)
Definition no_bol (k : list item) : bool := forallb (fun i => match i with Bol => false | _ => true end) k.
Lemma strip_prev : forall w s p p', match strip w s p, strip w s p' with
  | Some (m, r, _), Some (m', r', _) => m = m' /\ r = r' | None, None => True | _, _ => False end.
Proof.
  induction w as [|c w IH]; intros s p p'; cbn; auto. destruct s as [|x s]; auto. destruct (ceq c x); auto.
  destruct (strip w s (Some x)) as [[[m r] q]|]; auto.
Qed.
Lemma try_ext : forall f g s n, (forall p r, f p r = g p r) -> try_word f s n = try_word g s n.
Proof. intros f g s n H. induction n; cbn; auto. rewrite H, IHn. reflexivity. Qed.
Lemma re_prev : forall k s p p', no_bol k = true -> re_match k p s = re_match k p' s.
Proof.
  induction k as [|i k IH]; intros s p p' H; cbn [re_match]; auto.
  cbn [no_bol forallb] in H. apply andb_true_iff in H. destruct H as (Hi & Hk).
  destruct i; try discriminate; auto.
  - destruct s; auto. destruct (is_lt n); auto.
  - destruct s; auto. destruct (is_ws n); auto. rewrite (IH _ p p'); auto.
  - pose proof (strip_prev w s p p') as G. destruct (strip w s p) as [[[m r] q]|], (strip w s p') as [[[m' r'] q']|]; try tauto.
    destruct G as (-> & ->). rewrite (IH _ q q'); auto.
Qed.

(** A literal group followed by something that cannot continue a word. *)
Lemma strip_span : forall m s p (g : str -> str -> option (list str)), forallb is_upper m = true ->
  (forall m' c r, is_word c = true -> g m' (c :: r) = None) ->
  match strip m s p with Some (m', r, _) => g m' r | None => None end =
  let '(w, r) := span s in if str_eqb (upper w) m then g w r else None.
Proof.
  induction m as [|c m IH]; intros s p g G F; cbn [strip].
  - destruct s as [|x s]; cbn [span]; [reflexivity|]. destruct (is_word x) eqn:E; [|reflexivity].
    destruct (span s) as [w r]. cbn. rewrite F by exact E. reflexivity.
  - cbn [forallb] in G. apply andb_true_iff in G. destruct G as (Gc & Gm). destruct s as [|x s]; cbn [span]; [reflexivity|].
    unfold ceq. rewrite (is_upper_up c Gc). destruct (N.eqb_spec c (up x)) as [E|N].
    + rewrite (up_upper_word c x Gc (eq_sym E)).
      specialize (IH s (Some x) (fun m' r => g (x :: m') r) Gm (fun m' => F (x :: m'))).
      destruct (span s) as [w r]. cbn [upper map str_eqb]. rewrite <- E, N.eqb_refl. cbn [andb]. fold (upper w). rewrite <- IH.
      destruct (strip m s (Some x)) as [[[m' r'] q]|]; reflexivity.
    + destruct (is_word x); [|reflexivity]. destruct (span s) as [w r]. cbn [upper map str_eqb].
      destruct (N.eqb_spec (up x) c); [congruence|]. reflexivity.
Qed.

Lemma run_span : forall s w r, span s = (w, r) -> run s = List.length w.
Proof.
  induction s as [|x s IH]; intros w r H; cbn in *.
  - injection H as <- <-. reflexivity.
  - destruct (is_word x); [|injection H as <- <-; reflexivity].
    destruct (span s) as [w' r'] eqn:E. injection H as <- <-. cbn. f_equal. eauto.
Qed.
Lemma try_short : forall f s n, (n <= run s)%nat -> (forall p c r, is_word c = true -> f p (c :: r) = None) ->
  (n < run s)%nat -> try_word f s n = None.
Proof.
  intros f s n _ F. induction n as [|n IH]; intros H; cbn [try_word]; auto.
  rewrite IH by lia.
  assert (G : exists c r, skipn (S n) s = c :: r /\ is_word c = true).
  { clear - H. revert s H. induction n as [|n IH]; intros s H.
    - destruct s as [|a [|b s]]; cbn [run] in H; [lia|destruct (is_word a); lia|].
      destruct (is_word a); [|lia]. destruct (is_word b) eqn:E; [|lia]. exists b, s. auto.
    - destruct s as [|a s]; cbn [run] in H; [lia|]. destruct (is_word a); [|lia]. destruct (IH s) as (c & r & E & W); [lia|]. exists c, r. split; auto. }
  destruct G as (c & r & E & W). rewrite E, F by exact W. reflexivity.
Qed.
Lemma try_span : forall f s p0, (forall p c r, is_word c = true -> f p (c :: r) = None) -> (forall p p' r, f p r = f p' r) ->
  try_word f s (run s) = let '(w, r) := span s in if nonnil w then option_map (cons w) (f p0 r) else None.
Proof.
  intros f s p0 F P. destruct (span s) as [w r] eqn:E. pose proof (run_span _ _ _ E) as R. apply span_app in E. destruct E as (-> & _ & _).
  rewrite R. destruct w as [|x w]; [reflexivity|]. cbn [List.length nonnil]. cbn [try_word].
  assert (E1 : skipn (S (List.length w)) ((x :: w) ++ r) = r).
  { change (S (List.length w)) with (List.length (x :: w)). rewrite skipn_app, skipn_all, Nat.sub_diag. reflexivity. }
  assert (E2 : firstn (S (List.length w)) ((x :: w) ++ r) = x :: w).
  { change (S (List.length w)) with (List.length (x :: w)). rewrite firstn_app, firstn_all, Nat.sub_diag. cbn. rewrite app_nil_r. reflexivity. }
  rewrite E1, E2, (P _ p0). destruct (f p0 r); [reflexivity|]. cbn [option_map].
  apply try_short; auto; rewrite R; cbn [List.length]; lia.
Qed.

(** What may follow a group never starts with a word character. *)
Definition stops (k : list item) : Prop := forall p c r, is_word c = true -> re_match k p (c :: r) = None.
Lemma stops_eol : forall k, stops (Eol :: k).
Proof. intros k p c r H. cbn [re_match]. rewrite (word_not_lt c H). reflexivity. Qed.
Lemma stops_sp : forall k, stops (Sp :: k).
Proof. intros k p c r H. cbn [re_match]. rewrite (word_not_ws c H). reflexivity. Qed.
Lemma stops_comma : forall k, stops (Lit 44 :: k).
Proof.
  intros k p c r H. cbn [re_match]. unfold ceq. change (up 44) with 44%N. destruct (N.eqb_spec 44 (up c)); auto.
  exfalso. unfold is_word in H. unfold up in e. destruct ((97 <=? c) && (c <=? 122))%N eqn:E; lia.
Qed.
Lemma match_lit : forall w k p s, forallb is_upper w = true -> no_bol k = true -> stops k ->
  re_match (CapLit w :: k) p s = let '(v, r) := span s in if str_eqb (upper v) w then option_map (cons v) (re_match k None r) else None.
Proof.
  intros w k p s G B F. cbn [re_match].
  pose proof (strip_span w s p (fun m r => option_map (cons m) (re_match k None r)) G) as H.
  rewrite <- H by (intros m' c r W; rewrite F by exact W; reflexivity).
  destruct (strip w s p) as [[[m r] q]|]; auto. rewrite (re_prev k r q None) by exact B. reflexivity.
Qed.
Lemma match_arg : forall a k p s, good_arg a = true -> no_bol k = true -> stops k ->
  re_match (karg_item a :: k) p s = let '(v, r) := span s in if arg_match a v then option_map (cons v) (re_match k None r) else None.
Proof.
  intros [w|] k p s G B F; cbn [karg_item].
  - cbn [good_arg] in G. unfold good_lit in G. apply andb_true_iff in G. apply match_lit; tauto.
  - cbn [re_match]. rewrite (try_span _ s None F) by (intros; apply re_prev; exact B). reflexivity.
Qed.
Lemma match_eol : forall s, (forall c, In c s -> is_lt c = false) -> forall p, re_match [Eol] p s = match s with [] => Some [] | _ => None end.
Proof. intros s H p. cbn [re_match]. destruct s as [|c s]; auto. rewrite (H c) by (cbn; auto). reflexivity. Qed.

Lemma single_tail : forall a b, single_line (a ++ b) -> single_line b.
Proof. intros a b H c Hc. apply H. apply in_or_app. auto. Qed.
Lemma single_cons : forall a b, single_line (a :: b) -> single_line b.
Proof. intros a b H c Hc. apply H. cbn; auto. Qed.

Lemma span_ws : forall z r, is_ws z = true -> span (z :: r) = ([], z :: r).
Proof. intros z r H. cbn. rewrite (ws_not_word z H). reflexivity. Qed.

Ltac no_match := cbn [kmatch]; repeat (match goal with |- context [if ?b then _ else _] => destruct b end); reflexivity.

Lemma match_shape : forall k s, good_kind k = true -> single_line s -> re_match (items_of k) None s = kmatch k (shape s).
Proof.
  intros k s G L. destruct k as [m|m a|m a b]; cbn [items_of good_kind] in *; unfold good_lit in G;
    repeat match goal with H : _ && _ = true |- _ => apply andb_true_iff in H; destruct H end.
  - change (re_match [CapLit m; Eol] None s = kmatch (K0 m) (shape s)).
    rewrite match_lit; [|assumption|reflexivity|apply stops_eol]. unfold shape.
    destruct (span s) as [w r] eqn:E. apply span_app in E. destruct E as (-> & _ & _). apply single_tail in L.
    rewrite match_eol by exact L. destruct r as [|x r]; [reflexivity|].
    destruct (is_ws x); [|no_match].
    destruct (span r) as [a r2]. destruct r2 as [|y r3]; [no_match|].
    destruct (N.eqb y 44); [|no_match]. destruct (span _) as [b [|? ?]]; no_match.
  - change (re_match [CapLit m; Sp; karg_item a; Eol] None s = kmatch (K1 m a) (shape s)).
    rewrite match_lit; [|assumption|destruct a; reflexivity|apply stops_sp]. unfold shape.
    destruct (span s) as [w r] eqn:E. apply span_app in E. destruct E as (-> & _ & _). apply single_tail in L.
    destruct r as [|x r]; [cbn; no_match|].
    destruct (is_ws x) eqn:Ew.
    2:{ cbn [re_match]. rewrite Ew. no_match. }
    replace (re_match [Sp; karg_item a; Eol] None (x :: r)) with (re_match [karg_item a; Eol] (Some x) r) by (cbn [re_match]; rewrite Ew; reflexivity).
    rewrite match_arg; [|assumption|reflexivity|apply stops_eol]. apply single_cons in L.
    destruct (span r) as [v r2] eqn:E. apply span_app in E. destruct E as (-> & _ & _). apply single_tail in L.
    rewrite match_eol by exact L. destruct r2 as [|y r3].
    + cbn [kmatch]. destruct (str_eqb _ _), (arg_match _ _); reflexivity.
    + destruct (N.eqb y 44); [|no_match]. destruct (span _) as [b [|? ?]]; no_match.
  - change (re_match [CapLit m; Sp; karg_item a; Lit 44; OptSp; CapLit b; Eol] None s = kmatch (K2 m a b) (shape s)).
    rewrite match_lit; [|assumption|destruct a; reflexivity|apply stops_sp]. unfold shape.
    destruct (span s) as [w r] eqn:E. apply span_app in E. destruct E as (-> & _ & _). apply single_tail in L.
    destruct r as [|x r]; [cbn; no_match|].
    destruct (is_ws x) eqn:Ew.
    2:{ cbn [re_match]. rewrite Ew. no_match. }
    replace (re_match [Sp; karg_item a; Lit 44; OptSp; CapLit b; Eol] None (x :: r)) with (re_match [karg_item a; Lit 44; OptSp; CapLit b; Eol] (Some x) r) by (cbn [re_match]; rewrite Ew; reflexivity).
    rewrite match_arg; [|assumption|reflexivity|apply stops_comma]. apply single_cons in L.
    destruct (span r) as [v r2] eqn:E. apply span_app in E. destruct E as (-> & _ & _). apply single_tail in L.
    destruct r2 as [|y r3]; [cbn; no_match|].
    assert (Ey : ceq 44 y = N.eqb y 44).
    { unfold ceq. change (up 44) with 44%N. unfold up. destruct ((97 <=? y) && (y <=? 122))%N eqn:E1; lia. }
    destruct (N.eqb y 44) eqn:Ec.
    2:{ cbn [re_match]. rewrite Ey. no_match. }
    replace (re_match [Lit 44; OptSp; CapLit b; Eol] None (y :: r3)) with (re_match [OptSp; CapLit b; Eol] (Some y) r3) by (cbn [re_match]; rewrite Ey; reflexivity).
    apply single_cons in L.
    assert (Eo : re_match [OptSp; CapLit b; Eol] (Some y) r3 =
      re_match [CapLit b; Eol] None (opt_ws r3)).
    { destruct r3 as [|z r5].
      - change (re_match [CapLit b; Eol] (Some y) [] = re_match [CapLit b; Eol] None []). apply re_prev. reflexivity.
      - change (re_match [OptSp; CapLit b; Eol] (Some y) (z :: r5)) with
          (if is_ws z then match re_match [CapLit b; Eol] (Some z) r5 with Some c => Some c | None => re_match [CapLit b; Eol] (Some y) (z :: r5) end
           else re_match [CapLit b; Eol] (Some y) (z :: r5)).
        destruct (is_ws z) eqn:Ez.
        + cbn [opt_ws]. rewrite Ez. rewrite (re_prev [CapLit b; Eol] r5 (Some z) None) by reflexivity.
          destruct (re_match [CapLit b; Eol] None r5) eqn:Em; [reflexivity|].
          rewrite match_lit; [|assumption|reflexivity|apply stops_eol]. rewrite span_ws by exact Ez.
          destruct b as [|b0 b]; [discriminate|reflexivity].
        + cbn [opt_ws]. rewrite Ez. apply re_prev. reflexivity. }
    rewrite Eo. clear Eo.
    set (r4 := opt_ws r3).
    assert (L4 : single_line r4).
    { subst r4. unfold opt_ws. destruct r3 as [|z r5]; [intros c []|]. destruct (is_ws z); auto. apply single_cons in L. exact L. }
    rewrite match_lit; [|assumption|reflexivity|apply stops_eol].
    destruct (span r4) as [u r6] eqn:E. apply span_app in E. destruct E as (E & _ & _). rewrite E in L4. apply single_tail in L4.
    rewrite match_eol by exact L4. destruct r6 as [|? ?].
    + cbn [kmatch]. destruct (str_eqb (upper w) m), (arg_match a v), (str_eqb (upper u) b); reflexivity.
    + no_match.
Qed.

(** [^] matches only at the start of a single line. *)
Lemma search_start : forall k s, single_line s -> re_exec (items_of k) s = re_match (items_of k) None s.
Proof.
  intros k s L. unfold re_exec.
  assert (G : forall t p, single_line t -> (exists c, p = Some c /\ is_lt c = false) -> re_search (items_of k) p t = None).
  { induction t as [|x s' IH]; intros p Ls (c & -> & Hc); cbn [re_search].
    - destruct k; cbn [items_of re_match]; rewrite Hc; reflexivity.
    - replace (re_match (items_of k) (Some c) (x :: s')) with (@None (list str)).
      + apply IH; [apply single_cons in Ls; exact Ls|]. exists x. split; auto. apply Ls. cbn; auto.
      + destruct k; cbn [items_of re_match]; rewrite Hc; reflexivity. }
  destruct s as [|x s]; cbn [re_search]; destruct (re_match (items_of k) None _); auto.
  apply G; [apply single_cons in L; exact L|]. exists x. split; auto. apply L. cbn; auto.
Qed.

Theorem ins_exec_shape : forall i s, In i operations -> single_line s ->
  exists k, ikind i = Some k /\ ins_exec i s = kmatch k (shape s).
Proof.
  intros i s H L. destruct (ikind_ok i H) as (k & E & G & R). exists k. split; auto.
  unfold ins_exec. rewrite R, search_start, match_shape by auto. reflexivity.
Qed.
