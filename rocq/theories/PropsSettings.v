(** * Theorems: settings survive, apply and stay in range (C72) *)
From Coq Require Import ZArith NArith QArith List Bool Lia.
From Verif Require Import JsStr Settings.
Import ListNotations.
Open Scope list_scope.
Open Scope Q_scope.

(** ** Specification: what the user chose last, read from the history alone *)
Definition in_range (q : Q) : Prop := 0 <= q <= 5000.
Definition range_dec (q : Q) : bool := Qle_bool 0 q && Qle_bool q 5000.
(** The cycle time: the last number typed within range; an emptied field means 500. *)
Definition cycle_of (l : list sevent) : Q :=
  fold_left (fun c e => match e with TypeCycle NaN => 500%Q | TypeCycle (Fin q) => if range_dec q then q else c | _ => c end) l 500%Q.
Definition base_of (l : list sevent) : str :=
  fold_left (fun c e => match e with PickBase b => b | _ => c end) l s_HEX.
Definition language_of (nav : str) (l : list sevent) : str :=
  fold_left (fun c e => match e with PickLanguage x => x | _ => c end) l nav.
Definition measure_of (l : list sevent) : bool :=
  fold_left (fun c e => match e with SwitchMeasure b => b | _ => c end) l true.
Definition code_of (l : list sevent) : str :=
  fold_left (fun c e => match e with KeepCode t => t | _ => c end) l [].
(** The tour has been offered, or its switch used. *)
Definition toured (e : sevent) : bool := match e with Ready | SwitchTour _ => true | _ => false end.

(** ** Invariant *)
Definition stored_is (k : key) (v : value) (st : storage) : Prop :=
  st k = Some v \/ (v = default k /\ (st k = None \/ st k = Some V_null)).
Definition inv (nav : str) (l : list sevent) (p : page) : Prop :=
  stored_is K_cycle (V_num (Fin (cycle_of l))) (stored p) /\ stored_is K_base (V_str (base_of l)) (stored p) /\
  stored p K_language = Some (V_str (language_of nav l)) /\
  (exists m, stored_is K_measure m (stored p) /\ json m = m /\ m <> V_null /\ truthy m = measure_of l /\ measure_switch p = m) /\
  stored_is K_code (V_str (code_of l)) (stored p) /\
  (if existsb toured l then stored p K_onboarding = Some (V_bool false) else stored_is K_onboarding (default K_onboarding) (stored p) /\ shown p = false) /\
  active p = V_str (language_of nav l) /\ lang_sel p = V_str (language_of nav l) /\ base_sel p = V_str (base_of l) /\
  immediate p = Qeq_bool (cycle_of l) 0 /\ (box p = V_num (Fin (cycle_of l)) \/ (box p = V_num NaN /\ cycle_of l = 500%Q)) /\ in_range (cycle_of l).

Lemma get_is : forall k v st, stored_is k v st -> json v = v -> v <> V_null -> fst (get_stored k (default k) st) = v /\ snd (get_stored k (default k) st) k = Some v /\
  forall k', k' <> k -> snd (get_stored k (default k) st) k' = st k'.
Proof.
  intros k v st H J Nn. unfold get_stored. 
  assert (E : st k = Some v -> fst (get_stored k (default k) st) = v /\ snd (get_stored k (default k) st) k = Some v /\ forall k', k' <> k -> snd (get_stored k (default k) st) k' = st k').
  { intros E. unfold get_stored. rewrite E. destruct v; try congruence; cbn [fst snd]; auto. }
  destruct H as [H|(-> & [H|H])]; [exact (E H)| |].
  all: rewrite H; cbn [fst snd]; unfold set_stored; split; [reflexivity|]; split.
  all: try (rewrite J; destruct k; reflexivity).
  all: intros k' Hk; destruct k, k'; try reflexivity; congruence.
Qed.
Lemma set_is : forall k v st, set_stored k v st k = Some (json v).
Proof. intros [] v st; reflexivity. Qed.
Lemma set_other : forall k k' v st, k' <> k -> set_stored k v st k' = st k'.
Proof. intros k k' v st H. unfold set_stored. destruct k, k'; try reflexivity; congruence. Qed.
Lemma is_other : forall k v st st', st' k = st k -> stored_is k v st -> stored_is k v st'.
Proof. intros k v st st' E H. unfold stored_is in *. rewrite E. exact H. Qed.
Lemma onboarding_json : json (default K_onboarding) = default K_onboarding. Proof. reflexivity. Qed.

Lemma snoc_fold : forall (A : Type) (f : A -> sevent -> A) l e (a : A), fold_left f (l ++ [e]) a = f (fold_left f l a) e.
Proof. intros. rewrite fold_left_app. reflexivity. Qed.
Lemma range_ok : forall q, range_dec q = true -> in_range q.
Proof. intros q H. apply andb_true_iff in H. destruct H as (A & B). split; apply Qle_bool_iff; assumption. Qed.
Lemma sum_snoc : forall nav l e,
  cycle_of (l ++ [e]) = match e with TypeCycle NaN => 500%Q | TypeCycle (Fin q) => if range_dec q then q else cycle_of l | _ => cycle_of l end /\
  base_of (l ++ [e]) = match e with PickBase b => b | _ => base_of l end /\
  language_of nav (l ++ [e]) = match e with PickLanguage x => x | _ => language_of nav l end /\
  measure_of (l ++ [e]) = match e with SwitchMeasure b => b | _ => measure_of l end /\
  code_of (l ++ [e]) = match e with KeepCode b => b | _ => code_of l end /\
  existsb toured (l ++ [e]) = existsb toured l || toured e.
Proof.
  intros. unfold cycle_of, base_of, language_of, measure_of, code_of. rewrite !snoc_fold, existsb_app. cbn [existsb]. rewrite orb_false_r. repeat split.
Qed.

Lemma load_inv : forall nav' nav l st m, 
  stored_is K_cycle (V_num (Fin (cycle_of l))) st -> stored_is K_base (V_str (base_of l)) st ->
  (st K_language = Some (V_str (language_of nav l)) \/ (st K_language = None /\ nav' = language_of nav l)) ->
  stored_is K_measure m st -> json m = m -> m <> V_null -> truthy m = measure_of l -> 
  stored_is K_code (V_str (code_of l)) st ->
  (if existsb toured l then st K_onboarding = Some (V_bool false) else stored_is K_onboarding (default K_onboarding) st) -> in_range (cycle_of l) ->
  inv nav l (load nav' st) /\ box (load nav' st) = V_num (Fin (cycle_of l)) /\ shown (load nav' st) = false /\ tour (load nav' st) = false.
Proof.
  intros nav' nav l st m Hc Hb Hl Hm Jm Nm Tm Hk Ho Hr. unfold load.
  assert (G0 : fst (get_stored K_language (V_str nav') st) = V_str (language_of nav l) /\ snd (get_stored K_language (V_str nav') st) K_language = Some (V_str (language_of nav l)) /\
     forall k', k' <> K_language -> snd (get_stored K_language (V_str nav') st) k' = st k').
  { unfold get_stored. destruct Hl as [E|(E & ->)]; rewrite E; cbn [fst snd]; [auto|]. split; [reflexivity|]. split; [reflexivity|]. intros; apply set_other; assumption. }
  destruct (get_stored K_language (V_str nav') st) as (la, s0). cbn [fst snd] in G0. destruct G0 as (-> & L0 & R0).
  assert (Hc0 : stored_is K_cycle (V_num (Fin (cycle_of l))) s0) by (apply (is_other _ _ st); [apply R0; discriminate|exact Hc]).
  destruct (get_is _ _ _ Hc0 eq_refl ltac:(discriminate)) as (G & G1 & R1). destruct (get_stored K_cycle (default K_cycle) s0) as (cy, s1). cbn [fst snd] in *. subst cy.
  assert (Hb1 : stored_is K_base (V_str (base_of l)) s1) by (apply (is_other _ _ st); [rewrite R1, R0 by discriminate; reflexivity|exact Hb]).
  destruct (get_is _ _ _ Hb1 eq_refl ltac:(discriminate)) as (G & G2 & R2). destruct (get_stored K_base (default K_base) s1) as (ba, s2). cbn [fst snd] in *. subst ba.
  assert (Hl2 : stored_is K_language (V_str (language_of nav l)) s2) by (left; rewrite R2, R1 by discriminate; exact L0).
  destruct (get_is _ _ _ Hl2 eq_refl ltac:(discriminate)) as (G & G3 & R3). destruct (get_stored K_language (default K_language) s2) as (ln, s3). cbn [fst snd] in *. subst ln.
  assert (Ho3 : exists o, stored_is K_onboarding o s3 /\ json o = o /\ o <> V_null /\ (if existsb toured l then o = V_bool false else o = default K_onboarding)).
  { destruct (existsb toured l).
    - exists (V_bool false). split; [left; rewrite R3, R2, R1, R0 by discriminate; exact Ho|]. repeat split. discriminate.
    - exists (default K_onboarding). split; [apply (is_other _ _ st); [rewrite R3, R2, R1, R0 by discriminate; reflexivity|exact Ho]|]. repeat split. discriminate. }
  destruct Ho3 as (o & Ho3 & Jo & No & Eo).
  destruct (get_is _ _ _ Ho3 Jo No) as (G & G4 & R4). destruct (get_stored K_onboarding (default K_onboarding) s3) as (ob, s4). cbn [fst snd] in *. subst ob.
  assert (Hm4 : stored_is K_measure m s4) by (apply (is_other _ _ st); [rewrite R4, R3, R2, R1, R0 by discriminate; reflexivity|exact Hm]).
  destruct (get_is _ _ _ Hm4 Jm Nm) as (G & G5 & R5). destruct (get_stored K_measure (default K_measure) s4) as (me, s5). cbn [fst snd] in *. subst me.
  assert (Hc5 : stored_is K_cycle (V_num (Fin (cycle_of l))) s5) by (left; rewrite R5, R4, R3, R2 by discriminate; exact G1).
  destruct (get_is _ _ _ Hc5 eq_refl ltac:(discriminate)) as (G & G6 & R6). destruct (get_stored K_cycle (default K_cycle) s5) as (c2, s6). cbn [fst snd] in *. subst c2.
  split; [|auto]. unfold inv. cbn [stored active box base_sel lang_sel tour_switch measure_switch immediate tour shown drawer].
  split; [left; exact G6|]. split; [left; rewrite R6, R5, R4, R3 by discriminate; exact G2|]. split; [rewrite R6, R5, R4 by discriminate; exact G3|].
  split. { exists m. split; [left; rewrite R6 by discriminate; exact G5|]. auto. }
  split; [apply (is_other _ _ st); [rewrite R6, R5, R4, R3, R2, R1, R0 by discriminate; reflexivity|exact Hk]|].
  split. { destruct (existsb toured l); [|split; [|reflexivity]]; subst o; [rewrite R6, R5 by discriminate; exact G4|left; rewrite R6, R5 by discriminate; exact G4]. }
  repeat split; auto; apply Hr.
Qed.
Lemma first_inv : forall nav, inv nav [] (first_visit nav).
Proof.
  intros nav. apply (load_inv nav nav [] empty_storage (default K_measure)); try (right; split; [reflexivity|left; reflexivity]); try reflexivity; try discriminate.
  - right. split; reflexivity.
  - split; discriminate.
Qed.

Ltac keeps H := first [exact H | apply (is_other _ _ _ _ (set_other _ _ _ _ ltac:(discriminate)) H) | rewrite set_other by discriminate; exact H].
Lemma happen_inv : forall nav l e p, inv nav l p -> inv nav (l ++ [e]) (happen e p).
Proof.
  intros nav l e p I. destruct (sum_snoc nav l e) as (Sc & Sb & Sl & Sm & Sk & St). unfold inv. rewrite Sc, Sb, Sl, Sm, Sk, St. clear Sc Sb Sl Sm Sk St.
  pose proof I as (Hc & Hb & Hl & (m & Hm & Jm & Nm & Tm & Mm) & Hk & Ho & Ha & Hls & Hbs & Hi & Hx & Hr).
  destruct e as [nav'| |n|b|x|c|c| | | |t|]; cbn [toured]; rewrite ?orb_false_r, ?orb_true_r; cbn [happen].
  - destruct (load_inv nav' nav l (stored p) m Hc Hb (or_introl Hl) Hm Jm Nm Tm Hk) as (J & _); auto. destruct (existsb toured l); [exact Ho|apply Ho].
  - unfold ready. destruct (shown p) eqn:Sh.
    { destruct (existsb toured l); [|destruct Ho as (_ & Ho); congruence]. refine (conj Hc (conj Hb (conj Hl (conj (ex_intro _ m _) (conj Hk (conj Ho (conj Ha (conj Hls (conj Hbs (conj Hi (conj Hx Hr))))))))))); auto. }
    assert (Q : exists o, stored_is K_onboarding o (stored p) /\ json o = o /\ o <> V_null /\ (o = V_bool false \/ truthy o = true)).
    { destruct (existsb toured l); [exists (V_bool false)|exists (default K_onboarding)]; (split; [first [left; exact Ho|apply Ho]|]); repeat split; auto; discriminate. }
    destruct Q as (o & Ho' & Jo & No & Eo). destruct (get_is _ _ _ Ho' Jo No) as (G & G1 & R). destruct (get_stored K_onboarding (default K_onboarding) (stored p)) as (w, st). cbn [fst snd] in *. subst w.
    set (st' := if truthy o then _ else _). cbn [stored active box base_sel lang_sel tour_switch measure_switch immediate tour shown drawer].
    assert (R' : forall k', k' <> K_onboarding -> st' k' = stored p k'). { intros k' H. unfold st'. destruct (truthy o); [rewrite set_other by exact H|]; apply R; exact H. }
    assert (O' : st' K_onboarding = Some (V_bool false)). { unfold st'. destruct Eo as [->|Eo]; [exact G1|]. rewrite Eo. reflexivity. }
    split; [apply (is_other _ _ (stored p)); [apply R'; discriminate|exact Hc]|]. split; [apply (is_other _ _ (stored p)); [apply R'; discriminate|exact Hb]|].
    split; [rewrite R' by discriminate; exact Hl|]. split; [exists m; split; [apply (is_other _ _ (stored p)); [apply R'; discriminate|exact Hm]|auto]|].
    split; [apply (is_other _ _ (stored p)); [apply R'; discriminate|exact Hk]|]. split; [exact O'|]. repeat split; auto; apply Hr.
  - unfold type_cycle. destruct n as [|q].
    + cbn [stored active box base_sel lang_sel tour_switch measure_switch immediate tour shown drawer].
      split; [right; split; [reflexivity|right; reflexivity]|]. split; [keeps Hb|]. split; [keeps Hl|]. split; [exists m; split; [keeps Hm|auto]|]. split; [keeps Hk|].
      split; [destruct (existsb toured l); [keeps Ho|destruct Ho as (Ho & Hs); split; [keeps Ho|exact Hs]]|]. repeat split; auto; discriminate.
    + unfold range_dec. destruct (Qle_bool q 5000) eqn:E1; destruct (Qle_bool 0 q) eqn:E2; cbn [negb andb]; try exact I.
      cbn [stored active box base_sel lang_sel tour_switch measure_switch immediate tour shown drawer].
      split; [left; reflexivity|]. split; [keeps Hb|]. split; [keeps Hl|]. split; [exists m; split; [keeps Hm|auto]|]. split; [keeps Hk|].
      split; [destruct (existsb toured l); [keeps Ho|destruct Ho as (Ho & Hs); split; [keeps Ho|exact Hs]]|]. repeat split; auto; apply Qle_bool_iff; assumption.
  - unfold pick_base. cbn [stored active box base_sel lang_sel tour_switch measure_switch immediate tour shown drawer].
    split; [keeps Hc|]. split; [left; reflexivity|]. split; [keeps Hl|]. split; [exists m; split; [keeps Hm|auto]|]. split; [keeps Hk|].
    split; [destruct (existsb toured l); [keeps Ho|destruct Ho as (Ho & Hs); split; [keeps Ho|exact Hs]]|]. repeat split; auto; apply Hr.
  - unfold pick_language. cbn [stored active box base_sel lang_sel tour_switch measure_switch immediate tour shown drawer].
    split; [keeps Hc|]. split; [keeps Hb|]. split; [reflexivity|]. split; [exists m; split; [keeps Hm|auto]|]. split; [keeps Hk|].
    split; [destruct (existsb toured l); [keeps Ho|destruct Ho as (Ho & Hs); split; [keeps Ho|exact Hs]]|]. repeat split; auto; apply Hr.
  - unfold switch_tour. cbv zeta. set (st' := if c then _ else _). cbn [stored active box base_sel lang_sel tour_switch measure_switch immediate tour shown drawer].
    assert (R' : forall k', k' <> K_onboarding -> st' k' = stored p k'). { intros k' H. unfold st'. destruct c; rewrite !set_other by exact H; reflexivity. }
    assert (O' : st' K_onboarding = Some (V_bool false)) by (unfold st'; destruct c; reflexivity).
    split; [apply (is_other _ _ (stored p)); [apply R'; discriminate|exact Hc]|]. split; [apply (is_other _ _ (stored p)); [apply R'; discriminate|exact Hb]|].
    split; [rewrite R' by discriminate; exact Hl|]. split; [exists m; split; [apply (is_other _ _ (stored p)); [apply R'; discriminate|exact Hm]|auto]|].
    split; [apply (is_other _ _ (stored p)); [apply R'; discriminate|exact Hk]|]. split; [exact O'|]. repeat split; auto; apply Hr.
  - unfold switch_measure. cbn [stored active box base_sel lang_sel tour_switch measure_switch immediate tour shown drawer].
    split; [keeps Hc|]. split; [keeps Hb|]. split; [keeps Hl|]. split; [exists (V_bool c); split; [left; reflexivity|repeat split; discriminate]|]. split; [keeps Hk|].
    split; [destruct (existsb toured l); [keeps Ho|destruct Ho as (Ho & Hs); split; [keeps Ho|exact Hs]]|]. repeat split; auto; apply Hr.
  - unfold run_wait. destruct (get_is _ _ _ Hc eq_refl ltac:(discriminate)) as (_ & G1 & R). destruct (get_stored K_cycle (default K_cycle) (stored p)) as (v, st). cbn [fst snd] in *.
    cbn [with_stored stored active box base_sel lang_sel tour_switch measure_switch immediate tour shown drawer].
    split; [left; exact G1|]. split; [apply (is_other _ _ (stored p)); [apply R; discriminate|exact Hb]|]. split; [rewrite R by discriminate; exact Hl|].
    split; [exists m; split; [apply (is_other _ _ (stored p)); [apply R; discriminate|exact Hm]|auto]|]. split; [apply (is_other _ _ (stored p)); [apply R; discriminate|exact Hk]|].
    split; [destruct (existsb toured l); [rewrite R by discriminate; exact Ho|destruct Ho as (Ho & Hs); split; [apply (is_other _ _ (stored p)); [apply R; discriminate|exact Ho]|exact Hs]]|]. repeat split; auto; apply Hr.
  - unfold run_measure. destruct (get_is _ _ _ Hm Jm Nm) as (_ & G1 & R). destruct (get_stored K_measure (default K_measure) (stored p)) as (v, st). cbn [fst snd] in *.
    cbn [with_stored stored active box base_sel lang_sel tour_switch measure_switch immediate tour shown drawer].
    split; [apply (is_other _ _ (stored p)); [apply R; discriminate|exact Hc]|]. split; [apply (is_other _ _ (stored p)); [apply R; discriminate|exact Hb]|]. split; [rewrite R by discriminate; exact Hl|].
    split; [exists m; split; [left; exact G1|auto]|]. split; [apply (is_other _ _ (stored p)); [apply R; discriminate|exact Hk]|].
    split; [destruct (existsb toured l); [rewrite R by discriminate; exact Ho|destruct Ho as (Ho & Hs); split; [apply (is_other _ _ (stored p)); [apply R; discriminate|exact Ho]|exact Hs]]|]. repeat split; auto; apply Hr.
  - unfold memory_base. destruct (get_is _ _ _ Hb eq_refl ltac:(discriminate)) as (_ & G1 & R). destruct (get_stored K_base (default K_base) (stored p)) as (v, st). cbn [fst snd] in *.
    cbn [with_stored stored active box base_sel lang_sel tour_switch measure_switch immediate tour shown drawer].
    split; [apply (is_other _ _ (stored p)); [apply R; discriminate|exact Hc]|]. split; [left; exact G1|]. split; [rewrite R by discriminate; exact Hl|].
    split; [exists m; split; [apply (is_other _ _ (stored p)); [apply R; discriminate|exact Hm]|auto]|]. split; [apply (is_other _ _ (stored p)); [apply R; discriminate|exact Hk]|].
    split; [destruct (existsb toured l); [rewrite R by discriminate; exact Ho|destruct Ho as (Ho & Hs); split; [apply (is_other _ _ (stored p)); [apply R; discriminate|exact Ho]|exact Hs]]|]. repeat split; auto; apply Hr.
  - unfold keep_code, with_stored. cbn [stored active box base_sel lang_sel tour_switch measure_switch immediate tour shown drawer].
    split; [keeps Hc|]. split; [keeps Hb|]. split; [keeps Hl|]. split; [exists m; split; [keeps Hm|auto]|]. split; [left; reflexivity|].
    split; [destruct (existsb toured l); [keeps Ho|destruct Ho as (Ho & Hs); split; [keeps Ho|exact Hs]]|]. repeat split; auto; apply Hr.
  - cbn [stored active box base_sel lang_sel tour_switch measure_switch immediate tour shown drawer]. exact I.
Qed.
Lemma happens_inv : forall l' nav l p, inv nav l p -> inv nav (l ++ l') (happens l' p).
Proof.
  induction l' as [|e l' IH]; intros nav l p I; [rewrite app_nil_r; exact I|]. replace (l ++ e :: l') with ((l ++ [e]) ++ l') by (rewrite <- app_assoc; reflexivity).
  cbn [happens]. apply IH. apply happen_inv. exact I.
Qed.
Lemma history_inv : forall l nav, inv nav l (happens l (first_visit nav)).
Proof. intros l nav. exact (happens_inv l nav [] _ (first_inv nav)). Qed.

(** ** C72 *)
(** In every history of page loads, choices and runs, what the machine uses is the
    last choice of the user: the wait of a run started now, immediate mode exactly
    when it is 0, the base of the memory values, whether run times are shown, the
    language of the texts, the kept program text. *)
Theorem C72_in_force : forall l nav, let p := happens l (first_visit nav) in
  fst (run_wait p) = V_num (Fin (cycle_of l)) /\ in_range (cycle_of l) /\ (immediate p = true <-> cycle_of l == 0) /\
  fst (memory_base p) = V_str (base_of l) /\ fst (run_measure p) = measure_of l /\ active p = V_str (language_of nav l) /\
  fst (get_stored K_code (default K_code) (stored p)) = V_str (code_of l).
Proof.
  intros l nav p. destruct (history_inv l nav) as (Hc & Hb & Hl & (m & Hm & Jm & Nm & Tm & Mm) & Hk & Ho & Ha & Hls & Hbs & Hi & Hx & Hr). fold p in Hc, Hb, Hl, Hm, Mm, Hk, Ho, Ha, Hls, Hbs, Hi, Hx.
  unfold run_wait, memory_base, run_measure.
  destruct (get_is _ _ _ Hc eq_refl ltac:(discriminate)) as (G & _). destruct (get_stored K_cycle (default K_cycle) (stored p)) as (v1, s1). cbn [fst] in *.
  destruct (get_is _ _ _ Hb eq_refl ltac:(discriminate)) as (G2 & _). destruct (get_stored K_base (default K_base) (stored p)) as (v2, s2). cbn [fst] in *.
  destruct (get_is _ _ _ Hm Jm Nm) as (G3 & _). destruct (get_stored K_measure (default K_measure) (stored p)) as (v3, s3). cbn [fst] in *.
  destruct (get_is _ _ _ Hk eq_refl ltac:(discriminate)) as (G4 & _).
  split; [exact G|]. split; [exact Hr|]. split; [rewrite Hi; apply Qeq_bool_iff|]. split; [exact G2|]. split; [congruence|]. split; [exact Ha|exact G4].
Qed.
(** The drawer's controls show these values; the cycle-time box does unless it has
    been emptied since the page was loaded. *)
Theorem C72_shown : forall l nav, let p := happens l (first_visit nav) in
  base_sel p = V_str (base_of l) /\ lang_sel p = V_str (language_of nav l) /\ truthy (measure_switch p) = measure_of l /\
  (box p = V_num (Fin (cycle_of l)) \/ box p = V_num NaN) /\ (forall nav', box (happens (l ++ [Reload nav']) (first_visit nav)) = V_num (Fin (cycle_of l))).
Proof.
  intros l nav p. destruct (history_inv l nav) as (Hc & Hb & Hl & (m & Hm & Jm & Nm & Tm & Mm) & Hk & Ho & Ha & Hls & Hbs & Hi & Hx & Hr). fold p in Hc, Hb, Hl, Hm, Mm, Hk, Ho, Ha, Hls, Hbs, Hi, Hx.
  split; [exact Hbs|]. split; [exact Hls|]. split; [congruence|]. split; [tauto|]. intros nav'.
  assert (E : forall x y q, happens (x ++ y) q = happens y (happens x q)). { induction x as [|e x IH]; intros y q; [reflexivity|]. cbn [app happens]. apply IH. }
  rewrite E. fold p. cbn [happens happen]. apply (load_inv nav' nav l (stored p) m); auto. destruct (existsb toured l); [exact Ho|apply Ho].
Qed.
(** Finding: an emptied box shows nothing while runs wait 500 ms. *)
Theorem C72_box_refuted : forall nav, let p := happens [TypeCycle (Fin 0); TypeCycle NaN] (first_visit nav) in
  box p = V_num NaN /\ fst (run_wait p) = V_num (Fin 500) /\ immediate p = false.
Proof. intros nav. repeat split. Qed.
(** A number out of range changes nothing. *)
Theorem C72_refused : forall q p, ~ in_range q -> happen (TypeCycle (Fin q)) p = p.
Proof.
  intros q p H. cbn [happen type_cycle]. destruct (Qle_bool q 5000) eqn:E1; [|reflexivity]. destruct (Qle_bool 0 q) eqn:E2; [|reflexivity].
  destruct H. split; apply Qle_bool_iff; assumption.
Qed.
(** The tour opens by itself on the first visit, and on no later one. *)
Theorem C72_tour_first : forall l nav, existsb toured l = false -> tour (happens (l ++ [Ready]) (first_visit nav)) = true.
Proof.
  intros l nav H. assert (E : forall x y q, happens (x ++ y) q = happens y (happens x q)). { induction x as [|e x IH]; intros y q; [reflexivity|]. cbn [app happens]. apply IH. }
  rewrite E. destruct (history_inv l nav) as (_ & _ & _ & _ & _ & Ho & _). rewrite H in Ho. destruct Ho as (Ho & Sh). cbn [happens happen]. unfold ready. rewrite Sh.
  destruct (get_is _ _ _ Ho eq_refl ltac:(discriminate)) as (G & _). destruct (get_stored K_onboarding (default K_onboarding) (stored (happens l (first_visit nav)))) as (w, st). cbn [fst] in G. subst w. reflexivity.
Qed.
Theorem C72_tour_once : forall l l' nav nav', existsb toured l = true -> ~ In Ready l' -> tour (happens (l ++ Reload nav' :: l' ++ [Ready]) (first_visit nav)) = false.
Proof.
  intros l l' nav nav' H N. assert (E : forall x y q, happens (x ++ y) q = happens y (happens x q)). { induction x as [|e x IH]; intros y q; [reflexivity|]. cbn [app happens]. apply IH. }
  replace (l ++ Reload nav' :: l' ++ [Ready]) with ((l ++ Reload nav' :: l') ++ [Ready]) by (rewrite <- app_assoc; reflexivity). rewrite E.
  pose proof (history_inv (l ++ Reload nav' :: l') nav) as (_ & _ & _ & _ & _ & Ho & _). rewrite existsb_app, H in Ho. cbn [orb] in Ho.
  assert (Sh : shown (happens (l ++ Reload nav' :: l') (first_visit nav)) = false).
  { rewrite E. cbn [happens happen]. 
    assert (S0 : shown (load nav' (stored (happens l (first_visit nav)))) = false).
    { unfold load. repeat match goal with |- shown (let (_, _) := ?x in _) = _ => destruct x end. reflexivity. }
    revert S0. generalize (load nav' (stored (happens l (first_visit nav)))). clear -N. induction l' as [|e l' IH]; intros p S0; [exact S0|]. cbn [happens]. apply IH; [intros X; apply N; right; exact X|].
    destruct e as [n2| |[|q]|b|x|c|c| | | |t|]; cbn [happen]; try exact S0.
    - unfold load. repeat match goal with |- shown (let (_, _) := ?x in _) = _ => destruct x end. reflexivity.
    - destruct N. left. reflexivity.
    - unfold type_cycle. destruct (negb (Qle_bool q 5000)), (negb (Qle_bool 0 q)); exact S0.
    - unfold run_wait. destruct (get_stored _ _ _); exact S0.
    - unfold run_measure. destruct (get_stored _ _ _); exact S0.
    - unfold memory_base. destruct (get_stored _ _ _); exact S0. }
  cbn [happens happen]. unfold ready. rewrite Sh. unfold get_stored. rewrite Ho. reflexivity.
Qed.
(** Whether the tour is open now, whether the table is on the screen, and whether a tour
    was ever offered, from the history alone: a page loaded has no tour; the table opens
    one when none was offered before; the switch opens or closes it; the user closes it. *)
Definition tour_after (c : bool * bool * bool) (e : sevent) : bool * bool * bool :=
  let '(open, table, offered) := c in
  match e with
  | Reload _ => (false, false, offered)
  | Ready => if table then c else (negb offered, true, true)
  | SwitchTour b => (b, table, true)
  | CloseTour => (false, table, offered)
  | _ => c
  end.
Definition tour_of (l : list sevent) : bool * bool * bool := fold_left tour_after l (false, false, false).
Lemma happens_app : forall x y q, happens (x ++ y) q = happens y (happens x q).
Proof. induction x as [|e x IH]; intros y q; [reflexivity|]. cbn [app happens]. apply IH. Qed.
Lemma load_closed : forall nav st, shown (load nav st) = false /\ tour (load nav st) = false.
Proof. intros. unfold load. repeat match goal with |- context [let (_, _) := ?x in _] => destruct x end. split; reflexivity. Qed.
Theorem C72_tour_state : forall l nav, let p := happens l (first_visit nav) in tour_of l = (tour p, shown p, existsb toured l).
Proof.
  intros l nav. cbv zeta. induction l as [|e l IH] using rev_ind.
  - destruct (load_closed nav empty_storage) as (A & B). cbn [happens]. unfold first_visit. rewrite A, B. reflexivity.
  - unfold tour_of. rewrite snoc_fold. fold (tour_of l). rewrite IH, happens_app, existsb_app. cbn [existsb happens]. pose proof (history_inv l nav) as (_ & _ & _ & _ & _ & Ho & _).
    revert Ho. generalize (happens l (first_visit nav)). generalize (existsb toured l). intros o p Ho.
    destruct e as [n2| |[|q]|b|x|c|c| | | |t|]; cbn [happen tour_after toured orb]; rewrite ?orb_false_r, ?orb_true_r; try reflexivity.
    + destruct (load_closed n2 (stored p)) as (-> & ->). reflexivity.
    + unfold ready. destruct (shown p) eqn:Sh; [destruct o; [rewrite Sh; reflexivity|destruct Ho; congruence]|]. destruct o.
      * unfold get_stored. rewrite Ho. reflexivity.
      * destruct Ho as (Ho & _). destruct (get_is _ _ _ Ho eq_refl ltac:(discriminate)) as (G & _). destruct (get_stored _ _ _) as (w, st). cbn [fst] in G. subst w. reflexivity.
    + unfold type_cycle. destruct (negb (Qle_bool q 5000)), (negb (Qle_bool 0 q)); reflexivity.
    + unfold run_wait. destruct (get_stored _ _ _); reflexivity.
    + unfold run_measure. destruct (get_stored _ _ _); reflexivity.
    + unfold memory_base. destruct (get_stored _ _ _); reflexivity.
Qed.
(** Finding: the tour switch does not tell what the next visit will do.  On the first
    page it stays on although the tour will not open again; and switching it on has
    no effect on later visits. *)
Theorem C72_tour_switch_refuted : forall nav nav',
  (let p := happens [Ready] (first_visit nav) in truthy (tour_switch p) = true /\ tour (happens [Reload nav'; Ready] p) = false) /\
  (let p := happens [Ready; SwitchTour true] (first_visit nav) in tour p = true /\ truthy (tour_switch p) = false /\ tour (happens [Reload nav'; Ready] p) = false).
Proof. intros. repeat split. Qed.
Example C72_nonvacuous : forall nav, let l := [Ready; TypeCycle (Fin 20); TypeCycle (Fin 6000); Reload nav; PickBase [66; 73; 78]%N; SwitchMeasure false; PickLanguage [101; 117]%N; Reload nav] in
  cycle_of l = 20%Q /\ base_of l = [66; 73; 78]%N /\ measure_of l = false /\ language_of nav l = [101; 117]%N /\ existsb toured l = true /\ cycle_of [TypeCycle (Fin 0)] == 0 /\ ~ in_range 6000.
Proof. intros nav l. repeat split. intros (_ & H). apply H. reflexivity. Qed.
Print Assumptions C72_in_force.
Print Assumptions C72_shown.
Print Assumptions C72_box_refuted.
Print Assumptions C72_refused.
Print Assumptions C72_tour_first.
Print Assumptions C72_tour_once.
Print Assumptions C72_tour_state.
Print Assumptions C72_tour_switch_refuted.
