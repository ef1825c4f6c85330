(** * Theorems: several tabs (C102) *)
From Coq Require Import ZArith NArith QArith List Bool Lia.
From Verif Require Import JsStr Settings PropsSettings Tabs.
Import ListNotations.
Open Scope list_scope.
Open Scope Q_scope.

Definition agree (st st' : storage) : Prop := forall k, k <> K_onboarding -> st k = st' k.
Lemma set_agree : forall k v st st', agree st st' -> agree (set_stored k v st) (set_stored k v st').
Proof. intros k v st st' H k' N. unfold set_stored. destruct (key_eqb k k'); [reflexivity|apply H; exact N]. Qed.
Lemma set_onb_l : forall v st st', agree st st' -> agree (set_stored K_onboarding v st) st'.
Proof. intros v st st' H k N. rewrite set_other by exact N. apply H; exact N. Qed.
Lemma set_onb_r : forall v st st', agree st st' -> agree st (set_stored K_onboarding v st').
Proof. intros v st st' H k N. rewrite set_other by exact N. apply H; exact N. Qed.
Lemma get_agree : forall k d st st', k <> K_onboarding -> agree st st' -> agree (snd (get_stored k d st)) (snd (get_stored k d st')).
Proof.
  intros k d st st' N H. unfold get_stored. rewrite (H k N). destruct (st' k) as [[]|]; cbn [snd]; try exact H; apply set_agree; exact H.
Qed.
Lemma get_onb : forall d st st', agree st st' -> agree (snd (get_stored K_onboarding d st)) (snd (get_stored K_onboarding d st')).
Proof.
  intros d st st' H. unfold get_stored. destruct (st K_onboarding) as [[]|], (st' K_onboarding) as [[]|]; cbn [snd]; try exact H;
    repeat first [apply set_onb_l | apply set_onb_r]; exact H.
Qed.
Lemma load_agree : forall nav st st', agree st st' -> agree (stored (load nav st)) (stored (load nav st')).
Proof.
  intros nav st st' H. unfold load.
  apply (get_agree K_language (V_str nav)) in H; [|discriminate]. destruct (get_stored K_language (V_str nav) st) as (a, s1), (get_stored K_language (V_str nav) st') as (a', s1'). cbn [snd] in H.
  apply (get_agree K_cycle (default K_cycle)) in H; [|discriminate]. destruct (get_stored K_cycle (default K_cycle) s1) as (b, s2), (get_stored K_cycle (default K_cycle) s1') as (b', s2'). cbn [snd] in H.
  apply (get_agree K_base (default K_base)) in H; [|discriminate]. destruct (get_stored K_base (default K_base) s2) as (c, s3), (get_stored K_base (default K_base) s2') as (c', s3'). cbn [snd] in H.
  apply (get_agree K_language (default K_language)) in H; [|discriminate]. destruct (get_stored K_language (default K_language) s3) as (d, s4), (get_stored K_language (default K_language) s3') as (d', s4'). cbn [snd] in H.
  apply (get_onb (default K_onboarding)) in H. destruct (get_stored K_onboarding (default K_onboarding) s4) as (e, s5), (get_stored K_onboarding (default K_onboarding) s4') as (e', s5'). cbn [snd] in H.
  apply (get_agree K_measure (default K_measure)) in H; [|discriminate]. destruct (get_stored K_measure (default K_measure) s5) as (f, s6), (get_stored K_measure (default K_measure) s5') as (f', s6'). cbn [snd] in H.
  apply (get_agree K_cycle (default K_cycle)) in H; [|discriminate]. destruct (get_stored K_cycle (default K_cycle) s6) as (g, s7), (get_stored K_cycle (default K_cycle) s6') as (g', s7'). cbn [snd] in H.
  exact H.
Qed.
Lemma ready_agree : forall p, agree (stored (ready p)) (stored p).
Proof.
  intros p. unfold ready. destruct (shown p); [intros k _; reflexivity|].
  assert (H : agree (snd (get_stored K_onboarding (default K_onboarding) (stored p))) (stored p)).
  { unfold get_stored. destruct (stored p K_onboarding) as [[]|]; cbn [snd]; try (intros k _; reflexivity); apply set_onb_l; intros k _; reflexivity. }
  destruct (get_stored K_onboarding (default K_onboarding) (stored p)) as (w, st). cbn [snd] in H. cbn [stored].
  destruct (truthy w); [apply set_onb_l|]; exact H.
Qed.
Lemma happen_agree : forall e p p', agree (stored p) (stored p') -> agree (stored (happen e p)) (stored (happen e p')).
Proof.
  intros e p p' H. destruct e as [nav| |n|b|x|c|c| | | |t|]; cbn [happen].
  - apply load_agree; exact H.
  - intros k N. rewrite (ready_agree p k N), (ready_agree p' k N). apply H; exact N.
  - unfold type_cycle. destruct n as [|q]; [apply set_agree; exact H|]. destruct (Qle_bool q 5000), (Qle_bool 0 q); cbn [negb stored]; try exact H; apply set_agree; exact H.
  - apply set_agree; exact H.
  - apply set_agree; exact H.
  - unfold switch_tour. cbn [stored]. destruct c; repeat apply set_agree; exact H.
  - apply set_agree; exact H.
  - unfold run_wait. apply (get_agree K_cycle (default K_cycle)) in H; [|discriminate].
    destruct (get_stored K_cycle (default K_cycle) (stored p)), (get_stored K_cycle (default K_cycle) (stored p')). exact H.
  - unfold run_measure. apply (get_agree K_measure (default K_measure)) in H; [|discriminate].
    destruct (get_stored K_measure (default K_measure) (stored p)), (get_stored K_measure (default K_measure) (stored p')). exact H.
  - unfold memory_base. apply (get_agree K_base (default K_base)) in H; [|discriminate].
    destruct (get_stored K_base (default K_base) (stored p)), (get_stored K_base (default K_base) (stored p')). exact H.
  - apply set_agree; exact H.
  - exact H.
Qed.

(** ** Invariant *)
Definition in_force (nav : str) (r : list sevent) : face := mkFace (language_of nav r) (base_of r) (cycle_of r) (measure_of r) (code_of r).
Definition shows (p : page) (f : face) : Prop :=
  active p = V_str (f_lang f) /\ lang_sel p = V_str (f_lang f) /\ base_sel p = V_str (f_base f) /\ truthy (measure_switch p) = f_measure f /\
  immediate p = Qeq_bool (f_cycle f) 0 /\ (box p = V_num (Fin (f_cycle f)) \/ (box p = V_num NaN /\ f_cycle f = 500%Q)).
Definition tinv (b : browser) (s : faces) : Prop :=
  match everybody s with
  | None => shared b = empty_storage /\ (forall i, tab b i = None /\ mine s i = None) /\ toured_somewhere s = false
  | Some g => exists nav r q, inv nav r q /\ agree (shared b) (stored q) /\ toured_somewhere s = existsb toured r /\ g = in_force nav r /\
      (if existsb toured r then shared b K_onboarding = Some (V_bool false)
       else stored_is K_onboarding (default K_onboarding) (shared b) /\ forall i p, tab b i = Some p -> shown p = false) /\
      forall i, match tab b i, mine s i with Some p, Some f => shows p f | None, None => True | _, _ => False end
  end.
Lemma in_force_snoc : forall nav r e, (forall n, e <> Reload n) -> in_force nav (r ++ [e]) = choose e (in_force nav r).
Proof.
  intros nav r e N. unfold in_force. destruct (sum_snoc nav r e) as (-> & -> & -> & -> & -> & _).
  destruct e as [n| |[|q]|b|x|c|c| | | |t|]; try reflexivity. cbn [choose]. fold (range_dec q). destruct (range_dec q); reflexivity.
Qed.
Lemma in_force_load : forall nav r n, in_force nav (r ++ [Reload n]) = in_force nav r.
Proof. intros nav r n. unfold in_force. destruct (sum_snoc nav r (Reload n)) as (-> & -> & -> & -> & -> & _). reflexivity. Qed.
Lemma shows_inv : forall nav r p, inv nav r p -> shows p (in_force nav r).
Proof.
  intros nav r p (Hc & Hb & Hl & (m & Hm & Jm & Nm & Tm & Mm) & Hk & Ho & Ha & Hls & Hbs & Hi & Hx & Hr). unfold shows, in_force. cbn [f_lang f_base f_cycle f_measure f_code].
  rewrite Mm. repeat split; auto.
Qed.
Lemma shows_happen : forall e p f, (forall n, e <> Reload n) -> shows p f -> shows (happen e p) (choose e f).
Proof.
  intros e p f N S. pose proof S as (A & L & B & M & I & X). destruct e as [n| |n|b|x|c|c| | | |t|]; cbn [happen choose].
  - exfalso. exact (N n eq_refl).
  - unfold ready. destruct (shown p); [exact S|]. destruct (get_stored K_onboarding (default K_onboarding) (stored p)). exact S.
  - unfold type_cycle. destruct n as [|q].
    + repeat split; try assumption. right; split; reflexivity.
    + destruct (Qle_bool q 5000), (Qle_bool 0 q); cbn [negb andb]; try exact S. repeat split; try assumption. left; reflexivity.
  - repeat split; assumption.
  - repeat split; assumption.
  - exact S.
  - repeat split; assumption.
  - unfold run_wait. destruct (get_stored K_cycle (default K_cycle) (stored p)). exact S.
  - unfold run_measure. destruct (get_stored K_measure (default K_measure) (stored p)). exact S.
  - unfold memory_base. destruct (get_stored K_base (default K_base) (stored p)). exact S.
  - exact S.
  - exact S.
Qed.
Lemma put_same : forall A i (v : A) f, put i v f i = v.
Proof. intros. unfold put. rewrite Nat.eqb_refl. reflexivity. Qed.
Lemma put_cases : forall A i j (v : A) f, (j = i /\ put i v f j = v) \/ (j <> i /\ put i v f j = f j).
Proof. intros A i j v f. unfold put. destruct (Nat.eqb_spec j i); auto. Qed.
Lemma agree_is : forall st st' k v, agree st st' -> k <> K_onboarding -> stored_is k v st' -> stored_is k v st.
Proof. intros st st' k v H N S. apply (is_other _ _ st'); [apply H; exact N|exact S]. Qed.
(** Loading in the presence of other tabs. *)
Lemma load_shared : forall n nav r q st, inv nav r q -> agree st (stored q) ->
  (if existsb toured r then st K_onboarding = Some (V_bool false) else stored_is K_onboarding (default K_onboarding) st) ->
  inv nav r (load n st) /\ box (load n st) = V_num (Fin (cycle_of r)) /\ shown (load n st) = false.
Proof.
  intros n nav r q st I H O. pose proof I as (Hc & Hb & Hl & (m & Hm & Jm & Nm & Tm & Mm) & Hk & Ho & Ha & Hls & Hbs & Hi & Hx & Hr).
  destruct (load_inv n nav r st m) as (J & B & S & _); auto; try (eapply agree_is; [exact H|discriminate|assumption]).
  left. rewrite (H K_language ltac:(discriminate)). exact Hl.
Qed.
Lemma onb_ready : forall p, shown p = false -> stored p K_onboarding = Some (V_bool false) \/ stored_is K_onboarding (default K_onboarding) (stored p) ->
  stored (ready p) K_onboarding = Some (V_bool false) /\ (stored p K_onboarding = Some (V_bool false) -> tour (ready p) = false) /\ (stored_is K_onboarding (default K_onboarding) (stored p) -> tour (ready p) = true).
Proof.
  intros p Hs H. unfold ready, get_stored. rewrite Hs. unfold stored_is. destruct H as [E|[E|(_ & [E|E])]]; rewrite E; cbn [truthy default negb Qeq_bool]; repeat split; try reflexivity; try discriminate.
  - exact E.
  - intros H; exfalso; intuition discriminate.
Qed.
Lemma onb_other : forall e p, toured e = false -> (forall n, e <> Reload n) -> stored (happen e p) K_onboarding = stored p K_onboarding /\ shown (happen e p) = shown p.
Proof.
  intros e p T N. destruct e as [n| |n|b|x|c|c| | | |t|]; cbn [happen toured] in *; try discriminate.
  - exfalso. exact (N n eq_refl).
  - unfold type_cycle. destruct n as [|q]; [split; reflexivity|]. destruct (Qle_bool q 5000), (Qle_bool 0 q); split; reflexivity.
  - split; reflexivity.
  - split; reflexivity.
  - split; reflexivity.
  - unfold run_wait, get_stored. destruct (stored p K_cycle) as [[]|]; split; reflexivity.
  - unfold run_measure, get_stored. destruct (stored p K_measure) as [[]|]; split; reflexivity.
  - unfold memory_base, get_stored. destruct (stored p K_base) as [[]|]; split; reflexivity.
  - split; reflexivity.
  - split; reflexivity.
Qed.
Lemma agree_refl : forall st, agree st st. Proof. intros st k _. reflexivity. Qed.
Lemma with_shows : forall st p f, shows p f -> shows (with_stored st p) f.
Proof. intros st p f H. exact H. Qed.
Lemma tstep_inv : forall e b s, tinv b s -> tinv (tstep b e) (fstep s e).
Proof.
  intros e b s H. unfold tinv in H. destruct (everybody s) as [g|] eqn:Eg.
  - destruct H as (nav & r & q & I & A & T & G & O & M).
    destruct e as [i n|i|i e]; cbn [tstep fstep].
    + (* open *)
      rewrite Eg. destruct (load_shared n nav r q (shared b) I A) as (J & _ & Sh). { destruct (existsb toured r); [exact O|apply O]. }
      unfold tinv. cbn [everybody mine toured_somewhere shared tab]. exists nav, r, (load n (shared b)). split; [exact J|]. split; [apply agree_refl|]. split; [exact T|]. split; [exact G|]. split.
      * pose proof J as (_ & _ & _ & _ & _ & Ho & _). destruct (existsb toured r); [exact Ho|]. destruct Ho as (Ho & _). split; [exact Ho|]. destruct O as (_ & O).
        intros j p. destruct (put_cases _ i j (Some (load n (shared b))) (tab b)) as [(-> & ->)|(_ & ->)]; [intros [= <-]; exact Sh|apply O].
      * intros j. destruct (put_cases _ i j (Some (load n (shared b))) (tab b)) as [(-> & ->)|(N & ->)]; [rewrite put_same, G; apply shows_inv; exact J|].
        destruct (put_cases _ i j (Some g) (mine s)) as [(? & _)|(_ & ->)]; [contradiction|]. apply M.
    + (* close *)
      unfold tinv. cbn [everybody mine toured_somewhere shared tab]. rewrite Eg. exists nav, r, q. split; [exact I|]. split; [exact A|]. split; [exact T|]. split; [exact G|]. split.
      * destruct (existsb toured r); [exact O|]. destruct O as (O1 & O). split; [exact O1|]. intros j p. destruct (put_cases _ i j None (tab b)) as [(-> & ->)|(_ & ->)]; [discriminate|apply O].
      * intros j. destruct (put_cases _ i j None (tab b)) as [(-> & ->)|(N & ->)]; [rewrite put_same; exact Logic.I|].
        destruct (put_cases _ i j None (mine s)) as [(? & _)|(_ & ->)]; [contradiction|]. apply M.
    + (* act *)
      unfold page_of. pose proof (M i) as Mi. destruct (tab b i) as [p|] eqn:Ep; destruct (mine s i) as [f|] eqn:Ef; try contradiction; cbn [option_map].
      2:{ unfold tinv. rewrite Eg. exists nav, r, q. auto 10. }
      set (p0 := with_stored (shared b) p). assert (R : (exists n, e = Reload n) \/ forall n, e <> Reload n) by (destruct e; [left; eauto|right; discriminate..]).
      destruct R as [(n & ->)|N].
      * cbn [happen]. change (stored p0) with (shared b). destruct (load_shared n nav r q (shared b) I A) as (J & _ & Sh). { destruct (existsb toured r); [exact O|apply O]. }
        unfold tinv. cbn [everybody mine toured_somewhere shared tab]. rewrite Eg. exists nav, r, (load n (shared b)). split; [exact J|]. split; [apply agree_refl|]. split; [exact T|]. split; [exact G|]. split.
        -- pose proof J as (_ & _ & _ & _ & _ & Ho & _). destruct (existsb toured r); [exact Ho|]. destruct Ho as (Ho & _). split; [exact Ho|]. destruct O as (_ & O).
           intros j p'. destruct (put_cases _ i j (Some (load n (shared b))) (tab b)) as [(-> & ->)|(_ & ->)]; [intros [= <-]; exact Sh|apply O].
        -- intros j. destruct (put_cases _ i j (Some (load n (shared b))) (tab b)) as [(-> & ->)|(Nj & ->)]; [rewrite put_same, G; apply shows_inv; exact J|].
           destruct (put_cases _ i j (Some g) (mine s)) as [(? & _)|(_ & ->)]; [contradiction|]. apply M.
      * assert (E : match e with Reload _ => mkFaces (everybody s) (put i (everybody s) (mine s)) (toured_somewhere s)
          | _ => mkFaces (option_map (choose e) (everybody s)) (put i (Some (choose e f)) (mine s)) (toured_somewhere s || match e with Ready | SwitchTour _ => true | _ => false end) end
          = mkFaces (Some (choose e g)) (put i (Some (choose e f)) (mine s)) (toured_somewhere s || toured e)) by (rewrite Eg; destruct e; try reflexivity; exfalso; exact (N _ eq_refl)).
        rewrite E. clear E. unfold tinv. cbn [everybody mine toured_somewhere shared tab].
        exists nav, (r ++ [e]), (happen e q). split; [apply happen_inv; exact I|]. split; [apply happen_agree; exact A|].
        destruct (sum_snoc nav r e) as (_ & _ & _ & _ & _ & St). rewrite St. split; [rewrite T; reflexivity|]. split; [rewrite G; symmetry; apply in_force_snoc; exact N|]. split.
        -- destruct (toured e) eqn:Te; [rewrite orb_true_r|rewrite orb_false_r].
           ++ destruct e; try discriminate Te; cbn [happen].
              ** destruct (shown p0) eqn:Sh.
                 { unfold ready. rewrite Sh. destruct (existsb toured r); [exact O|]. destruct O as (_ & O). specialize (O i p Ep). change (shown p0) with (shown p) in Sh. congruence. }
                 apply onb_ready; [exact Sh|]. change (stored p0) with (shared b). destruct (existsb toured r); [left; exact O|right; apply O].
              ** destruct c; reflexivity.
           ++ destruct (onb_other e p0 Te N) as (E1 & E2). destruct (existsb toured r); [rewrite E1; exact O|]. destruct O as (O1 & O). split; [apply (is_other _ _ _ _ E1); exact O1|].
              intros j p'. destruct (put_cases _ i j (Some (happen e p0)) (tab b)) as [(-> & ->)|(_ & ->)]; [intros [= <-]; rewrite E2; exact (O i p Ep)|apply O].
        -- intros j. destruct (put_cases _ i j (Some (happen e p0)) (tab b)) as [(-> & ->)|(Nj & ->)]; [rewrite put_same; apply shows_happen; [exact N|exact Mi]|].
           destruct (put_cases _ i j (Some (choose e f)) (mine s)) as [(? & _)|(_ & ->)]; [contradiction|]. apply M.
  - destruct H as (St & M & T). destruct e as [i n|i|i e]; cbn [tstep fstep].
    + rewrite Eg, St. change (load n empty_storage) with (first_visit n). pose proof (first_inv n) as J. unfold tinv. cbn [everybody mine toured_somewhere shared tab].
      exists n, [], (first_visit n). split; [exact J|]. split; [apply agree_refl|]. split; [exact T|]. split; [reflexivity|]. split.
      * pose proof J as (_ & _ & _ & _ & _ & Ho & _). cbn [existsb] in *. destruct Ho as (Ho & Sh). split; [exact Ho|].
        intros j p. destruct (put_cases _ i j (Some (first_visit n)) (tab b)) as [(-> & ->)|(_ & ->)]; [intros [= <-]; exact Sh|]. destruct (M j) as (-> & _). discriminate.
      * intros j. destruct (put_cases _ i j (Some (first_visit n)) (tab b)) as [(-> & ->)|(N & ->)]; [rewrite put_same; apply (shows_inv n []); exact J|].
        destruct (put_cases _ i j (Some (mkFace n s_HEX 500 true [])) (mine s)) as [(? & _)|(_ & ->)]; [contradiction|]. destruct (M j) as (-> & ->). exact Logic.I.
    + unfold tinv. cbn [everybody mine toured_somewhere shared tab]. rewrite Eg. split; [exact St|]. split; [|exact T]. intros j. destruct (M j) as (M1 & M2).
      split; [destruct (put_cases _ i j None (tab b)) as [(_ & ->)|(_ & ->)]|destruct (put_cases _ i j None (mine s)) as [(_ & ->)|(_ & ->)]]; auto.
    + unfold page_of. destruct (M i) as (-> & ->). cbn [option_map]. unfold tinv. rewrite Eg. auto.
Qed.
Lemma tabs_inv : forall l, tinv (tabs l) (told l).
Proof.
  intros l. unfold tabs, told. assert (H : forall b s, tinv b s -> tinv (fold_left tstep l b) (fold_left fstep l s)).
  { induction l as [|e l IH]; intros b s H; [exact H|]. cbn [fold_left]. apply IH. apply tstep_inv. exact H. }
  apply H. unfold tinv. cbn. auto.
Qed.

(** ** C102 *)
(** Whatever the tabs of a browser do, in whatever order: a tab is open in the model
    exactly when the specification says so. *)
Theorem C102_open : forall l i, (exists p, page_of (tabs l) i = Some p) <-> (exists f, mine (told l) i = Some f).
Proof.
  intros l i. pose proof (tabs_inv l) as H. unfold tinv in H. unfold page_of. destruct (everybody (told l)) as [g|].
  - destruct H as (nav & r & q & _ & _ & _ & _ & _ & M). specialize (M i). destruct (tab (tabs l) i), (mine (told l) i); try contradiction; cbn [option_map]; split; intros (x & E); try discriminate; eauto.
  - destruct H as (_ & M & _). destruct (M i) as (-> & ->). cbn [option_map]. split; intros (x & E); discriminate E.
Qed.
(** What the machine of an open tab uses (the wait of a run started now, the base of the
    memory values drawn now, whether the time of a run ending now is shown, the kept
    program text) is the last choice made in any tab, also when this tab shows another. *)
Theorem C102_everybody : forall l i p, page_of (tabs l) i = Some p -> exists g, everybody (told l) = Some g /\
  fst (run_wait p) = V_num (Fin (f_cycle g)) /\ in_range (f_cycle g) /\ fst (memory_base p) = V_str (f_base g) /\ fst (run_measure p) = f_measure g /\
  fst (get_stored K_code (default K_code) (stored p)) = V_str (f_code g).
Proof.
  intros l i p Hp. pose proof (tabs_inv l) as H. unfold tinv in H. unfold page_of in Hp. destruct (everybody (told l)) as [g|].
  2:{ destruct H as (_ & M & _). destruct (M i) as (E & _). rewrite E in Hp. discriminate Hp. }
  destruct H as (nav & r & q & I & A & _ & G & _ & M). exists g. split; [reflexivity|]. destruct (tab (tabs l) i) as [p'|]; [|discriminate Hp]. cbn [option_map] in Hp. injection Hp as <-.
  unfold run_wait, memory_base, run_measure. cbn [with_stored stored]. subst g. unfold in_force. cbn [f_lang f_base f_cycle f_measure f_code].
  destruct I as (Hc & Hb & Hl & (m & Hm & Jm & Nm & Tm & Mm) & Hk & Ho & Ha & Hls & Hbs & Hi & Hx & Hr).
  apply (fun k v => agree_is _ _ k v A) in Hc; [|discriminate]. apply (fun k v => agree_is _ _ k v A) in Hb; [|discriminate].
  apply (fun k v => agree_is _ _ k v A) in Hm; [|discriminate]. apply (fun k v => agree_is _ _ k v A) in Hk; [|discriminate].
  destruct (get_is _ _ _ Hc eq_refl ltac:(discriminate)) as (G1 & _). destruct (get_stored K_cycle (default K_cycle) _) as (v1, s1). cbn [fst] in *.
  destruct (get_is _ _ _ Hb eq_refl ltac:(discriminate)) as (G2 & _). destruct (get_stored K_base (default K_base) _) as (v2, s2). cbn [fst] in *.
  destruct (get_is _ _ _ Hm Jm Nm) as (G3 & _). destruct (get_stored K_measure (default K_measure) _) as (v3, s3). cbn [fst] in *.
  destruct (get_is _ _ _ Hk eq_refl ltac:(discriminate)) as (G4 & _).
  split; [exact G1|]. split; [exact Hr|]. split; [exact G2|]. split; [congruence|exact G4].
Qed.
(** What an open tab shows (the language of its texts and every control of its drawer), and
    whether it runs in immediate mode, is what was in force when it was loaded, changed by
    its own choices since: no other tab changes it. *)
Theorem C102_mine : forall l i p, page_of (tabs l) i = Some p -> exists f, mine (told l) i = Some f /\
  active p = V_str (f_lang f) /\ lang_sel p = V_str (f_lang f) /\ base_sel p = V_str (f_base f) /\ truthy (measure_switch p) = f_measure f /\
  (immediate p = true <-> f_cycle f == 0) /\ (box p = V_num (Fin (f_cycle f)) \/ box p = V_num NaN /\ f_cycle f = 500%Q).
Proof.
  intros l i p Hp. pose proof (tabs_inv l) as H. unfold tinv in H. unfold page_of in Hp. destruct (everybody (told l)) as [g|].
  2:{ destruct H as (_ & M & _). destruct (M i) as (E & _). rewrite E in Hp. discriminate Hp. }
  destruct H as (nav & r & q & _ & _ & _ & _ & _ & M). specialize (M i). destruct (tab (tabs l) i) as [p'|]; [|discriminate Hp]. cbn [option_map] in Hp. injection Hp as <-.
  destruct (mine (told l) i) as [f|]; [|contradiction]. exists f. split; [reflexivity|]. destruct M as (A & L & B & Me & I & X). cbn [with_stored active lang_sel base_sel measure_switch immediate box].
  repeat split; try assumption; rewrite I; apply Qeq_bool_iff.
Qed.
(** Loading a tab again brings it up to date: it then shows what is in force. *)
Theorem C102_reload : forall l i n p, page_of (tabs l) i = Some p ->
  mine (told (l ++ [Do i (Reload n)])) i = everybody (told (l ++ [Do i (Reload n)])) /\ everybody (told (l ++ [Do i (Reload n)])) = everybody (told l).
Proof.
  intros l i n p Hp. destruct (proj1 (C102_open l i) (ex_intro _ p Hp)) as (f & E). unfold told in *. rewrite fold_left_app. cbn [fold_left fstep]. rewrite E. cbn [everybody mine]. rewrite put_same. auto.
Qed.
(** Among all tabs the tour is offered to the first that ends its welcome screen, and to
    no other, unless the switch of the drawer asks for it. *)
Theorem C102_tour : forall l i p, page_of (tabs l) i = Some p -> shown p = false -> exists p', page_of (tabs (l ++ [Do i Ready])) i = Some p' /\ tour p' = negb (toured_somewhere (told l)) /\
  toured_somewhere (told (l ++ [Do i Ready])) = true.
Proof.
  intros l i p Hp Sh. pose proof (tabs_inv l) as H. destruct (proj1 (C102_open l i) (ex_intro _ p Hp)) as (f & E). unfold tabs, told in *. rewrite !fold_left_app. cbn [fold_left tstep fstep]. fold (tabs l) (told l) in *.
  rewrite Hp, E. unfold page_of. cbn [tab shared toured_somewhere]. rewrite put_same. cbn [option_map]. eexists. split; [reflexivity|]. split; [|apply orb_true_r].
  unfold tinv in H. unfold page_of in Hp. destruct (everybody (told l)) as [g|]. 2:{ destruct H as (_ & M & _). destruct (M i) as (E' & _). rewrite E' in Hp. discriminate Hp. }
  destruct H as (nav & r & q & _ & _ & T & _ & O & _). destruct (tab (tabs l) i) as [p1|] eqn:Et; [|discriminate]. cbn [option_map] in Hp. injection Hp as <-. cbn [happen with_stored tour]. rewrite T.
  change (shown (with_stored (shared (tabs l)) p1)) with (shown p1) in Sh.
  destruct (existsb toured r).
  - destruct (onb_ready (with_stored (shared (tabs l)) p1) Sh (or_introl O)) as (_ & K & _). exact (K O).
  - destruct O as (O & _). destruct (onb_ready (with_stored (shared (tabs l)) p1) Sh (or_intror O)) as (_ & _ & K). exact (K O).
Qed.
(** Findings.  A tab loaded while the cycle time was 0 stays in immediate mode when another
    tab sets it to 500: its runs then wait 500 ms after every cycle, yet draw nothing and
    cannot be stopped by the button (RunButtons.tsx:120,275). *)
Theorem C102_immediate_refuted : forall nav, exists p, page_of (tabs [Open 0 nav; Do 0%nat (TypeCycle (Fin 0)); Open 1 nav; Do 1%nat (TypeCycle (Fin 500))]) 0 = Some p /\
  immediate p = true /\ fst (run_wait p) = V_num (Fin 500) /\ box p = V_num (Fin 0).
Proof. intros nav. eexists. repeat split. Qed.
(** The program text typed in one tab replaces the one kept from another: loaded again, the
    first tab finds the text of the second. *)
Theorem C102_text_refuted : forall nav t u, exists p, page_of (tabs [Open 0 nav; Open 1 nav; Do 0%nat (KeepCode t); Do 1%nat (KeepCode u); Do 0%nat (Reload nav)]) 0 = Some p /\
  fst (get_stored K_code (default K_code) (stored p)) = V_str u.
Proof. intros nav t u. eexists. repeat split. Qed.
(** The memory is drawn in the base chosen in another tab while the drawer shows this tab's. *)
Theorem C102_base_refuted : forall nav b, exists p, page_of (tabs [Open 0 nav; Open 1 nav; Do 1%nat (PickBase b)]) 0 = Some p /\ fst (memory_base p) = V_str b /\ base_sel p = V_str s_HEX.
Proof. intros nav b. eexists. repeat split. Qed.
(** With one tab these are the settings of C72. *)
Theorem C102_one_tab : forall l nav, page_of (tabs (Open 0 nav :: map (Do 0%nat) l)) 0 = Some (happens l (first_visit nav)).
Proof.
  intros l nav. unfold tabs. cbn [fold_left tstep shared tab]. 
  assert (H : forall l b p, page_of b 0%nat = Some p -> page_of (fold_left tstep (map (Do 0%nat) l) b) 0%nat = Some (happens l p)).
  { clear. induction l as [|e l IH]; intros b p H; [exact H|]. cbn [map fold_left happens]. apply IH. cbn [tstep]. rewrite H. unfold page_of. cbn [tab shared]. rewrite put_same. cbn [option_map].
    destruct (happen e p); reflexivity. }
  apply H. unfold page_of. cbn [tab shared]. rewrite put_same. reflexivity.
Qed.
Example C102_nonvacuous : forall nav, exists p q, let b := tabs [Open 0 nav; Do 0%nat Ready; Open 1 nav; Do 1%nat Ready; Do 0%nat (PickLanguage [101; 110]%N); Close 7; Do 1%nat (TypeCycle (Fin 20)); Do 9%nat (PickBase [])] in
  page_of b 0 = Some p /\ page_of b 1 = Some q /\ page_of b 9 = None /\ tour p = true /\ tour q = false /\ active p = V_str [101; 110]%N /\ active q = V_str nav /\ fst (run_wait p) = V_num (Fin 20) /\ box p = V_num (Fin 500).
Proof. intros nav. do 2 eexists. repeat split. Qed.
Print Assumptions C102_everybody. Print Assumptions C102_mine. Print Assumptions C102_tour. Print Assumptions C102_one_tab.
