(** * Theorems: the page and the machine (C82)
    Whatever the user does with the buttons, the editor, the boxes and in whatever order,
    the page shows the machine as it is, except while an immediate run is in progress. *)
From Coq Require Import ZArith NArith List Bool Lia ZifyBool String.
From Verif Require Import Word Prog Rtl Isa Api Usage ApiFacts Reach JsStr Front Disasm DisasmFacts NumBox View ViewSpec Buttons Screen.
From Verif Require Import PropsApi PropsView PropsDisasm PropsButtons.
From Verif Require PropsLife PropsNumBox PropsGuard.
Import ListNotations.
Open Scope list_scope.
Open Scope Z_scope.

(** What the user may do. *)
Inductive page_step : sevent -> Prop :=
| PS_user : forall u, user_event u -> page_step (User u)
| PS_long : page_step Too_long
| PS_look : forall n, page_step (Look n)
| PS_clear : page_step Clear_states
| PS_typed : forall t, page_step (Padding (Typed t))
| PS_base : forall b, page_step (Padding (ChooseBase b))
| PS_redraw : page_step Redraw.
(** The page is [s] after the events [es]. *)
Inductive on_screen : list sevent -> screen -> Prop :=
| O_open : forall rnd h s, (forall i, 0 <= rnd i) -> run_calls [Init rnd; SetUi true] boot = Some h -> screen0 h = Some s -> on_screen [] s
| O_step : forall es e s s', on_screen es s -> page_step e -> sact e s = Some s' -> on_screen (es ++ [e]) s'.

(** ** Listing *)
Lemma replacements_ext : forall m m' o t, (forall x, m x = m' x) -> do_replacements m o t = do_replacements m' o t.
Proof. intros m m' o t E. unfold do_replacements, replace_dir, replace_inm. rewrite !E. reflexivity. Qed.
Lemma operation_ext : forall m m' o v, (forall x, m x = m' x) -> find_operation m o v = find_operation m' o v.
Proof. intros m m' o v E. unfold find_operation. destruct (find _ _); [|reflexivity]. rewrite (replacements_ext m m' _ _ E). reflexivity. Qed.
Lemma deduct_ext : forall m m' a b, (forall x, m x = m' x) -> deduct m a b = deduct m' a b.
Proof.
  intros m m' a b E.
  assert (K : forall f i t, deduct_loop f m i t = deduct_loop f m' i t).
  { induction f as [|f IH]; intros i t; [reflexivity|]. cbn [deduct_loop]. rewrite E, (operation_ext m m' _ _ E), IH. reflexivity. }
  unfold deduct. rewrite K. reflexivity.
Qed.
Lemma mem_rows_ext : forall h h' a, (forall o, get_memory_value o h' = get_memory_value o h) -> mem_rows h' a = mem_rows h a.
Proof. intros h h' a E. unfold mem_rows, mem_row. rewrite !E. reflexivity. Qed.
Lemma mem_rows_some : forall h v a, showing h v -> exists m, mem_rows h a = Some m.
Proof.
  intros h v a S. destruct (showing_live h v S) as (l & L). destruct (C47_memory l h true L) as (K & _). unfold mem_rows, mem_row. rewrite !K. eauto.
Qed.

(** ** What is up to date *)
Record fresh (s : screen) : Prop := {
  fr_box : forall b r, In (b, r) boxes -> get_register_value r (core s) = Some (v_value (widgets s) b);
  fr_fz : get_register_value R_FZ (core s) = Some (Z.b2z (v_fz (widgets s)));
  fr_fc : get_register_value R_FC (core s) = Some (Z.b2z (v_fc (widgets s)));
  fr_mem : mem_rows (core s) (v_search (widgets s)) = Some (memory_rows s);
  fr_pc : get_register_value R_PC (core s) = Some (p_at (debugger s));
  fr_rows : p_rows (debugger s) = deduct (core_memory (core s)) (p_at (debugger s) - number (p_box (debugger s))) (p_at (debugger s) + number (p_box (debugger s)))
}.
Definition padding_ok (s : screen) : Prop := 0 <= p_at (debugger s) < 65536 /\ 0 <= number (p_box (debugger s)) <= 50.
Definition listed_ok (s : screen) : Prop := exists l, p_rows (debugger s) = Lists l.

Lemma drawn_listed : forall h v at_ b, showing h v -> 0 <= at_ < 65536 -> 0 <= number b <= 50 -> exists l, p_rows (draw_panel h at_ b) = Lists l.
Proof.
  intros h v at_ b S A B. destruct (showing_live h v S) as (l & L). destruct (C47_memory l h true L) as (_ & R).
  destruct (C55_highlight (seen h) at_ (number b) R A ltac:(lia)) as (ls & o & E & _). exists ls. exact E.
Qed.
Lemma pc_range : forall h v x, showing h v -> get_register_value R_PC h = Some x -> 0 <= x < 65536.
Proof.
  intros h v x S E. destruct (showing_live h v S) as (l & L). destruct (C18_ranges l h true L) as (R & _). destruct (R R_PC) as (y & Ey & Hy). rewrite E in Ey. injection Ey as <-. cbn in Hy. lia.
Qed.
(** One call or notification. *)
Lemma cause_ok : forall s e, showing (core s) (widgets s) -> padding_ok s -> listed_ok s -> page_event e ->
  exists s', cause e s = Some s' /\ happen e (core s, widgets s) = Some (core s', widgets s') /\ showing (core s') (widgets s') /\ padding_ok s' /\ listed_ok s' /\
    running s' = running s /\ (tells e = true -> fresh s' /\ get_state (core s') = Some (v_value (widgets s') "8b"%string)) /\
    (tells e = false -> memory_rows s' = memory_rows s /\ debugger s' = debugger s).
Proof.
  intros s e S P Ls PE. destruct (C59_defined (core s) (widgets s) e S PE) as (h & v & E). pose proof (S_event e _ _ h v S PE E) as S'.
  unfold cause. rewrite E. destruct (tells e) eqn:T.
  - assert (N : notified e = true) by (destruct e; auto). destruct (showing_live h v S') as (l & L). destruct (C17_getters_defined l h true L) as (A1 & _).
    destruct (get_register_value R_PC h) as [x|] eqn:Ex; [|exfalso; exact (A1 R_PC Ex)]. destruct (mem_rows_some h v (v_search v) S') as (m & Em). unfold draw_memory. rewrite Em.
    pose proof (pc_range h v x S' Ex) as X. destruct P as (P1 & P2). eexists. split; [reflexivity|]. cbn [core widgets running memory_rows debugger]. split; [reflexivity|]. split; [exact S'|].
    split; [split; [exact X|exact P2]|]. split; [exact (drawn_listed h v x _ S' X P2)|]. split; [reflexivity|]. split; [|discriminate]. intros _.
    destruct (C59_others _ _ e h v S PE N E) as (O1 & _ & O3 & O4 & _). split; [|exact O1]. constructor; cbn [core widgets running memory_rows debugger draw_panel p_at p_box p_rows]; auto.
    intros b r Hb. apply (C59_boxes _ _ e h v b r S PE N E Hb).
  - eexists. split; [reflexivity|]. cbn [core widgets running memory_rows debugger]. split; [reflexivity|]. split; [exact S'|]. repeat (split; [assumption || reflexivity|]). split; [discriminate|auto].
Qed.
Lemma all_causes_app : forall a b s, all_causes (a ++ b) s = match all_causes a s with Some s' => all_causes b s' | None => None end.
Proof. induction a as [|e a IH]; intros b s; [reflexivity|]. cbn [all_causes app]. destruct (cause e s); auto. Qed.
(** A store keeps the page up to date. *)
Lemma stores_ok : forall bytes o s, showing (core s) (widgets s) -> padding_ok s -> listed_ok s -> 0 <= o -> o + Z.of_nat (List.length bytes) <= 65536 -> (forall b, In b bytes -> 0 <= b <= 255) ->
  exists s', all_causes (map Call (store_from o bytes)) s = Some s' /\ run_calls (store_from o bytes) (core s) = Some (core s') /\ showing (core s') (widgets s') /\ padding_ok s' /\ listed_ok s' /\
    running s' = running s /\ (bytes <> [] -> fresh s' /\ get_state (core s') = Some (v_value (widgets s') "8b"%string)) /\ (bytes = [] -> s' = s).
Proof.
  induction bytes as [|b bytes IH]; intros o s S P Ls Ho Hn Hb.
  - exists s. cbn [store_from map all_causes run_calls]. repeat (split; [assumption || reflexivity|]). split; [congruence|auto].
  - cbn [List.length] in Hn. assert (PE : page_event (Call (SetMem o b))) by (constructor; [lia|apply Hb; left; reflexivity]).
    destruct (cause_ok s _ S P Ls PE) as (s1 & E1 & H1 & S1 & P1 & L1 & R1 & F1 & _). cbn [store_from map all_causes run_calls]. rewrite E1.
    assert (C : do_call (SetMem o b) (core s) = Some (core s1)) by (cbn [happen] in H1; destruct (do_call (SetMem o b) (core s)) as [h|]; [|discriminate H1]; cbn [notifies] in H1; destruct (refresh h (widgets s)); congruence).
    rewrite C. destruct (IH (o + 1) s1 S1 P1 L1 ltac:(lia) ltac:(lia) (fun x Hx => Hb x (or_intror Hx))) as (s' & E & Rc & S' & P' & L' & R' & F' & G').
    exists s'. rewrite E, Rc. repeat (split; [assumption || reflexivity || congruence|]). split; [|congruence]. intros _.
    destruct bytes as [|c bytes]; [|apply F'; congruence]. rewrite (G' eq_refl). apply F1. reflexivity.
Qed.
Lemma reset_fresh : forall s s', showing (core s) (widgets s) -> fresh s -> do_call ResetControl (core s) = Some (core s') -> widgets s' = widgets s -> memory_rows s' = memory_rows s -> debugger s' = debugger s -> fresh s'.
Proof.
  intros s s' S F E Ew Em Ed. destruct (showing_live _ _ S) as (l & L). destruct (live_up l _ true L) as (_ & z & U). destruct (up_obs _ z U) as (O & _).
  destruct (C36_reset l _ true _ L O) as (h & Eh & _ & _ & _ & O'). rewrite E in Eh. injection Eh as <-.
  assert (Rg : forall r, get_register_value r (core s') = get_register_value r (core s)) by (intros r; destruct O as (O & _), O' as (O' & _); rewrite O, O'; reflexivity).
  pose proof (C33_other_calls l _ ResetControl _ L (or_introl eq_refl) E) as Mm.
  destruct F as [F1 F2 F3 F4 F5 F6]. constructor; rewrite ?Ew, ?Em, ?Ed, ?Rg; auto.
  - intros b r Hb. rewrite Rg. apply F1. exact Hb.
  - rewrite (mem_rows_ext _ _ _ Mm). exact F4.
  - rewrite F6. apply deduct_ext. intros x. unfold core_memory. rewrite Mm. reflexivity.
Qed.

(** ** Every event *)
Definition immediate_run (s : screen) : Prop := exists g st, running s = Some (mkLoop (Program true) g st).
Definition starting_ok (lo : option loop) : Prop := match lo with Some (mkLoop Starting g st) => g = true /\ st = false | _ => True end.
Record good (s : screen) : Prop := {
  gd_showing : showing (core s) (widgets s); gd_padding : padding_ok s; gd_listed : listed_ok s; gd_starting : starting_ok (running s);
  gd_fresh : immediate_run s \/ fresh s }.

Lemma iterate_starting : forall l h k st h1 lo, live l h true -> iterate k st h = Some (h1, lo) -> starting_ok lo /\
  (forall g st', lo = Some (mkLoop (Program true) g st') -> k = Program true \/ k = Starting).
Proof.
  intros l h k st h1 lo L E. unfold iterate in E. destruct k as [im| |].
  - destruct (do_call _ h) as [h2|]; [|discriminate E]. destruct st; [injection E as <- <-; split; [exact I|discriminate]|]. destruct (get_register_value R_RI h2); [|discriminate E]. injection E as <- <-.
    split; [exact I|]. intros g st' X. injection X as -> _ _. left. reflexivity.
  - destruct (do_call _ h) as [h2|]; [|discriminate E]. destruct (get_next_state h2) as [q|]; [|discriminate E]. injection E as <- <-. destruct (q =? 0); (split; [exact I|discriminate]).
  - destruct (do_call _ h) as [h2|]; [|discriminate E]. destruct st; [injection E as <- <-; split; [exact I|discriminate]|]. destruct (get_register_value R_RI h2); [|discriminate E]. injection E as <- <-.
    split; [exact I|]. auto.
Qed.
Definition state_shown (s : screen) : Prop := get_state (core s) = Some (v_value (widgets s) "8b"%string).
Definition with_run (s : screen) (lo : option loop) : screen := mkScreen (core s) lo (widgets s) (memory_rows s) (debugger s).
Lemma fresh_run : forall s lo, fresh s -> fresh (with_run s lo).
Proof. intros s lo []. constructor; assumption. Qed.
Lemma good_run : forall s lo, showing (core s) (widgets s) -> padding_ok s -> listed_ok s -> starting_ok lo -> immediate_run (with_run s lo) \/ fresh s -> good (with_run s lo).
Proof. intros s lo S P L St F. constructor; auto. destruct F as [F|F]; [left; exact F|right; apply fresh_run; exact F]. Qed.
Lemma with_same : forall s, with_run s (running s) = s.
Proof. intros []. reflexivity. Qed.

(** One clock cycle of a loop. *)
Lemma clock_cause : forall s u, good s -> exists s1, cause (Call (RunClock u)) s = Some s1 /\ do_call (RunClock true) (core s) = Some (core s1) /\
  showing (core s1) (widgets s1) /\ padding_ok s1 /\ listed_ok s1 /\ (u = true -> fresh s1 /\ state_shown s1).
Proof.
  intros s u [S P Ls _ _]. destruct (cause_ok s _ S P Ls (PE_clock u)) as (s1 & E1 & H1 & S1 & P1 & L1 & _ & F1 & _). exists s1. split; [exact E1|].
  destruct (showing_live _ _ S) as (l & L). split; [|auto]. rewrite <- (clock_same l _ u L). cbn [happen] in H1.
  destruct (do_call (RunClock u) (core s)) as [h|]; [|discriminate H1]. destruct (notifies (RunClock u)); [destruct (refresh h (widgets s)); [|discriminate H1]|]; congruence.
Qed.
Lemma user_ok : forall u s, good s -> user_event u -> exists h lo s1, act u (core s, running s) = Some (h, lo) /\ all_causes (causes u (running s)) s = Some s1 /\ core s1 = h /\
  good (with_run s1 lo) /\ (u <> Save [] -> immediate_run s \/ state_shown s -> immediate_run (with_run s1 lo) \/ state_shown s1).
Proof.
  intros u s G U. pose proof G as [S P Ls St F]. destruct (showing_live _ _ S) as (l & L).
  assert (Stay : forall lo, causes u (running s) = [] -> act u (core s, running s) = Some (core s, lo) -> starting_ok lo -> (immediate_run s -> immediate_run (with_run s lo)) ->
    exists h lo s1, act u (core s, running s) = Some (h, lo) /\ all_causes (causes u (running s)) s = Some s1 /\ core s1 = h /\ good (with_run s1 lo) /\
      (u <> Save [] -> immediate_run s \/ state_shown s -> immediate_run (with_run s1 lo) \/ state_shown s1)).
  { intros lo Ec Ea So Im. exists (core s), lo, s. rewrite Ec. split; [exact Ea|]. split; [reflexivity|]. split; [reflexivity|]. split; [apply good_run; auto; tauto|]. intros _ [I|I]; auto. }
  assert (Clock : forall k st, causes u (running s) = [Call (RunClock true)] -> act u (core s, running s) = iterate k st (core s) ->
    exists h lo s1, act u (core s, running s) = Some (h, lo) /\ all_causes (causes u (running s)) s = Some s1 /\ core s1 = h /\ good (with_run s1 lo) /\
      (u <> Save [] -> immediate_run s \/ state_shown s -> immediate_run (with_run s1 lo) \/ state_shown s1)).
  { intros k st Ec Ea. destruct (clock_cause s true G) as (s1 & E1 & C1 & S1 & P1 & L1 & F1). destruct (F1 eq_refl) as (F1' & F1''). destruct (iterate_ok l (core s) k st L) as (h1 & lo & Ei & C & _).
    rewrite C1 in C. injection C as <-. exists (core s1), lo, s1. rewrite Ec, Ea. cbn [all_causes]. rewrite E1. split; [exact Ei|]. split; [reflexivity|]. split; [reflexivity|].
    split; [apply good_run; auto; apply (iterate_starting l _ k st _ _ L Ei)|]. auto. }
  destruct u as [im| | | | |bytes|x].
  - destruct (running s) as [lp|] eqn:Er.
    + apply (Stay (Some lp)); [destruct im; reflexivity|destruct im; reflexivity|exact St|]. intros (g & st & I). exists g, st. rewrite Er in I. exact I.
    + destruct im; [|apply (Clock (Program false) false); reflexivity]. apply (Stay (Some (mkLoop Starting true false))); [reflexivity|reflexivity|split; reflexivity|]. intros (g & st & X). congruence.
  - destruct (running s) as [lp|] eqn:Er; [|apply (Clock Instruction false); reflexivity]. apply (Stay (Some lp)); try reflexivity; [exact St|]. intros (g & st & I). exists g, st. rewrite Er in I. exact I.
  - destruct (running s) as [lp|] eqn:Er. { apply (Stay (Some lp)); try reflexivity; [exact St|]. intros (g & st & I). exists g, st. rewrite Er in I. exact I. }
    destruct (clock_cause s true G) as (s1 & E1 & C1 & S1 & P1 & L1 & F1). destruct (F1 eq_refl) as (F1' & F1''). exists (core s1), None, s1. cbn [act causes all_causes]. rewrite C1, E1.
    repeat (split; [reflexivity|]). split; [apply good_run; auto; exact I|auto].
  - destruct (running s) as [[k g st]|] eqn:Er. 2:{ apply (Stay None); try reflexivity. intros (g & st & I). congruence. }
    destruct g.
    2:{ destruct k as [[|]| |].
        - destruct (cause_ok s _ S P Ls PE_notify) as (s1 & E1 & H1 & S1 & P1 & L1 & _ & F1 & _). destruct (F1 eq_refl) as (F1' & F1'').
          assert (core s1 = core s) by (cbn [happen] in H1; destruct (refresh (core s) (widgets s)); congruence).
          exists (core s), None, s1. cbn [act causes all_causes going]. rewrite E1. repeat (split; [reflexivity || assumption|]). split; [apply good_run; auto; exact I|auto].
        - apply (Stay None); try reflexivity. intros (g & st' & I). congruence.
        - apply (Stay None); try reflexivity. intros (g & st' & I). congruence.
        - destruct St as (St & _). discriminate St. }
    destruct k as [[|]| |].
    + destruct (clock_cause s false G) as (s1 & E1 & C1 & S1 & P1 & L1 & F1). destruct (iterate_ok l (core s) (Program true) st L) as (h1 & lo & Ei & C & _). rewrite C1 in C. injection C as <-.
      cbn [act causes all_causes going lkind stoping negb andb]. destruct st.
      * assert (lo = None) as ->. { cbn [iterate] in Ei. destruct (do_call (RunClock (negb true)) (core s)); [|discriminate Ei]. congruence. }
        destruct (cause_ok s1 _ S1 P1 L1 PE_notify) as (s2 & E2 & H2 & S2 & P2 & L2 & _ & F2 & _). destruct (F2 eq_refl) as (F2' & F2'').
        assert (Ec : core s2 = core s1) by (cbn [happen] in H2; destruct (refresh (core s1) (widgets s1)); congruence).
        exists (core s1), None, s2. rewrite E1. cbn [all_causes]. rewrite E2. split; [exact Ei|]. repeat (split; [reflexivity || assumption|]). split; [apply good_run; auto; exact I|auto].
      * assert (Im : immediate_run (with_run s1 lo)).
        { cbn [iterate] in Ei. destruct (do_call (RunClock (negb true)) (core s)) as [hh|]; [|discriminate Ei]. destruct (get_register_value R_RI hh) as [v|]; [|discriminate Ei]. injection Ei as _ <-. exists true, (v =? max_representable). reflexivity. }
        exists (core s1), lo, s1. rewrite E1. split; [exact Ei|]. repeat (split; [reflexivity || assumption|]). split; [|auto]. apply good_run; auto. apply (iterate_starting l _ _ _ _ _ L Ei).
    + apply (Clock (Program false) st); reflexivity.
    + apply (Clock Instruction st); reflexivity.
    + destruct (clock_cause s false G) as (s1 & E1 & C1 & S1 & P1 & L1 & F1). destruct (iterate_ok l (core s) Starting st L) as (h1 & lo & Ei & C & _). rewrite C1 in C. injection C as <-.
      cbn [act causes all_causes going lkind stoping]. exists (core s1), lo, s1. rewrite E1. split; [exact Ei|]. split; [reflexivity|]. split; [reflexivity|].
      assert (Im : immediate_run (with_run s1 lo)).
      { destruct St as (_ & ->). cbn [iterate] in Ei. destruct (do_call (RunClock (negb true)) (core s)) as [hh|]; [|discriminate Ei]. destruct (get_register_value R_RI hh) as [v|]; [|discriminate Ei]. injection Ei as _ <-. exists true, (v =? max_representable). reflexivity. }
      split; [|auto]. apply good_run; auto. apply (iterate_starting l _ _ _ _ _ L Ei).
  - destruct (running s) as [[[[|]| |] g st]|] eqn:Er.
    + apply (Stay (Some (mkLoop (Program true) false st))); [reflexivity|reflexivity|exact I|]. intros _. exists false, st. reflexivity.
    + apply (Stay (Some (mkLoop (Program false) false st))); [reflexivity|reflexivity|exact I|]. intros (g' & st' & X). congruence.
    + apply (Stay (Some (mkLoop Instruction false st))); [reflexivity|reflexivity|exact I|]. intros (g' & st' & X). congruence.
    + apply (Stay (Some (mkLoop Starting g st))); [reflexivity|reflexivity|exact St|]. intros (g' & st' & X). congruence.
    + apply (Stay None); [reflexivity|reflexivity|exact I|]. intros (g' & st' & X). congruence.
  - inversion U as [| | | | |bs Hn Hb|]; subst bs. destruct (cause_ok s _ S P Ls PE_reset) as (s1 & E1 & H1 & S1 & P1 & L1 & R1 & _ & K1). destruct (K1 eq_refl) as (K1a & K1b).
    assert (C1 : do_call ResetControl (core s) = Some (core s1) /\ widgets s1 = widgets s) by (cbn [happen] in H1; destruct (do_call ResetControl (core s)); [|discriminate H1]; cbn [notifies] in H1; split; congruence).
    destruct C1 as (C1 & W1).
    destruct (stores_ok bytes 0 s1 S1 P1 L1 ltac:(lia) ltac:(lia) Hb) as (s2 & E2 & Rc & S2 & P2 & L2 & R2 & F2 & G2).
    exists (core s2), (running s), s2. cbn [causes]. cbn [all_causes]. rewrite E1, E2. split. { cbn [act]. unfold save_to_memory. cbn [run_calls]. rewrite C1, Rc. reflexivity. }
    repeat (split; [reflexivity|]). split.
    + apply good_run; auto. destruct F as [(g & st & I)|F]; [left; exists g, st; exact I|]. right. destruct bytes as [|b bytes].
      * rewrite (G2 eq_refl). apply (reset_fresh s); auto.
      * apply F2. discriminate.
    + intros Nu _. right. apply F2. intros ->. apply Nu. reflexivity.
  - inversion U as [| | | | | |y Hy]; subst y. destruct (cause_ok s _ S P Ls (PE_pc x Hy)) as (s1 & E1 & H1 & S1 & P1 & L1 & R1 & F1 & _). destruct (F1 eq_refl) as (F1' & F1'').
    assert (C1 : do_call (SetPc x) (core s) = Some (core s1)) by (cbn [happen] in H1; destruct (do_call (SetPc x) (core s)) as [h|]; [|discriminate H1]; cbn [notifies] in H1; destruct (refresh h (widgets s)); congruence).
    exists (core s1), (running s), s1. cbn [causes all_causes act]. rewrite E1, C1. repeat (split; [reflexivity|]). split; [apply good_run; auto|auto].
Qed.
Lemma box_range : forall e x y, (forall n, e <> PassNumber n) -> 0 <= number x <= 50 -> box_act (Some max_padding) e x = Some y -> 0 <= number y <= 50.
Proof.
  intros [t|b|n] x y Hp R E; [|injection E as <-; exact R|exfalso; exact (Hp n eq_refl)]. cbn [box_act] in E. unfold typed in E. destruct (validate t (nbase x)) eqn:V; [|injection E as <-; exact R].
  apply PropsNumBox.validate_iff in V. destruct V as (v & A). pose proof (PropsNumBox.acceptable_nonneg _ _ _ A). rewrite (PropsNumBox.parse_ok _ _ _ A) in E.
  destruct (2 ^ 53 - 1 <? v); [discriminate E|]. injection E as <-. change (0 <= (if 50 <? v then 50 else v) <= 50). destruct (Z.ltb_spec 50 v); lia.
Qed.
(** An event that is not one of the buttons or of the editor. *)
Lemma step_good : forall e s s', good s -> page_step e -> sact e s = Some s' -> good s' /\ (e <> User (Save []) -> immediate_run s \/ state_shown s -> immediate_run s' \/ state_shown s').
Proof.
  intros e s s' G PS E. pose proof G as [S P Ls St F]. destruct PS as [u U| |n| |t|b|].
  - destruct (user_ok u s G U) as (h & lo & s1 & Ea & Ec & <- & G1 & K). cbn [sact] in E. rewrite Ea, Ec in E. injection E as <-. split; [exact G1|]. intros N Sh. destruct (K (fun X => N (f_equal User X)) Sh); auto.
  - cbn [sact] in E. destruct (running s) as [[[[|]| |] g st]|] eqn:Er; try (injection E as <-; split; [exact G|auto]).
    destruct (cause_ok s _ S P Ls PE_notify) as (s1 & E1 & _ & S1 & P1 & L1 & R1 & F1 & _). rewrite E in E1. injection E1 as <-. destruct (F1 eq_refl) as (F1' & F1''). split; [|auto]. constructor; auto. rewrite R1, Er. exact I.
  - cbn [sact] in E. destruct (n =? v_search (widgets s)); [injection E as <-; auto|]. cbn [happen] in E.
    match type of E with context [draw_memory _ ?v] => set (w := v) in * end. destruct (draw_memory (core s) w) as [m|] eqn:Em; [|discriminate E]. injection E as <-.
    assert (S' : showing (core s) w) by (apply (S_event (Search n) (core s) (widgets s)); [exact S|constructor|reflexivity]).
    split; [|auto]. constructor; auto. destruct F as [F|[F1 F2 F3 F4 F5 F6]]; [left; exact F|right]. constructor; assumption.
  - cbn [sact] in E. destruct (cause_ok s _ S P Ls PE_clear) as (s1 & E1 & H1 & S1 & P1 & L1 & R1 & _ & K1). rewrite E in E1. injection E1 as <-. destruct (K1 eq_refl) as (K1a & K1b).
    cbn [happen] in H1. assert (Hc : core s' = core s) by congruence. assert (Hw : widgets s' = mkView (v_value (widgets s)) (v_blob (widgets s)) (v_edges (widgets s)) (v_fz (widgets s)) (v_fc (widgets s)) (v_alu (widgets s)) (v_search (widgets s)) (v_le (widgets s)) []) by congruence.
    split.
    + constructor; auto; [rewrite R1; exact St|]. destruct F as [(g & st & X)|[F1 F2 F3 F4 F5 F6]]; [left; exists g, st; congruence|right]. constructor; rewrite ?Hc, ?Hw, ?K1a, ?K1b; auto.
    + intros _ [(g & st & X)|X]; [left; exists g, st; congruence|right]. unfold state_shown in *. rewrite Hc, Hw. exact X.
  - cbn [sact] in E. destruct (box_act (Some max_padding) (Typed t) (p_box (debugger s))) as [x|] eqn:Ex; [|discriminate E]. destruct P as (P1 & P2). pose proof (box_range (Typed t) _ _ ltac:(intros ? X; discriminate X) P2 Ex) as P3.
    destruct (_ && _) eqn:B; injection E as <-.
    + assert (number x = number (p_box (debugger s))) by lia. split; [|auto]. constructor; auto; [split; [exact P1|exact P3]|]. destruct F as [F|[F1 F2 F3 F4 F5 F6]]; [left; exact F|right]. constructor; auto. cbn. rewrite H. exact F6.
    + split; [|auto]. constructor; auto; [split; [exact P1|exact P3]|exact (drawn_listed _ _ _ _ S P1 P3)|]. destruct F as [F|[F1 F2 F3 F4 F5 F6]]; [left; exact F|right]. constructor; auto.
  - cbn [sact] in E. destruct (box_act (Some max_padding) (ChooseBase b) (p_box (debugger s))) as [x|] eqn:Ex; [|discriminate E]. destruct P as (P1 & P2). pose proof (box_range (ChooseBase b) _ _ ltac:(intros ? X; discriminate X) P2 Ex) as P3.
    destruct (_ && _) eqn:B; injection E as <-.
    + assert (number x = number (p_box (debugger s))) by lia. split; [|auto]. constructor; auto; [split; [exact P1|exact P3]|]. destruct F as [F|[F1 F2 F3 F4 F5 F6]]; [left; exact F|right]. constructor; auto. cbn. rewrite H. exact F6.
    + split; [|auto]. constructor; auto; [split; [exact P1|exact P3]|exact (drawn_listed _ _ _ _ S P1 P3)|]. destruct F as [F|[F1 F2 F3 F4 F5 F6]]; [left; exact F|right]. constructor; auto.
  - cbn [sact] in E. destruct (draw_memory (core s) (widgets s)) as [m|] eqn:Em; [|discriminate E]. injection E as <-. destruct P as (P1 & P2). split; [|auto].
    constructor; auto; [split; assumption|exact (drawn_listed _ _ _ _ S P1 P2)|]. destruct F as [F|[F1 F2 F3 F4 F5 F6]]; [left; exact F|right]. constructor; auto.
Qed.
Lemma ui_same : forall h h', do_call (SetUi true) h = Some h' -> (forall r, get_register_value r h' = get_register_value r h) /\ get_state h' = get_state h.
Proof. intros h h' E. cbn [do_call] in E. injection E as <-. split; [intros r|]; reflexivity. Qed.
Lemma two_calls : forall a b h, run_calls [a; b] h = match do_call a h with Some h1 => do_call b h1 | None => None end.
Proof. intros a b h. cbn [run_calls]. destruct (do_call a h) as [h1|]; [|reflexivity]. destruct (do_call b h1); reflexivity. Qed.
Lemma open_regs : forall rnd h, (forall i, 0 <= rnd i) -> run_calls [Init rnd; SetUi true] boot = Some h -> (forall r, get_register_value r h = Some 0) /\ get_state h = Some 0.
Proof.
  intros rnd h Hr E. destruct (PropsLife.C52_init [] _ rnd boot P_start eq_refl Hr) as (h1 & E1 & R1 & _ & Q1 & _). rewrite two_calls, E1 in E.
  destruct (ui_same _ _ E) as (A & B). split; [intros r; rewrite A; apply R1|rewrite B; exact Q1].
Qed.
Lemma open_good : forall rnd h s, (forall i, 0 <= rnd i) -> run_calls [Init rnd; SetUi true] boot = Some h -> screen0 h = Some s -> good s /\ state_shown s.
Proof.
  intros rnd h s Hr E Es. pose proof (S_open rnd h Hr E) as S. destruct (open_regs rnd h Hr E) as (K1 & K2). clear E. unfold screen0 in Es. destruct (draw_memory h view0) as [m|] eqn:Em; [|discriminate Es]. injection Es as <-.
  split; [|exact K2]. assert (Pd : 0 <= 0 < 65536 /\ 0 <= number (new_box 10 DEC) <= 50) by (split; [lia|cbn; lia]).
  constructor; cbn [core widgets running debugger].
  - exact S.
  - exact Pd.
  - exact (drawn_listed h view0 0 (new_box 10 DEC) S (proj1 Pd) (proj2 Pd)).
  - exact I.
  - right. constructor; cbn [core widgets running debugger memory_rows].
    + intros b r _. exact (K1 r).
    + exact (K1 R_FZ).
    + exact (K1 R_FC).
    + exact Em.
    + exact (K1 R_PC).
    + reflexivity.
Qed.
Lemma screen_good : forall es s, on_screen es s -> good s /\ (~ In (User (Save [])) es -> immediate_run s \/ state_shown s).
Proof.
  induction 1 as [rnd h s Hr E Es|es e s s' O (G & Sh) PS E].
  - destruct (open_good rnd h s Hr E Es). auto.
  - destruct (step_good e s s' G PS E) as (G' & K). split; [exact G'|]. intros N. apply K; [intros ->; apply N; apply in_or_app; right; left; reflexivity|]. apply Sh. intros X. apply N. apply in_or_app. left. exact X.
Qed.

(** ** C82 *)
(** The page appears, and whatever the user does next is defined (numbers typed into the
    debugger's box below 2^53). *)
Theorem C82_opens : forall rnd, (forall i, 0 <= rnd i) -> exists h s, run_calls [Init rnd; SetUi true] boot = Some h /\ screen0 h = Some s /\ on_screen [] s.
Proof.
  intros rnd Hr. destruct (PropsLife.C52_init [] _ rnd boot P_start eq_refl Hr) as (h1 & E1 & _).
  assert (E : exists h, run_calls [Init rnd; SetUi true] boot = Some h) by (rewrite two_calls, E1; cbn [do_call]; eauto). destruct E as (h & E). exists h.
  destruct (mem_rows_some h view0 (v_search view0) (S_open rnd h Hr E)) as (m & Em). assert (Es : exists s, screen0 h = Some s) by (unfold screen0, draw_memory; rewrite Em; eauto).
  destruct Es as (s & Es). exists s. repeat split; auto. exact (O_open rnd h s Hr E Es).
Qed.
Theorem C82_defined : forall es s e, on_screen es s -> page_step e -> (forall t v, e = Padding (Typed t) -> PropsNumBox.acceptable (nbase (p_box (debugger s))) t v -> v < 2 ^ 53) ->
  exists s', sact e s = Some s'.
Proof.
  intros es s e O PS B. destruct (screen_good es s O) as (G & _). pose proof G as [S P Ls St F]. destruct PS as [u U| |n| |t|b|].
  - destruct (user_ok u s G U) as (h & lo & s1 & Ea & Ec & <- & _). cbn [sact]. rewrite Ea, Ec. eauto.
  - cbn [sact]. destruct (cause_ok s _ S P Ls PE_notify) as (s1 & E1 & _). destruct (running s) as [[[[|]| |] g st]|]; eauto.
  - cbn [sact happen]. destruct (n =? v_search (widgets s)); [eauto|]. unfold draw_memory. destruct (mem_rows_some (core s) (widgets s) n S) as (m & Em). cbn [v_search]. rewrite Em. eauto.
  - cbn [sact]. destruct (cause_ok s _ S P Ls PE_clear) as (s1 & E1 & _). eauto.
  - cbn [sact box_act]. unfold typed. destruct (validate t (nbase (p_box (debugger s)))) eqn:V; [|destruct (_ && _); eauto].
    apply PropsNumBox.validate_iff in V. destruct V as (v & A). rewrite (PropsNumBox.parse_ok _ _ _ A). specialize (B t v eq_refl A). destruct (Z.ltb_spec (2 ^ 53 - 1) v); [lia|]. destruct (_ && _); [|destruct (_ && _)]; try destruct (_ && _); eauto.
  - cbn [sact box_act]. destruct (_ && _); eauto.
  - cbn [sact]. unfold draw_memory. destruct (mem_rows_some (core s) (widgets s) (v_search (widgets s)) S) as (m & Em). rewrite Em. eauto.
Qed.
(** Except in the middle of an immediate run, every register box, the flags, the memory box
    and the debugger show the machine as it is now. *)
Theorem C82_shown : forall es s, on_screen es s -> (forall g st, running s <> Some (mkLoop (Program true) g st)) ->
  (forall b r, In (b, r) boxes -> get_register_value r (core s) = Some (v_value (widgets s) b)) /\
  get_register_value R_FZ (core s) = Some (Z.b2z (v_fz (widgets s))) /\ get_register_value R_FC (core s) = Some (Z.b2z (v_fc (widgets s))) /\
  (forall a c, v_search (widgets s) = a -> 0 <= a < 2 ^ 32 - 1 -> obs (core s) c ->
     memory_rows s = map (fun x => (x, mem c x, x =? a)) (filter (fun x => (0 <=? x) && (x <? 65536)) [a - 1; a; a + 1])) /\
  exists m pc l o, (forall a, get_memory_value a (core s) = Some (m a)) /\ get_register_value R_PC (core s) = Some pc /\ p_rows (debugger s) = Lists l /\ pointed (p_at (debugger s)) l = Some o /\ In o l /\ l_from o <= pc <= l_to o /\
    (forall o', In o' l -> l_from o' <= pc <= l_to o' -> o' = o) /\ forall o', In o' l -> shows_at m (l_from o') (l_text o') (l_to o').
Proof.
  intros es s O N. destruct (screen_good es s O) as ([S P Ls St F] & _). destruct F as [(g & st & X)|[F1 F2 F3 F4 F5 F6]]; [exfalso; exact (N g st X)|].
  split; [exact F1|]. split; [exact F2|]. split; [exact F3|]. split.
  - intros a c Ea Ha Oc. rewrite Ea in F4. rewrite (C60_rows _ _ a c S Oc Ha) in F4. congruence.
  - destruct P as (P1 & P2). destruct (showing_live _ _ S) as (l & L). destruct (C47_memory l _ true L) as (Rm & R).
    destruct (C55_highlight (seen (core s)) (p_at (debugger s)) (number (p_box (debugger s))) R P1 ltac:(lia)) as (ls & o & E & Po & Ho & Hr & Hu & _).
    destruct (C47_partition (seen (core s)) (p_at (debugger s) - number (p_box (debugger s))) (p_at (debugger s) + number (p_box (debugger s))) R ltac:(lia)) as (ls' & e & E' & _ & Pt & _). rewrite E in E'. injection E' as <-.
    exists (seen (core s)), (p_at (debugger s)), ls, o. split; [exact Rm|]. split; [exact F5|]. split; [rewrite F6; exact E|]. split; [exact Po|]. split; [exact Ho|]. split; [exact Hr|]. split; [exact Hu|]. intros o' Ho'. exact (partition_shows _ _ _ _ _ Pt Ho').
Qed.
(** The microstate box too, unless the user saved an empty program. *)
Theorem C82_state : forall es s, on_screen es s -> ~ In (User (Save [])) es -> (forall g st, running s <> Some (mkLoop (Program true) g st)) ->
  get_state (core s) = Some (v_value (widgets s) "8b"%string).
Proof. intros es s O N R. destruct (screen_good es s O) as (_ & K). destruct (K N) as [(g & st & X)|X]; [exfalso; exact (R g st X)|exact X]. Qed.
(** The debugger never fails: it always has a list, of at most 50 addresses on either side. *)
Theorem C82_debugger : forall es s, on_screen es s -> 0 <= number (p_box (debugger s)) <= 50 /\ exists l, p_rows (debugger s) = Lists l.
Proof. intros es s O. destruct (screen_good es s O) as ([S (_ & P) Ls _ _] & _). auto. Qed.

Lemma press_state : forall es s, on_screen es s -> running s = None -> exists s', sact (User PressState) s = Some s' /\ do_call (RunClock true) (core s) = Some (core s') /\ running s' = None /\ on_screen (es ++ [User PressState]) s'.
Proof.
  intros es s O N. destruct (C82_defined es s (User PressState) O (PS_user _ UE_state)) as (s' & E). { intros t v X. discriminate X. }
  exists s'. split; [exact E|]. destruct (screen_good es s O) as (G & _). destruct (user_ok PressState s G UE_state) as (h & lo & s1 & Ea & Ec & <- & _).
  assert (K : do_call (RunClock true) (core s) = Some (core s1) /\ lo = None). { rewrite N in Ea. cbn [act] in Ea. destruct (do_call (RunClock true) (core s)); [|discriminate Ea]. split; congruence. }
  assert (E' := E). cbn [sact] in E'. rewrite Ea, Ec in E'. injection E' as <-. cbn [core running]. split; [apply K|]. split; [apply K|]. exact (O_step es _ s _ O (PS_user _ UE_state) E).
Qed.
(** Saving an empty program goes unnoticed: after two cycles the machine is in microstate 1, the
    save takes it back to 0, and the box goes on showing 1. *)
Theorem C82_state_refuted : exists es s, on_screen es s /\ running s = None /\ get_state (core s) = Some 0 /\ v_value (widgets s) "8b"%string = 1.
Proof.
  destruct (C82_opens (fun _ => 0) ltac:(intros; lia)) as (h0 & s0 & E0 & Es0 & O0).
  assert (C0 : core s0 = h0 /\ running s0 = None) by (unfold screen0 in Es0; destruct (draw_memory h0 view0); [|discriminate Es0]; injection Es0 as <-; split; reflexivity). destruct C0 as (C0 & N0).
  destruct (press_state _ _ O0 N0) as (s1 & E1 & D1 & N1 & O1). destruct (press_state _ _ O1 N1) as (s2 & E2 & D2 & N2 & O2).
  destruct (PropsGuard.run_from_boot [RunClock true; RunClock true] (fun s => match shown_state s with Some y => y =? 1 | None => false end)) as (h2 & z2 & Eh & Sm & F). { vm_compute. reflexivity. }
  assert (h2 = core s2) as ->. { change (Init (fun _ => 0) :: SetUi true :: [RunClock true; RunClock true]) with ([Init (fun _ => 0); SetUi true] ++ [RunClock true; RunClock true]) in Eh. rewrite run_calls_app, E0, two_calls, <- C0, D1, D2 in Eh. congruence. }
  assert (Q2 : get_state (core s2) = Some 1). { rewrite (state_sim _ _ Sm). destruct (shown_state z2); [|discriminate F]. apply Z.eqb_eq in F. congruence. }
  assert (V2 := C82_state _ _ O2 ltac:(intros [X|[X|[]]]; discriminate X) ltac:(intros g st X; rewrite N2 in X; discriminate X)). rewrite Q2 in V2. injection V2 as V2.
  assert (U : user_event (Save [])) by (apply UE_save; [cbn; lia|intros b []]).
  destruct (C82_defined _ s2 (User (Save [])) O2 (PS_user _ U)) as (s3 & E3). { intros t v X. discriminate X. }
  exists ((([] ++ [User PressState]) ++ [User PressState]) ++ [User (Save [])]), s3. split; [exact (O_step _ _ s2 s3 O2 (PS_user _ U) E3)|].
  cbn [sact causes act store_from map all_causes cause] in E3. unfold save_to_memory in E3. cbn [run_calls store_from] in E3.
  destruct (screen_good _ _ O2) as ([S2 _ _ _ _] & _). destruct (showing_live _ _ S2) as (l & L). destruct (live_up l _ true L) as (_ & z & Uz). destruct (up_obs _ z Uz) as (Ob & _).
  destruct (C36_reset l _ true _ L Ob) as (h & Eq & _ & Qs & _). unfold cause in E3. cbn [happen tells notifies] in E3. rewrite Eq in E3. cbn in E3. injection E3 as <-. cbn. rewrite N2. auto.
Qed.
(** In the middle of an immediate run the page stands still while the machine goes on. *)
Theorem C82_immediate : forall es s st, on_screen es s -> running s = Some (mkLoop (Program true) true st) ->
  exists s', sact (User Wake) s = Some s' /\ do_call (RunClock false) (core s) = Some (core s') /\
    (running s' <> None -> widgets s' = widgets s /\ memory_rows s' = memory_rows s /\ debugger s' = debugger s) /\
    (running s' = None <-> st = true).
Proof.
  intros es s st O N. destruct (C82_defined es s (User Wake) O (PS_user _ UE_wake)) as (s' & E). { intros t v X. discriminate X. }
  exists s'. split; [exact E|]. destruct (screen_good es s O) as (G & _). destruct (user_ok Wake s G UE_wake) as (h & lo & s1 & Ea & Ec & <- & _).
  cbn [sact] in E. rewrite Ea, Ec in E. injection E as <-. cbn [core running widgets memory_rows debugger].
  rewrite N in Ea, Ec. cbn [act going lkind stoping iterate negb] in Ea. cbn [causes andb negb] in Ec.
  destruct (do_call (RunClock false) (core s)) as [h1|] eqn:Eh; [|discriminate Ea].
  destruct st; cbn [all_causes] in Ec.
  - split; [congruence|]. split; [intros X; exfalso; apply X; congruence|]. split; [reflexivity|congruence].
  - destruct (get_register_value R_RI h1) as [v|]; [|discriminate Ea]. split; [congruence|]. split; [|split; [intros X; exfalso; congruence|intros X; discriminate X]].
    intros _. unfold cause in Ec. cbn [happen notifies tells] in Ec. rewrite Eh in Ec. cbn in Ec. injection Ec as <-. auto.
Qed.
Example C82_nonvacuous : exists es s, on_screen es s /\ es <> [] /\ running s = Some (mkLoop (Program true) true false) /\ get_register_value R_PC (core s) = Some 1 /\ p_at (debugger s) = 0.
Proof.
  destruct (C82_opens (fun _ => 0) ltac:(intros; lia)) as (h0 & s0 & E0 & Es0 & O0).
  assert (C0 : core s0 = h0 /\ running s0 = None /\ p_at (debugger s0) = 0) by (unfold screen0 in Es0; destruct (draw_memory h0 view0); [|discriminate Es0]; injection Es0 as <-; repeat split; reflexivity). destruct C0 as (C0 & N0 & A0).
  destruct (C82_defined _ s0 (User (PressProgram true)) O0 (PS_user _ (UE_program true))) as (s1 & E1). { intros t v X. discriminate X. }
  pose proof (O_step _ _ _ _ O0 (PS_user _ (UE_program true)) E1) as O1. cbn [sact act causes all_causes] in E1. rewrite N0 in E1. injection E1 as E1.
  destruct (C82_defined _ s1 (User Wake) O1 (PS_user _ UE_wake)) as (s2 & E2). { intros t v X. discriminate X. }
  pose proof (O_step _ _ _ _ O1 (PS_user _ UE_wake) E2) as O2. exists (([] ++ [User (PressProgram true)]) ++ [User Wake]), s2. split; [exact O2|]. split; [discriminate|].
  destruct (PropsGuard.run_from_boot [RunClock false] (fun s => match word_to_int (Machine.rg s R_PC), word_to_int (Machine.rg s R_RI) with Some y, Some w => (y =? 1) && (w =? 0) | _, _ => false end)) as (h2 & z2 & Eh & Sm & F). { vm_compute. reflexivity. }
  change (Init (fun _ => 0) :: SetUi true :: [RunClock false]) with ([Init (fun _ => 0); SetUi true] ++ [RunClock false]) in Eh. rewrite run_calls_app, E0, <- C0 in Eh. cbn [run_calls] in Eh.
  rewrite <- E1 in E2. cbn [sact act running core causes going lkind stoping iterate negb all_causes] in E2. unfold cause in E2. cbn [core widgets running memory_rows debugger happen notifies tells] in E2.
  destruct (do_call (RunClock false) (core s0)) as [h1|] eqn:Ed; [|discriminate Eh]. injection Eh as ->.
  assert (R : get_register_value R_PC h2 = Some 1 /\ get_register_value R_RI h2 = Some 0).
  { rewrite !(PropsGuard.shown h2 z2 _ Sm). destruct (word_to_int (Machine.rg z2 R_PC)) as [y|]; [|discriminate F]. destruct (word_to_int (Machine.rg z2 R_RI)) as [w|]; [|discriminate F]. apply andb_true_iff in F. destruct F as (F1 & F2). apply Z.eqb_eq in F1, F2. subst y w. auto. }
  destruct R as (R1 & R2). rewrite R2 in E2. cbn in E2. injection E2 as <-. cbn. auto.
Qed.
Print Assumptions C82_opens.
Print Assumptions C82_defined.
Print Assumptions C82_shown.
Print Assumptions C82_state.
Print Assumptions C82_debugger.
Print Assumptions C82_state_refuted.
Print Assumptions C82_immediate.
