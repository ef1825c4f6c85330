(** * Theorems: what a program says is what the page shows (C84)
    The text typed into the editor, the Save button, the PC box, the run buttons and
    everything that is on the page, together. *)
From Coq Require Import String ZArith NArith List Bool Lia ZifyBool.
From Verif Require Import Asm AsmRe AsmLine AsmFacts AsmProg AsmErr PropsAsm.
From Verif Require Import Prog Isa Api ApiFacts Usage Front Reach JsStr AsmSpec Disasm DisasmFacts NumBox View ViewSpec Buttons Screen Editor Source.
From Verif Require Import PropsApi PropsRun Shown PropsView PropsDisasm PropsButtons PropsLoad PropsEditor PropsSource PropsScreen.
Import ListNotations.
Open Scope list_scope.
Open Scope Z_scope.

(** The page after the events [es]. *)
Fixpoint sacts (es : list sevent) (s : screen) : option screen :=
  match es with [] => Some s | e :: r => match sact e s with Some s' => sacts r s' | None => None end end.
(** The run buttons, the wakes and the editor's buttons among them; the others are the
    memory box, the boxes of the debugger, the list of states, redraws. *)
Fixpoint presses (es : list sevent) : list uevent :=
  match es with [] => [] | User u :: r => u :: presses r | _ :: r => presses r end.

(** Someone reading the page finds the programmer-visible state [a]: in the register boxes
    and the flags, in the memory box for the address looked up, and in the debugger,
    which marks the instruction at PC among lines that are those in memory. *)
Record reads (s : screen) (a : arch) : Prop := {
  r_ac : v_value (widgets s) "acum" = AC a;
  r_b : v_value (widgets s) "rb" = Isa.B a; r_c : v_value (widgets s) "rc" = Isa.C a;
  r_d : v_value (widgets s) "rd" = Isa.D a; r_e : v_value (widgets s) "re" = Isa.E a;
  r_pc : v_value (widgets s) "pc" = PC a; r_sp : v_value (widgets s) "sp" = SP a;
  r_fz : v_fz (widgets s) = FZ a; r_fc : v_fc (widgets s) = FC a;
  r_memory : forall x, v_search (widgets s) = x -> 0 <= x < 65536 ->
    memory_rows s = map (fun y => (y, M a y, y =? x)) (filter (fun y => (0 <=? y) && (y <? 65536)) [x - 1; x; x + 1]);
  r_debugger : exists m l o, (forall x, 0 <= x < 65536 -> m x = M a x) /\ p_rows (debugger s) = Lists l /\ pointed (p_at (debugger s)) l = Some o /\
    l_from o <= PC a <= l_to o /\ forall o', In o' l -> shows_at m (l_from o') (l_text o') (l_to o') }.

Lemma b2z_inj : forall a b, Z.b2z a = Z.b2z b -> a = b.
Proof. intros [|] [|] H; auto; discriminate H. Qed.
Lemma page_reads : forall es s a, on_screen es s -> (forall g st, running s <> Some (mkLoop (Program true) g st)) -> shows (core s) a -> reads s a.
Proof.
  intros es s a O N Sh. destruct (C82_shown es s O N) as (Bx & Fz & Fc & Mr & m & pc & l & o & Hm & Hp & Hl & Po & _ & Hr & _ & Sa).
  destruct Sh as (A1 & A2 & A3 & A4 & A5 & A6 & A7 & A8 & A9 & A10 & _).
  assert (K : forall b r v, In (b, r) boxes -> get_register_value r (core s) = Some v -> v_value (widgets s) b = v).
  { intros b r v Hb E. specialize (Bx b r Hb). congruence. }
  assert (Hpc : pc = PC a) by congruence. subst pc.
  constructor; try (eapply K; [|eassumption]; unfold boxes; cbn [In]; tauto).
  - apply b2z_inj. congruence.
  - apply b2z_inj. congruence.
  - intros x Ex Hx. destruct (screen_good es s O) as ([S _ _ _ _] & _). destruct (showing_live _ _ S) as (k & L). assert (Oc : exists cc, obs (core s) cc) by (destruct (live_up k _ true L) as (_ & z & U); destruct (up_obs _ z U) as (Ob & _); eauto). destruct Oc as (cc & Ob).
    rewrite (Mr x cc Ex ltac:(lia) Ob). apply map_ext_in. intros y Hy. apply filter_In in Hy. destruct Hy as (_ & Hy). destruct Ob as (_ & Ob & _).
    assert (Ry : 0 <= y < 65536) by lia. specialize (A10 y Ry). rewrite (Ob y Ry) in A10. injection A10 as ->. reflexivity.
  - exists m, l, o. split; [|auto]. intros x Hx. specialize (A10 x Hx). rewrite Hm in A10. congruence.
Qed.

(** ** The core behind the page *)
Lemma step_core : forall e s s', good s -> page_step e -> sact e s = Some s' -> acts (presses [e]) (core s, running s) = Some (core s', running s').
Proof.
  intros e s s' G PS E. pose proof G as [S P Ls St F]. destruct PS as [u U| |n| |t|b|].
  - destruct (user_ok u s G U) as (h & lo & s1 & Ea & Ec & <- & _). cbn [sact] in E. rewrite Ea, Ec in E. injection E as <-. cbn [presses acts]. rewrite Ea. reflexivity.
  - cbn [presses acts]. cbn [sact] in E. destruct (running s) as [[[[|]| |] g st]|] eqn:Er; try (injection E as <-; rewrite Er; reflexivity).
    destruct (cause_ok s _ S P Ls PE_notify) as (s1 & E1 & H1 & _ & _ & _ & R1 & _). rewrite E in E1. injection E1 as <-. cbn [happen] in H1. destruct (refresh (core s) (widgets s)); [|discriminate H1]. injection H1 as <- _. rewrite R1, Er. reflexivity.
  - cbn [presses acts sact happen] in *. destruct (n =? _); [injection E as <-; reflexivity|]. destruct (draw_memory _ _); [|discriminate E]. injection E as <-. reflexivity.
  - cbn [presses acts sact] in *. destruct (cause_ok s _ S P Ls PE_clear) as (s1 & E1 & H1 & _ & _ & _ & R1 & _). rewrite E in E1. injection E1 as <-. cbn [happen] in H1. injection H1 as <- _. rewrite R1. reflexivity.
  - cbn [presses acts sact] in *. destruct (box_act _ _ _); [|discriminate E]. destruct (_ && _); injection E as <-; reflexivity.
  - cbn [presses acts sact] in *. destruct (box_act _ _ _); [|discriminate E]. destruct (_ && _); injection E as <-; reflexivity.
  - cbn [presses acts sact] in *. destruct (draw_memory _ _); [|discriminate E]. injection E as <-. reflexivity.
Qed.
Lemma presses_cons : forall e es, presses (e :: es) = presses [e] ++ presses es.
Proof. intros [] es; reflexivity. Qed.
Lemma events_core : forall more es s s', on_screen es s -> Forall page_step more -> sacts more s = Some s' ->
  on_screen (es ++ more) s' /\ acts (presses more) (core s, running s) = Some (core s', running s').
Proof.
  induction more as [|e more IH]; intros es s s' O F E.
  - injection E as <-. rewrite app_nil_r. auto.
  - inversion F as [|? ? F1 F2]; subst. cbn [sacts] in E. destruct (sact e s) as [s1|] eqn:E1; [|discriminate E]. destruct (screen_good es s O) as (G & _).
    pose proof (step_core e s s1 G F1 E1) as C1. destruct (IH (es ++ [e]) s1 s' (O_step es e s s1 O F1 E1) F2 E) as (O' & C').
    rewrite <- app_assoc in O'. split; [exact O'|]. rewrite presses_cons, acts_app, C1. exact C'.
Qed.
(** The buttons can be pressed. *)
Lemma pressed : forall us es s, on_screen es s -> Forall user_event us -> exists s', sacts (map User us) s = Some s'.
Proof.
  induction us as [|u us IH]; intros es s O F; [exists s; reflexivity|]. inversion F as [|? ? F1 F2]; subst. cbn [map sacts].
  destruct (C82_defined es s (User u) O (PS_user u F1)) as (s1 & E1). { intros t v X. discriminate X. }
  rewrite E1. exact (IH (es ++ [User u]) s1 (O_step es _ s s1 O (PS_user u F1) E1) F2).
Qed.

(** ** C84 *)
(** The bytes the Save button stores. *)
Definition saved (c : coder) : list Z := map slot_int (slots c).
(** On the page in any state with no run in progress, whatever happened before: type a
    program (after any other texts), press Save and set PC to 0.  Then the page shows a
    state with the registers as they were.  From there: press "run instruction" [n] times
    and the page shows what the first [n] lines do to that state; press "run program", in
    either mode, and in the end the page shows what the lines do up to the first FIN.
    The memory box, the debugger's boxes and the list of states may be used at any moment. *)
Theorem C84_read_off : forall es s t l lines codes c, on_screen es s -> running s = None -> program lines codes 0 -> last l t = text_of lines ->
  (match opened_later t with Some c0 => edits l c0 | None => None end) = Some c ->
  can c = true /\ user_event (Save (saved c)) /\
  forall es1 s1, Forall page_step es1 -> presses es1 = [Save (saved c); SetPcTo 0] -> sacts es1 s = Some s1 ->
  exists a, reads s1 a /\ valid a /\ PC a = 0 /\ running s1 = None /\
    (forall b r, In (b, r) boxes -> b <> "pc"%string -> v_value (widgets s1) b = v_value (widgets s) b) /\
    (forall x, total (somes codes) <= x < 65536 -> get_memory_value x (core s) = Some (M a x)) /\
    (forall n u, performs (somes codes) 0 n a u -> exists w0, forall w es2 s2, (w0 <= w)%nat ->
       Forall page_step es2 -> presses es2 = instruction_presses n w -> sacts es2 s1 = Some s2 -> running s2 = None /\ reads s2 u) /\
    (forall n u f, performs (somes codes) 0 n a u -> line_at (somes codes) 0 (PC u) = Some f -> ins f = FIN -> PC u < 65535 -> exists w0, forall w im es2 s2, (w0 <= w)%nat ->
       Forall page_step es2 -> presses es2 = PressProgram im :: repeat Wake w -> sacts es2 s1 = Some s2 -> running s2 = None /\ reads s2 (put_pc (PC u + 1) u)).
Proof.
  intros es s t l lines codes c O N P Hl E. destruct (screen_good es s O) as ([S _ _ _ _] & _). destruct (showing_live _ _ S) as (k & L).
  destruct (C71_as_written t l lines codes c k (core s) P Hl E L) as (h1 & h2 & a & Sv & Ap & Sh & V & Pc & Rg & Me & Ri & Rp).
  destruct (live_up k _ true L) as (_ & z & U). destruct (up_obs _ z U) as (Ob & _).
  destruct (C64_program t l lines codes c k (core s) _ P Hl E L Ob) as (Can & _).
  assert (Sb : PropsEditor.savable (last l t) (slots c)). { destruct (C64_enabled t l) as (c' & E' & _ & _ & K). rewrite E in E'. injection E' as <-. exact (K Can). }
  assert (Ue : user_event (Save (saved c))).
  { pose proof Sb as Sb'. apply savable_iff in Sb'. destruct Sb' as (out & Ep & Et & _). pose proof (any_text_slots _ _ _ Ep Et) as B. destruct Sb as (? & ? & ? & ? & ? & Sb).
    constructor; unfold saved; [rewrite map_length; exact Sb|]. intros b Hb. apply in_map_iff in Hb. destruct Hb as (sl & <- & Hs). rewrite Forall_forall in B. apply slot_ok_byte. auto. }
  split; [exact Can|]. split; [exact Ue|]. intros es1 s1 F1 E1 A1. destruct (events_core es1 es s s1 O F1 A1) as (O1 & C1). rewrite E1, N in C1.
  unfold press_save in Sv. rewrite Can in Sv. fold (saved c) in Sv. change [Save (saved c); SetPcTo 0] with ([Save (saved c)] ++ [SetPcTo 0]) in C1. rewrite acts_app in C1.
  assert (A0 : acts [Save (saved c)] (core s, None) = Some (h1, None)) by (cbn [acts act]; rewrite Sv; reflexivity). rewrite A0, Ap in C1. injection C1 as C1 R1. subst h2. symmetry in R1.
  assert (Ni : forall s', running s' = None -> forall g st, running s' <> Some (mkLoop (Program true) g st)) by (intros s' H g st X; congruence).
  exists a. split; [exact (page_reads _ s1 a O1 (Ni s1 R1) Sh)|]. split; [exact V|]. split; [exact Pc|]. split; [exact R1|].
  split. { intros b r Hb Nb. destruct (C82_shown _ s1 O1 (Ni s1 R1)) as (X1 & _). destruct (C82_shown es s O (Ni s N)) as (X0 & _). specialize (X1 b r Hb). specialize (X0 b r Hb).
           assert (Nr : r <> R_PC). { intros ->. unfold boxes in Hb. cbn [In] in Hb. repeat (destruct Hb as [Hb|Hb]; [try discriminate Hb; injection Hb as <-; apply Nb; reflexivity|]). destruct Hb. }
           rewrite (Rg r Nr) in X1. congruence. }
  split. { intros x Hx. rewrite <- (Me x Hx). destruct Sh as (_ & _ & _ & _ & _ & _ & _ & _ & _ & Sm & _). apply Sm. destruct P as (_ & _ & _ & P4 & _). 
           assert (0 <= total (somes codes)) by (clear; induction (somes codes) as [|d q IH]; cbn [total fold_right]; [lia|]; pose proof (size_pos (ins d)); unfold total in IH; lia). lia. }
  split.
  - intros n u Pf. destruct (Ri n u Pf) as (h' & Sh' & w0 & W). exists w0. intros w es2 s2 Hw F2 E2 A2. destruct (events_core es2 _ s1 s2 O1 F2 A2) as (O2 & C2). rewrite E2, R1, (W w Hw) in C2. injection C2 as -> R2. symmetry in R2.
    split; [exact R2|]. exact (page_reads _ s2 u O2 (Ni s2 R2) Sh').
  - intros n u f Pf Hf Ff Hlt. destruct (Rp n u f Pf Hf Ff Hlt) as (h' & Sh' & w0 & W). exists w0. intros w im es2 s2 Hw F2 E2 A2. destruct (events_core es2 _ s1 s2 O1 F2 A2) as (O2 & C2). rewrite E2, R1, (W w im Hw) in C2. injection C2 as -> R2. symmetry in R2.
    split; [exact R2|]. exact (page_reads _ s2 _ O2 (Ni s2 R2) Sh').
Qed.
(** Whatever the moment: with the loop at rest, the page reads as the machine is. *)
Theorem C84_always : forall es s, on_screen es s -> (forall g st, running s <> Some (mkLoop (Program true) g st)) -> exists a, shows (core s) a /\ valid a /\ reads s a.
Proof.
  intros es s O N. destruct (screen_good es s O) as ([S _ _ _ _] & _). destruct (showing_live _ _ S) as (k & L). destruct (live_shows k _ true L) as (a & Sh & V). exists a. split; [exact Sh|]. split; [exact V|]. exact (page_reads es s a O N Sh).
Qed.
(** The looping program of [PropsSource], typed over another text, on a page where the
    user stepped through memory before, with the memory box at address 512 in the end. *)
Lemma presses_map : forall us, presses (map User us) = us.
Proof. induction us as [|u us IH]; [reflexivity|]. cbn [map presses]. rewrite IH. reflexivity. Qed.
Lemma presses_app : forall a b, presses (a ++ b) = presses a ++ presses b.
Proof. induction a as [|e a IH]; intros b; [reflexivity|]. change ((e :: a) ++ b) with (e :: (a ++ b)). rewrite presses_cons, IH, (presses_cons e a), app_assoc. reflexivity. Qed.
Lemma sacts_app : forall a b s, sacts (a ++ b) s = match sacts a s with Some s' => sacts b s' | None => None end.
Proof. induction a as [|e a IH]; intros b s; [reflexivity|]. cbn [app sacts]. destruct (sact e s); auto. Qed.
Lemma look : forall es s n, on_screen es s -> exists s', sact (Look n) s = Some s' /\ v_search (widgets s') = n.
Proof.
  intros es s n O. destruct (C82_defined es s (Look n) O (PS_look n)) as (s' & E). { intros t v X. discriminate X. }
  exists s'. split; [exact E|]. cbn [sact happen] in E. destruct (Z.eqb_spec n (v_search (widgets s))); [injection E as <-; congruence|]. destruct (draw_memory _ _); [|discriminate E]. injection E as <-. reflexivity.
Qed.
Lemma users_pages : forall us, Forall user_event us -> Forall page_step (map User us).
Proof. intros us F. apply Forall_map. revert F. apply Forall_impl. intros u U. constructor. exact U. Qed.
Example C84_nonvacuous : exists es s c, on_screen es s /\ es <> [] /\ running s = None /\ program loop_lines loop_codes 0 /\
  (match opened_later (s2l "CMA") with Some c0 => edits [s2l "CMA X"; text_of loop_lines] c0 | None => None end) = Some c /\
  forall w im, exists es1 s1 es2 s2, Forall page_step es1 /\ presses es1 = [Save (saved c); SetPcTo 0] /\ sacts es1 s = Some s1 /\
    Forall page_step es2 /\ presses es2 = PressProgram im :: repeat Wake w /\ sacts es2 s1 = Some s2 /\ v_search (widgets s2) = 512.
Proof.
  destruct (C82_opens (fun _ => 0)) as (h & s00 & _ & _ & O00); [intros; lia|].
  assert (R00 : running s00 = None). { inversion O00 as [rnd h0 s0 Hr E E1 X Y|es e s1 s2 O1 PS E X Y]; [|destruct es; discriminate X]. unfold screen0 in E1. destruct (draw_memory h0 view0); [|discriminate E1]. injection E1 as <-. reflexivity. }
  destruct (press_state [] s00 O00 R00) as (s & _ & _ & R0 & O). pose proof C71_nonvacuous as (Pr & _).
  assert (Ec : exists c, (match opened_later (s2l "CMA") with Some c0 => edits [s2l "CMA X"; text_of loop_lines] c0 | None => None end) = Some c) by (destruct (C64_enabled (s2l "CMA") [s2l "CMA X"; text_of loop_lines]) as (c & E & _); eauto).
  destruct Ec as (c & Ec). exists ([] ++ [User PressState]), s, c. split; [exact O|]. split; [discriminate|]. split; [exact R0|]. split; [exact Pr|]. split; [exact Ec|]. intros w im.
  destruct (C84_read_off _ s (s2l "CMA") [s2l "CMA X"; text_of loop_lines] loop_lines loop_codes c O R0 Pr eq_refl Ec) as (_ & Ue & _).
  assert (F1 : Forall user_event [Save (saved c); SetPcTo 0]) by (constructor; [exact Ue|constructor; [constructor; lia|constructor]]).
  destruct (pressed [Save (saved c); SetPcTo 0] _ s O F1) as (s1 & E1). destruct (events_core _ _ s s1 O (users_pages _ F1) E1) as (O1 & _).
  assert (F2 : Forall user_event (PressProgram im :: repeat Wake w)). { constructor; [constructor|]. apply Forall_forall. intros x Hx. apply repeat_spec in Hx. subst x. constructor. }
  destruct (pressed _ _ s1 O1 F2) as (s2 & E2). destruct (events_core _ _ s1 s2 O1 (users_pages _ F2) E2) as (O2 & _). destruct (look _ s2 512 O2) as (s3 & E3 & V3).
  exists (map User [Save (saved c); SetPcTo 0]), s1, (map User (PressProgram im :: repeat Wake w) ++ [Look 512]), s3.
  split; [exact (users_pages _ F1)|]. split; [apply presses_map|]. split; [exact E1|]. split; [apply Forall_app; split; [exact (users_pages _ F2)|constructor; [constructor|constructor]]|].
  split; [rewrite presses_app, presses_map; apply app_nil_r|]. split; [|exact V3]. rewrite sacts_app, E2. cbn [sacts]. rewrite E3. reflexivity.
Qed.
Print Assumptions C84_read_off.
Print Assumptions C84_always.
Print Assumptions C84_nonvacuous.
