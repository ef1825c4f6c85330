(** * Theorems: the diagram (C59), the state transitions (C58), the memory box (C60) *)
From Coq Require Import ZArith List Bool Lia ZifyBool String.
From Verif Require Import Word WordFacts Prog Tables Components Machine ZMachine ZWord ZRefine ZRefineB ZRefineC
  Rtl Micro Isa MicroIsa IsaOps Track Drive LinkedList PubSub Api HeapSim Lifecycle Usage ApiFacts Reach BusSpec Buses PropsBuses View ViewSpec.
From Verif Require PropsGuard PropsApi.
Import ListNotations.
Open Scope list_scope.
Open Scope Z_scope.
Opaque trk.

(** What may happen on the page. *)
Inductive page_event : event -> Prop :=
| PE_clock : forall u, page_event (Call (RunClock u))
| PE_reset : page_event (Call ResetControl)
| PE_mem : forall o x, 0 <= o < 65536 -> 0 <= x <= 255 -> page_event (Call (SetMem o x))
| PE_pc : forall x, 0 <= x <= 65535 -> page_event (Call (SetPc x))
| PE_notify : page_event Notify
| PE_search : forall n, page_event (Search n)
| PE_clear : page_event Clear.
(** The page shows [v] and the machine is in [h], some time after opening. *)
Inductive showing : hstate -> view -> Prop :=
| S_open : forall rnd h, (forall i, 0 <= rnd i) -> run_calls [Init rnd; SetUi true] boot = Some h -> showing h view0
| S_event : forall e h v h' v', showing h v -> page_event e -> happen e (h, v) = Some (h', v') -> showing h' v'.
(** The events after which all widgets have been told. *)
Definition notified (e : event) : bool := match e with Call c => notifies c | Notify => true | _ => false end.

Lemma showing_live : forall h v, showing h v -> exists l, live l h true.
Proof.
  induction 1 as [rnd h Hr E|e h v h' v' S (l & P & E) PE Hh].
  - exists [Init rnd; SetUi true]. split; [|exact E].
    change [Init rnd; SetUi true] with ([Init rnd] ++ [SetUi true]). econstructor; [|apply (A_set_ui (mkUse true false) true)].
    change [Init rnd] with ([] ++ [Init rnd]). econstructor; [constructor|]. apply (A_init (mkUse false false)). auto.
  - assert (K : forall c, allowed (mkUse true true) c (mkUse true true) -> do_call c h = Some h' -> exists l, live l h' true).
    { intros c A Ec. exists (l ++ [c]). split; [econstructor; eauto|]. rewrite run_calls_app, E. cbn. rewrite Ec. reflexivity. }
    assert (Kc : forall c, allowed (mkUse true true) c (mkUse true true) -> happen (Call c) (h, v) = Some (h', v') -> exists l, live l h' true).
    { intros c A Ec. apply (K c A). cbn in Ec. destruct (do_call c h) as [h2|]; [|discriminate]. destruct (notifies c); [destruct (refresh h2 v); [|discriminate]|]; congruence. }
    destruct PE; try (eapply Kc; [|exact Hh]; econstructor; eauto; fail).
    + cbn in Hh. destruct (refresh h v); [|discriminate]. injection Hh as <- <-. exists l. split; auto.
    + injection Hh as <- <-. exists l. split; auto.
    + injection Hh as <- <-. exists l. split; auto.
Qed.

(** ** One notification *)
Definition shape (f : nat -> option (string * option Z)) (a b : nat -> bool) : list edge :=
 [ mkEdge "databus-ri" "databus" "ri" (f 0%nat) (a 0%nat) (b 0%nat);
   mkEdge "databus-registersbank" "databus" "registers-bank" (f 1%nat) (a 1%nat) (b 1%nat);
   mkEdge "registersbank-databus" "registers-bank" "databus" (f 2%nat) (a 2%nat) (b 2%nat);
   mkEdge "databus-memory" "databus" "memory" (f 3%nat) (a 3%nat) (b 3%nat);
   mkEdge "memory-databus" "memory" "databus" (f 4%nat) (a 4%nat) (b 4%nat);
   mkEdge "databus-pc" "databus" "pc" (f 5%nat) (a 5%nat) (b 5%nat);
   mkEdge "databus-acum" "databus" "acum" (f 6%nat) (a 6%nat) (b 6%nat);
   mkEdge "acum-databus" "acum" "databus" (f 7%nat) (a 7%nat) (b 7%nat);
   mkEdge "databus-sp" "databus" "sp" (f 8%nat) (a 8%nat) (b 8%nat);
   mkEdge "databus-2op" "databus" "2op" (f 9%nat) (a 9%nat) (b 9%nat);
   mkEdge "databus-h" "databus" "h" (f 10%nat) (a 10%nat) (b 10%nat);
   mkEdge "databus-7" "databus" "l" (f 11%nat) (a 11%nat) (b 11%nat);
   mkEdge "acum-alu" "acum" "alu" (f 12%nat) (a 12%nat) (b 12%nat);
   mkEdge "2op-alu" "2op" "alu" (f 13%nat) (a 13%nat) (b 13%nat);
   mkEdge "alu-flagsfz" "alu" "flags" (f 14%nat) (a 14%nat) (b 14%nat);
   mkEdge "alu-flagsfc" "alu" "flags" (f 15%nat) (a 15%nat) (b 15%nat) ]%string.

Definition is1 (x : Z) : bool := x =? 1.
Definition lab (s : string) (x : Z) : option (string * option Z) := Some (s, Some x).
(** the arrows no load line drives: the way out of a box, into the memory, to and from the ALU *)
Definition still : list nat := [2; 3; 4; 7; 12; 13; 14; 15]%nat.
Lemma update_nodes_ok : forall h v f a b (G : getter -> Z),
  (forall n g, In n nodes -> In (Some g) [n_get n; option_map snd (n_load n); option_map snd (n_release n)] -> call_getter g h = Some (G g)) ->
  v_edges v = shape f a b -> exists w f' a' b', update_nodes nodes h v = Some w /\ v_edges w = shape f' a' b' /\ (forall n, In n still -> a' n = a n /\ b' n = b n) /\
  (f' 0 = lab "RICAR" (G (G_ctl RICAR)) /\ a' 0 = is1 (G (G_ctl RICAR)) /\ b' 0 = is1 (G (G_ctl RICAR)) /\
   f' 1 = lab "REGCAR" (G (G_ctl REGCAR)) /\ a' 1 = is1 (G (G_ctl REGCAR)) /\ b' 1 = is1 (G (G_ctl REGCAR)) /\
   f' 2 = lab "REGBUS" (G (G_ctl REGBUS)) /\
   f' 4 = lab "MEMBUS" (G (G_ctl MEMBUS)) /\
   f' 5 = lab "PCCAR" (G (G_ctl PCCAR)) /\ a' 5 = is1 (G (G_ctl PCCAR)) /\ b' 5 = is1 (G (G_ctl PCCAR)) /\
   f' 6 = lab "ACCAR" (G (G_ctl ACCAR)) /\ a' 6 = is1 (G (G_ctl ACCAR)) /\ b' 6 = is1 (G (G_ctl ACCAR)) /\
   f' 7 = lab "ACBUS" (G (G_ctl ACBUS)) /\
   f' 8 = lab "SPCAR" (G (G_ctl SPCAR)) /\ a' 8 = is1 (G (G_ctl SPCAR)) /\ b' 8 = is1 (G (G_ctl SPCAR)) /\
   f' 9 = lab "2OPCAR" (G (G_ctl OP2CAR)) /\ a' 9 = is1 (G (G_ctl OP2CAR)) /\ b' 9 = is1 (G (G_ctl OP2CAR)) /\
   f' 10 = lab "HCAR" (G (G_ctl HCAR)) /\ a' 10 = is1 (G (G_ctl HCAR)) /\ b' 10 = is1 (G (G_ctl HCAR)) /\
   f' 11 = lab "LCAR" (G (G_ctl LCAR)) /\ a' 11 = is1 (G (G_ctl LCAR)) /\ b' 11 = is1 (G (G_ctl LCAR)))%nat%string /\
  (forall n g, In n nodes -> n_get n = Some g -> v_value w (n_id n) = G g /\ v_blob w (n_id n) = negb (v_value v (n_id n) =? G g)) /\
  v_fz w = v_fz v /\ v_fc w = v_fc v /\ v_alu w = v_alu v /\ v_search w = v_search v /\ v_le w = v_le v /\ v_states w = v_states v.
Proof.
  intros h v f a b G HG Hs. destruct v as [va bl ed fz fc al se le st]. cbn [v_edges] in Hs. subst ed.
  assert (H : forall g, In g [G_ctl REGCAR; G_ctl REGBUS; G_reg R_B; G_reg R_C; G_reg R_D; G_reg R_E; G_reg R_AC; G_ctl ACCAR; G_ctl ACBUS;
     G_reg R_2OP; G_ctl OP2CAR; G_reg R_PC; G_ctl PCCAR; G_reg R_SP; G_ctl SPCAR; G_reg R_H; G_ctl HCAR; G_reg R_L; G_ctl LCAR;
     G_reg R_RI; G_ctl RICAR; G_state; G_ctl MEMBUS; G_data] -> call_getter g h = Some (G g)).
  { intros g Hg. cbn [In] in Hg.
    repeat (destruct Hg as [<-|Hg]; [match goal with |- call_getter ?g h = _ =>
      let rec go l := match l with ?n :: ?l' => first [apply (HG n g); [cbn [In nodes]; tauto|cbn [In n_get n_load n_release option_map snd]; tauto]|go l'] end in
      let l := eval cbv delta [nodes] in nodes in go l end|]). contradiction. }
  clear HG. cbn [In] in H.
  set (V := mkView va bl (shape f a b) fz fc al se le st). evar (W : view).
  assert (E : update_nodes nodes h V = Some W).
  { unfold V. cbv [update_nodes nodes update_node update_edges update_load update_release put_edge find map n_get n_load n_release n_id
      v_value v_blob v_edges v_fz v_fc v_alu v_search v_le v_states e_id e_source e_target e_label e_animated e_red
      shape String.eqb Ascii.eqb Bool.eqb].
    repeat match goal with |- context [call_getter ?g h] => rewrite (H g) by tauto; cbv beta iota end.
    unfold W. reflexivity. }
  clear H. set (d := mkEdge "" "" "" None false false).
  exists W, (fun n => e_label (nth n (v_edges W) d)), (fun n => e_animated (nth n (v_edges W) d)), (fun n => e_red (nth n (v_edges W) d)).
  split; [exact E|]. clear E. unfold V.
  split; [reflexivity|]. split; [intros n Hn; cbn [In still] in Hn; repeat (destruct Hn as [<-|Hn]; [split; reflexivity|]); contradiction|].
  split; [repeat split; reflexivity|]. split; [|repeat split; reflexivity].
  intros n g Hn. cbn [In nodes] in Hn.
  repeat (destruct Hn as [<-|Hn]; [cbv [n_get n_id]; intros Hg; try discriminate Hg; injection Hg as <-; split; reflexivity|]). contradiction.
Qed.

(** the widgets' edges keep their identity *)
Definition shaped (v : view) : Prop := exists f a b, v_edges v = shape f a b /\ forall n, In n still -> a n = Nat.eqb n 3 /\ b n = false.
Lemma nodes_getters : forall l h, live l h true -> forall g, exists x, call_getter g h = Some x.
Proof.
  intros l h L g. destruct (PropsApi.C17_getters_defined l h true L) as (A1 & _ & A2 & _ & _ & A3 & _ & A4).
  destruct g; cbn [call_getter]; [specialize (A1 r)| | |specialize (A4 pos)];
    match goal with H : ?x <> None |- exists y, ?x = Some y => destruct x; [eauto|congruence] end.
Qed.
Definition entry_of (q : Z) : entry := nth (Z.to_nat q) state_details (mkEntry 0 "").
Lemma entry_ok : forall q, 0 <= q <= 44 -> nth_error state_details (Z.to_nat q) = Some (entry_of q).
Proof. intros q Hq. apply nth_error_nth'. change (List.length state_details) with 45%nat. lia. Qed.
Definition pushed (q n : Z) (l : list entry) : list entry :=
  match l with [] => [entry_of q; entry_of n] | _ => lastn 2 l ++ [entry_of n] end.
Lemma push_ok : forall q n l, 0 <= q <= 44 -> 0 <= n <= 44 -> push_states q n l = Some (pushed q n l).
Proof.
  intros q n l Hq Hn. unfold push_states, pushed, lastn, max_items. rewrite (entry_ok q Hq), (entry_ok n Hn).
  destruct l as [|x [|y l]]; reflexivity.
Qed.

Record told (h : hstate) (v v' : view) : Prop := {
  td_box : forall n g, In n nodes -> n_get n = Some g -> call_getter g h = Some (v_value v' (n_id n)) /\
           v_blob v' (n_id n) = negb (v_value v (n_id n) =? v_value v' (n_id n));
  td_in : forall b s ln, In (b, s, ln) arrows_in -> exists e x, In e (v_edges v') /\ e_source e = "databus"%string /\ e_target e = b /\
     get_line ln h = Some x /\ e_label e = Some (s, Some x) /\ e_animated e = (x =? 1) /\ e_red e = (x =? 1);
  td_out : forall b s ln, In (b, s, ln) arrows_out -> exists e x, In e (v_edges v') /\ e_source e = b /\ e_target e = "databus"%string /\
     get_line ln h = Some x /\ e_label e = Some (s, Some x);
  td_fz : exists x, get_register_value R_FZ h = Some x /\ v_fz v' = negb (x =? 0);
  td_fc : exists x, get_register_value R_FC h = Some x /\ v_fc v' = negb (x =? 0);
  td_alu : get_control_bus_selalu h = Some (v_alu v');
  td_mem : get_memory_dir_bus h = Some (v_search v');
  td_le : get_line L_le h = Some (v_le v');
  td_states : exists q n, get_state h = Some q /\ 0 <= q <= 44 /\ get_next_state h = Some n /\ 0 <= n <= 44 /\ v_states v' = pushed q n (v_states v)
}.
Lemma refresh_ok : forall l h v, live l h true -> shaped v -> exists v', refresh h v = Some v' /\ told h v v' /\ shaped v'.
Proof.
  intros l h v L (f & a & b & Hs & Hq).
  pose (G := fun g => match call_getter g h with Some x => x | None => 0 end).
  assert (HG : forall g, call_getter g h = Some (G g)). { intros g. unfold G. destruct (nodes_getters l h L g) as (x & ->). reflexivity. }
  destruct (update_nodes_ok h v f a b G (fun n g _ _ => HG g) Hs) as (w & f' & a' & b' & E & Es & Est & Ea & Ev & E1 & E2 & E3 & E4 & E5 & E6).
  destruct (PropsApi.C17_getters_defined l h true L) as (A1 & _ & _ & _ & A2 & _ & A3 & A4).
  destruct (PropsApi.C15_microstates l h true L) as (q & n & Q1 & Q2 & Q3 & Q4).
  unfold refresh. rewrite E. unfold update_others.
  destruct (get_register_value R_FZ h) as [z|] eqn:Ez; [|exfalso; apply (A1 R_FZ Ez)].
  destruct (get_register_value R_FC h) as [c|] eqn:Ec; [|exfalso; apply (A1 R_FC Ec)].
  destruct (get_control_bus_selalu h) as [s|] eqn:El; [|congruence].
  destruct (get_memory_dir_bus h) as [m|] eqn:Em; [|congruence].
  destruct (get_control_bus LE h) as [le|] eqn:Ele; [|exfalso; apply (A4 LE Ele)].
  rewrite Q1, Q3, (push_ok q n _ Q2 Q4). eexists. split; [reflexivity|]. split; [|exists f', a', b'; split; [exact Es|intros k Hk; destruct (Est k Hk) as (-> & ->); auto]].
  destruct Ea as (B1 & B2 & B3 & B4 & B5 & B6 & B7 & B8 & B9 & B10 & B11 & B12 & B13 & B14 & B15 & B16 & B17 & B18 & B19 & B20 & B21 & B22 & B23 & B24 & B25 & B26 & B27).
  constructor; cbn [v_value v_blob v_edges v_fz v_fc v_alu v_search v_le v_states].
  - intros nd g Hn Hg. destruct (Ev nd g Hn Hg) as (X1 & X2). rewrite X1, X2. split; [apply HG|reflexivity].
  - intros b0 s0 ln Hi. rewrite Es. cbn [In arrows_in] in Hi.
    repeat (destruct Hi as [Hi|Hi]; [injection Hi as <- <- <-|]); try contradiction;
    match goal with |- context [get_line ?ln h] => let g := eval cbv [get_line] in (get_line ln h) in
           match g with get_control_bus ?p h => pose proof (HG (G_ctl p)) as K; cbn [call_getter] in K; change (get_line ln h) with (get_control_bus p h) end end;
    match goal with |- context [e_target _ = ?b] => 
       match eval cbv [shape] in (shape f' a' b') with context [mkEdge ?i "databus" b ?x ?y ?z] => exists (mkEdge i "databus" b x y z) end end;
    (eexists; cbn [e_source e_target e_label e_animated e_red]; split; [unfold shape; cbn [In]; tauto|split; [reflexivity|split; [reflexivity|split; [exact K|split; [assumption|split; assumption]]]]]).
  - intros b0 s0 ln Hi. rewrite Es. cbn [In arrows_out] in Hi.
    repeat (destruct Hi as [Hi|Hi]; [injection Hi as <- <- <-|]); try contradiction;
    match goal with |- context [get_line ?ln h] => let g := eval cbv [get_line] in (get_line ln h) in
           match g with get_control_bus ?p h => pose proof (HG (G_ctl p)) as K; cbn [call_getter] in K; change (get_line ln h) with (get_control_bus p h) end end;
    match goal with |- context [e_source _ = ?b] => 
       match eval cbv [shape] in (shape f' a' b') with context [mkEdge ?i b "databus" ?x ?y ?z] => exists (mkEdge i b "databus" x y z) end end;
    (eexists; cbn [e_source e_target e_label e_animated]; split; [unfold shape; cbn [In]; tauto|split; [reflexivity|split; [reflexivity|split; [exact K|assumption]]]]).
  - exists z. auto.
  - exists c. auto.
  - exact El.
  - exact Em.
  - exact Ele.
  - exists q, n. rewrite E6. auto.
Qed.

Lemma view0_shaped : shaped view0.
Proof.
  set (d := mkEdge "" "" "" None false false).
  exists (fun n => e_label (nth n edges0 d)), (fun n => e_animated (nth n edges0 d)), (fun n => e_red (nth n edges0 d)).
  split; [reflexivity|]. intros n Hn. cbn [In still] in Hn. repeat (destruct Hn as [<-|Hn]; [split; reflexivity|]). contradiction.
Qed.
(** ** C59 *)
(** Nothing that may happen on the page is undefined. *)
Lemma happens_ok : forall h v e, (exists l, live l h true) -> shaped v -> page_event e ->
  exists h' v', happen e (h, v) = Some (h', v') /\ shaped v' /\ (notified e = true -> told h' v v') /\
    (notified e = false -> v_value v' = v_value v /\ v_edges v' = v_edges v).
Proof.
  intros h v e (l & L) Sh PE.
  assert (K : forall c, allowed (mkUse true true) c (mkUse true true) -> exists h' v', happen (Call c) (h, v) = Some (h', v') /\ shaped v' /\ (notified (Call c) = true -> told h' v v') /\
    (notified (Call c) = false -> v_value v' = v_value v /\ v_edges v' = v_edges v)).
  { intros c A. assert (P : proper (l ++ [c]) (mkUse true true)) by (econstructor; [apply L|exact A]).
    destruct (PropsApi.C17_defined _ _ P) as (h' & E). assert (L' : live (l ++ [c]) h' true) by (split; auto).
    rewrite run_calls_app, (proj2 L) in E. cbn [run_calls] in E. destruct (do_call c h) as [h2|] eqn:Ec; [|discriminate]. injection E as ->.
    cbn [happen notified]. rewrite Ec. destruct (notifies c).
    - destruct (refresh_ok _ h' v L' Sh) as (v' & E & T & S'). rewrite E. exists h', v'. split; [reflexivity|]. split; [exact S'|]. split; [intros _; exact T|discriminate].
    - exists h', v. split; [reflexivity|]. split; [exact Sh|]. split; [discriminate|auto]. }
  destruct PE; try (apply K; econstructor; eauto; fail).
  - cbn [happen]. destruct (refresh_ok _ h v L Sh) as (v' & E & T & S'). rewrite E. exists h, v'. split; [reflexivity|]. split; [exact S'|]. split; [intros _; exact T|discriminate].
  - eexists _, _. split; [reflexivity|]. split; [exact Sh|]. split; [discriminate|auto].
  - eexists _, _. split; [reflexivity|]. split; [exact Sh|]. split; [discriminate|auto].
Qed.
Lemma showing_shaped : forall h v, showing h v -> shaped v.
Proof.
  induction 1 as [rnd h Hr E|e h v h' v' S IH PE Hh]; [apply view0_shaped|].
  destruct (happens_ok h v e (showing_live h v S) IH PE) as (h2 & v2 & E & S2 & _). congruence.
Qed.
Theorem C59_defined : forall h v e, showing h v -> page_event e -> exists h' v', happen e (h, v) = Some (h', v').
Proof.
  intros h v e S PE. destruct (happens_ok h v e (showing_live h v S) (showing_shaped h v S) PE) as (h2 & v2 & E & _). eauto.
Qed.
Lemma told_ok : forall h v e h' v', showing h v -> page_event e -> notified e = true -> happen e (h, v) = Some (h', v') -> told h' v v'.
Proof.
  intros h v e h' v' S PE N E. destruct (happens_ok h v e (showing_live h v S) (showing_shaped h v S) PE) as (h2 & v2 & E2 & _ & T & _).
  rewrite E in E2. injection E2 as <- <-. auto.
Qed.

(** After every event that notifies the page, each register box shows the
    register, and pulses exactly when the number in it changed. *)
Theorem C59_boxes : forall h v e h' v' b r, showing h v -> page_event e -> notified e = true -> happen e (h, v) = Some (h', v') ->
  In (b, r) boxes -> get_register_value r h' = Some (v_value v' b) /\ (v_blob v' b = true <-> v_value v' b <> v_value v b).
Proof.
  intros h v e h' v' b r S PE N E Hb. pose proof (td_box _ _ _ (told_ok h v e h' v' S PE N E)) as T.
  assert (K : exists n, In n nodes /\ n_get n = Some (G_reg r) /\ n_id n = b).
  { cbn [In boxes] in Hb. repeat (destruct Hb as [Hb|Hb]; [injection Hb as <- <-; 
      match goal with |- context [n_id _ = ?b] => match eval cbv [nodes] in nodes with context [mkNode b ?x ?y ?z] => exists (mkNode b x y z) end end;
      split; [unfold nodes; cbn [In]; tauto|split; reflexivity]|]). contradiction. }
  destruct K as (n & H1 & H2 & <-). destruct (T n _ H1 H2) as (T1 & T2). split; [exact T1|]. rewrite T2.
  destruct (Z.eqb_spec (v_value v (n_id n)) (v_value v' (n_id n))); cbn [negb]; split; congruence.
Qed.
(** So do the state box, the data bus, the flags and the ALU. *)
Theorem C59_others : forall h v e h' v', showing h v -> page_event e -> notified e = true -> happen e (h, v) = Some (h', v') ->
  get_state h' = Some (v_value v' "8b"%string) /\ get_data_bus h' = Some (v_value v' "databus"%string) /\
  get_register_value R_FZ h' = Some (Z.b2z (v_fz v')) /\ get_register_value R_FC h' = Some (Z.b2z (v_fc v')) /\
  get_control_bus_selalu h' = Some (v_alu v') /\ get_memory_dir_bus h' = Some (v_search v') /\ get_line L_le h' = Some (v_le v').
Proof.
  intros h v e h' v' S PE N E. pose proof (told_ok h v e h' v' S PE N E) as T.
  assert (Sh : exists l, live l h' true) by (apply (showing_live h' v'); econstructor; eauto). destruct Sh as (l & L).
  split. { refine (proj1 (td_box _ _ _ T (mkNode "8b" (Some G_state) None None) G_state _ eq_refl)). unfold nodes; cbn [In]; tauto. }
  split. { refine (proj1 (td_box _ _ _ T (mkNode "databus" (Some G_data) None None) G_data _ eq_refl)). unfold nodes; cbn [In]; tauto. }
  destruct (PropsApi.C18_ranges l h' true L) as (R1 & R2).
  destruct (td_fz _ _ _ T) as (x & E1 & E2). destruct (td_fc _ _ _ T) as (y & E3 & E4).
  split. { rewrite E1, E2. destruct (R1 R_FZ) as (x' & Ex & Hx). assert (x' = x) by congruence. subst x'. cbn in Hx. assert (x = 0 \/ x = 1) as [->| ->] by lia; reflexivity. }
  split. { rewrite E3, E4. destruct (R1 R_FC) as (x' & Ex & Hx). assert (x' = y) by congruence. subst x'. cbn in Hx. assert (y = 0 \/ y = 1) as [->| ->] by lia; reflexivity. }
  split; [apply T|]. split; apply T.
Qed.

(** *** After a clock cycle *)
Lemma only_edge : forall v e e', shaped v -> In e (v_edges v) -> In e' (v_edges v) -> e_source e = e_source e' -> e_target e = e_target e' ->
  e_target e <> "flags"%string -> e = e'.
Proof.
  intros v e e' (f & a & b & -> & _) H1 H2 Hs Ht Hf. unfold shape in H1, H2. cbn [In] in H1, H2.
  repeat (destruct H1 as [<-|H1]; [cbn [e_source e_target] in *;
    repeat (destruct H2 as [<-|H2]; [cbn [e_source e_target] in *; first [reflexivity|exfalso; apply Hf; reflexivity|discriminate Hs|discriminate Ht]|]); contradiction|]).
  contradiction.
Qed.
(** The arrow from the data bus into a box carries the load line of the microstate
    just executed, and is drawn moving and red exactly when the line is 1.  The arrow out
    of a box carries the line that puts it on the bus. *)
Theorem C59_arrows : forall h v h' v' q, showing h v -> happen (Call (RunClock true)) (h, v) = Some (h', v') -> get_state h' = Some q ->
  (forall b s ln, In (b, s, ln) arrows_in ->
     (exists e, In e (v_edges v') /\ e_source e = "databus"%string /\ e_target e = b) /\
     (forall e, In e (v_edges v') -> e_source e = "databus"%string -> e_target e = b ->
        e_label e = Some (s, Some (if is_raised ln q then 1 else 0)) /\ e_animated e = is_raised ln q /\ e_red e = is_raised ln q)) /\
  (forall b s ln, In (b, s, ln) arrows_out ->
     (exists e, In e (v_edges v') /\ e_source e = b /\ e_target e = "databus"%string) /\
     (forall e, In e (v_edges v') -> e_source e = b -> e_target e = "databus"%string ->
        e_label e = Some (s, Some (if is_raised ln q then 1 else 0)))).
Proof.
  intros h v h' v' q S E Q. pose proof (told_ok h v _ h' v' S (PE_clock true) eq_refl E) as T.
  assert (Sh : shaped v') by (apply (showing_shaped h'); econstructor; eauto; constructor).
  destruct (showing_live h v S) as (l & L). cbn [happen] in E. destruct (do_call (RunClock true) h) as [h2|] eqn:Ec; [|discriminate].
  assert (h2 = h') as -> by (cbn [notifies] in E; destruct (refresh h2 v); congruence).
  pose proof (fun ln => C57_control l h true true h' q ln L Ec Q) as C.
  split; intros b s ln Hin.
  - destruct (td_in _ _ _ T b s ln Hin) as (e & x & H1 & H2 & H3 & H4 & H5 & H6). rewrite C in H4. injection H4 as <-. split; [eauto|].
    intros e' I1 I2 I3. assert (e' = e) as ->.
    { apply (only_edge v'); auto; try congruence. rewrite I3. intros ->. revert Hin. clear. intros H. cbn [In arrows_in] in H. repeat (destruct H as [H|H]; [discriminate H|]). contradiction. }
    split; [exact H5|]. destruct H6 as (-> & ->). destruct (is_raised ln q); auto.
  - destruct (td_out _ _ _ T b s ln Hin) as (e & x & H1 & H2 & H3 & H4 & H5). rewrite C in H4. injection H4 as <-. split; [eauto|].
    intros e' I1 I2 I3. assert (e' = e) as -> by (apply (only_edge v'); auto; try congruence; rewrite I3; discriminate). exact H5.
Qed.
(** No other arrow is ever red: a red arrow goes from the data bus into a box whose
    load line the microstate raises.  No other arrow moves, except the one into the
    memory, which always does. *)
Theorem C59_red : forall h v h' v' q e, showing h v -> happen (Call (RunClock true)) (h, v) = Some (h', v') -> get_state h' = Some q ->
  In e (v_edges v') -> e_red e = true \/ e_animated e = true /\ e_target e <> "memory"%string ->
  e_source e = "databus"%string /\ exists s ln, In (e_target e, s, ln) arrows_in /\ is_raised ln q = true.
Proof.
  intros h v h' v' q e S E Q He Hr. pose proof (proj1 (C59_arrows h v h' v' q S E Q)) as A.
  assert (Sh : shaped v') by (apply (showing_shaped h'); econstructor; eauto; constructor).
  destruct Sh as (f & a & b & Es & Hst).
  assert (K : e_source e = "databus"%string /\ exists s ln, In (e_target e, s, ln) arrows_in).
  { rewrite Es in He. unfold shape in He. cbn [In] in He.
    repeat (destruct He as [<-|He]; [cbn [e_source e_target e_red e_animated] in *;
      first [split; [reflexivity|do 2 eexists; unfold arrows_in; cbn [In]; tauto]
            |exfalso; match type of Hr with b ?n = true \/ _ => destruct (Hst n) as (Ha & Hb); [unfold still; cbn [In]; tauto|];
               rewrite Ha, Hb in Hr; destruct Hr as [Hr|(Hr & Hm)]; [discriminate Hr|first [discriminate Hr|apply Hm; reflexivity]] end]|]).
    contradiction. }
  destruct K as (K1 & s & ln & K2). split; [exact K1|]. exists s, ln. split; [exact K2|].
  destruct (proj2 (A _ _ _ K2) e He K1 eq_refl) as (_ & A2 & A3). destruct Hr as [Hr|(Hr & _)]; congruence.
Qed.
(** The ALU shows the operation of the microstate just executed; the memory box
    shows the address it used and whether it wrote. *)
Theorem C59_alu_memory : forall h v h' v' q c, showing h v -> happen (Call (RunClock true)) (h, v) = Some (h', v') ->
  get_state h' = Some q -> obs h' c ->
  (forall s, operation_name q = Some s -> sel_alu_op (v_alu v') = Some s) /\ v_search v' = address q c /\ (v_le v' = 0 <-> writes q = true).
Proof.
  intros h v h' v' q c S E Q O. pose proof (told_ok h v _ h' v' S (PE_clock true) eq_refl E) as T.
  destruct (showing_live h v S) as (l & L). cbn [happen] in E. destruct (do_call (RunClock true) h) as [h2|] eqn:Ec; [|discriminate].
  assert (h2 = h') as -> by (cbn [notifies] in E; destruct (refresh h2 v); congruence).
  assert (L' : live (l ++ [RunClock true]) h' true).
  { destruct L as (P & R). split; [econstructor; [exact P|constructor; auto]|]. rewrite run_calls_app, R. cbn [run_calls]. rewrite Ec. reflexivity. }
  destruct (PropsApi.C15_microstates _ _ _ L') as (q' & _ & Q' & Rq & _). assert (q' = q) by congruence. subst q'.
  pose proof (td_alu _ _ _ T) as T1. pose proof (td_mem _ _ _ T) as T2. pose proof (td_le _ _ _ T) as T3.
  rewrite (C57_selalu l h true true h' q L Ec Q) in T1. injection T1 as <-.
  rewrite (C57_address l h true true h' q c L Ec Q O) in T2. injection T2 as <-.
  rewrite (C57_control l h true true h' q L_le L Ec Q) in T3. injection T3 as <-.
  assert (F : forallb (fun q => match operation_name q with Some s => match sel_alu_op (alu_selected q) with Some s' => String.eqb s s' | None => false end | None => true end
     && Bool.eqb (is_raised L_le q) (negb (writes q)))%bool (map Z.of_nat (seq 0 45)) = true) by (vm_compute; reflexivity).
  rewrite forallb_forall in F. specialize (F q). assert (Hi : In q (map Z.of_nat (seq 0 45))). { apply in_map_iff. exists (Z.to_nat q). split; [lia|apply in_seq; lia]. }
  apply F in Hi. apply andb_prop in Hi. destruct Hi as (F1 & F2). split; [|split; [reflexivity|]].
  - intros s Hs. rewrite Hs in F1. destruct (sel_alu_op _); [|discriminate]. apply String.eqb_eq in F1. congruence.
  - apply Bool.eqb_prop in F2. rewrite F2. destruct (writes q); cbn; split; congruence.
Qed.
(** A box that pulses has its arrow moving; the exception is PC, whose halves are
    loaded from the stack (microstates 32 and 33) without its load line. *)
Lemma box_line : forall b r, In (b, r) boxes -> exists s ln, In (holder b, s, ln) arrows_in /\ (In (ln, r) loads \/ (r = R_PC /\ ln = L_pccar)).
Proof.
  intros b r H. cbn [In boxes] in H.
  repeat (destruct H as [H|H]; [injection H as <- <-|]); try contradiction.
  1-4: exists "REGCAR"%string, L_regcar; split; [cbn; tauto|left; cbn; tauto].
  - exists "ACCAR"%string, L_accar. split; [cbn; tauto|left; cbn; tauto].
  - exists "2OPCAR"%string, L_2opcar. split; [cbn; tauto|left; cbn; tauto].
  - exists "PCCAR"%string, L_pccar. split; [cbn; tauto|right; auto].
  - exists "SPCAR"%string, L_spcar. split; [cbn; tauto|left; cbn; tauto].
  - exists "HCAR"%string, L_hcar. split; [cbn; tauto|left; cbn; tauto].
  - exists "LCAR"%string, L_lcar. split; [cbn; tauto|left; cbn; tauto].
  - exists "RICAR"%string, L_ricar. split; [cbn; tauto|left; cbn; tauto].
Qed.
Theorem C59_pulse : forall h v h' v' q b r, showing h v -> happen (Call (RunClock true)) (h, v) = Some (h', v') -> get_state h' = Some q ->
  In (b, r) boxes -> get_register_value r h = Some (v_value v b) -> v_blob v' b = true -> ~ (r = R_PC /\ (q = 32 \/ q = 33)) ->
  exists e, In e (v_edges v') /\ e_source e = "databus"%string /\ e_target e = holder b /\ e_animated e = true.
Proof.
  intros h v h' v' q b r S E Q Hb Hv Hc Hx. destruct (box_line b r Hb) as (s & ln & Hin & Hl).
  destruct (proj1 (C59_arrows h v h' v' q S E Q) _ _ _ Hin) as ((e & I1 & I2 & I3) & Ha).
  destruct (Ha e I1 I2 I3) as (_ & A & _). exists e. repeat split; auto. rewrite A.
  destruct (C59_boxes h v _ h' v' b r S (PE_clock true) eq_refl E Hb) as (B1 & B2). apply B2 in Hc.
  destruct (showing_live h v S) as (l & L). cbn [happen] in E. destruct (do_call (RunClock true) h) as [h2|] eqn:Ec; [|discriminate].
  assert (h2 = h') as -> by (cbn [notifies] in E; destruct (refresh h2 v); congruence).
  pose proof (C57_control l h true true h' q ln L Ec Q) as C. destruct (is_raised ln q); [reflexivity|exfalso].
  apply Hc. destruct Hl as [Hl|(-> & ->)].
  - rewrite (C57_idle_registers l h true true h' ln r L Ec Hl C) in B1. congruence.
  - rewrite (C57_idle_pc l h true true h' q L Ec Q C) in B1; [congruence|intros ->; tauto|intros ->; tauto].
Qed.

(** *** Pages reached by given calls *)
Lemma page_run : forall cs h, forallb fine cs = true -> run_calls (Init (fun _ => 0) :: SetUi true :: cs) boot = Some h ->
  exists v, showing h v /\ forall cs' c, cs = cs' ++ [c] -> exists h0 v0,
    run_calls (Init (fun _ => 0) :: SetUi true :: cs') boot = Some h0 /\ showing h0 v0 /\ page_event (Call c) /\ happen (Call c) (h0, v0) = Some (h, v).
Proof.
  intros cs. induction cs as [|c cs IH] using rev_ind; intros h Hf E.
  - exists view0. split; [apply (S_open (fun _ => 0)); auto; intros; lia|]. intros cs1 c1 H1; destruct cs1; discriminate H1.
  - rewrite forallb_app in Hf. apply andb_prop in Hf as (Hf1 & Hf2). cbn in Hf2. rewrite andb_true_r in Hf2.
    change (Init (fun _ => 0) :: SetUi true :: cs ++ [c]) with ((Init (fun _ => 0) :: SetUi true :: cs) ++ [c]) in E.
    rewrite run_calls_app in E. destruct (run_calls (Init (fun _ => 0) :: SetUi true :: cs) boot) as [h0|] eqn:E0; [|discriminate].
    destruct (IH h0 Hf1 eq_refl) as (v0 & S0 & _). cbn [run_calls] in E. destruct (do_call c h0) as [h1|] eqn:Ec; [|discriminate]. injection E as ->.
    assert (PE : page_event (Call c)).
    { destruct c; cbn in Hf2; try discriminate Hf2; constructor; lia. }
    destruct (C59_defined h0 v0 _ S0 PE) as (h2 & v2 & Eh). assert (h2 = h) as ->.
    { cbn [happen] in Eh. rewrite Ec in Eh. destruct (notifies c); [destruct (refresh h v0)|]; congruence. }
    exists v2. split; [econstructor; eauto|]. intros cs' c' H. apply app_inj_tail in H as (<- & <-). exists h0, v0. auto.
Qed.
Definition shown_state (s : mstate) : option Z :=
  word_to_int (state_word (nx s T_Q5) (nx s T_Q4) (nx s T_Q3) (nx s T_Q2) (nx s T_Q1) (nx s T_Q0)).
Lemma state_sim : forall h s, sim h s -> get_state h = shown_state s.
Proof.
  intros h s S'. unfold get_state, read6, shown_state.
  destruct (bus_sim h _ (Prog.B K_LCU T_Q5) S' eq_refl) as (? & -> & X5). destruct (bus_sim h _ (Prog.B K_LCU T_Q4) S' eq_refl) as (? & -> & X4).
  destruct (bus_sim h _ (Prog.B K_LCU T_Q3) S' eq_refl) as (? & -> & X3). destruct (bus_sim h _ (Prog.B K_LCU T_Q2) S' eq_refl) as (? & -> & X2).
  destruct (bus_sim h _ (Prog.B K_LCU T_Q1) S' eq_refl) as (? & -> & X1). destruct (bus_sim h _ (Prog.B K_LCU T_Q0) S' eq_refl) as (? & -> & X0).
  rewrite X5, X4, X3, X2, X1, X0. reflexivity.
Qed.
(** The page after [cs], the last of which notifies, with the values it shows. *)
Lemma page_shows : forall cs c (p : list (string * regid * Z)) q,
  forallb fine (cs ++ [c]) = true -> notifies c = true -> forallb (fun x => existsb (fun y => String.eqb (fst y) (fst (fst x)) && regid_eqb (snd y) (snd (fst x))) boxes) p = true ->
  match PropsGuard.mcalls (cs ++ [c]) false (fresh (fun _ => 0) []) with
  | Some (_, s) => (forallb (fun x => match word_to_int (rg s (snd (fst x))) with Some y => y =? snd x | None => false end) p &&
     match shown_state s with Some y => y =? q | None => false end)%bool = true
  | None => False end ->
  exists h v, run_calls (Init (fun _ => 0) :: SetUi true :: cs ++ [c]) boot = Some h /\ showing h v /\ get_state h = Some q /\
    forall b r x, In (b, r, x) p -> v_value v b = x /\ get_register_value r h = Some x.
Proof.
  intros cs c p q Hf Hn Hp H. destruct (PropsGuard.run_from_boot (cs ++ [c]) _ H) as (h & s & E & Sm & F). apply andb_prop in F as (F1 & F2).
  destruct (page_run _ h Hf E) as (v & S & K). destruct (K cs c eq_refl) as (h0 & v0 & E0 & S0 & PE & Eh).
  exists h, v. split; [exact E|]. split; [exact S|]. split.
  - rewrite (state_sim h s Sm). destruct (shown_state s); [|discriminate F2]. apply Z.eqb_eq in F2. congruence.
  - intros b r x Hin. rewrite forallb_forall in F1, Hp. specialize (F1 _ Hin). specialize (Hp _ Hin). cbn [fst snd] in F1, Hp.
    apply existsb_exists in Hp as ((b' & r') & Hb & Hp). cbn [fst snd] in Hp. apply andb_prop in Hp as (H1 & H2). apply String.eqb_eq in H1.
    assert (r' = r) by (destruct r, r'; try reflexivity; discriminate H2). subst b' r'.
    destruct (C59_boxes h0 v0 _ h v b r S0 PE Hn Eh Hb) as (B & _). rewrite (PropsGuard.shown h s r Sm) in B |- *. rewrite B in F1 |- *.
    apply Z.eqb_eq in F1. subst. auto.
Qed.

(** The exception is real: in the third cycle of RET, PC goes from 1 to 192 and its
    box pulses, with the arrow into it still. *)
Theorem C59_pulse_refuted : exists h v h' v', showing h v /\ happen (Call (RunClock true)) (h, v) = Some (h', v') /\ get_state h' = Some 32 /\
  get_register_value R_PC h = Some (v_value v "pc"%string) /\ v_value v "pc"%string = 1 /\ v_value v' "pc"%string = 192 /\ v_blob v' "pc"%string = true /\
  forall e, In e (v_edges v') -> e_target e = "pc"%string -> e_animated e = false.
Proof.
  pose (cs := [SetMem 0 0xC0; RunClock true; RunClock true]).
  destruct (page_shows [SetMem 0 0xC0; RunClock true] (RunClock true) [("pc"%string, R_PC, 1)] 1 eq_refl eq_refl eq_refl) as (h & v & E & S & _ & P). { vm_compute. reflexivity. }
  destruct (page_shows cs (RunClock true) [("pc"%string, R_PC, 192)] 32 eq_refl eq_refl eq_refl) as (h' & vx & E' & Sx & Q & P'). { vm_compute. reflexivity. }
  assert (Eh : exists v', happen (Call (RunClock true)) (h, v) = Some (h', v')).
  { destruct (C59_defined h v _ S (PE_clock true)) as (h2 & v2 & E2). exists v2. rewrite E2. repeat f_equal.
    change (Init (fun _ => 0) :: SetUi true :: cs ++ [RunClock true]) with ((Init (fun _ => 0) :: SetUi true :: cs) ++ [RunClock true]) in E'.
    rewrite run_calls_app in E'. change (cs) with ([SetMem 0 0xC0; RunClock true] ++ [RunClock true]) in E'. rewrite E in E'. cbn [run_calls happen notifies] in E', E2.
    destruct (do_call (RunClock true) h) as [hy|]; [|discriminate E']. injection E' as ->. destruct (refresh h' v) as [w|]; [|discriminate E2]. injection E2 as <- <-. reflexivity. }
  destruct Eh as (v' & Eh). exists h, v, h', v'. destruct (P _ _ _ (or_introl eq_refl)) as (P1 & P2). destruct (P' _ _ _ (or_introl eq_refl)) as (_ & P4).
  destruct (C59_boxes h v _ h' v' "pc"%string R_PC S (PE_clock true) eq_refl Eh) as (B1 & B2). { cbn; tauto. }
  assert (v_value v' "pc"%string = 192) by congruence.
  split; [exact S|]. split; [exact Eh|]. split; [exact Q|]. split; [congruence|]. split; [exact P1|]. split; [auto|]. split; [apply B2; rewrite P1, H; discriminate|].
  intros e He Ht. destruct (proj1 (C59_arrows h v h' v' 32 S Eh Q) "pc"%string "PCCAR"%string L_pccar) as (_ & A). { cbn; tauto. }
  refine (proj1 (proj2 (A e He _ Ht))).
  assert (Sh : shaped v') by (apply (showing_shaped h' v'); exact (S_event _ h v h' v' S (PE_clock true) Eh)). destruct Sh as (f & a & b & Es & _). rewrite Es in He.
  unfold shape in He. cbn [In] in He. repeat (destruct He as [<-|He]; [cbn [e_target e_source] in *; first [discriminate Ht|reflexivity]|]). contradiction.
Qed.
(** Calls that do not notify leave the page behind: after two clock cycles and
    reset_control the control unit is in state 0 and its box still shows 1. *)
Theorem C59_reset_stale_refuted : exists h v, showing h v /\ get_state h = Some 0 /\ v_value v "8b"%string = 1.
Proof.
  destruct (page_shows [SetMem 0 0xC0; RunClock true] (RunClock true) [] 1 eq_refl eq_refl eq_refl) as (h & v & E & S & Q & _). { vm_compute. reflexivity. }
  destruct (page_run [SetMem 0 0xC0; RunClock true; RunClock true] h eq_refl E) as (v2 & S2 & K).
  destruct (K [SetMem 0 0xC0; RunClock true] (RunClock true) eq_refl) as (h0 & v0 & _ & S0 & PE & Eh).
  destruct (C59_others h0 v0 _ h v2 S0 PE eq_refl Eh) as (B & _). rewrite Q in B. injection B as B.
  destruct (C59_defined h v2 _ S2 PE_reset) as (h' & v' & E'). exists h', v'. split; [exact (S_event _ h v2 h' v' S2 PE_reset E')|].
  cbn [happen notifies] in E'. destruct (do_call ResetControl h) as [h2|] eqn:Er; [|discriminate]. injection E' as <- <-. split; [|auto].
  destruct (showing_live h v2 S2) as (l & L). destruct (live_up l h true L) as (_ & z & U). destruct (up_obs h z U) as (O & _).
  destruct (PropsApi.C36_reset l h true _ L O) as (h3 & E3 & _ & G & _). congruence.
Qed.

(** ** C58 *)
(** [ran h qs h']: clock cycles from [h] to [h'] execute the microstates [qs]. *)
Inductive ran : hstate -> list Z -> hstate -> Prop :=
| R_none : forall h, ran h [] h
| R_more : forall h qs h1 h2 q, ran h qs h1 -> do_call (RunClock true) h1 = Some h2 -> get_state h2 = Some q -> ran h (qs ++ [q]) h2.
Lemma lastn_app : forall {A} (l : list A) x n, (n <= List.length l)%nat -> lastn (S n) (l ++ [x]) = lastn n l ++ [x].
Proof.
  intros A l x n Hn. unfold lastn. rewrite app_length. cbn [List.length].
  replace (List.length l + 1 - S n)%nat with (List.length l - n)%nat by lia. rewrite skipn_app.
  replace (List.length l - n - List.length l)%nat with 0%nat by lia. reflexivity.
Qed.
Lemma skipn_twice : forall {A} (l : list A) a b, skipn a (skipn b l) = skipn (a + b) l.
Proof.
  intros A l. induction l as [|x l IH]; intros a b; [rewrite !skipn_nil; reflexivity|].
  destruct b; [rewrite Nat.add_0_r; reflexivity|]. rewrite Nat.add_succ_r. cbn [skipn]. apply IH.
Qed.
Lemma lastn_lastn : forall {A} (l : list A) n m, (n <= m)%nat -> lastn n (lastn m l) = lastn n l.
Proof.
  intros A l n m Hn. unfold lastn. rewrite skipn_length, skipn_twice. f_equal. lia.
Qed.
Lemma pushed_more : forall q n l x, pushed q n (lastn 3 (l ++ [x])) = lastn 3 ((l ++ [x]) ++ [entry_of n]).
Proof.
  intros q n l x.
  assert (E : pushed q n (lastn 3 (l ++ [x])) = lastn 2 (lastn 3 (l ++ [x])) ++ [entry_of n]).
  { unfold pushed. destruct (lastn 3 (l ++ [x])) eqn:E; [|reflexivity]. exfalso.
    apply (f_equal (@List.length entry)) in E. unfold lastn in E. rewrite skipn_length, app_length in E. cbn [List.length] in E. lia. }
  rewrite E, lastn_lastn by lia.
  destruct l as [|y l]; [reflexivity|]. rewrite (lastn_app ((y :: l) ++ [x]) _ 2) by (rewrite app_length; cbn [List.length]; lia). reflexivity.
Qed.
(** On an empty list, after n+1 clock cycles in a row the page lists the last two
    microstates executed (one if only one has been), as executed, and then the one
    the control unit will execute next. *)
Theorem C58_cycles : forall n h v, showing h v -> v_states v = [] ->
  exists qs h' v' nx, happens (repeat (Call (RunClock true)) (S n)) (h, v) = Some (h', v') /\ ran h qs h' /\ List.length qs = S n /\
    get_next_state h' = Some nx /\ executed (v_states v') = lastn 2 (map entry_of qs) /\ last (v_states v') (mkEntry (-1) "") = entry_of nx /\
    v_states v' = lastn 3 (map entry_of (qs ++ [nx])).
Proof.
  intros n h v S0 Hv.
  assert (Ha : forall a b p, happens (a ++ b) p = match happens a p with Some p' => happens b p' | None => None end).
  { induction a as [|e a IH]; intros b p; [reflexivity|]. cbn [happens app]. destruct (happen e p); auto. }
  assert (Fin : forall qs nx vs, (0 < List.length qs)%nat -> vs = lastn 3 (map entry_of (qs ++ [nx])) ->
     executed vs = lastn 2 (map entry_of qs) /\ last vs (mkEntry (-1) "") = entry_of nx).
  { intros qs nx vs Hl ->. rewrite map_app. cbn [map]. unfold executed.
    destruct qs as [|a [|b qs]]; [cbn in Hl; lia|split; reflexivity|]. rewrite lastn_app by (cbn; lia).
    rewrite removelast_last, last_last. auto. }
  assert (K : exists qs h' v' nx, happens (repeat (Call (RunClock true)) (S n)) (h, v) = Some (h', v') /\ showing h' v' /\ ran h qs h' /\ List.length qs = S n /\
    get_next_state h' = Some nx /\ v_states v' = lastn 3 (map entry_of (qs ++ [nx]))).
  { induction n as [|n IH].
    - destruct (C59_defined h v _ S0 (PE_clock true)) as (h' & v' & E).
      pose proof (told_ok h v _ h' v' S0 (PE_clock true) eq_refl E) as T. destruct (td_states _ _ _ T) as (q & nx & Q & _ & N & _ & Es).
      assert (Ec : do_call (RunClock true) h = Some h').
      { cbn [happen notifies] in E. destruct (do_call (RunClock true) h) as [h2|]; [|discriminate E]. destruct (refresh h2 v); congruence. }
      exists [q], h', v', nx. split; [cbn [repeat happens]; rewrite E; reflexivity|]. split; [exact (S_event _ h v h' v' S0 (PE_clock true) E)|].
      split; [apply (R_more h [] h h' q); auto; constructor|]. split; [reflexivity|]. split; [exact N|]. rewrite Es, Hv. reflexivity.
    - destruct IH as (qs & h1 & v1 & n1 & E1 & S1 & R1 & L1 & N1 & V1).
      destruct (C59_defined h1 v1 _ S1 (PE_clock true)) as (h' & v' & E).
      pose proof (told_ok h1 v1 _ h' v' S1 (PE_clock true) eq_refl E) as T. destruct (td_states _ _ _ T) as (q & nx & Q & _ & N & _ & Es).
      assert (Ec : do_call (RunClock true) h1 = Some h').
      { cbn [happen notifies] in E. destruct (do_call (RunClock true) h1) as [h2|]; [|discriminate E]. destruct (refresh h2 v1); congruence. }
      assert (q = n1).
      { destruct (showing_live h1 v1 S1) as (l & L). destruct (live_up l h1 true L) as (_ & z & U). destruct (up_obs h1 z U) as (O & _).
        destruct (PropsApi.C38_clock l h1 true true n1 _ L (fun _ => eq_refl) N1 O) as (h2 & E2 & Q2 & _). congruence. }
      subst n1. exists (qs ++ [q]), h', v', nx. 
      split. { replace (S (S n)) with (S n + 1)%nat by lia. rewrite repeat_app, Ha, E1. cbn [repeat happens]. rewrite E. reflexivity. }
      split; [exact (S_event _ h1 v1 h' v' S1 (PE_clock true) E)|]. split; [apply (R_more h qs h1 h' q); auto|].
      split; [rewrite app_length, L1; cbn [List.length]; lia|]. split; [exact N|].
      rewrite Es, V1, !map_app. cbn [map]. rewrite pushed_more. reflexivity. }
  destruct K as (qs & h' & v' & nx & E & S1 & R & Hl & N & V). destruct (Fin qs nx (v_states v') ltac:(lia) V) as (F1 & F2).
  exists qs, h', v', nx. auto 10.
Qed.
(** Whatever happened before, after an event that notifies the page the last item
    is the next microstate, and there are two or three items. *)
Theorem C58_next : forall h v e h' v', showing h v -> page_event e -> notified e = true -> happen e (h, v) = Some (h', v') ->
  exists nx, get_next_state h' = Some nx /\ last (v_states v') (mkEntry (-1) "") = entry_of nx /\ (List.length (v_states v') <= 3)%nat.
Proof.
  intros h v e h' v' S PE N E. pose proof (told_ok h v e h' v' S PE N E) as T. destruct (td_states _ _ _ T) as (q & nx & Q & _ & Nx & _ & Es).
  exists nx. split; [exact Nx|]. rewrite Es. unfold pushed. destruct (v_states v) as [|x l]; [split; [reflexivity|cbn; lia]|].
  rewrite last_last, app_length. split; [reflexivity|]. unfold lastn. rewrite skipn_length. cbn [List.length]. lia.
Qed.
(** The items carry the number of the microstate, for all but the last one. *)
Theorem C58_labels : forall q, 0 <= q <= 43 -> en_state (entry_of q) = q.
Proof.
  intros q Hq. assert (F : forallb (fun q => en_state (entry_of q) =? q) (map Z.of_nat (seq 0 44)) = true) by (vm_compute; reflexivity).
  rewrite forallb_forall in F. apply Z.eqb_eq, F. apply in_map_iff. exists (Z.to_nat q). split; [lia|apply in_seq; lia].
Qed.
(** The fourth cycle of LD B,AC executes microstate 44, which the list calls 43. *)
Theorem C58_labels_refuted : exists h v h' v', showing h v /\ v_states v = [] /\ 
  happen (Call (RunClock true)) (h, v) = Some (h', v') /\ get_state h' = Some 44 /\ map en_state (executed (v_states v')) = [43].
Proof.
  destruct (page_shows [SetMem 0 0x40; RunClock true; RunClock true; RunClock true] (RunClock true) [] 44 eq_refl eq_refl eq_refl) as (h' & v & E & S & Q & _). { vm_compute. reflexivity. }
  destruct (page_run ([SetMem 0 0x40; RunClock true; RunClock true; RunClock true] ++ [RunClock true]) h' eq_refl E) as (v2 & S2 & K). destruct (K [SetMem 0 0x40; RunClock true; RunClock true; RunClock true] (RunClock true) eq_refl) as (h0 & v0 & _ & S0 & PE & Eh).
  pose (v0' := mkView (v_value v0) (v_blob v0) (v_edges v0) (v_fz v0) (v_fc v0) (v_alu v0) (v_search v0) (v_le v0) []).
  assert (S0' : showing h0 v0') by (exact (S_event Clear h0 v0 h0 v0' S0 PE_clear eq_refl)).
  destruct (C59_defined h0 v0' _ S0' PE) as (h1 & v1 & E1). assert (h1 = h') as ->.
  { cbn [happen notifies] in E1, Eh. destruct (do_call (RunClock true) h0) as [hx|]; [|discriminate E1]. destruct (refresh hx v0), (refresh hx v0'); congruence. }
  exists h0, v0', h', v1. split; [exact S0'|]. split; [reflexivity|]. split; [exact E1|]. split; [exact Q|].
  pose proof (told_ok h0 v0' _ h' v1 S0' PE eq_refl E1) as T. destruct (td_states _ _ _ T) as (q & nx & Q1 & _ & _ & _ & Es).
  rewrite Q in Q1. injection Q1 as <-. rewrite Es. reflexivity.
Qed.
(** Writing a cell notifies the page too: on a page just opened it lists microstate
    0 as executed although no clock cycle has run. *)
Theorem C58_executed_refuted : exists rnd h h' v', run_calls [Init rnd; SetUi true] boot = Some h /\ showing h view0 /\
  happen (Call (SetMem 0 7)) (h, view0) = Some (h', v') /\ executed (v_states v') = [entry_of 0].
Proof.
  destruct (PropsGuard.run_from_boot [] (fun s => match shown_state s with Some y => y =? 0 | None => false end)) as (h & s & E & Sm & F). { vm_compute. reflexivity. }
  assert (S0 : showing h view0) by (apply (S_open (fun _ => 0)); auto; intros; lia).
  assert (PE : page_event (Call (SetMem 0 7))) by (constructor; lia).
  destruct (C59_defined h view0 _ S0 PE) as (h' & v' & Eh). exists (fun _ => 0), h, h', v'. split; [exact E|]. split; [exact S0|]. split; [exact Eh|].
  pose proof (told_ok h view0 _ h' v' S0 PE eq_refl Eh) as T. destruct (td_states _ _ _ T) as (q & nx & Q1 & _ & _ & _ & Es). rewrite Es.
  destruct (PropsGuard.run_from_boot [SetMem 0 7] (fun s => match shown_state s with Some y => y =? 0 | None => false end)) as (h2 & s2 & E2 & Sm2 & F2). { vm_compute. reflexivity. }
  assert (h2 = h') as ->.
  { change [Init (fun _ => 0); SetUi true; SetMem 0 7] with ([Init (fun _ => 0); SetUi true] ++ [SetMem 0 7]) in E2. rewrite run_calls_app, E in E2. cbn [run_calls] in E2.
    cbn [happen notifies] in Eh. destruct (do_call (SetMem 0 7) h) as [hx|]; [|discriminate E2]. destruct (refresh hx view0); congruence. }
  rewrite (state_sim h' s2 Sm2) in Q1. rewrite Q1 in F2. apply Z.eqb_eq in F2. subst q. reflexivity.
Qed.

(** ** C60 *)
(** The memory box shows the cell asked for, highlighted, between its two
    neighbours, leaving out what is not in memory; for any number below 2^32 - 1. *)
Theorem C60_rows : forall h v a c, showing h v -> obs h c -> 0 <= a < 2 ^ 32 - 1 ->
  mem_rows h a = Some (map (fun x => (x, mem c x, x =? a)) (filter (fun x => (0 <=? x) && (x <? 65536)) [a - 1; a; a + 1])).
Proof.
  intros h v a c S (_ & O & _) Ha.
  assert (K : forall x, -1 <= x < 2 ^ 32 -> mem_row h x (x =? a) = Some (if (0 <=? x) && (x <? 65536) then [(x, mem c x, x =? a)] else [])).
  { intros x Hx. unfold mem_row. destruct ((0 <=? x) && (x <? 65536)) eqn:Ex.
    - assert (to_int32 x = x) as ->. { unfold to_int32. change (2 ^ 31) with 2147483648. change (2 ^ 32) with 4294967296. rewrite Z.mod_small; lia. }
      rewrite O by lia. destruct (showing_live h v S) as (l & L). destruct (PropsApi.C18_ranges l h true L) as (_ & R).
      destruct (R x ltac:(lia)) as (y & Ey & Hy). rewrite O in Ey by lia. injection Ey as <-.
      destruct (Z.eqb_spec (mem c x) (-1)); [lia|reflexivity].
    - unfold get_memory_value. destruct (valid_offset (to_int32 x)) eqn:Ev; [exfalso|reflexivity].
      apply valid_offset_range in Ev. unfold to_int32 in Ev. change (2 ^ 31) with 2147483648 in Ev. change (2 ^ 32) with 4294967296 in *.
      pose proof (Z.div_mod (x + 2147483648) 4294967296 ltac:(lia)). pose proof (Z.mod_pos_bound (x + 2147483648) 4294967296 ltac:(lia)).
      assert ((x + 2147483648) / 4294967296 = 0 \/ (x + 2147483648) / 4294967296 = 1) as [Hd|Hd].
      { assert (0 <= (x + 2147483648) / 4294967296 < 2) by (split; [apply Z.div_pos; lia|apply Z.div_lt_upper_bound; lia]). lia. }
      all: rewrite Hd in H; lia. }
  unfold mem_rows. pose proof (K (a - 1) ltac:(lia)) as K1. pose proof (K a ltac:(lia)) as K2. pose proof (K (a + 1) ltac:(lia)) as K3.
  replace (a - 1 =? a) with false in K1 by lia. replace (a =? a) with true in K2 by lia. replace (a + 1 =? a) with false in K3 by lia.
  rewrite K1, K2, K3. cbn [filter]. 
  destruct ((0 <=? a - 1) && (a - 1 <? 65536)), ((0 <=? a) && (a <? 65536)), ((0 <=? a + 1) && (a + 1 <? 65536)); cbn [map app];
    replace (a - 1 =? a) with false by lia; replace (a =? a) with true by lia; replace (a + 1 =? a) with false by lia; reflexivity.
Qed.
(** The box takes any number: 2^32 is shown with the content of cell 0. *)
Theorem C60_rows_refuted : forall h v c, showing h v -> obs h c ->
  mem_rows h (2 ^ 32) = Some [(2 ^ 32, mem c 0, true); (2 ^ 32 + 1, mem c 1, false)].
Proof.
  intros h v c S (_ & O & _). destruct (showing_live h v S) as (l & L). destruct (PropsApi.C18_ranges l h true L) as (_ & R).
  unfold mem_rows, mem_row. change (to_int32 (2 ^ 32 - 1)) with (-1). change (to_int32 (2 ^ 32)) with 0. change (to_int32 (2 ^ 32 + 1)) with 1.
  destruct (R 0 ltac:(lia)) as (x & Ex & Hx). destruct (R 1 ltac:(lia)) as (y & Ey & Hy). pose proof (O 0 ltac:(lia)) as O0. pose proof (O 1 ltac:(lia)) as O1. rewrite O0, O1.
  unfold get_memory_value. cbn [valid_offset]. change (valid_offset (-1)) with false. cbv iota.
  rewrite O0 in Ex. rewrite O1 in Ey. injection Ex as <-. injection Ey as <-.
  destruct (Z.eqb_spec (mem c 0) (-1)); [lia|]. destruct (Z.eqb_spec (mem c 1) (-1)); [lia|]. reflexivity.
Qed.

(** Non-vacuity: the fourth cycle of ADI 5 (AC <- AC + 2OP): the box of AC goes
    from 0 to 5 and pulses, with its arrow moving. *)
Example C59_nonvacuous : exists h v h' v', showing h v /\ happen (Call (RunClock true)) (h, v) = Some (h', v') /\ get_state h' = Some 5 /\
  v_value v "acum"%string = 0 /\ v_value v' "acum"%string = 5 /\ v_blob v' "acum"%string = true /\ sel_alu_op (v_alu v') = Some "SUM"%string /\
  exists e, In e (v_edges v') /\ e_target e = "acum"%string /\ e_label e = Some ("ACCAR"%string, Some 1) /\ e_animated e = true.
Proof.
  pose (cs := [SetMem 0 0x65; SetMem 1 5; RunClock true; RunClock true; RunClock true]).
  destruct (page_shows [SetMem 0 0x65; SetMem 1 5; RunClock true; RunClock true] (RunClock true) [("acum"%string, R_AC, 0)] 15 eq_refl eq_refl eq_refl) as (h & v & E & S & _ & P). { vm_compute. reflexivity. }
  destruct (page_shows cs (RunClock true) [("acum"%string, R_AC, 5)] 5 eq_refl eq_refl eq_refl) as (h' & vx & E' & Sx & Q & P'). { vm_compute. reflexivity. }
  assert (Eh : exists v', happen (Call (RunClock true)) (h, v) = Some (h', v')).
  { destruct (C59_defined h v _ S (PE_clock true)) as (h2 & v2 & E2). exists v2. rewrite E2. repeat f_equal.
    change (Init (fun _ => 0) :: SetUi true :: cs ++ [RunClock true]) with ((Init (fun _ => 0) :: SetUi true :: cs) ++ [RunClock true]) in E'.
    rewrite run_calls_app in E'. change cs with ([SetMem 0 0x65; SetMem 1 5; RunClock true; RunClock true] ++ [RunClock true]) in E'. rewrite E in E'. cbn [run_calls happen notifies] in E', E2.
    destruct (do_call (RunClock true) h) as [hy|]; [|discriminate E']. injection E' as ->. destruct (refresh h' v) as [w|]; [|discriminate E2]. injection E2 as <- <-. reflexivity. }
  destruct Eh as (v' & Eh). exists h, v, h', v'. destruct (P _ _ _ (or_introl eq_refl)) as (P1 & P2). destruct (P' _ _ _ (or_introl eq_refl)) as (_ & P4).
  destruct (C59_boxes h v _ h' v' "acum"%string R_AC S (PE_clock true) eq_refl Eh) as (B1 & B2). { cbn; tauto. }
  assert (H : v_value v' "acum"%string = 5) by congruence.
  split; [exact S|]. split; [exact Eh|]. split; [exact Q|]. split; [exact P1|]. split; [exact H|]. split; [apply B2; rewrite P1, H; discriminate|].
  destruct (showing_live h' v' (S_event _ h v h' v' S (PE_clock true) Eh)) as (l & L). destruct (live_up l h' true L) as (_ & z & U). destruct (up_obs h' z U) as (O & _).
  split; [exact (proj1 (C59_alu_memory h v h' v' 5 _ S Eh Q O) "SUM"%string eq_refl)|].
  destruct (proj1 (C59_arrows h v h' v' 5 S Eh Q) "acum"%string "ACCAR"%string L_accar) as ((e & I1 & I2 & I3) & A). { cbn; tauto. }
  exists e. destruct (A e I1 I2 I3) as (? & ? & ?). auto.
Qed.
(** Non-vacuity of [C58_cycles] and [C60_rows]: the page just opened. *)
Example C58_nonvacuous : exists h c, showing h view0 /\ v_states view0 = [] /\ obs h c.
Proof.
  destruct (PropsGuard.run_from_boot [] (fun s => true)) as (h & s & E & Sm & _). { vm_compute. reflexivity. }
  assert (S0 : showing h view0) by (apply (S_open (fun _ => 0)); auto; intros; lia).
  destruct (showing_live h view0 S0) as (l & L). destruct (live_up l h true L) as (_ & z & U). destruct (up_obs h z U) as (O & _).
  eexists h, _. split; [exact S0|]. split; [reflexivity|]. exact O.
Qed.

Print Assumptions C58_cycles.
Print Assumptions C58_next.
Print Assumptions C58_labels.
Print Assumptions C58_labels_refuted.
Print Assumptions C58_executed_refuted.
Print Assumptions C58_nonvacuous.
Print Assumptions C59_defined.
Print Assumptions C59_boxes.
Print Assumptions C59_others.
Print Assumptions C59_arrows.
Print Assumptions C59_red.
Print Assumptions C59_alu_memory.
Print Assumptions C59_pulse.
Print Assumptions C59_pulse_refuted.
Print Assumptions C59_reset_stale_refuted.
Print Assumptions C59_nonvacuous.
Print Assumptions C60_rows.
Print Assumptions C60_rows_refuted.
