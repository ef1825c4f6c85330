(** * C113: programs with subroutines
    Each line belongs to a routine; calls go to the first line of a routine and RET is reached with nothing of the
    routine's own left on the stack; each routine has a bound on the stack it needs, calls included. *)
From Coq Require Import String ZArith NArith List Bool Lia ZifyBool ZifyN.
From Verif Require Import Prog Isa Access Api Usage Front ApiFacts IsaFacts Reach PropsApi PropsIsa PropsRun IsaRun PropsLife.
From Verif Require Import JsStr AsmTable Asm AsmSpec AsmRe AsmLine AsmFacts AsmExec AsmProg AsmErr PropsAsm PropsDisasm PropsLoad PropsExamples PropsSpelling.
From Verif Require Import PropsRepro PropsRelocate Relocate PropsMoved PropsAnywhere PropsOwnLines PropsBalanced.
Import ListNotations.
Open Scope list_scope.
Open Scope Z_scope.

(** ** Specification *)
(** The line [c] of a program of [n] cells from [a], with the stack between [low] and [top]: jumps and calls go to labels;
    STA writes a cell outside both; no STAX, INISP or IRET.  Any cell may be read. *)
Definition routine_line (a n low top : Z) (c : code) : Prop :=
  match ins c with
  | JMP | BEQ | BC_ | CALL => is_ref (val c)
  | STA => ~ is_ref (val c) /\ ~ (a <= numeral_value (val c) < a + n) /\ ~ (low <= numeral_value (val c) < top)
  | STAX | INISP | IRET => False
  | _ => True
  end.
(** Line number [i] is the one that label [n] names. *)
Definition names (p : list code) (n : str) (i : nat) : Prop := exists q c r, p = q ++ c :: r /\ lab c = n /\ ~ In n (map lab q) /\ List.length q = i.
(** Line [i] belongs to routine [rt i], 0 being the main program, and is executed with [dep i] bytes of the routine on the
    stack; routine [k] needs at most [need k] bytes, the calls it makes included. *)
Record structured (p : list code) (rt : nat -> nat) (dep : nat -> Z) (need : nat -> Z) : Prop := {
  st_first : rt 0%nat = 0%nat /\ dep 0%nat = 0;
  st_fits : forall q c r, p = q ++ c :: r -> let i := List.length q in 0 <= dep i <= need (rt i) /\ 0 <= dep i + growth (ins c) <= need (rt i);
  st_next : forall q c r, p = q ++ c :: r -> let i := List.length q in ins c <> FIN -> ins c <> JMP -> ins c <> RET -> rt (S i) = rt i /\ dep (S i) = dep i + growth (ins c);
  st_jump : forall q c r, p = q ++ c :: r -> let i := List.length q in ins c = JMP \/ ins c = BEQ \/ ins c = BC_ -> forall j, names p (val c) j -> rt j = rt i /\ dep j = dep i;
  st_call : forall q c r, p = q ++ c :: r -> let i := List.length q in ins c = CALL -> forall j, names p (val c) j -> rt j <> 0%nat /\ dep j = 0 /\ dep i + 2 + need (rt j) <= need (rt i);
  st_ret : forall q c r, p = q ++ c :: r -> let i := List.length q in ins c = RET -> rt i <> 0%nat /\ dep i = 0 }.
(** The last line is FIN, JMP or RET. *)
Definition ends_well (p : list code) : Prop := exists q c, p = q ++ [c] /\ (ins c = FIN \/ ins c = JMP \/ ins c = RET).
(** PC is at a line, SP is within the stack, and exactly where the line says if it is of the main program. *)
Definition in_routine (p : list code) (a top : Z) (K : Z) (rt : nat -> nat) (dep : nat -> Z) (h : hstate) : Prop :=
  exists q c r sp, p = q ++ c :: r /\ get_register_value R_PC h = Some (a + total q) /\ get_register_value R_SP h = Some sp /\ top - K <= sp <= top /\ (rt (List.length q) = 0%nat -> sp = top - dep (List.length q)).

(** ** Proofs *)
Lemma call_step : forall s, 0 <= PC s -> PC s + 3 <= 65535 -> decode (M s (PC s)) = CALL -> 2 <= SP s ->
  PC (step s) = 256 * M s (PC s + 1) + M s (PC s + 2) /\ SP (step s) = SP s - 2 /\ log (step s) = log s /\
  forall x, M (step s) x = if x =? SP s - 2 then (PC s + 3) mod 256 else if x =? SP s - 1 then (PC s + 3) / 256 else M s x.
Proof.
  intros [ac fc fz rb rc rd re pc sp m lg] H0 H1 Dc Hs. unfold step. rewrite Dc. cbn [PC M SP log] in *.
  unfold exec_instr, with_dir, with_imm, imm, pc_next, push, sp_down. cbn [put_pc put_sp write note PC SP M log]. replace (pc =? 65535) with false by lia. cbn [put_pc put_sp write note PC SP M log].
  replace (pc + 1 =? 65535) with false by lia. cbn [put_pc put_sp write note PC SP M log]. replace (pc + 1 + 1 =? 65535) with false by lia. cbn [put_pc put_sp write note PC SP M log].
  replace (sp =? 0) with false by lia. cbn [put_pc put_sp write note PC SP M log]. replace (sp - 1 =? 0) with false by lia. cbn [put_pc put_sp write note PC SP M log].
  replace (pc + 1 + 1) with (pc + 2) by lia. replace (pc + 2 + 1) with (pc + 3) by lia. replace (sp - 1 - 1) with (sp - 2) by lia. do 3 (split; [reflexivity|]). intros x. reflexivity.
Qed.
Lemma ret_step : forall s, 0 <= PC s < 65535 -> decode (M s (PC s)) = RET -> 0 <= SP s -> SP s + 2 <= 65535 ->
  PC (step s) = 256 * M s (SP s + 1) + M s (SP s) /\ SP (step s) = SP s + 2 /\ log (step s) = log s /\ forall x, M (step s) x = M s x.
Proof.
  intros [ac fc fz rb rc rd re pc sp m lg] H0 Dc Hs Ht. unfold step. rewrite Dc. cbn [PC M SP log] in *. unfold exec_instr, pc_next, pop, sp_up. cbn [put_pc put_sp note PC SP M log]. replace (pc =? 65535) with false by lia. cbn [put_pc put_sp note PC SP M log].
  replace (sp =? 65535) with false by lia. cbn [put_pc put_sp note PC SP M log]. replace (sp + 1 =? 65535) with false by lia. cbn [put_pc put_sp note PC SP M log]. replace (sp + 1 + 1) with (sp + 2) by lia. do 3 (split; [reflexivity|]). reflexivity.
Qed.
Lemma line_after : forall p q c r, ends_well p -> p = q ++ c :: r -> ins c <> FIN -> ins c <> JMP -> ins c <> RET -> exists d r', p = (q ++ [c]) ++ d :: r'.
Proof.
  intros p q c r Cl Ep N1 N2 N3. destruct r as [|d r']; [|exists d, r'; rewrite <- app_assoc; exact Ep]. exfalso. destruct Cl as (q' & c' & Eq & F). rewrite Ep in Eq. apply app_inj_tail in Eq. destruct Eq as (_ & ->). tauto.
Qed.

Section Routines.
Variables (p : list code) (a top : Z) (bytes : list Z) (rt : nat -> nat) (dep need : nat -> Z).
Hypothesis (Im : image p a p bytes) (Ha : 0 <= a) (Fa : a + total p <= 65535).
Hypothesis (Vp : forall c, In c p -> value_ok (map lab p) c /\ ~ byte_ref c) (Rp : forall c, In c p -> routine_line a (total p) (top - need 0%nat) top c) (Cl : ends_well p) (Sd : structured p rt dep need).
Hypothesis (Tp : need 0%nat <= top <= 65535) (Di : a + total p <= top - need 0%nat \/ top <= a).

(** Routine [k] is being executed and was called with SP at [base], where its return address is; and so on for its callers. *)
Inductive frames (m : Z -> Z) : nat -> Z -> Prop :=
| F_main : frames m 0 top
| F_call : forall k base q c r, p = q ++ c :: r -> frames m (rt (List.length q)) (base + 2 + dep (List.length q)) -> k <> 0%nat ->
    256 * m (base + 1) + m base = a + total q -> dep (List.length q) + 2 + need k <= need (rt (List.length q)) -> frames m k base.
Lemma frames_range : forall m k base, frames m k base -> base <= top /\ top - need 0%nat <= base - need k.
Proof.
  induction 1 as [|k base q c r Ep Fr IH Nk Ad Nd]; [lia|]. destruct (st_fits _ _ _ _ Sd q c r Ep) as (D & _). cbv zeta in D. lia.
Qed.
Lemma frames_ext : forall m m' k base, frames m k base -> (forall x, base <= x < top -> m' x = m x) -> frames m' k base.
Proof.
  induction 1 as [|k base q c r Ep Fr IH Nk Ad Nd]; intros E; [constructor|]. destruct (st_fits _ _ _ _ Sd q c r Ep) as (D & _). cbv zeta in D. pose proof (frames_range _ _ _ Fr) as (R1 & _).
  apply (F_call m' k base q c r Ep); auto; [apply IH; intros x Hx; apply E; lia|]. rewrite !E by lia. exact Ad.
Qed.
Definition at_frame (s : arch) : Prop := holds (M s) a bytes /\ exists q c r base, p = q ++ c :: r /\ PC s = a + total q /\ SP s = base - dep (List.length q) /\ frames (M s) (rt (List.length q)) base.
Lemma frame_step : forall s, at_frame s -> log (step s) = log s /\ holds (M (step s)) a bytes /\ (forall x, ~ named_by_sta p x -> ~ (top - need 0%nat <= x < top) -> M (step s) x = M s x) /\ (Usage.opcode s <> 255 -> at_frame (step s)).
Proof.
  intros s (Ho & q & c & r & base & Ep & Pc & Ps & Fr). destruct (plain_fetched p a bytes Im (M s) q c r Ep Ho) as (Dc & Fi & Sy & Op). pose proof (image_total _ _ _ _ Im) as Ln.
  destruct (st_fits _ _ _ _ Sd q c r Ep) as (D1 & D2). pose proof (st_next _ _ _ _ Sd q c r Ep) as Nx. pose proof (st_jump _ _ _ _ Sd q c r Ep) as Jx. pose proof (st_call _ _ _ _ Sd q c r Ep) as Cx. pose proof (st_ret _ _ _ _ Sd q c r Ep) as Rx. cbv zeta in *.
  assert (Tq : 0 <= total q /\ a + total q + AsmSpec.size (ins c) <= 65535).
  { pose proof (total_pos q). pose proof (total_pos r). pose proof Fa as F. rewrite Ep, total_app in F. change (total (c :: r)) with (AsmSpec.size (ins c) + total r) in F. lia. }
  assert (Ic : In c p) by (rewrite Ep; apply in_or_app; right; left; reflexivity). pose proof (Rp c Ic) as Si. rewrite <- Pc in Dc, Op. destruct (frames_range _ _ _ Fr) as (R1 & R2).
  assert (Tgt : value_kind (ins c) = Some Value16 -> is_ref (val c) -> exists q' d r', p = q' ++ d :: r' /\ value_of p a c = a + total q' /\ names p (val c) (List.length q')).
  { intros K' Rf. destruct (Vp c Ic) as (V & _). unfold value_ok in V. rewrite K' in V. destruct V as [(Nm & _)|(_ & Hi)]; [destruct (ref_not_numeral _ Rf Nm)|].
    destruct (address_first p a (val c) Hi) as (q' & d & r' & Ep' & Ad & Ld & Nq). exists q', d, r'. split; [exact Ep'|]. split; [|exists q', d, r'; auto]. unfold value_of. rewrite K'. unfold is_ref in Rf. rewrite Rf. exact Ad. }
  assert (Cs : ins c = CALL \/ ins c = RET \/ plain_line a (total p) c).
  { unfold plain_line. unfold routine_line in Si. destruct (ins c); auto. tauto. }
  destruct Cs as [Ec|[Er|Pl]].
  - (* CALL *)
    assert (Si' : is_ref (val c)) by (unfold routine_line in Si; rewrite Ec in Si; exact Si). rewrite Ec in *. change (AsmSpec.size CALL) with 3 in *. cbn [growth] in *. destruct (Tgt eq_refl Si') as (q' & d & r' & Ep' & Vc & Nm). destruct (Cx eq_refl _ Nm) as (N0 & Dj & Nd). destruct (st_fits _ _ _ _ Sd q' d r' Ep') as (D1' & _). cbv zeta in D1'.
    destruct (call_step s ltac:(lia) ltac:(lia) Dc ltac:(lia)) as (Pn & Sn & Lg & Mn). rewrite (Op eq_refl), Vc in Pn.
    assert (Mo : forall x, ~ (SP s - 2 <= x < SP s) -> M (step s) x = M s x) by (intros x Hx; rewrite Mn; replace (x =? SP s - 2) with false by lia; replace (x =? SP s - 1) with false by lia; reflexivity).
    assert (Ho' : holds (M (step s)) a bytes) by (intros k Hk; rewrite Mo by lia; apply Ho; exact Hk).
    split; [exact Lg|]. split; [exact Ho'|]. split; [intros x _ Hx; apply Mo; lia|]. intros _. split; [exact Ho'|].
    destruct (line_after p q c r Cl Ep ltac:(rewrite Ec; discriminate) ltac:(rewrite Ec; discriminate) ltac:(rewrite Ec; discriminate)) as (e & r2 & Ep2).
    destruct (Nx ltac:(discriminate) ltac:(discriminate) ltac:(discriminate)) as (X1 & X2). rewrite Z.add_0_r in X2.
    assert (Lq : List.length (q ++ [c]) = S (List.length q)) by (rewrite app_length; cbn [List.length]; lia).
    exists q', d, r', (SP s - 2). split; [exact Ep'|]. split; [exact Pn|]. split; [lia|]. apply (F_call _ _ _ (q ++ [c]) e r2 Ep2); rewrite ?Lq, ?X1, ?X2; auto.
    + apply (frames_ext (M s)); [replace (SP s - 2 + 2 + dep (List.length q)) with base by lia; exact Fr|]. intros x Hx. apply Mo. lia.
    + rewrite !Mn. replace (SP s - 2 + 1 =? SP s - 2) with false by lia. replace (SP s - 2 + 1 =? SP s - 1) with true by lia. rewrite Z.eqb_refl. rewrite total_app. cbn [total fold_right]. rewrite Ec. change (AsmSpec.size CALL) with 3.
      pose proof (Z.div_mod (PC s + 3) 256). lia.
  - (* RET *)
    rewrite Er in *. change (AsmSpec.size RET) with 1 in *. destruct (Rx eq_refl) as (N0 & D0). remember (rt (List.length q)) as k eqn:Ek. destruct Fr as [|k base q0 c0 r0 Ep0 Fr0 Nk Ad Nd]; [destruct (N0 eq_refl)|].
    destruct (frames_range _ _ _ Fr0) as (R3 & R4). destruct (st_fits _ _ _ _ Sd q0 c0 r0 Ep0) as (D3 & _). cbv zeta in D3.
    destruct (ret_step s ltac:(lia) Dc ltac:(lia) ltac:(lia)) as (Pn & Sn & Lg & Mn). split; [exact Lg|]. assert (Ho' : holds (M (step s)) a bytes) by (intros j Hj; rewrite Mn; apply Ho; exact Hj). split; [exact Ho'|]. split; [intros x _ _; apply Mn|].
    intros _. split; [exact Ho'|]. exists q0, c0, r0, (base + 2 + dep (List.length q0)). split; [exact Ep0|]. rewrite D0, Z.sub_0_r in Ps. split; [rewrite Pn, Ps; exact Ad|]. split; [lia|]. apply (frames_ext (M s) _ _ _ Fr0). intros x _. apply Mn.
  - (* the others *)
    destruct (plain_step a (total p) s c ltac:(lia) ltac:(lia) Dc Sy Pl ltac:(lia)) as (Pn & Sn & Lg & Mn).
    assert (Ms : forall x, M (step s) x = M s x \/ (ins c = STA /\ x = numeral_value (val c)) \/ (ins c = PUSH /\ x = SP s - 1)).
    { intros x. destruct (Mn x) as [E|[(St & ->)|Pu]]; auto. right. left. split; [exact St|]. assert (K' : value_kind (ins c) = Some Value16) by (rewrite St; reflexivity). rewrite (Op K').
      unfold plain_line in Pl. rewrite St in Pl. destruct Pl as (Nr & _). unfold value_of. rewrite K'. apply nonref_head. exact Nr. }
    assert (Gr : ins c = PUSH -> top - need 0%nat <= SP s - 1 < base) by (intros X; rewrite X in D2; cbn [growth] in D2; lia).
    assert (Out : ins c = STA -> ~ (a <= numeral_value (val c) < a + total p) /\ ~ (top - need 0%nat <= numeral_value (val c) < top)) by (intros X; unfold routine_line in Si; rewrite X in Si; tauto).
    assert (Ho' : holds (M (step s)) a bytes).
    { intros k Hk. rewrite <- (Ho k Hk). destruct (Ms (a + Z.of_nat k)) as [E|[(St & E)|(Pu & E)]]; [exact E|destruct (Out St); lia|specialize (Gr Pu); lia]. }
    split; [exact Lg|]. split; [exact Ho'|]. split.
    { intros x Nx' Nst. destruct (Ms x) as [E|[(St & E)|(Pu & E)]]; [exact E| |]; exfalso; [apply Nx'; exists c; auto|specialize (Gr Pu); lia]. }
    assert (Fr' : frames (M (step s)) (rt (List.length q)) base).
    { apply (frames_ext (M s) _ _ _ Fr). intros x Hx. destruct (Ms x) as [E|[(St & E)|(Pu & E)]]; [exact E|destruct (Out St); lia|specialize (Gr Pu); lia]. }
    intros Nf. assert (Nfin : ins c <> FIN) by (intros X; apply Nf; unfold Usage.opcode; rewrite Pc; apply Fi, X). split; [exact Ho'|]. destruct Pn as [(Pn & Nj)|(Pn & Jm)].
    + assert (Nr : ins c <> RET) by (intros X; unfold plain_line in Pl; rewrite X in Pl; destruct Pl).
      destruct (line_after p q c r Cl Ep Nfin Nj Nr) as (d & r' & Ep'). destruct (Nx Nfin Nj Nr) as (X1 & X2). exists (q ++ [c]), d, r', base. split; [exact Ep'|]. split; [rewrite Pn, Pc, total_app; cbn [total fold_right]; lia|].
      rewrite app_length. cbn [List.length]. rewrite Nat.add_1_r, X1, X2. split; [lia|exact Fr'].
    + assert (K' : value_kind (ins c) = Some Value16) by (destruct Jm as [X|[X|X]]; rewrite X; reflexivity). rewrite (Op K') in Pn.
      assert (Rf : is_ref (val c)) by (unfold plain_line in Pl; destruct Jm as [X|[X|X]]; rewrite X in Pl; exact Pl).
      destruct (Tgt K' Rf) as (q' & d & r' & Ep' & Vc & Nm). destruct (Jx Jm _ Nm) as (X1 & X2). exists q', d, r', base. split; [exact Ep'|]. split; [congruence|]. rewrite X1, X2. split; [|exact Fr'].
      rewrite Sn, Ps. replace (growth (ins c)) with 0 by (destruct Jm as [X|[X|X]]; rewrite X; reflexivity). lia.
Qed.
Lemma frame_steps : forall n s, at_frame s -> (forall m, (m < n)%nat -> Usage.opcode (steps m s) <> 255) ->
  at_frame (steps n s) /\ log (steps n s) = log s /\ forall x, ~ named_by_sta p x -> ~ (top - need 0%nat <= x < top) -> M (steps n s) x = M s x.
Proof.
  induction n as [|n IH]; intros s Al Nf; [split; [exact Al|split; reflexivity]|]. destruct (frame_step s Al) as (Lg & _ & Mm & Nx). specialize (Nx (Nf 0%nat ltac:(lia))).
  destruct (IH (step s) Nx ltac:(intros m Hm; apply (Nf (S m)); lia)) as (I1 & I2 & I3). cbn [steps]. split; [exact I1|]. split; [congruence|]. intros x Hx Hy. rewrite I3, Mm by assumption. reflexivity.
Qed.
Lemma frame_sp : forall q c r base m, p = q ++ c :: r -> frames m (rt (List.length q)) base -> top - need 0%nat <= base - dep (List.length q) <= top /\ (rt (List.length q) = 0%nat -> base = top).
Proof.
  intros q c r base m Ep Fr. destruct (frames_range _ _ _ Fr) as (R1 & R2). destruct (st_fits _ _ _ _ Sd q c r Ep) as (D1 & _). cbv zeta in D1. split; [lia|]. intros E. rewrite E in Fr. inversion Fr; [reflexivity|congruence].
Qed.
End Routines.

(** Such a source, saved at [a] with PC there and SP at [top], the cells below [top] that the main program needs being
    outside the program.  Before FIN: PC is at a line of the source and SP within the stack.  If the run ends: it ends after a FIN
    line of the source.  [keeps] is that of C112. *)
Theorem C113_routines : forall lines codes a top rt dep need l h s, program lines codes a -> a + total (somes codes) <= 65535 ->
  (forall c, In c (somes codes) -> routine_line a (total (somes codes)) (top - need 0%nat) top c) -> ends_well (somes codes) -> structured (somes codes) rt dep need ->
  need 0%nat <= top <= 65535 -> a + total (somes codes) <= top - need 0%nat \/ top <= a -> live l h true -> boundary h -> shows h s -> get_register_value R_SP h = Some top ->
  exists out slots h1, parse_input (text_of lines) a = Some out /\ new_translation out = Some slots /\ placed a (slot_values slots) h h1 /\
    (forall n us h', instructions n h1 us h' -> before_fin (somes codes) a n h1 -> in_routine (somes codes) a top (need 0%nat) rt dep h' /\ keeps (somes codes) a (slot_values slots) top (need 0%nat) h h') /\
    (forall u h', run_program u false h1 h' ->
      (exists q c r sp, somes codes = q ++ c :: r /\ ins c = FIN /\ get_register_value R_PC h' = Some (a + total q + 1) /\ get_register_value R_SP h' = Some sp /\
        top - need 0%nat <= sp <= top /\ (rt (List.length q) = 0%nat -> sp = top - dep (List.length q))) /\
      keeps (somes codes) a (slot_values slots) top (need 0%nat) h h').
Proof.
  intros lines codes a top rt dep need l h s P Fa Rp Cl Sd Tp Di L Bd Sh St. pose proof P as (P1 & P2 & P3 & P4 & P5 & P6).
  destruct (C44_image _ _ a P1 P2 P3 P4 P5 P6) as (out & x & A1 & A2 & Im & _). set (p := somes codes) in *. pose proof (image_total _ _ _ _ Im) as Ln. pose proof (image_bytes _ _ _ _ _ P3 P5 P6 Im) as By.
  pose proof Cl as (q0 & c0 & Ep0 & Fc0). assert (Np : 1 <= total p). { rewrite Ep0, total_app. pose proof (total_pos q0). cbn [total fold_right]. pose proof (size_pos (ins c0)). lia. }
  destruct (placed_shows a (slot_values x) l h s L Bd Sh ltac:(lia) ltac:(lia) By) as (h1 & l1 & Pl & Lv & Bd1 & Sh1).
  exists out, x, h1. do 3 (split; [assumption|]). set (s1 := ready_at a (slot_values x) s) in *. pose proof Sh as (_ & _ & _ & _ & _ & _ & _ & _ & Y9 & Y10 & Y11).
  assert (Al : at_frame p a top (slot_values x) rt dep need s1).
  { split; [apply stored_holds|]. destruct (st_first _ _ _ _ Sd) as (R0 & D0). assert (X : exists c r, p = c :: r) by (destruct p as [|c r]; [cbn in Np; lia|eauto]). destruct X as (c & r & Ep).
    exists [], c, r, top. split; [exact Ep|]. split; [cbn; lia|]. cbn [List.length]. rewrite R0, D0. split; [cbn [SP s1 ready_at]; rewrite Y9 in St; injection St as ->; lia|constructor]. }
  pose proof (frame_steps p a top (slot_values x) rt dep need Im P5 Fa P3 Rp Cl Sd Tp Di) as Own.
  assert (FS : forall q c r b m, p = q ++ c :: r -> frames p a top rt dep need m (rt (List.length q)) b -> top - need 0%nat <= b - dep (List.length q) <= top /\ (rt (List.length q) = 0%nat -> b = top)) by (intros; eapply frame_sp; eassumption).
  assert (Mine : forall h' s', shows h' s' -> holds (M s') a (slot_values x) -> (forall y, ~ named_by_sta p y -> ~ (top - need 0%nat <= y < top) -> M s' y = M s1 y) -> log s' = log s1 -> keeps p a (slot_values x) top (need 0%nat) h h').
  { intros h' s' (_ & _ & _ & _ & _ & _ & _ & _ & _ & Z10 & Z11) Ho Mm Lg. split; [|split; [|rewrite Z11, Y11; exact Lg]].
    - intros k Hk. rewrite Z10 by lia. f_equal. apply Ho. exact Hk.
    - intros y Hy Nx Ns Nt. rewrite Y10, Z10 by exact Hy. f_equal. rewrite Mm by assumption. cbn [M s1 ready_at]. unfold stored. replace ((a <=? y) && (y <? a + Z.of_nat (List.length (slot_values x)))) with false by lia. reflexivity. }
  split.
  - intros n us h' In1 Bf. destruct (C14_programs n l1 h1 true s1 us h' Lv Bd1 Sh1 In1) as (S' & _).
    assert (Nf : forall k, (k <= n)%nat -> forall m, (m < k)%nat -> Usage.opcode (steps m s1) <> 255).
    { induction k as [|k IH]; intros Hk m Hm; [lia|]. destruct (Nat.eq_dec m k) as [->|Ne]; [|apply IH; lia].
      destruct (Own k s1 Al (IH ltac:(lia))) as ((Ho & q & c & r & b & Ep & Pc & _) & _). destruct (C14_programs_run k false l1 h1 true s1 Lv Bd1 Sh1 ltac:(discriminate)) as (hk & Ik).
      destruct (C14_programs k l1 h1 true s1 _ hk Lv Bd1 Sh1 Ik) as ((_ & _ & _ & _ & _ & _ & _ & X8 & _) & _).
      assert (F : ins c <> FIN). { apply (Bf k _ hk c ltac:(lia) Ik). exists q, r. split; [exact Ep|]. rewrite X8, Pc. reflexivity. }
      destruct (plain_fetched p a (slot_values x) Im (M (steps k s1)) q c r Ep Ho) as (_ & Fi & _). unfold Usage.opcode. rewrite Pc. intros X. apply F, Fi, X. }
    destruct (Own n s1 Al (Nf n ltac:(lia))) as (Aln & Lg & Mm). split; [|exact (Mine h' _ S' (proj1 Aln) Mm Lg)].
    destruct Aln as (_ & q & c & r & b & Ep & Pc & Ps & Fr). destruct (FS q c r b _ Ep Fr) as (Q1 & Q2). destruct S' as (_ & _ & _ & _ & _ & _ & _ & X8 & X9 & _).
    exists q, c, r, (b - dep (List.length q)). rewrite X8, X9, Pc, Ps. do 3 (split; [auto|]). split; [exact Q1|]. intros E. rewrite (Q2 E). reflexivity.
  - intros u h' R. destruct (C41_stops_only_after_fin u l1 h1 true s1 h' ltac:(auto) Lv Bd1 Sh1 R) as (n & (F1 & F2) & S' & _).
    destruct (Own n s1 Al F2) as ((Ho & q & c & r & b & Ep & Pc & Ps & Fr) & Lg & Mm). destruct (FS q c r b _ Ep Fr) as (Q1 & Q2).
    assert (Rm : a + total q < 65535). { pose proof (total_pos r). pose proof (size_pos (ins c)). pose proof Fa as F. rewrite Ep, total_app in F. change (total (c :: r)) with (AsmSpec.size (ins c) + total r) in F. lia. }
    assert (En : steps (S n) s1 = put_pc (PC (steps n s1) + 1) (steps n s1)) by (replace (S n) with (n + 1)%nat by lia; rewrite steps_add; apply (step_fin _ F1); lia).
    rewrite En in S'. split; [|exact (Mine h' _ S' Ho Mm Lg)].
    destruct (plain_fetched p a (slot_values x) Im (M (steps n s1)) q c r Ep Ho) as (_ & Fi & _). exists q, c, r, (b - dep (List.length q)). split; [exact Ep|]. split; [apply Fi; rewrite <- Pc; exact F1|].
    destruct S' as (_ & _ & _ & _ & _ & _ & _ & X8 & X9 & _). rewrite X8, X9. cbn [PC SP put_pc]. rewrite Pc, Ps. do 2 (split; [reflexivity|]). split; [exact Q1|]. intros E. rewrite (Q2 E). reflexivity.
Qed.
(** A case: a routine called twice that calls another. *)
Definition sub_lines : list str := [s2l "MOV 05, AC"; s2l "CALL TF"; s2l "CALL TF"; s2l "FIN"; s2l "TF PUSH"; s2l "CALL TG"; s2l "POP"; s2l "ADD 01"; s2l "RET"; s2l "TG INC AC"; s2l "RET"].
Definition sub_codes : list (option code) :=
  [Some (mkCode [] MOV_i_ac (s2l "05")); Some (mkCode [] CALL (s2l "TF")); Some (mkCode [] CALL (s2l "TF")); Some (mkCode [] FIN []); Some (mkCode (s2l "TF") PUSH []); Some (mkCode [] CALL (s2l "TG"));
   Some (mkCode [] POP []); Some (mkCode [] (OP ADD Imm) (s2l "01")); Some (mkCode [] RET []); Some (mkCode (s2l "TG") INC_ac []); Some (mkCode [] RET [])].
Definition sub_rt (i : nat) : nat := nth i [0; 0; 0; 0; 1; 1; 1; 1; 1; 2; 2]%nat 0%nat.
Definition sub_dep (i : nat) : Z := nth i [0; 0; 0; 0; 0; 1; 1; 0; 0; 0; 0] 0.
Definition sub_need (k : nat) : Z := nth k [5; 3; 0] 0.
Lemma sub_program : program sub_lines sub_codes 256.
Proof.
  split; [split; [discriminate|]; intros l Hl; unfold sub_lines in Hl; cbn [In] in Hl; repeat (destruct Hl as [<-|Hl]; [no_newline|]); destruct Hl|].
  split; [unfold sub_lines, sub_codes; do 4 (constructor; [line_plain|]); constructor; [line_label "PUSH"%string|]; do 4 (constructor; [line_plain|]); constructor; [line_label "INC AC"%string|]; constructor; [line_plain|]; constructor|].
  split; [intros c Hin; unfold sub_codes in *; cbn [somes] in *; set (L := map lab _); cbn [In] in Hin; value_checks|].
  split; [discriminate|split; [lia|]]. unfold sub_codes. cbn [somes total fold_right ins]. cbv [AsmSpec.size value_kind syntax]. lia.
Qed.
(** The conditions, checked line by line. *)
Definition each (p : list code) (P : nat -> code -> Prop) : Prop := forall q c r, p = q ++ c :: r -> P (List.length q) c.
Lemma each_nil : forall P : nat -> code -> Prop, each [] P.
Proof. intros P [|d q] c r E; discriminate E. Qed.
Lemma each_cons : forall (P : nat -> code -> Prop) c p, P 0%nat c -> each p (fun i => P (S i)) -> each (c :: p) P.
Proof. intros P c p H0 H [|d q] e r E; injection E as -> E; [exact H0|]. exact (H q e r E). Qed.
Lemma sub_names : forall n j, names (somes sub_codes) n j -> n = s2l "TF" \/ n = s2l "TG" -> (n = s2l "TF" /\ j = 4%nat) \/ (n = s2l "TG" /\ j = 9%nat).
Proof.
  intros n j (q & c & r & Ep & Lc & _ & <-). revert q c r Ep Lc. change (each (somes sub_codes) (fun i c => lab c = n -> n = s2l "TF" \/ n = s2l "TG" -> (n = s2l "TF" /\ i = 4%nat) \/ (n = s2l "TG" /\ i = 9%nat))).
  unfold sub_codes. cbn [somes]. repeat (apply each_cons; [cbn [lab]; intros <-; first [intros _; left; split; reflexivity|intros _; right; split; reflexivity|intros [X|X]; discriminate X]|]). apply each_nil.
Qed.
Lemma sub_structured : structured (somes sub_codes) sub_rt sub_dep sub_need.
Proof.
  split.
  - split; reflexivity.
  - change (each (somes sub_codes) (fun i c => 0 <= sub_dep i <= sub_need (sub_rt i) /\ 0 <= sub_dep i + growth (ins c) <= sub_need (sub_rt i))). unfold sub_codes. cbn [somes]. repeat (apply each_cons; [cbn; lia|]). apply each_nil.
  - change (each (somes sub_codes) (fun i c => ins c <> FIN -> ins c <> JMP -> ins c <> RET -> sub_rt (S i) = sub_rt i /\ sub_dep (S i) = sub_dep i + growth (ins c))). unfold sub_codes. cbn [somes].
    repeat (apply each_cons; [intros N1 N2 N3; first [split; reflexivity|destruct (N1 eq_refl)|destruct (N3 eq_refl)]|]). apply each_nil.
  - change (each (somes sub_codes) (fun i c => ins c = JMP \/ ins c = BEQ \/ ins c = BC_ -> forall j, names (somes sub_codes) (val c) j -> sub_rt j = sub_rt i /\ sub_dep j = sub_dep i)). set (Q := names _). unfold sub_codes. cbn [somes].
    repeat (apply each_cons; [intros [X|[X|X]]; discriminate X|]). apply each_nil.
  - change (each (somes sub_codes) (fun i c => ins c = CALL -> forall j, names (somes sub_codes) (val c) j -> sub_rt j <> 0%nat /\ sub_dep j = 0 /\ sub_dep i + 2 + sub_need (sub_rt j) <= sub_need (sub_rt i))).
    pose proof sub_names as Sn. revert Sn. generalize (names (somes sub_codes)). intros Q Sn. unfold sub_codes. cbn [somes].
    repeat (apply each_cons; [intros X; first [discriminate X|(cbn [val]; intros j Hj; destruct (Sn _ j Hj ltac:(auto)) as [(Y & ->)|(Y & ->)]; first [discriminate Y|(split; [discriminate|]; split; [reflexivity|]; cbn; lia)])]|]). apply each_nil.
  - change (each (somes sub_codes) (fun i c => ins c = RET -> sub_rt i <> 0%nat /\ sub_dep i = 0)). unfold sub_codes. cbn [somes]. repeat (apply each_cons; [intros X; first [discriminate X|(split; [discriminate|reflexivity])]|]). apply each_nil.
Qed.
Example C113_nonvacuous : program sub_lines sub_codes 256 /\ 256 + total (somes sub_codes) <= 65535 /\ (forall c, In c (somes sub_codes) -> routine_line 256 (total (somes sub_codes)) (200 - sub_need 0) 200 c) /\ ends_well (somes sub_codes) /\
  structured (somes sub_codes) sub_rt sub_dep sub_need /\ sub_need 0 <= 200 <= 65535 /\ (exists l h s, live l h true /\ boundary h /\ shows h s /\ get_register_value R_SP h = Some 200 /\ 200 <= 256) /\
  exists out slots, parse_input (text_of sub_lines) 256 = Some out /\ new_translation out = Some slots /\ first_fin 17 (ready_at 256 (slot_values slots) (mkArch 254 false false 9 0 0 0 0 200 (fun _ => 0) [])).
Proof.
  split; [exact sub_program|]. change (total (somes sub_codes)) with 19. split; [lia|].
  split. { intros c Hc. unfold sub_codes in Hc. cbn [somes In] in Hc. repeat (destruct Hc as [<-|Hc]; [unfold routine_line; cbn [ins val]; first [exact I|reflexivity]|]). destruct Hc. }
  split; [exists (removelast (somes sub_codes)), (mkCode [] RET []); split; [reflexivity|right; right; reflexivity]|]. split; [exact sub_structured|]. split; [cbn; lia|].
  split. { set (s := mkArch 254 false false 9 0 0 0 0 200 (fun _ => 0) []). destruct (C14_nonvacuous s) as (l & h & L & Bd & Sh); [repeat split; cbn; lia|reflexivity|]. exists l, h, s. do 3 (split; [assumption|]). split; [apply Sh|lia]. }
  assert (X : exists o s, parse_input (text_of sub_lines) 256 = Some o /\ new_translation o = Some s /\ slot_values s = [100; 5; 196; 1; 9; 196; 1; 9; 255; 193; 196; 1; 17; 194; 101; 1; 197; 75; 197]) by (eexists; eexists; split; [vm_compute; reflexivity|split; vm_compute; reflexivity]).
  destruct X as (o & s & X1 & X2 & X3). exists o, s. do 2 (split; [assumption|]). rewrite X3. split; [vm_compute; reflexivity|]. intros m Hm. do 17 (destruct m as [|m]; [vm_compute; discriminate|]). lia.
Qed.
Print Assumptions C113_routines.
Print Assumptions C113_nonvacuous.
