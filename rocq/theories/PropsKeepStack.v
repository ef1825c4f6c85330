(** * C113, a routine keeps the stack of its callers
    In the programs of PropsRoutines.v, between a CALL and its return the bytes its callers have on the stack do not change. *)
From Coq Require Import String ZArith NArith List Bool Lia ZifyBool ZifyN.
From Verif Require Import Prog Isa Access Api Usage Front ApiFacts IsaFacts Reach PropsApi PropsIsa PropsRun IsaRun PropsLife.
From Verif Require Import JsStr AsmTable Asm AsmSpec AsmRe AsmLine AsmFacts AsmExec AsmProg AsmErr PropsAsm PropsDisasm PropsLoad PropsExamples PropsSpelling.
From Verif Require Import PropsRepro PropsRelocate Relocate PropsMoved PropsAnywhere PropsOwnLines PropsBalanced PropsRoutines PropsReturns.
Import ListNotations.
Open Scope list_scope.
Open Scope Z_scope.


Section Kept.
Variables (p : list code) (a top : Z) (bytes : list Z) (rt : nat -> nat) (dep need : nat -> Z) (k0 : nat) (b0 ret : Z).
Hypothesis (Im : image p a p bytes) (Ha : 0 <= a) (Fa : a + total p <= 65535).
Hypothesis (Vp : forall c, In c p -> value_ok (map lab p) c /\ ~ byte_ref c) (Rp : forall c, In c p -> routine_line a (total p) (top - need 0%nat) top c) (Cl : ends_well p) (Sd : structured p rt dep need).
Hypothesis (Tp : need 0%nat <= top <= 65535) (Di : a + total p <= top - need 0%nat \/ top <= a) (Bt : b0 + 2 <= top) (Bn : top - need 0%nat <= b0 - need k0).
Notation at_inner := (at_inner p a bytes rt dep need k0 b0 ret).
(** An instruction of the routine called, or of those it calls, changes no cell of the stack of its callers. *)
Lemma inner_kept : forall s, at_inner s -> Usage.opcode s <> 255 -> forall x, b0 <= x < top -> M (step s) x = M s x.
Proof.
  intros s (Ho & Hr & q & c & r & base & Ep & Pc & Ps & Fr) Nf. destruct (plain_fetched p a bytes Im (M s) q c r Ep Ho) as (Dc & Fi & Sy & Op). pose proof (image_total _ _ _ _ Im) as Ln.
  destruct (st_fits _ _ _ _ Sd q c r Ep) as (D1 & D2). pose proof (st_next _ _ _ _ Sd q c r Ep) as Nx. pose proof (st_jump _ _ _ _ Sd q c r Ep) as Jx. pose proof (st_call _ _ _ _ Sd q c r Ep) as Cx. pose proof (st_ret _ _ _ _ Sd q c r Ep) as Rx. cbv zeta in *.
  assert (Tq : 0 <= total q /\ a + total q + AsmSpec.size (ins c) <= 65535).
  { pose proof (total_pos q). pose proof (total_pos r). pose proof Fa as F. rewrite Ep, total_app in F. change (total (c :: r)) with (AsmSpec.size (ins c) + total r) in F. lia. }
  assert (Nfin : ins c <> FIN) by (intros X; apply Nf; unfold Usage.opcode; rewrite Pc; apply Fi, X).
  assert (Ic : In c p) by (rewrite Ep; apply in_or_app; right; left; reflexivity). pose proof (Rp c Ic) as Si. rewrite <- Pc in Dc, Op. assert (IR : base <= b0 /\ top - need 0%nat <= base - need (rt (List.length q))) by (eapply inner_range; eassumption). destruct IR as (R1 & R2).
  assert (Tgt : value_kind (ins c) = Some Value16 -> is_ref (val c) -> exists q' d r', p = q' ++ d :: r' /\ value_of p a c = a + total q' /\ names p (val c) (List.length q')).
  { intros K' Rf. destruct (Vp c Ic) as (V & _). unfold value_ok in V. rewrite K' in V. destruct V as [(Nm & _)|(_ & Hi)]; [destruct (ref_not_numeral _ Rf Nm)|].
    destruct (address_first p a (val c) Hi) as (q' & d & r' & Ep' & Ad & Ld & Nq). exists q', d, r'. split; [exact Ep'|]. split; [|exists q', d, r'; auto]. unfold value_of. rewrite K'. unfold is_ref in Rf. rewrite Rf. exact Ad. }
  assert (Cs : ins c = CALL \/ ins c = RET \/ plain_line a (total p) c).
  { unfold plain_line. unfold routine_line in Si. destruct (ins c); auto. tauto. }
  intros x Hx. destruct Cs as [Ec|[Er|Pl]].
  - assert (Si' : is_ref (val c)) by (unfold routine_line in Si; rewrite Ec in Si; exact Si). rewrite Ec in *. change (AsmSpec.size CALL) with 3 in *. destruct (Tgt eq_refl Si') as (q' & d & r' & Ep' & Vc & Nm). destruct (Cx eq_refl _ Nm) as (N0 & Dj & Nd).
    destruct (st_fits _ _ _ _ Sd q' d r' Ep') as (D1' & _). cbv zeta in D1'. destruct (call_step s ltac:(lia) ltac:(lia) Dc ltac:(lia)) as (_ & _ & _ & Mn). rewrite Mn. replace (x =? SP s - 2) with false by lia. replace (x =? SP s - 1) with false by lia. reflexivity.
  - rewrite Er in *. change (AsmSpec.size RET) with 1 in *. destruct (Rx eq_refl) as (N0 & D0). destruct (ret_step s ltac:(lia) Dc ltac:(lia) ltac:(lia)) as (_ & _ & _ & Mn). apply Mn.
  - destruct (plain_step a (total p) s c ltac:(lia) ltac:(lia) Dc Sy Pl ltac:(lia)) as (_ & _ & _ & Mn).
    destruct (Mn x) as [E|[(St & E)|(Pu & E)]]; [exact E| |exfalso; lia]. exfalso. assert (K' : value_kind (ins c) = Some Value16) by (rewrite St; reflexivity). rewrite (Op K') in E.
    unfold plain_line in Pl. rewrite St in Pl. destruct Pl as (Nr & _). assert (E' : value_of p a c = numeral_value (val c)) by (unfold value_of; rewrite K'; apply nonref_head; exact Nr). unfold routine_line in Si. rewrite St in Si. lia.
Qed.
Lemma inner_kept_steps : forall n s, at_inner s -> (forall m, (m < n)%nat -> Usage.opcode (steps m s) <> 255) -> (forall m, (m < n)%nat -> SP (steps m s) <> b0 + 2) -> forall x, b0 <= x < top -> M (steps n s) x = M s x.
Proof.
  induction n as [|n IH]; intros s Al Nf Ns x Hx; [reflexivity|]. cbn [steps]. rewrite <- (inner_kept s Al (Nf 0%nat ltac:(lia)) x Hx).
  assert (St : at_inner (step s) \/ (PC (step s) = ret /\ SP (step s) = b0 + 2)) by (eapply inner_step; try eassumption; apply (Nf 0%nat); lia). destruct St as [Al'|(_ & Sx)].
  - apply IH; auto; intros m Hm; [apply (Nf (S m))|apply (Ns (S m))]; lia.
  - destruct n as [|n]; [reflexivity|]. destruct (Ns 1%nat ltac:(lia) Sx).
Qed.
End Kept.

(** [h0] is about to execute the CALL line [c], which is after the lines [q], with SP at [sp]; [h2] is a machine after it, and
    none between has SP at [sp] again.  The bytes on the stack in [h0] are there in [h2], so that the caller's POP finds them. *)
Theorem C113_keeps_stack : forall lines codes a top rt dep need l h s, program lines codes a -> a + total (somes codes) <= 65535 ->
  (forall c, In c (somes codes) -> routine_line a (total (somes codes)) (top - need 0%nat) top c) -> ends_well (somes codes) -> structured (somes codes) rt dep need ->
  need 0%nat <= top <= 65535 -> a + total (somes codes) <= top - need 0%nat \/ top <= a -> live l h true -> boundary h -> shows h s -> get_register_value R_SP h = Some top ->
  exists out slots h1, parse_input (text_of lines) a = Some out /\ new_translation out = Some slots /\ placed a (slot_values slots) h h1 /\
    forall n us h0 q c r sp, instructions n h1 us h0 -> before_fin (somes codes) a n h1 -> somes codes = q ++ c :: r -> ins c = CALL -> get_register_value R_PC h0 = Some (a + total q) -> get_register_value R_SP h0 = Some sp ->
    forall m vs h2, instructions (S m) h0 vs h2 -> before_fin (somes codes) a (S m) h0 -> (forall j ws h3, (0 < j < S m)%nat -> instructions j h0 ws h3 -> get_register_value R_SP h3 <> Some sp) ->
      forall y, sp <= y < top -> get_memory_value y h2 = get_memory_value y h0.
Proof.
  intros lines codes a top rt dep need l h s P Fa Rp Cl Sd Tp Di L Bd Sh St. pose proof P as (P1 & P2 & P3 & P4 & P5 & P6).
  destruct (C44_image _ _ a P1 P2 P3 P4 P5 P6) as (out & x & A1 & A2 & Im & _). set (p := somes codes) in *. pose proof (image_total _ _ _ _ Im) as Ln. pose proof (image_bytes _ _ _ _ _ P3 P5 P6 Im) as By.
  pose proof Cl as (q0 & c0 & Ep0 & Fc0). assert (Np : 1 <= total p). { rewrite Ep0, total_app. pose proof (total_pos q0). cbn [total fold_right]. pose proof (size_pos (ins c0)). lia. }
  destruct (placed_shows a (slot_values x) l h s L Bd Sh ltac:(lia) ltac:(lia) By) as (h1 & l1 & Pl & Lv & Bd1 & Sh1).
  exists out, x, h1. do 3 (split; [assumption|]). set (s1 := ready_at a (slot_values x) s) in *. pose proof Sh as (_ & _ & _ & _ & _ & _ & _ & _ & Y9 & Y10 & Y11).
  assert (Al : at_frame p a top (slot_values x) rt dep need s1).
  { split; [apply stored_holds|]. destruct (st_first _ _ _ _ Sd) as (R0 & D0). assert (X : exists c r, p = c :: r) by (destruct p as [|c r]; [cbn in Np; lia|eauto]). destruct X as (c & r & Ep).
    exists [], c, r, top. split; [exact Ep|]. split; [cbn; lia|]. cbn [List.length]. rewrite R0, D0. split; [cbn [SP s1 ready_at]; rewrite Y9 in St; injection St as ->; lia|constructor]. }
  pose proof (frame_steps p a top (slot_values x) rt dep need Im P5 Fa P3 Rp Cl Sd Tp Di) as Own.
  assert (Nf : forall n l' g t, live l' g true -> boundary g -> shows g t -> at_frame p a top (slot_values x) rt dep need t -> before_fin p a n g -> forall k, (k <= n)%nat -> forall m, (m < k)%nat -> Usage.opcode (steps m t) <> 255).
  { intros n l' g t Lg Bg Sg Ag Bf. induction k as [|k IH]; intros Hk m Hm; [lia|]. destruct (Nat.eq_dec m k) as [->|Ne]; [|apply IH; lia].
    destruct (Own k t Ag (IH ltac:(lia))) as ((Ho & q & c & r & b & Ep & Pc & _) & _). destruct (C14_programs_run k false l' g true t Lg Bg Sg ltac:(discriminate)) as (hk & Ik).
    destruct (C14_programs k l' g true t _ hk Lg Bg Sg Ik) as ((_ & _ & _ & _ & _ & _ & _ & X8 & _) & _).
    assert (F : ins c <> FIN). { apply (Bf k _ hk c ltac:(lia) Ik). exists q, r. split; [exact Ep|]. rewrite X8, Pc. reflexivity. }
    destruct (plain_fetched p a (slot_values x) Im (M (steps k t)) q c r Ep Ho) as (_ & Fi & _). unfold Usage.opcode. rewrite Pc. intros X. apply F, Fi, X. }
  intros n us h0 q c r sp I0 Bf Ep Ec Pc0 Sp0 m vs h2 I2 Bf2 Nb y Hy.
  destruct (C14_programs n l1 h1 true s1 us h0 Lv Bd1 Sh1 I0) as (S0 & B0 & L0 & _). destruct (Own n s1 Al (Nf n l1 h1 s1 Lv Bd1 Sh1 Al Bf n ltac:(lia))) as (A0 & _). set (s0 := steps n s1) in *.
  pose proof (Nf (S m) _ h0 s0 L0 B0 S0 A0 Bf2 (S m) ltac:(lia)) as N0. destruct (C14_programs (S m) _ h0 true s0 vs h2 L0 B0 S0 I2) as (S2 & _).
  assert (Nsp : forall j, (0 < j < S m)%nat -> SP (steps j s0) <> sp).
  { intros j Hj E. destruct (C14_programs_run j false _ h0 true s0 L0 B0 S0 ltac:(discriminate)) as (h3 & I3). destruct (C14_programs j _ h0 true s0 _ h3 L0 B0 S0 I3) as ((_ & _ & _ & _ & _ & _ & _ & _ & X9 & _) & _).
    apply (Nb j _ h3 Hj I3). rewrite X9, E. reflexivity. }
  destruct S0 as (_ & _ & _ & _ & _ & _ & _ & X8 & X9 & X10 & _). destruct S2 as (_ & _ & _ & _ & _ & _ & _ & _ & _ & V10 & _). rewrite X8 in Pc0. rewrite X9 in Sp0. injection Pc0 as Pc0. injection Sp0 as Sp0.
  destruct A0 as (Ho & q1 & c1 & r1 & base & Ep1 & Pc1 & Ps1 & Fr). destruct (same_prefix q1 c1 r1 q c r ltac:(congruence) ltac:(lia)) as (-> & ->). clear Ep1 r1.
  destruct (plain_fetched p a (slot_values x) Im (M s0) q c r Ep Ho) as (Dc & _ & _ & Op). rewrite <- Pc1 in Dc, Op. assert (Ic : In c p) by (rewrite Ep; apply in_or_app; right; left; reflexivity). pose proof (Rp c Ic) as Si. unfold routine_line in Si. rewrite Ec in Si, Dc, Op.
  specialize (Op eq_refl). destruct (P3 c Ic) as (V & _). unfold value_ok in V. rewrite Ec in V. change (value_kind CALL) with (Some Value16) in V. cbv iota in V. destruct V as [(Nm & _)|(_ & Hi)]; [destruct (ref_not_numeral _ Si Nm)|].
  destruct (address_first p a (val c) Hi) as (q' & d & r' & Ep' & Ad & Ld & Nq).
  assert (Vc : value_of p a c = a + total q') by (unfold value_of; rewrite Ec; change (value_kind CALL) with (Some Value16); cbv iota; unfold is_ref in Si; rewrite Si; exact Ad). rewrite Vc in Op.
  destruct (st_call _ _ _ _ Sd q c r Ep Ec (List.length q') ltac:(exists q', d, r'; auto)) as (Nz & Dj & Nd). destruct (st_fits _ _ _ _ Sd q c r Ep) as (D1 & _). destruct (st_fits _ _ _ _ Sd q' d r' Ep') as (D1' & _). cbv zeta in *.
  assert (FR : base <= top /\ top - need 0%nat <= base - need (rt (List.length q))) by (eapply frames_range; eassumption). destruct FR as (R1 & R2).
  assert (Tq : 0 <= total q /\ a + total q + 3 <= 65535).
  { pose proof (total_pos q). pose proof (total_pos r). pose proof Fa as F. rewrite Ep, total_app in F. change (total (c :: r)) with (AsmSpec.size (ins c) + total r) in F. rewrite Ec in F. change (AsmSpec.size CALL) with 3 in F. lia. }
  destruct (call_step s0 ltac:(lia) ltac:(lia) Dc ltac:(lia)) as (Pn & Sn & _ & Mn). rewrite Op in Pn.
  assert (Mo : forall y, ~ (SP s0 - 2 <= y < SP s0) -> M (step s0) y = M s0 y) by (intros z Hz; rewrite Mn; replace (z =? SP s0 - 2) with false by lia; replace (z =? SP s0 - 1) with false by lia; reflexivity).
  assert (Yr : 0 <= y < 65536) by lia. rewrite X10, V10 by exact Yr. f_equal. cbn [steps]. transitivity (M (step s0) y); [|apply Mo; lia].
  apply (inner_kept_steps p a top (slot_values x) rt dep need (rt (List.length q')) (SP s0 - 2) (PC s0 + 3)); try assumption; try lia.
  - split; [intros k Hk; rewrite Mo by lia; apply Ho; exact Hk|]. split.
    + rewrite !Mn. replace (SP s0 - 2 + 1 =? SP s0 - 2) with false by lia. replace (SP s0 - 2 + 1 =? SP s0 - 1) with true by lia. rewrite Z.eqb_refl. pose proof (Z.div_mod (PC s0 + 3) 256). lia.
    + exists q', d, r', (SP s0 - 2). split; [exact Ep'|]. split; [exact Pn|]. split; [lia|constructor].
  - intros j Hj. apply (N0 (S j)). lia.
  - intros j Hj E. apply (Nsp (S j) ltac:(lia)). cbn [steps]. lia.
Qed.
(** The hypotheses about the program are met by C113_nonvacuous; there the routine pushes a byte, 5, and calls another after
    three instructions; the byte is there when that one has returned, two instructions after the call. *)
Example C113_keeps_stack_nonvacuous : let s := ready_at 256 [100; 5; 196; 1; 9; 196; 1; 9; 255; 193; 196; 1; 17; 194; 101; 1; 197; 75; 197] (mkArch 254 false false 9 0 0 0 0 200 (fun _ => 0) []) in
  Usage.opcode (steps 3 s) = 196 /\ SP (steps 3 s) = 197 /\ M (steps 3 s) 197 = 5 /\ SP (steps 3 (steps 3 s)) = 197 /\ M (steps 3 (steps 3 s)) 197 = 5 /\ forall j, (0 < j < 3)%nat -> SP (steps j (steps 3 s)) <> 197.
Proof.
  cbv zeta. do 5 (split; [vm_compute; reflexivity|]). intros j Hj. destruct j as [|j]; [lia|]. do 2 (destruct j as [|j]; [vm_compute; discriminate|]). lia.
Qed.
Print Assumptions C113_keeps_stack.
Print Assumptions C113_keeps_stack_nonvacuous.
