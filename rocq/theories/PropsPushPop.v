(** * C113, POP gives back what was pushed *)
From Coq Require Import String ZArith NArith List Bool Lia ZifyBool ZifyN.
From Verif Require Import Prog Isa Access Api Usage Front ApiFacts IsaFacts Reach PropsApi PropsIsa PropsRun IsaRun PropsLife.
From Verif Require Import JsStr AsmTable Asm AsmSpec AsmRe AsmLine AsmFacts AsmExec AsmProg AsmErr PropsAsm PropsDisasm PropsLoad PropsExamples PropsSpelling.
From Verif Require Import PropsRepro PropsRelocate Relocate PropsMoved PropsAnywhere PropsOwnLines PropsBalanced PropsRoutines PropsReturns PropsStackBytes.
Import ListNotations.
Open Scope list_scope.
Open Scope Z_scope.

Lemma pushed : forall s, 0 <= PC s < 65535 -> decode (M s (PC s)) = PUSH -> 1 <= SP s -> M (step s) (SP s - 1) = AC s.
Proof.
  intros [ac fc fz rb rc rd re pc sp m lg] H0 Dc Hs. unfold step. rewrite Dc. cbn [PC M SP AC] in *. unfold exec_instr, pc_next, push, sp_down. cbn [put_pc put_sp note PC SP M AC]. replace (pc =? 65535) with false by lia. cbn [put_pc put_sp note PC SP M AC].
  replace (sp =? 0) with false by lia. cbn. rewrite ?Z.eqb_refl. reflexivity.
Qed.
Lemma popped : forall s, 0 <= PC s < 65535 -> decode (M s (PC s)) = POP -> SP s < 65535 -> AC (step s) = M s (SP s) /\ SP (step s) = SP s + 1.
Proof.
  intros [ac fc fz rb rc rd re pc sp m lg] H0 Dc Hs. unfold step. rewrite Dc. cbn [PC M SP AC] in *. unfold exec_instr, pc_next, pop, sp_up. cbn [put_pc put_sp note PC SP M AC]. replace (pc =? 65535) with false by lia. cbn [put_pc put_sp note PC SP M AC].
  replace (sp =? 65535) with false by lia. split; reflexivity.
Qed.
(** [h0] is about to execute the PUSH line [c] with AC at [v] and SP at [sp]; SP is below [sp] from then on until [h2], which is
    about to execute the POP line [d] with SP where PUSH left it.  After that POP, AC is [v] and SP is [sp]. *)
Theorem C113_push_pop : forall lines codes a top rt dep need l h s, program lines codes a -> a + total (somes codes) <= 65535 ->
  (forall c, In c (somes codes) -> routine_line a (total (somes codes)) (top - need 0%nat) top c) -> ends_well (somes codes) -> structured (somes codes) rt dep need ->
  need 0%nat <= top <= 65535 -> a + total (somes codes) <= top - need 0%nat \/ top <= a -> live l h true -> boundary h -> shows h s -> get_register_value R_SP h = Some top ->
  exists out slots h1, parse_input (text_of lines) a = Some out /\ new_translation out = Some slots /\ placed a (slot_values slots) h h1 /\
    forall n us h0 c v sp m vs h2 d ws h3, instructions n h1 us h0 -> before_fin (somes codes) a n h1 -> at_source_line (somes codes) a h0 c -> ins c = PUSH -> get_register_value R_AC h0 = Some v -> get_register_value R_SP h0 = Some sp ->
      instructions (S m) h0 vs h2 -> before_fin (somes codes) a (S m) h0 -> (forall j xs g z, (0 < j < S m)%nat -> instructions j h0 xs g -> get_register_value R_SP g = Some z -> z < sp) ->
      at_source_line (somes codes) a h2 d -> ins d = POP -> get_register_value R_SP h2 = Some (sp - 1) -> instructions 1 h2 ws h3 ->
      get_register_value R_AC h3 = Some v /\ get_register_value R_SP h3 = Some sp.
Proof.
  intros lines codes a top rt dep need l h s P Fa Rp Cl Sd Tp Di L Bd Sh St. pose proof P as (P1 & P2 & P3 & P4 & P5 & P6).
  destruct (C44_image _ _ a P1 P2 P3 P4 P5 P6) as (out & x & A1 & A2 & Im & _). set (p := somes codes) in *. pose proof (image_total _ _ _ _ Im) as Ln. pose proof (image_bytes _ _ _ _ _ P3 P5 P6 Im) as By.
  pose proof Cl as (q0 & c0 & Ep0 & Fc0). assert (Np : 1 <= total p). { rewrite Ep0, total_app. pose proof (total_pos q0). cbn [total fold_right]. pose proof (size_pos (ins c0)). lia. }
  destruct (placed_shows a (slot_values x) l h s L Bd Sh ltac:(lia) ltac:(lia) By) as (h1 & l1 & Pl & Lv & Bd1 & Sh1).
  exists out, x, h1. do 3 (split; [assumption|]). set (s1 := ready_at a (slot_values x) s) in *. pose proof Sh as (_ & _ & _ & _ & _ & _ & _ & _ & Y9 & Y10 & Y11).
  assert (Al : at_frame p a top (slot_values x) rt dep need s1).
  { split; [apply stored_holds|]. destruct (st_first _ _ _ _ Sd) as (R0 & D0). assert (X : exists c r, p = c :: r) by (destruct p as [|c r]; [cbn in Np; lia|eauto]). destruct X as (c & r & Ep).
    exists [], c, r, top. split; [exact Ep|]. split; [cbn; lia|]. cbn [List.length]. rewrite R0, D0. split; [cbn [SP s1 ready_at]; rewrite Y9 in St; injection St as ->; lia|constructor]. }
  pose proof (frame_steps p a top (slot_values x) rt dep need Im P5 Fa P3 Rp Cl Sd Tp Di) as Own.
  assert (Nf : forall n l' g t, live l' g true -> boundary g -> shows g t -> at_frame p a top (slot_values x) rt dep need t -> before_fin p a n g -> forall k, (k <= n)%nat -> forall m, (m < k)%nat -> Usage.opcode (steps m t) <> 255).
  { intros n l' g t Lg Bg Sg Ag Bf. induction k as [|k IH]; intros Hk m Hm; [lia|]. destruct (Nat.eq_dec m k) as [->|Ne]; [|apply IH; lia].
    destruct (Own k t Ag (IH ltac:(lia))) as ((Ho & q & c & r & b & Ep & Pc & _) & _). destruct (C14_programs_run k false l' g true t Lg Bg Sg ltac:(discriminate)) as (hk & Ik).
    destruct (C14_programs k l' g true t _ hk Lg Bg Sg Ik) as ((_ & _ & _ & _ & _ & _ & _ & X8 & _) & _).
    assert (F : ins c <> FIN). { apply (Bf k _ hk c ltac:(lia) Ik). exists q, r. split; [exact Ep|]. rewrite X8, Pc. reflexivity. }
    destruct (plain_fetched p a (slot_values x) Im (M (steps k t)) q c r Ep Ho) as (_ & Fi & _). unfold Usage.opcode. rewrite Pc. intros X. apply F, Fi, X. }
  intros n us h0 c v sp m vs h2 d ws h3 I0 Bf (q & r & Ep & Pc0) Ec Av Sv I2 Bf2 Ns (q2 & r2 & Ep2 & Pc2) Ed Sv2 I3.
  destruct (C14_programs n l1 h1 true s1 us h0 Lv Bd1 Sh1 I0) as (S0 & B0 & L0 & _). destruct (Own n s1 Al (Nf n l1 h1 s1 Lv Bd1 Sh1 Al Bf n ltac:(lia))) as (A0 & _). set (s0 := steps n s1) in *.
  pose proof (Nf (S m) _ h0 s0 L0 B0 S0 A0 Bf2 (S m) ltac:(lia)) as N0. destruct (C14_programs (S m) _ h0 true s0 vs h2 L0 B0 S0 I2) as (S2 & B2 & L2 & _). destruct (C14_programs 1 _ h2 true _ ws h3 L2 B2 S2 I3) as (S3 & _).
  assert (Nsp : forall j, (0 < j < S m)%nat -> SP (steps j s0) < sp).
  { intros j Hj. destruct (C14_programs_run j false _ h0 true s0 L0 B0 S0 ltac:(discriminate)) as (g & Ig). destruct (C14_programs j _ h0 true s0 _ g L0 B0 S0 Ig) as ((_ & _ & _ & _ & _ & _ & _ & _ & X9 & _) & _). exact (Ns j _ g _ Hj Ig X9). }
  destruct (Own (S m) s0 A0 N0) as ((Ho2 & _) & _). assert (E2 : exists s2, s2 = steps m (step s0)) by eauto. destruct E2 as (s2 & E2). change (steps (S m) s0) with (steps m (step s0)) in S2, S3, Ho2. rewrite <- E2 in S2, S3, Ho2.
  assert (A1' : at_frame p a top (slot_values x) rt dep need (step s0)) by (eapply frame_step; try eassumption; apply (N0 0%nat); lia).
  pose proof S0 as (X1 & _ & _ & _ & _ & _ & _ & X8 & X9 & _). pose proof S2 as (_ & _ & _ & _ & _ & _ & _ & V8 & V9 & _). pose proof S3 as (W1 & _ & _ & _ & _ & _ & _ & _ & W9 & _).
  rewrite X1 in Av. rewrite X8 in Pc0. rewrite X9 in Sv. rewrite V8 in Pc2. rewrite V9 in Sv2. injection Av as Av. injection Pc0 as Pc0. injection Sv as Sv. injection Pc2 as Pc2. injection Sv2 as Sv2.
  assert (Rm : forall q c r, p = q ++ c :: r -> 0 <= total q /\ a + total q < 65535).
  { clear - Fa P5. intros q c r Ep. pose proof (total_pos q). pose proof (total_pos r). pose proof (size_pos (ins c)). pose proof Fa as F. rewrite Ep, total_app in F. change (total (c :: r)) with (AsmSpec.size (ins c) + total r) in F. lia. }
  assert (Bs : 1 <= SP s0 <= top).
  { destruct A0 as (_ & q1 & c1 & r1 & base & Ep1 & Pc1 & Ps1 & Fr). destruct (same_prefix q1 c1 r1 q c r ltac:(congruence) ltac:(lia)) as (-> & ->). destruct (st_fits _ _ _ _ Sd q c r Ep) as (D1 & D2). cbv zeta in *. rewrite Ec in D2. cbn [growth] in D2.
    assert (FR : base <= top /\ top - need 0%nat <= base - need (rt (List.length q))) by (eapply frames_range; eassumption). lia. }
  destruct A0 as (Ho & _). destruct (plain_fetched p a (slot_values x) Im (M s0) q c r Ep Ho) as (Dc & _). destruct (plain_fetched p a (slot_values x) Im (M s2) q2 d r2 Ep2 Ho2) as (Dd & _). rewrite <- Pc0, Ec in Dc. rewrite <- Pc2, Ed in Dd.
  pose proof (Rm q c r Ep). pose proof (Rm q2 d r2 Ep2). pose proof (pushed s0 ltac:(lia) Dc ltac:(lia)) as Pu. destruct (popped s2 ltac:(lia) Dd ltac:(lia)) as (Pa & Ps).
  assert (Ke : M (steps m (step s0)) (SP s0 - 1) = M (step s0) (SP s0 - 1)).
  { apply (stack_kept_steps p a top (slot_values x) rt dep need); try assumption; try lia; intros j Hj; [apply (N0 (S j)); lia|]. pose proof (Nsp (S j) ltac:(lia)) as Z. cbn [steps] in Z. lia. }
  rewrite W1, W9. change (steps 1 s2) with (step s2). rewrite Pa, Ps, Sv2, E2. rewrite Sv in Ke, Pu. rewrite Ke, Pu, Av. split; f_equal. lia.
Qed.
(** The hypotheses about the program are met by C113_nonvacuous; there PUSH is the third instruction, with AC at 5, and POP the
    seventh, with AC at 6; a routine is called in between. *)
Example C113_push_pop_nonvacuous : let s := ready_at 256 [100; 5; 196; 1; 9; 196; 1; 9; 255; 193; 196; 1; 17; 194; 101; 1; 197; 75; 197] (mkArch 254 false false 9 0 0 0 0 200 (fun _ => 0) []) in
  Usage.opcode (steps 2 s) = 193 /\ AC (steps 2 s) = 5 /\ SP (steps 2 s) = 198 /\ (forall j, (0 < j < 4)%nat -> SP (steps j (steps 2 s)) < 198) /\ Usage.opcode (steps 4 (steps 2 s)) = 194 /\ AC (steps 4 (steps 2 s)) = 6 /\ SP (steps 4 (steps 2 s)) = 197.
Proof.
  cbv zeta. do 3 (split; [vm_compute; reflexivity|]). split; [intros j Hj; destruct j as [|j]; [lia|]; do 3 (destruct j as [|j]; [vm_compute; reflexivity|]); lia|]. do 2 (split; [vm_compute; reflexivity|]). vm_compute; reflexivity.
Qed.
Print Assumptions C113_push_pop.
Print Assumptions C113_push_pop_nonvacuous.
