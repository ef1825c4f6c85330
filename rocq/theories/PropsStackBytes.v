(** * C113, bytes on the stack stay until they are popped *)
From Coq Require Import String ZArith NArith List Bool Lia ZifyBool ZifyN.
From Verif Require Import Prog Isa Access Api Usage Front ApiFacts IsaFacts Reach PropsApi PropsIsa PropsRun IsaRun PropsLife.
From Verif Require Import JsStr AsmTable Asm AsmSpec AsmRe AsmLine AsmFacts AsmExec AsmProg AsmErr PropsAsm PropsDisasm PropsLoad PropsExamples PropsSpelling.
From Verif Require Import PropsRepro PropsRelocate Relocate PropsMoved PropsAnywhere PropsOwnLines PropsBalanced PropsRoutines PropsReturns.
Import ListNotations.
Open Scope list_scope.
Open Scope Z_scope.



Section Stack.
Variables (p : list code) (a top : Z) (bytes : list Z) (rt : nat -> nat) (dep need : nat -> Z).
Hypothesis (Im : image p a p bytes) (Ha : 0 <= a) (Fa : a + total p <= 65535).
Hypothesis (Vp : forall c, In c p -> value_ok (map lab p) c /\ ~ byte_ref c) (Rp : forall c, In c p -> routine_line a (total p) (top - need 0%nat) top c) (Cl : ends_well p) (Sd : structured p rt dep need).
Hypothesis (Tp : need 0%nat <= top <= 65535) (Di : a + total p <= top - need 0%nat \/ top <= a).
Lemma stack_kept : forall s, at_frame p a top bytes rt dep need s -> Usage.opcode s <> 255 -> forall x, SP s <= x < top -> M (step s) x = M s x.
Proof.
  intros s (Ho & q & c & r & base & Ep & Pc & Ps & Fr) Nf x Hx. destruct (plain_fetched p a bytes Im (M s) q c r Ep Ho) as (Dc & Fi & Sy & Op). pose proof (image_total _ _ _ _ Im) as Ln.
  destruct (st_fits _ _ _ _ Sd q c r Ep) as (D1 & D2). pose proof (st_next _ _ _ _ Sd q c r Ep) as Nx. pose proof (st_jump _ _ _ _ Sd q c r Ep) as Jx. pose proof (st_call _ _ _ _ Sd q c r Ep) as Cx. pose proof (st_ret _ _ _ _ Sd q c r Ep) as Rx. cbv zeta in *.
  assert (Tq : 0 <= total q /\ a + total q + AsmSpec.size (ins c) <= 65535).
  { pose proof (total_pos q). pose proof (total_pos r). pose proof Fa as F. rewrite Ep, total_app in F. change (total (c :: r)) with (AsmSpec.size (ins c) + total r) in F. lia. }
  assert (Ic : In c p) by (rewrite Ep; apply in_or_app; right; left; reflexivity). pose proof (Rp c Ic) as Si. rewrite <- Pc in Dc, Op. assert (FR : base <= top /\ top - need 0%nat <= base - need (rt (List.length q))) by (eapply frames_range; eassumption). destruct FR as (R1 & R2).
  assert (Cs : ins c = CALL \/ ins c = RET \/ plain_line a (total p) c).
  { unfold plain_line. unfold routine_line in Si. destruct (ins c); auto. tauto. }
  destruct Cs as [Ec|[Er|Pl]].
  - assert (Rf : is_ref (val c)) by (unfold routine_line in Si; rewrite Ec in Si; exact Si). rewrite Ec in *. change (AsmSpec.size CALL) with 3 in *. destruct (Vp c Ic) as (V & _). unfold value_ok in V. rewrite Ec in V. change (value_kind CALL) with (Some Value16) in V. cbv iota in V. destruct V as [(Nm & _)|(_ & Hi)]; [destruct (ref_not_numeral _ Rf Nm)|].
    destruct (address_first p a (val c) Hi) as (q' & d & r' & Ep' & Ad & Ld & Nq). destruct (Cx eq_refl (List.length q') ltac:(exists q', d, r'; auto)) as (N0 & Dj & Nd). destruct (st_fits _ _ _ _ Sd q' d r' Ep') as (D1' & _). cbv zeta in D1'.
    destruct (call_step s ltac:(lia) ltac:(lia) Dc ltac:(lia)) as (_ & _ & _ & Mn). rewrite Mn. replace (x =? SP s - 2) with false by lia. replace (x =? SP s - 1) with false by lia. reflexivity.
  - rewrite Er in *. change (AsmSpec.size RET) with 1 in *. destruct (Rx eq_refl) as (N0 & D0). remember (rt (List.length q)) as k eqn:Ek. rewrite D0, Z.sub_0_r in Ps. destruct Fr as [|k base q0 c0 r0 Ep0 Fr0 Nk Ad Nd]; [lia|].
    assert (FR : base + 2 + dep (List.length q0) <= top /\ top - need 0%nat <= base + 2 + dep (List.length q0) - need (rt (List.length q0))) by (eapply frames_range; eassumption). destruct (st_fits _ _ _ _ Sd q0 c0 r0 Ep0) as (D3 & _). cbv zeta in D3.
    destruct (ret_step s ltac:(lia) Dc ltac:(lia) ltac:(lia)) as (_ & _ & _ & Mn). apply Mn.
  - destruct (plain_step a (total p) s c ltac:(lia) ltac:(lia) Dc Sy Pl ltac:(lia)) as (_ & _ & _ & Mn).
    destruct (Mn x) as [E|[(St & E)|(Pu & E)]]; [exact E| |exfalso; lia]. exfalso. assert (K' : value_kind (ins c) = Some Value16) by (rewrite St; reflexivity). rewrite (Op K') in E.
    unfold plain_line in Pl. rewrite St in Pl. destruct Pl as (Nr & _). assert (E' : value_of p a c = numeral_value (val c)) by (unfold value_of; rewrite K'; apply nonref_head; exact Nr). unfold routine_line in Si. rewrite St in Si. lia.
Qed.
Lemma stack_kept_steps : forall n s x, at_frame p a top bytes rt dep need s -> (forall m, (m < n)%nat -> Usage.opcode (steps m s) <> 255) -> (forall m, (m < n)%nat -> SP (steps m s) <= x) -> x < top -> M (steps n s) x = M s x.
Proof.
  induction n as [|n IH]; intros s x Al Nf Ns Hx; [reflexivity|]. cbn [steps]. pose proof (Nf 0%nat ltac:(lia)) as N0. pose proof (Ns 0%nat ltac:(lia)) as S0. cbn [steps] in N0, S0. rewrite <- (stack_kept s Al N0 x ltac:(lia)).
  assert (Al' : at_frame p a top bytes rt dep need (step s)) by (eapply frame_step; eassumption).
  apply IH; auto; intros m Hm; [apply (Nf (S m))|apply (Ns (S m))]; lia.
Qed.
End Stack.

(** From [h0], reached before FIN, to [h2]: a cell of the stack that SP does not pass in between holds what it held. *)
Theorem C113_stack : forall lines codes a top rt dep need l h s, program lines codes a -> a + total (somes codes) <= 65535 ->
  (forall c, In c (somes codes) -> routine_line a (total (somes codes)) (top - need 0%nat) top c) -> ends_well (somes codes) -> structured (somes codes) rt dep need ->
  need 0%nat <= top <= 65535 -> a + total (somes codes) <= top - need 0%nat \/ top <= a -> live l h true -> boundary h -> shows h s -> get_register_value R_SP h = Some top ->
  exists out slots h1, parse_input (text_of lines) a = Some out /\ new_translation out = Some slots /\ placed a (slot_values slots) h h1 /\
    forall n us h0 m vs h2 y, instructions n h1 us h0 -> before_fin (somes codes) a n h1 -> instructions m h0 vs h2 -> before_fin (somes codes) a m h0 ->
      (forall j ws h3 sp, (j < m)%nat -> instructions j h0 ws h3 -> get_register_value R_SP h3 = Some sp -> sp <= y) -> 0 <= y < top -> get_memory_value y h2 = get_memory_value y h0.
Proof.
  intros lines codes a top rt dep need l h s P Fa Rp Cl Sd Tp Di L Bd Sh St. pose proof P as (P1 & P2 & P3 & P4 & P5 & P6).
  destruct (C44_image _ _ a P1 P2 P3 P4 P5 P6) as (out & x & A1 & A2 & Im & _). set (p := somes codes) in *. pose proof (image_total _ _ _ _ Im) as Ln. pose proof (image_bytes _ _ _ _ _ P3 P5 P6 Im) as By.
  pose proof Cl as (q0 & c0 & Ep0 & Fc0). assert (Np : 1 <= total p). { rewrite Ep0, total_app. pose proof (total_pos q0). cbn [total fold_right]. pose proof (size_pos (ins c0)). lia. }
  destruct (placed_shows a (slot_values x) l h s L Bd Sh ltac:(lia) ltac:(lia) By) as (h1 & l1 & Pl & Lv & Bd1 & Sh1).
  exists out, x, h1. do 3 (split; [assumption|]). set (s1 := ready_at a (slot_values x) s) in *. pose proof Sh as (_ & _ & _ & _ & _ & _ & _ & _ & Y9 & Y10 & Y11).
  assert (Al : at_frame p a top (slot_values x) rt dep need s1).
  { split; [apply stored_holds|]. destruct (st_first _ _ _ _ Sd) as (R0 & D0). assert (X : exists c r, p = c :: r) by (destruct p as [|c r]; [cbn in Np; lia|eauto]). destruct X as (c & r & Ep).
    exists [], c, r, top. split; [exact Ep|]. split; [cbn; lia|]. cbn [List.length]. rewrite R0, D0. split; [cbn [SP s1 ready_at]; rewrite Y9 in St; injection St as ->; lia|constructor]. }
  pose proof (frame_steps p a top (slot_values x) rt dep need Im P5 Fa P3 Rp Cl Sd Tp Di) as Own.
  assert (Nf : forall n l' g t, live l' g true -> boundary g -> shows g t -> at_frame p a top (slot_values x) rt dep need t -> before_fin p a n g -> forall k, (k <= n)%nat -> forall m, (m < k)%nat -> Usage.opcode (steps m t) <> 255).
  { intros n l' g t Lg Bg Sg Ag Bf. induction k as [|k IH]; intros Hk m Hm; [lia|]. destruct (Nat.eq_dec m k) as [->|Ne]; [|apply IH; lia].
    destruct (Own k t Ag (IH ltac:(lia))) as ((Ho & q & c & r & b & Ep & Pc & _) & _). destruct (C14_programs_run k false l' g true t Lg Bg Sg ltac:(discriminate)) as (hk & Ik).
    destruct (C14_programs k l' g true t _ hk Lg Bg Sg Ik) as ((_ & _ & _ & _ & _ & _ & _ & X8 & _) & _).
    assert (F : ins c <> FIN). { apply (Bf k _ hk c ltac:(lia) Ik). exists q, r. split; [exact Ep|]. rewrite X8, Pc. reflexivity. }
    destruct (plain_fetched p a (slot_values x) Im (M (steps k t)) q c r Ep Ho) as (_ & Fi & _). unfold Usage.opcode. rewrite Pc. intros X. apply F, Fi, X. }
  intros n us h0 m vs h2 y I0 Bf I2 Bf2 Ns Hy.
  destruct (C14_programs n l1 h1 true s1 us h0 Lv Bd1 Sh1 I0) as (S0 & B0 & L0 & _). destruct (Own n s1 Al (Nf n l1 h1 s1 Lv Bd1 Sh1 Al Bf n ltac:(lia))) as (A0 & _). set (s0 := steps n s1) in *.
  pose proof (Nf m _ h0 s0 L0 B0 S0 A0 Bf2 m ltac:(lia)) as N0. destruct (C14_programs m _ h0 true s0 vs h2 L0 B0 S0 I2) as (S2 & _).
  assert (Nsp : forall j, (j < m)%nat -> SP (steps j s0) <= y).
  { intros j Hj. destruct (C14_programs_run j false _ h0 true s0 L0 B0 S0 ltac:(discriminate)) as (h3 & I3). destruct (C14_programs j _ h0 true s0 _ h3 L0 B0 S0 I3) as ((_ & _ & _ & _ & _ & _ & _ & _ & X9 & _) & _). exact (Ns j _ h3 _ Hj I3 X9). }
  destruct S0 as (_ & _ & _ & _ & _ & _ & _ & _ & _ & X10 & _). destruct S2 as (_ & _ & _ & _ & _ & _ & _ & _ & _ & V10 & _). rewrite X10, V10 by lia. f_equal.
  apply (stack_kept_steps p a top (slot_values x) rt dep need); try assumption; lia.
Qed.
(** The hypotheses about the program are met by C113_nonvacuous; there 5 is on the stack, at 197, after three instructions, and
    SP does not pass it in the next three, a call and its return; then it is popped. *)
Example C113_stack_nonvacuous : let s := ready_at 256 [100; 5; 196; 1; 9; 196; 1; 9; 255; 193; 196; 1; 17; 194; 101; 1; 197; 75; 197] (mkArch 254 false false 9 0 0 0 0 200 (fun _ => 0) []) in
  (forall j, (j < 4)%nat -> SP (steps j (steps 3 s)) <= 197) /\ M (steps 3 s) 197 = 5 /\ AC (steps 3 (steps 3 s)) = 6 /\ Usage.opcode (steps 3 (steps 3 s)) = 194 /\ AC (steps 4 (steps 3 s)) = 5 /\ SP (steps 4 (steps 3 s)) = 198.
Proof.
  cbv zeta. split; [intros j Hj; do 4 (destruct j as [|j]; [vm_compute; discriminate|]); lia|]. do 4 (split; [vm_compute; reflexivity|]). vm_compute; reflexivity.
Qed.
Print Assumptions C113_stack.
Print Assumptions C113_stack_nonvacuous.
