(** * C113, calls return
    In the programs of PropsRoutines.v, when SP is back at its value before a CALL, PC is at the line after it. *)
From Coq Require Import String ZArith NArith List Bool Lia ZifyBool ZifyN.
From Verif Require Import Prog Isa Access Api Usage Front ApiFacts IsaFacts Reach PropsApi PropsIsa PropsRun IsaRun PropsLife.
From Verif Require Import JsStr AsmTable Asm AsmSpec AsmRe AsmLine AsmFacts AsmExec AsmProg AsmErr PropsAsm PropsDisasm PropsLoad PropsExamples PropsSpelling.
From Verif Require Import PropsRepro PropsRelocate Relocate PropsMoved PropsAnywhere PropsOwnLines PropsBalanced PropsRoutines.
Import ListNotations.
Open Scope list_scope.
Open Scope Z_scope.

Section Returns.
Variables (p : list code) (a top : Z) (bytes : list Z) (rt : nat -> nat) (dep need : nat -> Z) (k0 : nat) (b0 ret : Z).
Hypothesis (Im : image p a p bytes) (Ha : 0 <= a) (Fa : a + total p <= 65535).
Hypothesis (Vp : forall c, In c p -> value_ok (map lab p) c /\ ~ byte_ref c) (Rp : forall c, In c p -> routine_line a (total p) (top - need 0%nat) top c) (Cl : ends_well p) (Sd : structured p rt dep need).
Hypothesis (Tp : need 0%nat <= top <= 65535) (Di : a + total p <= top - need 0%nat \/ top <= a) (Bt : b0 + 2 <= top) (Bn : top - need 0%nat <= b0 - need k0).

(** Routine [k], with its return address at [base], is routine [k0] called with SP at [b0] or was called from it, directly or not. *)
Inductive inner (m : Z -> Z) : nat -> Z -> Prop :=
| I_bot : inner m k0 b0
| I_call : forall k base q c r, p = q ++ c :: r -> inner m (rt (List.length q)) (base + 2 + dep (List.length q)) ->
    256 * m (base + 1) + m base = a + total q -> dep (List.length q) + 2 + need k <= need (rt (List.length q)) -> inner m k base.
Lemma inner_range : forall m k base, inner m k base -> base <= b0 /\ top - need 0%nat <= base - need k.
Proof. induction 1 as [|k base q c r Ep Fr IH Ad Nd]; [lia|]. destruct (st_fits _ _ _ _ Sd q c r Ep) as (D & _). cbv zeta in D. lia. Qed.
Lemma inner_ext : forall m m' k base, inner m k base -> (forall x, base <= x < b0 -> m' x = m x) -> inner m' k base.
Proof.
  induction 1 as [|k base q c r Ep Fr IH Ad Nd]; intros E; [constructor|]. destruct (st_fits _ _ _ _ Sd q c r Ep) as (D & _). cbv zeta in D. pose proof (inner_range _ _ _ Fr) as (R1 & _).
  apply (I_call m' k base q c r Ep); auto; [apply IH; intros x Hx; apply E; lia|]. rewrite !E by lia. exact Ad.
Qed.
Definition at_inner (s : arch) : Prop :=
  holds (M s) a bytes /\ 256 * M s (b0 + 1) + M s b0 = ret /\ exists q c r base, p = q ++ c :: r /\ PC s = a + total q /\ SP s = base - dep (List.length q) /\ inner (M s) (rt (List.length q)) base.
Lemma inner_step : forall s, at_inner s -> Usage.opcode s <> 255 -> at_inner (step s) \/ (PC (step s) = ret /\ SP (step s) = b0 + 2).
Proof.
  intros s (Ho & Hr & q & c & r & base & Ep & Pc & Ps & Fr) Nf. destruct (plain_fetched p a bytes Im (M s) q c r Ep Ho) as (Dc & Fi & Sy & Op). pose proof (image_total _ _ _ _ Im) as Ln.
  destruct (st_fits _ _ _ _ Sd q c r Ep) as (D1 & D2). pose proof (st_next _ _ _ _ Sd q c r Ep) as Nx. pose proof (st_jump _ _ _ _ Sd q c r Ep) as Jx. pose proof (st_call _ _ _ _ Sd q c r Ep) as Cx. pose proof (st_ret _ _ _ _ Sd q c r Ep) as Rx. cbv zeta in *.
  assert (Tq : 0 <= total q /\ a + total q + AsmSpec.size (ins c) <= 65535).
  { pose proof (total_pos q). pose proof (total_pos r). pose proof Fa as F. rewrite Ep, total_app in F. change (total (c :: r)) with (AsmSpec.size (ins c) + total r) in F. lia. }
  assert (Nfin : ins c <> FIN) by (intros X; apply Nf; unfold Usage.opcode; rewrite Pc; apply Fi, X).
  assert (Ic : In c p) by (rewrite Ep; apply in_or_app; right; left; reflexivity). pose proof (Rp c Ic) as Si. rewrite <- Pc in Dc, Op. destruct (inner_range _ _ _ Fr) as (R1 & R2).
  assert (Tgt : value_kind (ins c) = Some Value16 -> is_ref (val c) -> exists q' d r', p = q' ++ d :: r' /\ value_of p a c = a + total q' /\ names p (val c) (List.length q')).
  { intros K' Rf. destruct (Vp c Ic) as (V & _). unfold value_ok in V. rewrite K' in V. destruct V as [(Nm & _)|(_ & Hi)]; [destruct (ref_not_numeral _ Rf Nm)|].
    destruct (address_first p a (val c) Hi) as (q' & d & r' & Ep' & Ad & Ld & Nq). exists q', d, r'. split; [exact Ep'|]. split; [|exists q', d, r'; auto]. unfold value_of. rewrite K'. unfold is_ref in Rf. rewrite Rf. exact Ad. }
  assert (Cs : ins c = CALL \/ ins c = RET \/ plain_line a (total p) c).
  { unfold plain_line. unfold routine_line in Si. destruct (ins c); auto. tauto. }
  destruct Cs as [Ec|[Er|Pl]].
  - assert (Si' : is_ref (val c)) by (unfold routine_line in Si; rewrite Ec in Si; exact Si). rewrite Ec in *. change (AsmSpec.size CALL) with 3 in *. cbn [growth] in *. destruct (Tgt eq_refl Si') as (q' & d & r' & Ep' & Vc & Nm). destruct (Cx eq_refl _ Nm) as (N0 & Dj & Nd).
    destruct (st_fits _ _ _ _ Sd q' d r' Ep') as (D1' & _). cbv zeta in D1'.
    destruct (call_step s ltac:(lia) ltac:(lia) Dc ltac:(lia)) as (Pn & Sn & _ & Mn). rewrite (Op eq_refl), Vc in Pn.
    assert (Mo : forall x, ~ (SP s - 2 <= x < SP s) -> M (step s) x = M s x) by (intros x Hx; rewrite Mn; replace (x =? SP s - 2) with false by lia; replace (x =? SP s - 1) with false by lia; reflexivity).
    left. split; [intros k Hk; rewrite Mo by lia; apply Ho; exact Hk|]. split; [rewrite !Mo by lia; exact Hr|].
    destruct (line_after p q c r Cl Ep ltac:(rewrite Ec; discriminate) ltac:(rewrite Ec; discriminate) ltac:(rewrite Ec; discriminate)) as (e & r2 & Ep2).
    destruct (Nx ltac:(discriminate) ltac:(discriminate) ltac:(discriminate)) as (X1 & X2). rewrite Z.add_0_r in X2.
    assert (Lq : List.length (q ++ [c]) = S (List.length q)) by (rewrite app_length; cbn [List.length]; lia).
    exists q', d, r', (SP s - 2). split; [exact Ep'|]. split; [exact Pn|]. split; [lia|]. apply (I_call _ _ _ (q ++ [c]) e r2 Ep2); rewrite ?Lq, ?X1, ?X2; auto.
    + apply (inner_ext (M s)); [replace (SP s - 2 + 2 + dep (List.length q)) with base by lia; exact Fr|]. intros x Hx. apply Mo. lia.
    + rewrite !Mn. replace (SP s - 2 + 1 =? SP s - 2) with false by lia. replace (SP s - 2 + 1 =? SP s - 1) with true by lia. rewrite Z.eqb_refl. rewrite total_app. cbn [total fold_right]. rewrite Ec. change (AsmSpec.size CALL) with 3.
      pose proof (Z.div_mod (PC s + 3) 256). lia.
  - rewrite Er in *. change (AsmSpec.size RET) with 1 in *. destruct (Rx eq_refl) as (N0 & D0). rewrite D0, Z.sub_0_r in Ps. remember (rt (List.length q)) as k eqn:Ek. destruct (ret_step s ltac:(lia) Dc ltac:(lia) ltac:(lia)) as (Pn & Sn & _ & Mn).
    destruct Fr as [|k base q0 c0 r0 Ep0 Fr0 Ad Nd]; [right; rewrite Pn, Sn, Ps; auto|].
    left. split; [intros j Hj; rewrite Mn; apply Ho; exact Hj|]. split; [rewrite !Mn; exact Hr|]. exists q0, c0, r0, (base + 2 + dep (List.length q0)). split; [exact Ep0|]. split; [rewrite Pn, Ps; exact Ad|]. split; [lia|]. apply (inner_ext (M s) _ _ _ Fr0). intros x _. apply Mn.
  - destruct (plain_step a (total p) s c ltac:(lia) ltac:(lia) Dc Sy Pl ltac:(lia)) as (Pn & Sn & _ & Mn).
    assert (Ms : forall x, M (step s) x = M s x \/ (ins c = STA /\ x = numeral_value (val c)) \/ (ins c = PUSH /\ x = SP s - 1)).
    { intros x. destruct (Mn x) as [E|[(St & ->)|Pu]]; auto. right. left. split; [exact St|]. assert (K' : value_kind (ins c) = Some Value16) by (rewrite St; reflexivity). rewrite (Op K').
      unfold plain_line in Pl. rewrite St in Pl. destruct Pl as (Nr & _). unfold value_of. rewrite K'. apply nonref_head. exact Nr. }
    assert (Gr : ins c = PUSH -> top - need 0%nat <= SP s - 1 < base) by (intros X; rewrite X in D2; cbn [growth] in D2; lia).
    assert (Out : ins c = STA -> ~ (a <= numeral_value (val c) < a + total p) /\ ~ (top - need 0%nat <= numeral_value (val c) < top)) by (intros X; unfold routine_line in Si; rewrite X in Si; tauto).
    assert (Up : forall x, base <= x < top -> M (step s) x = M s x) by (intros x Hx; destruct (Ms x) as [E|[(St & E)|(Pu & E)]]; [exact E|destruct (Out St); lia|specialize (Gr Pu); lia]).
    left. split. { intros k Hk. rewrite <- (Ho k Hk). destruct (Ms (a + Z.of_nat k)) as [E|[(St & E)|(Pu & E)]]; [exact E|destruct (Out St); lia|specialize (Gr Pu); lia]. }
    split; [rewrite !Up by lia; exact Hr|]. assert (Fr' : inner (M (step s)) (rt (List.length q)) base) by (apply (inner_ext (M s) _ _ _ Fr); intros x Hx; apply Up; lia).
    destruct Pn as [(Pn & Nj)|(Pn & Jm)].
    + assert (Nr : ins c <> RET) by (intros X; unfold plain_line in Pl; rewrite X in Pl; destruct Pl).
      destruct (line_after p q c r Cl Ep Nfin Nj Nr) as (d & r' & Ep'). destruct (Nx Nfin Nj Nr) as (X1 & X2). exists (q ++ [c]), d, r', base. split; [exact Ep'|]. split; [rewrite Pn, Pc, total_app; cbn [total fold_right]; lia|].
      rewrite app_length. cbn [List.length]. rewrite Nat.add_1_r, X1, X2. split; [lia|exact Fr'].
    + assert (K' : value_kind (ins c) = Some Value16) by (destruct Jm as [X|[X|X]]; rewrite X; reflexivity). rewrite (Op K') in Pn.
      assert (Rf : is_ref (val c)) by (unfold plain_line in Pl; destruct Jm as [X|[X|X]]; rewrite X in Pl; exact Pl).
      destruct (Tgt K' Rf) as (q' & d & r' & Ep' & Vc & Nm). destruct (Jx Jm _ Nm) as (X1 & X2). exists q', d, r', base. split; [exact Ep'|]. split; [congruence|]. rewrite X1, X2. split; [|exact Fr'].
      rewrite Sn, Ps. replace (growth (ins c)) with 0 by (destruct Jm as [X|[X|X]]; rewrite X; reflexivity). lia.
Qed.
Lemma inner_sp : forall s, at_inner s -> SP s <= b0.
Proof. intros s (_ & _ & q & c & r & base & Ep & _ & Ps & Fr). destruct (inner_range _ _ _ Fr). destruct (st_fits _ _ _ _ Sd q c r Ep) as (D & _). cbv zeta in D. lia. Qed.
Lemma inner_returns : forall n s, at_inner s -> (forall m, (m < n)%nat -> Usage.opcode (steps m s) <> 255) -> (forall m, (m < n)%nat -> SP (steps m s) <> b0 + 2) -> SP (steps n s) = b0 + 2 -> PC (steps n s) = ret.
Proof.
  induction n as [|n IH]; intros s Al Nf Ns Sn; [pose proof (inner_sp s Al); cbn [steps] in Sn; lia|]. cbn [steps] in *.
  destruct (inner_step s Al (Nf 0%nat ltac:(lia))) as [Al'|(Pn & Sx)].
  - apply IH; auto; intros m Hm; [apply (Nf (S m))|apply (Ns (S m))]; lia.
  - destruct n as [|n]; [exact Pn|]. destruct (Ns 1%nat ltac:(lia) Sx).
Qed.
End Returns.

Lemma same_prefix : forall q c r q' c' r', q ++ c :: r = q' ++ c' :: r' -> total q = total q' -> q = q' /\ c = c'.
Proof.
  induction q as [|d q IH]; intros c r [|d' q'] c' r' E H; cbn [app] in E; injection E as -> E.
  - auto.
  - change (total (d' :: q')) with (AsmSpec.size (ins d') + total q') in H. pose proof (total_pos q'). pose proof (size_pos (ins d')). change (total []) with 0 in H. lia.
  - change (total (c' :: q)) with (AsmSpec.size (ins c') + total q) in H. pose proof (total_pos q). pose proof (size_pos (ins c')). change (total []) with 0 in H. lia.
  - change (total (d' :: q)) with (AsmSpec.size (ins d') + total q) in H. change (total (d' :: q')) with (AsmSpec.size (ins d') + total q') in H. destruct (IH c r q' c' r' E ltac:(lia)). subst. auto.
Qed.
(** [h0] is about to execute the CALL line [c], which is after the lines [q], with SP at [sp]; [h2] is the first machine after it
    that has SP at [sp] again. *)
Theorem C113_returns : forall lines codes a top rt dep need l h s, program lines codes a -> a + total (somes codes) <= 65535 ->
  (forall c, In c (somes codes) -> routine_line a (total (somes codes)) (top - need 0%nat) top c) -> ends_well (somes codes) -> structured (somes codes) rt dep need ->
  need 0%nat <= top <= 65535 -> a + total (somes codes) <= top - need 0%nat \/ top <= a -> live l h true -> boundary h -> shows h s -> get_register_value R_SP h = Some top ->
  exists out slots h1, parse_input (text_of lines) a = Some out /\ new_translation out = Some slots /\ placed a (slot_values slots) h h1 /\
    forall n us h0 q c r sp, instructions n h1 us h0 -> before_fin (somes codes) a n h1 -> somes codes = q ++ c :: r -> ins c = CALL -> get_register_value R_PC h0 = Some (a + total q) -> get_register_value R_SP h0 = Some sp ->
    forall m vs h2, instructions (S m) h0 vs h2 -> before_fin (somes codes) a (S m) h0 -> get_register_value R_SP h2 = Some sp -> (forall j ws h3, (0 < j < S m)%nat -> instructions j h0 ws h3 -> get_register_value R_SP h3 <> Some sp) ->
      get_register_value R_PC h2 = Some (a + total (q ++ [c])).
Proof.
  intros lines codes a top rt dep need l h s P Fa Rp Cl Sd Tp Di L Bd Sh St. pose proof P as (P1 & P2 & P3 & P4 & P5 & P6).
  destruct (C44_image _ _ a P1 P2 P3 P4 P5 P6) as (out & x & A1 & A2 & Im & _). set (p := somes codes) in *. pose proof (image_total _ _ _ _ Im) as Ln. pose proof (image_bytes _ _ _ _ _ P3 P5 P6 Im) as By.
  pose proof Cl as (q0 & c0 & Ep0 & Fc0). assert (Np : 1 <= total p). { rewrite Ep0, total_app. pose proof (total_pos q0). cbn [total fold_right]. pose proof (size_pos (ins c0)). lia. }
  destruct (placed_shows a (slot_values x) l h s L Bd Sh ltac:(lia) ltac:(lia) By) as (h1 & l1 & Pl & Lv & Bd1 & Sh1).
  exists out, x, h1. do 3 (split; [assumption|]). set (s1 := ready_at a (slot_values x) s) in *. pose proof Sh as (_ & _ & _ & _ & _ & _ & _ & _ & Y9 & Y10 & Y11).
  assert (Al : at_frame p a top (slot_values x) rt dep need s1).
  { split; [apply stored_holds|]. destruct (st_first _ _ _ _ Sd) as (R0 & D0). assert (X : exists c r, p = c :: r) by (destruct p as [|c r]; [cbn in Np; lia|eauto]). destruct X as (c & r & Ep).
    exists [], c, r, top. split; [exact Ep|]. split; [cbn; lia|]. cbn [List.length]. rewrite R0, D0. split; [cbn [SP s1 ready_at]; rewrite Y9 in St; injection St as ->; lia|constructor]. }
  pose proof (frame_steps p a top (slot_values x) rt dep need Im P5 Fa P3 Rp Cl Sd Tp Di) as Own.
  assert (Nf : forall n l' g t, live l' g true -> boundary g -> shows g t -> at_frame p a top (slot_values x) rt dep need t -> before_fin p a n g -> forall k, (k <= n)%nat -> forall m, (m < k)%nat -> Usage.opcode (steps m t) <> 255).
  { intros n l' g t Lg Bg Sg Ag Bf. induction k as [|k IH]; intros Hk m Hm; [lia|]. destruct (Nat.eq_dec m k) as [->|Ne]; [|apply IH; lia].
    destruct (Own k t Ag (IH ltac:(lia))) as ((Ho & q & c & r & b & Ep & Pc & _) & _). destruct (C14_programs_run k false l' g true t Lg Bg Sg ltac:(discriminate)) as (hk & Ik).
    destruct (C14_programs k l' g true t _ hk Lg Bg Sg Ik) as ((_ & _ & _ & _ & _ & _ & _ & X8 & _) & _).
    assert (F : ins c <> FIN). { apply (Bf k _ hk c ltac:(lia) Ik). exists q, r. split; [exact Ep|]. rewrite X8, Pc. reflexivity. }
    destruct (plain_fetched p a (slot_values x) Im (M (steps k t)) q c r Ep Ho) as (_ & Fi & _). unfold Usage.opcode. rewrite Pc. intros X. apply F, Fi, X. }
  intros n us h0 q c r sp I0 Bf Ep Ec Pc0 Sp0 m vs h2 I2 Bf2 Sp2 Nb.
  destruct (C14_programs n l1 h1 true s1 us h0 Lv Bd1 Sh1 I0) as (S0 & B0 & L0 & _). destruct (Own n s1 Al (Nf n l1 h1 s1 Lv Bd1 Sh1 Al Bf n ltac:(lia))) as (A0 & _). set (s0 := steps n s1) in *.
  pose proof (Nf (S m) _ h0 s0 L0 B0 S0 A0 Bf2 (S m) ltac:(lia)) as N0. destruct (C14_programs (S m) _ h0 true s0 vs h2 L0 B0 S0 I2) as (S2 & _).
  assert (Nsp : forall j, (0 < j < S m)%nat -> SP (steps j s0) <> sp).
  { intros j Hj E. destruct (C14_programs_run j false _ h0 true s0 L0 B0 S0 ltac:(discriminate)) as (h3 & I3). destruct (C14_programs j _ h0 true s0 _ h3 L0 B0 S0 I3) as ((_ & _ & _ & _ & _ & _ & _ & _ & X9 & _) & _).
    apply (Nb j _ h3 Hj I3). rewrite X9, E. reflexivity. }
  destruct S0 as (_ & _ & _ & _ & _ & _ & _ & X8 & X9 & _). destruct S2 as (_ & _ & _ & _ & _ & _ & _ & V8 & V9 & _). rewrite X8 in Pc0. rewrite X9 in Sp0. rewrite V9 in Sp2. injection Pc0 as Pc0. injection Sp0 as Sp0. injection Sp2 as Sp2. rewrite V8. f_equal.
  destruct A0 as (Ho & q1 & c1 & r1 & base & Ep1 & Pc1 & Ps1 & Fr). destruct (same_prefix q1 c1 r1 q c r ltac:(congruence) ltac:(lia)) as (-> & ->). clear Ep1 r1.
  destruct (plain_fetched p a (slot_values x) Im (M s0) q c r Ep Ho) as (Dc & _ & _ & Op). rewrite <- Pc1 in Dc, Op. assert (Ic : In c p) by (rewrite Ep; apply in_or_app; right; left; reflexivity). pose proof (Rp c Ic) as Si. unfold routine_line in Si. rewrite Ec in Si, Dc, Op.
  specialize (Op eq_refl). destruct (P3 c Ic) as (V & _). unfold value_ok in V. rewrite Ec in V. change (value_kind CALL) with (Some Value16) in V. cbv iota in V. destruct V as [(Nm & _)|(_ & Hi)]; [destruct (ref_not_numeral _ Si Nm)|].
  destruct (address_first p a (val c) Hi) as (q' & d & r' & Ep' & Ad & Ld & Nq).
  assert (Vc : value_of p a c = a + total q') by (unfold value_of; rewrite Ec; change (value_kind CALL) with (Some Value16); cbv iota; unfold is_ref in Si; rewrite Si; exact Ad). rewrite Vc in Op.
  destruct (st_call _ _ _ _ Sd q c r Ep Ec (List.length q') ltac:(exists q', d, r'; auto)) as (Nz & Dj & Nd). destruct (st_fits _ _ _ _ Sd q c r Ep) as (D1 & _). destruct (st_fits _ _ _ _ Sd q' d r' Ep') as (D1' & _). cbv zeta in *.
  assert (FR : base <= top /\ top - need 0%nat <= base - need (rt (List.length q))) by (eapply frames_range; eassumption). destruct FR as (R1 & R2).
  assert (Tq : 0 <= total q /\ a + total q + 3 <= 65535).
  { pose proof (total_pos q). pose proof (total_pos r). pose proof Fa as F. rewrite Ep, total_app in F. change (total (c :: r)) with (AsmSpec.size (ins c) + total r) in F. rewrite Ec in F. change (AsmSpec.size CALL) with 3 in F. lia. }
  destruct (call_step s0 ltac:(lia) ltac:(lia) Dc ltac:(lia)) as (Pn & Sn & _ & Mn). rewrite Op in Pn.
  assert (Mo : forall y, ~ (SP s0 - 2 <= y < SP s0) -> M (step s0) y = M s0 y) by (intros y Hy; rewrite Mn; replace (y =? SP s0 - 2) with false by lia; replace (y =? SP s0 - 1) with false by lia; reflexivity).
  rewrite total_app. cbn [total fold_right]. rewrite Ec. change (AsmSpec.size CALL) with 3. replace (a + (total q + (3 + 0))) with (PC s0 + 3) by lia. cbn [steps].
  apply (inner_returns p a top (slot_values x) rt dep need (rt (List.length q')) (SP s0 - 2) (PC s0 + 3)); try assumption; try lia.
  - split; [intros k Hk; rewrite Mo by lia; apply Ho; exact Hk|]. split.
    + rewrite !Mn. replace (SP s0 - 2 + 1 =? SP s0 - 2) with false by lia. replace (SP s0 - 2 + 1 =? SP s0 - 1) with true by lia. rewrite Z.eqb_refl. pose proof (Z.div_mod (PC s0 + 3) 256). lia.
    + exists q', d, r', (SP s0 - 2). split; [exact Ep'|]. split; [exact Pn|]. split; [lia|constructor].
  - intros j Hj. apply (N0 (S j)). lia.
  - intros j Hj E. apply (Nsp (S j) ltac:(lia)). cbn [steps]. lia.
Qed.
(** The hypotheses about the program are met by C113_nonvacuous; there the first CALL comes after one instruction, and SP is
    back eight instructions later and not before. *)
Example C113_returns_nonvacuous : let s := ready_at 256 [100; 5; 196; 1; 9; 196; 1; 9; 255; 193; 196; 1; 17; 194; 101; 1; 197; 75; 197] (mkArch 254 false false 9 0 0 0 0 200 (fun _ => 0) []) in
  Usage.opcode (steps 1 s) = 196 /\ PC (steps 1 s) = 258 /\ SP (steps 1 s) = 200 /\ SP (steps 8 (steps 1 s)) = 200 /\ PC (steps 8 (steps 1 s)) = 261 /\ forall j, (0 < j < 8)%nat -> SP (steps j (steps 1 s)) <> 200.
Proof.
  cbv zeta. split; [vm_compute; reflexivity|]. split; [vm_compute; reflexivity|]. split; [vm_compute; reflexivity|]. split; [vm_compute; reflexivity|]. split; [vm_compute; reflexivity|].
  intros j Hj. destruct j as [|j]; [lia|]. do 7 (destruct j as [|j]; [vm_compute; discriminate|]). lia.
Qed.
Print Assumptions C113_returns.
Print Assumptions C113_returns_nonvacuous.
