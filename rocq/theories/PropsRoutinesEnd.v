(** * C113, programs of routines that jump forwards only end *)
From Coq Require Import String ZArith NArith List Bool Lia ZifyBool ZifyN.
From Verif Require Import Prog Isa Access Api Usage Front ApiFacts IsaFacts Reach PropsApi PropsIsa PropsRun IsaRun PropsLife.
From Verif Require Import JsStr AsmTable Asm AsmSpec AsmRe AsmLine AsmFacts AsmExec AsmProg AsmErr PropsAsm PropsDisasm PropsLoad PropsExamples PropsSpelling.
From Verif Require Import PropsRepro PropsRelocate Relocate PropsMoved PropsAnywhere PropsOwnLines PropsForward PropsBalanced PropsRoutines.
Import ListNotations.
Open Scope list_scope.
Open Scope Z_scope.

Section Ends.
Variables (p : list code) (a top : Z) (bytes : list Z) (rt : nat -> nat) (dep need : nat -> Z).
Hypothesis (Im : image p a p bytes) (Ha : 0 <= a) (Fa : a + total p <= 65535).
Hypothesis (Vp : forall c, In c p -> value_ok (map lab p) c /\ ~ byte_ref c) (Rp : forall c, In c p -> routine_line a (total p) (top - need 0%nat) top c) (Cl : ends_well p) (Sd : structured p rt dep need) (Fw : forwards p).
Hypothesis (Tp : need 0%nat <= top <= 65535) (Di : a + total p <= top - need 0%nat \/ top <= a).

(** [t] is reached from [s] after [n] instructions, none of them FIN. *)
Definition after_steps (n : nat) (s t : arch) : Prop := t = steps n s /\ forall m, (m < n)%nat -> Usage.opcode (steps m s) <> 255.
Lemma after_one : forall s, Usage.opcode s <> 255 -> after_steps 1 s (step s).
Proof. intros s H. split; [reflexivity|]. intros m Hm. replace m with 0%nat by lia. exact H. Qed.
Lemma after_trans : forall n m s t u, after_steps n s t -> after_steps m t u -> after_steps (n + m) s u.
Proof.
  intros n m s t u (-> & A) (-> & B). split; [rewrite steps_add; reflexivity|]. intros j Hj. destruct (Nat.lt_ge_cases j n) as [H|H]; [apply A; exact H|]. replace j with (n + (j - n))%nat by lia. rewrite steps_add. apply B. lia.
Qed.
(** Routine [k], at [s] and with its return address at [b], comes to FIN or returns; the main program comes to FIN. *)
Definition finishes (k : nat) (s : arch) (b : Z) : Prop :=
  exists n t, after_steps n s t /\ (Usage.opcode t = 255 \/ (k <> 0%nat /\ PC t = 256 * M s (b + 1) + M s b /\ SP t = b + 2 /\ holds (M t) a bytes /\ forall x, b <= x < top -> M t x = M s x)).
Lemma routine_ends : forall N rem s q c r b, need (rt (List.length q)) <= Z.of_nat N -> (List.length r <= rem)%nat -> holds (M s) a bytes -> p = q ++ c :: r -> PC s = a + total q -> SP s = b - dep (List.length q) ->
  b <= top -> top - need 0%nat <= b - need (rt (List.length q)) -> (rt (List.length q) <> 0%nat -> b + 2 <= top) -> finishes (rt (List.length q)) s b.
Proof.
  induction N as [N IHN] using lt_wf_ind. induction rem as [|rem IHr]; intros s q c r b HN Lr Ho Ep Pc Ps R1 R2 R3.
  all: destruct (plain_fetched p a bytes Im (M s) q c r Ep Ho) as (Dc & Fi & Sy & Op); pose proof (image_total _ _ _ _ Im) as Ln.
  all: destruct (Z.eq_dec (Usage.opcode s) 255) as [F|Nf]; [exists 0%nat, s; split; [split; [reflexivity|intros; lia]|left; exact F]|].
  all: assert (Nfin : ins c <> FIN) by (intros X; apply Nf; unfold Usage.opcode; rewrite Pc; apply Fi, X).
  all: destruct (st_fits _ _ _ _ Sd q c r Ep) as (D1 & D2); pose proof (st_ret _ _ _ _ Sd q c r Ep) as Rx; cbv zeta in *.
  all: assert (Tq : 0 <= total q /\ a + total q + AsmSpec.size (ins c) <= 65535) by (pose proof (total_pos q); pose proof (total_pos r); pose proof Fa as F0; rewrite Ep, total_app in F0; change (total (c :: r)) with (AsmSpec.size (ins c) + total r) in F0; lia).
  all: assert (Ic : In c p) by (rewrite Ep; apply in_or_app; right; left; reflexivity); pose proof (Rp c Ic) as Si; rewrite <- Pc in Dc, Op.
  all: assert (Ret : ins c = RET -> finishes (rt (List.length q)) s b) by
   (intros Er; rewrite Er in *; change (AsmSpec.size RET) with 1 in *; destruct (Rx eq_refl) as (N0 & D0); specialize (R3 N0); rewrite D0, Z.sub_0_r in Ps; destruct (ret_step s ltac:(lia) Dc ltac:(lia) ltac:(lia)) as (Pn & Sn & _ & Mn);
    exists 1%nat, (step s); split; [exact (after_one s Nf)|]; right; rewrite Pn, Sn, Ps; split; [exact N0|]; do 2 (split; [reflexivity|]); split; [intros j Hj; rewrite Mn; apply Ho; exact Hj|intros x _; apply Mn]).
  - (* the last line *)
    destruct r as [|d r]; [|cbn [List.length] in Lr; lia]. destruct Cl as (q' & c' & Eq & X). rewrite Ep in Eq. apply app_inj_tail in Eq. destruct Eq as (<- & <-). destruct X as [X|[X|X]]; [destruct (Nfin X)| |exact (Ret X)]. exfalso.
    unfold routine_line in Si. rewrite X in Si. destruct (Vp c Ic) as (V & _). unfold value_ok in V. rewrite X in V. change (value_kind JMP) with (Some Value16) in V. cbv iota in V. destruct V as [(Nm & _)|(_ & Hi)]; [exact (ref_not_numeral _ Si Nm)|].
    apply (Fw q c [] Ep ltac:(auto)). rewrite <- Ep. exact Hi.
  - assert (Tgt : value_kind (ins c) = Some Value16 -> is_ref (val c) -> exists q' d r', p = q' ++ d :: r' /\ value_of p a c = a + total q' /\ names p (val c) (List.length q')).
    { intros K' Rf. destruct (Vp c Ic) as (V & _). unfold value_ok in V. rewrite K' in V. destruct V as [(Nm & _)|(_ & Hi)]; [destruct (ref_not_numeral _ Rf Nm)|].
      destruct (address_first p a (val c) Hi) as (q' & d & r' & Ep' & Ad & Ld & Nq). exists q', d, r'. split; [exact Ep'|]. split; [|exists q', d, r'; auto]. unfold value_of. rewrite K'. unfold is_ref in Rf. rewrite Rf. exact Ad. }
    (* what is left to do from a line below, in the same routine *)
    assert (Go : forall n t q' d r', after_steps n s t -> p = q' ++ d :: r' -> total q < total q' -> PC t = a + total q' -> rt (List.length q') = rt (List.length q) -> SP t = b - dep (List.length q') -> holds (M t) a bytes -> (forall x, b <= x < top -> M t x = M s x) -> finishes (rt (List.length q)) s b).
    { intros n t q' d r' A Ep' Lt Pt Rt St Ht Mt. assert (Lr' : (List.length r' < List.length r)%nat) by (apply (lines_apart q c r q' d r'); [congruence|exact Lt]).
      destruct (IHr t q' d r' b ltac:(rewrite Rt; exact HN) ltac:(lia) Ht Ep' Pt St R1 ltac:(rewrite Rt; exact R2) ltac:(rewrite Rt; exact R3)) as (m & u & A' & [F|(P0 & P1 & P2 & P3 & P4)]); exists (n + m)%nat, u; (split; [exact (after_trans _ _ _ _ _ A A')|]); [left; exact F|]. rewrite Rt in P0. specialize (R3 P0).
      right. rewrite <- (Mt b), <- (Mt (b + 1)) by lia. do 4 (split; [assumption|]). intros x Hx. rewrite P4, Mt by lia. reflexivity. }
    pose proof (st_next _ _ _ _ Sd q c r Ep) as Nx. pose proof (st_jump _ _ _ _ Sd q c r Ep) as Jx. pose proof (st_call _ _ _ _ Sd q c r Ep) as Cx. cbv zeta in *. pose proof (size_pos (ins c)) as Sz.
    assert (Lq : List.length (q ++ [c]) = S (List.length q)) by (rewrite app_length; cbn [List.length]; lia).
    assert (Tn : total (q ++ [c]) = total q + AsmSpec.size (ins c)) by (rewrite total_app; cbn [total fold_right]; lia).
    assert (Cs : ins c = CALL \/ ins c = RET \/ plain_line a (total p) c).
    { unfold plain_line. unfold routine_line in Si. destruct (ins c); auto. tauto. }
    destruct Cs as [Ec|[Er|Pl]]; [|exact (Ret Er)|].
    + (* the routine called returns, and this one goes on *)
      assert (Si' : is_ref (val c)) by (unfold routine_line in Si; rewrite Ec in Si; exact Si).
      destruct (line_after p q c r Cl Ep ltac:(rewrite Ec; discriminate) ltac:(rewrite Ec; discriminate) ltac:(rewrite Ec; discriminate)) as (e & r2 & Ep2).
      rewrite Ec in *. change (AsmSpec.size CALL) with 3 in *. cbn [growth] in *. destruct (Tgt eq_refl Si') as (q' & d & r' & Ep' & Vc & Nm). destruct (Cx eq_refl _ Nm) as (N0 & Dj & Nd). destruct (st_fits _ _ _ _ Sd q' d r' Ep') as (D1' & _). cbv zeta in D1'.
      destruct (call_step s ltac:(lia) ltac:(lia) Dc ltac:(lia)) as (Pn & Sn & _ & Mn). rewrite (Op eq_refl), Vc in Pn.
      assert (Mo : forall x, ~ (SP s - 2 <= x < SP s) -> M (step s) x = M s x) by (intros x Hx; rewrite Mn; replace (x =? SP s - 2) with false by lia; replace (x =? SP s - 1) with false by lia; reflexivity).
      assert (Ho' : holds (M (step s)) a bytes) by (intros k Hk; rewrite Mo by lia; apply Ho; exact Hk).
      destruct (Nx ltac:(discriminate) ltac:(discriminate) ltac:(discriminate)) as (X1 & X2). rewrite Z.add_0_r in X2.
      destruct (IHN (Z.to_nat (need (rt (List.length q')))) ltac:(lia) (List.length r') (step s) q' d r' (SP s - 2) ltac:(lia) ltac:(lia) Ho' Ep' Pn ltac:(lia) ltac:(lia) ltac:(lia) ltac:(lia)) as (n & t & A & [F|(_ & T1 & T2 & T3 & T4)]).
      * exists (1 + n)%nat, t. split; [exact (after_trans _ _ _ _ _ (after_one s Nf) A)|left; exact F].
      * apply (Go (1 + n)%nat t (q ++ [c]) e r2 (after_trans _ _ _ _ _ (after_one s Nf) A) Ep2); [lia| |rewrite Lq; exact X1|rewrite Lq, X2; lia|exact T3|intros x Hx; rewrite T4, Mo by lia; reflexivity].
        rewrite T1, !Mn. replace (SP s - 2 + 1 =? SP s - 2) with false by lia. replace (SP s - 2 + 1 =? SP s - 1) with true by lia. rewrite Z.eqb_refl. pose proof (Z.div_mod (PC s + 3) 256). lia.
    + destruct (plain_step a (total p) s c ltac:(lia) ltac:(lia) Dc Sy Pl ltac:(lia)) as (Pn & Sn & _ & Mn).
      assert (Ms : forall x, M (step s) x = M s x \/ (ins c = STA /\ x = numeral_value (val c)) \/ (ins c = PUSH /\ x = SP s - 1)).
      { intros x. destruct (Mn x) as [E|[(St & ->)|Pu]]; auto. right. left. split; [exact St|]. assert (K' : value_kind (ins c) = Some Value16) by (rewrite St; reflexivity). rewrite (Op K').
        unfold plain_line in Pl. rewrite St in Pl. destruct Pl as (Nr & _). unfold value_of. rewrite K'. apply nonref_head. exact Nr. }
      assert (Gr : ins c = PUSH -> top - need 0%nat <= SP s - 1 < b) by (intros X; rewrite X in D2; cbn [growth] in D2; lia).
      assert (Out : ins c = STA -> ~ (a <= numeral_value (val c) < a + total p) /\ ~ (top - need 0%nat <= numeral_value (val c) < top)) by (intros X; unfold routine_line in Si; rewrite X in Si; tauto).
      assert (Up : forall x, b <= x < top -> M (step s) x = M s x) by (intros x Hx; destruct (Ms x) as [E|[(St & E)|(Pu & E)]]; [exact E|destruct (Out St); lia|specialize (Gr Pu); lia]).
      assert (Ho' : holds (M (step s)) a bytes).
      { intros k Hk. rewrite <- (Ho k Hk). destruct (Ms (a + Z.of_nat k)) as [E|[(St & E)|(Pu & E)]]; [exact E|destruct (Out St); lia|specialize (Gr Pu); lia]. }
      destruct Pn as [(Pn & Nj)|(Pn & Jm)].
      * assert (Nr : ins c <> RET) by (intros X; unfold plain_line in Pl; rewrite X in Pl; destruct Pl).
        destruct (line_after p q c r Cl Ep Nfin Nj Nr) as (d & r' & Ep'). destruct (Nx Nfin Nj Nr) as (X1 & X2). apply (Go 1%nat (step s) (q ++ [c]) d r' (after_one s Nf) Ep'); [lia|lia|rewrite Lq; exact X1|rewrite Lq, X2; lia|exact Ho'|exact Up].
      * assert (K' : value_kind (ins c) = Some Value16) by (destruct Jm as [X|[X|X]]; rewrite X; reflexivity). rewrite (Op K') in Pn.
        assert (Rf : is_ref (val c)) by (unfold plain_line in Pl; destruct Jm as [X|[X|X]]; rewrite X in Pl; exact Pl).
        destruct (Tgt K' Rf) as (q' & d & r' & Ep' & Vc & Nm). destruct (Jx Jm _ Nm) as (X1 & X2).
        apply (Go 1%nat (step s) q' d r' (after_one s Nf) Ep'); [|congruence|exact X1|rewrite Sn, Ps, X2; replace (growth (ins c)) with 0 by (destruct Jm as [X|[X|X]]; rewrite X; reflexivity); lia|exact Ho'|exact Up].
        (* the line named is below *)
        pose proof (Fw q c r Ep Jm) as Nl. destruct (Vp c Ic) as (V & _). unfold value_ok in V. rewrite K' in V. destruct V as [(Nu & _)|(_ & Hi)]; [destruct (ref_not_numeral _ Rf Nu)|].
        assert (Eq : p = (q ++ [c]) ++ r) by (rewrite <- app_assoc; exact Ep). rewrite Eq, map_app in Hi. apply in_app_or in Hi. destruct Hi as [Hi|Hi]; [destruct (Nl Hi)|].
        unfold value_of in Vc. rewrite K' in Vc. unfold is_ref in Rf. rewrite Rf in Vc. rewrite Eq, (address_below _ _ _ _ Nl) in Vc. pose proof (address_inside r (a + total (q ++ [c])) (val c) Hi). lia.
Qed.
End Ends.

(** The programs of C113_routines whose jumps, but not calls, go to lines below: 'run program' ends, whatever the registers,
    flags and the rest of memory hold. *)
Theorem C113_ends : forall lines codes a top rt dep need u l h s, program lines codes a -> a + total (somes codes) <= 65535 ->
  (forall c, In c (somes codes) -> routine_line a (total (somes codes)) (top - need 0%nat) top c) -> ends_well (somes codes) -> structured (somes codes) rt dep need -> forwards (somes codes) ->
  need 0%nat <= top <= 65535 -> a + total (somes codes) <= top - need 0%nat \/ top <= a -> live l h true -> boundary h -> shows h s -> get_register_value R_SP h = Some top ->
  exists out slots h1 h', parse_input (text_of lines) a = Some out /\ new_translation out = Some slots /\ placed a (slot_values slots) h h1 /\ run_program u false h1 h' /\
    exists n us hn b, instructions n h1 us hn /\ shows hn b /\ shows h' b.
Proof.
  intros lines codes a top rt dep need u l h s P Fa Rp Cl Sd Fw Tp Di L Bd Sh St. pose proof P as (P1 & P2 & P3 & P4 & P5 & P6).
  destruct (C44_image _ _ a P1 P2 P3 P4 P5 P6) as (out & x & A1 & A2 & Im & _). set (p := somes codes) in *. pose proof (image_total _ _ _ _ Im) as Ln. pose proof (image_bytes _ _ _ _ _ P3 P5 P6 Im) as By.
  pose proof Cl as (q0 & c0 & Ep0 & Fc0). assert (Np : 1 <= total p). { rewrite Ep0, total_app. pose proof (total_pos q0). cbn [total fold_right]. pose proof (size_pos (ins c0)). lia. }
  destruct (placed_shows a (slot_values x) l h s L Bd Sh ltac:(lia) ltac:(lia) By) as (h1 & l1 & Pl & Lv & Bd1 & Sh1). set (s1 := ready_at a (slot_values x) s) in *.
  pose proof Sh as (_ & _ & _ & _ & _ & _ & _ & _ & Y9 & _ & _). rewrite Y9 in St. injection St as St.
  assert (F : exists n, first_fin n s1).
  { assert (X : exists c r, p = c :: r) by (destruct p as [|c r]; [cbn in Np; lia|eauto]). destruct X as (c & r & Ep). destruct (st_first _ _ _ _ Sd) as (R0 & D0). destruct (st_fits _ _ _ _ Sd [] c r Ep) as (D1 & _). cbn [List.length] in D1. cbv zeta in D1. rewrite R0 in D1.
    assert (X : finishes a top (slot_values x) 0%nat s1 top).
    { rewrite <- R0. change 0%nat with (@List.length code []). apply (routine_ends p a top (slot_values x) rt dep need Im P5 Fa P3 Rp Cl Sd Fw Tp Di (Z.to_nat (need 0%nat)) (List.length r) s1 [] c r top); cbn [List.length]; rewrite ?R0, ?D0; try lia; try exact Ep; [apply stored_holds|cbn; lia|cbn [SP s1 ready_at]; lia]. }
    destruct X as (n & t & (-> & Nf) & [F|(N0 & _)]); [|destruct (N0 eq_refl)]. exists n. split; assumption. }
  destruct F as (n & Ff). destruct (C41_stops_after_fin n u l1 h1 true s1 ltac:(auto) Lv Bd1 Sh1 Ff) as (h' & R & S' & _).
  destruct (C14_programs_run (S n) u l1 h1 true s1 Lv Bd1 Sh1 ltac:(auto)) as (hn & In1). destruct (C14_programs (S n) l1 h1 true s1 _ hn Lv Bd1 Sh1 In1) as (Sn & _).
  exists out, x, h1, h'. do 4 (split; [assumption|]). exists (S n). eexists. exists hn, (steps (S n) s1). split; [exact In1|]. split; assumption.
Qed.
(** The other hypotheses are met by C113_nonvacuous, of a program that calls twice a routine that calls another;
    PropsRoutinesCase.v has a case with a jump in a routine. *)
Example C113_ends_nonvacuous : forwards (somes sub_codes).
Proof.
  intros q c r Ep J. unfold sub_codes in Ep. cbn [somes] in Ep. exfalso. assert (Ic : In c (somes sub_codes)) by (unfold sub_codes; cbn [somes]; rewrite Ep; apply in_or_app; right; left; reflexivity).
  unfold sub_codes in Ic. cbn [somes In] in Ic. repeat (destruct Ic as [<-|Ic]; [cbn [ins] in J; destruct J as [J|[J|J]]; discriminate J|]). destruct Ic.
Qed.
Print Assumptions C113_ends.
Print Assumptions C113_ends_nonvacuous.
