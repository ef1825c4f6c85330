(** * C107: a program put in another place of memory does the same there *)
From Coq Require Import ZArith List Bool Lia ZifyBool.
From Verif Require Import Prog Isa Access Relocate Api Usage Front IsaFacts Reach PropsApi PropsIsa PropsRun IsaRun.
From Verif Require Import PropsRepro.
Import ListNotations.
Open Scope Z_scope.

(** ** One instruction *)
Definition cop (p : place) (T : Z -> kind) (ls lt : list msg) (s t : arch) : Prop :=
  copied p T s t /\ exists w, log s = w ++ ls /\ log t = w ++ lt.
Ltac cop_tac := intros; match goal with H : cop _ _ _ _ _ _ |- _ => destruct H as ([(A1 & A2 & A3 & A4 & A5 & A6 & A7 & A8) Cpc Ccode Crefs Crest Crets] & (w & W1 & W2)) end.
Lemma cop_put p T ls lt r v s t : cop p T ls lt s t -> cop p T ls lt (put r v s) (put r v t).
Proof. cop_tac. split; [|exists w; destruct r; auto]. destruct r; constructor; cbn [AC FC FZ B C D E PC SP M log write put put_ac put_flags put_sp put_pc note]; auto 10. Qed.
Lemma cop_ac p T ls lt v s t : cop p T ls lt s t -> cop p T ls lt (put_ac v s) (put_ac v t).
Proof. cop_tac. split; [|exists w; auto]. constructor; cbn [AC FC FZ B C D E PC SP M log write put put_ac put_flags put_sp put_pc note]; auto 10. Qed.
Lemma cop_flags p T ls lt c z s t : cop p T ls lt s t -> cop p T ls lt (put_flags c z s) (put_flags c z t).
Proof. cop_tac. split; [|exists w; auto]. constructor; cbn [AC FC FZ B C D E PC SP M log write put put_ac put_flags put_sp put_pc note]; auto 10. Qed.
Lemma cop_sp p T ls lt v s t : cop p T ls lt s t -> cop p T ls lt (put_sp v s) (put_sp v t).
Proof. cop_tac. split; [|exists w; auto]. constructor; cbn [AC FC FZ B C D E PC SP M log write put put_ac put_flags put_sp put_pc note]; auto 10. Qed.
Lemma cop_pc p T ls lt v v' s t : v' = goes_on p v -> cop p T ls lt s t -> cop p T ls lt (put_pc v s) (put_pc v' t).
Proof. intro Ev. cop_tac. split; [|exists w; auto]. constructor; cbn [AC FC FZ B C D E PC SP M log write put put_ac put_flags put_sp put_pc note]; auto 10. Qed.
Lemma cop_note p T ls lt m s t : cop p T ls lt s t -> cop p T ls lt (note m s) (note m t).
Proof. cop_tac. split; [|exists (m :: w); cbn; rewrite W1, W2; auto]. constructor; cbn [AC FC FZ B C D E PC SP M log write put put_ac put_flags put_sp put_pc note]; auto 10. Qed.
Lemma cop_get p T ls lt s t : cop p T ls lt s t -> (forall r, get r t = get r s) /\ AC t = AC s /\ FC t = FC s /\ FZ t = FZ s /\ SP t = SP s /\ DE t = DE s /\ flags_byte t = flags_byte s /\ PC t = goes_on p (PC s).
Proof. cop_tac. unfold DE, flags_byte. rewrite A2, A3, A6, A7. repeat split; auto. intro r; destruct r; auto. Qed.
Lemma cop_alu p T ls lt o b s t : cop p T ls lt s t -> cop p T ls lt (alu_step o b s) (alu_step o b t).
Proof.
  intro H. unfold alu_step. destruct (cop_get _ _ _ _ _ _ H) as (_ & -> & _). apply cop_flags. destruct o; try apply cop_ac; exact H.
Qed.
Lemma cop_up p T ls lt s t : cop p T ls lt s t -> cop p T ls lt (sp_up s) (sp_up t).
Proof. intro H. unfold sp_up. destruct (cop_get _ _ _ _ _ _ H) as (_ & _ & _ & _ & -> & _). destruct (_ =? _); [apply cop_note|apply cop_sp]; exact H. Qed.
Lemma cop_down p T ls lt s t : cop p T ls lt s t -> cop p T ls lt (sp_down s) (sp_down t).
Proof. intro H. unfold sp_down. destruct (cop_get _ _ _ _ _ _ H) as (_ & _ & _ & _ & -> & _). destruct (_ =? _); [apply cop_note|apply cop_sp]; exact H. Qed.
Lemma goes_in p x : inside p x -> goes_on p x = x + shift p /\ goes_on p (x + 1) = x + 1 + shift p /\ there p x = x + shift p.
Proof.
  unfold inside, goes_on, there. intro H.
  replace ((base p <=? x) && (x <=? base p + size p)) with true by lia.
  replace ((base p <=? x + 1) && (x + 1 <=? base p + size p)) with true by lia.
  replace ((base p <=? x) && (x <? base p + size p)) with true by lia. auto.
Qed.
Lemma there_out p x : ~ inside p x -> there p x = x.
Proof. unfold inside, there. intro H. replace ((base p <=? x) && (x <? base p + size p)) with false by lia. reflexivity. Qed.
Lemma there_goes p x : x <> base p + size p -> there p x = goes_on p x.
Proof. unfold there, goes_on. intro H. replace (x <=? base p + size p) with (x <? base p + size p) by lia. reflexivity. Qed.
Lemma cop_next p T ls lt s t : fits p -> inside p (PC s) -> cop p T ls lt s t ->
  cop p T ls lt (pc_next s) (pc_next t) /\ pc_next s = put_pc (PC s + 1) s.
Proof.
  intros F I H. destruct (cop_get _ _ _ _ _ _ H) as (_ & _ & _ & _ & _ & _ & _ & Ep). destruct F as (F1 & F2 & F3 & F4 & _).
  destruct (goes_in p _ I) as (G1 & G2 & _). unfold inside in I. unfold pc_next. rewrite Ep, G1.
  replace (PC s =? 65535) with false by lia. replace (PC s + shift p =? 65535) with false by lia.
  split; [|reflexivity]. apply cop_pc; [rewrite G2; ring|exact H].
Qed.
(** Operands. *)
Lemma cop_imm p T ls lt k s t : fits p -> literal p (PC s) -> cop p T ls lt s t ->
  (forall v s' t', cop p T ls lt s' t' -> cop p T ls lt (k v s') (k v t')) -> cop p T ls lt (with_imm k s) (with_imm k t).
Proof.
  intros F L H Hk. destruct (cop_next p T ls lt s t F (proj1 L) H) as (H1 & _). unfold with_imm, imm.
  destruct (cop_get _ _ _ _ _ _ H) as (_ & _ & _ & _ & _ & _ & _ & ->). destruct (goes_in p _ (proj1 L)) as (-> & _).
  rewrite (cp_code _ _ _ _ (proj1 H) _ L). apply Hk. exact H1.
Qed.
Lemma cop_dir p T ls lt s t : fits p -> refs p (PC s) -> cop p T ls lt s t ->
  let d := 256 * M s (PC s) + M s (PC s + 1) in
  exists s' t', (forall k, with_dir k s = k d s') /\ (forall k, with_dir k t = k (there p d) t') /\ cop p T ls lt s' t' /\ s' = put_pc (PC s + 2) s.
Proof.
  intros F R H d. pose proof (proj2 (proj2 (proj2 (proj2 F))) _ R) as (I1 & I2).
  destruct (cop_next p T ls lt s t F I1 H) as (H1 & E1). pose proof H1 as H1'. rewrite E1 in H1'.
  destruct (cop_next p T ls lt (put_pc (PC s + 1) s) (pc_next t) F I2 H1') as (H2 & E2). cbn [PC put_pc] in E2.
  destruct (cop_get _ _ _ _ _ _ H) as (_ & _ & _ & _ & _ & _ & _ & Ep). destruct (cop_get _ _ _ _ _ _ H1') as (_ & _ & _ & _ & _ & _ & _ & Ep').
  cbn [PC put_pc] in Ep'. destruct (goes_in p _ I1) as (G1 & G2 & _). rewrite G1 in Ep. rewrite G2 in Ep'.
  exists (pc_next (pc_next s)), (pc_next (pc_next t)). split; [|split; [|split]].
  - intro k. unfold with_dir, with_imm, imm. rewrite E1. reflexivity.
  - intro k. unfold with_dir, with_imm, imm. rewrite Ep', Ep. unfold d. rewrite <- (cp_refs _ _ _ _ (proj1 H) _ R).
    replace (M (pc_next t)) with (M t) by (unfold pc_next; destruct (_ =? _); reflexivity). reflexivity.
  - rewrite E1. exact H2.
  - rewrite E1, E2. unfold put_pc. cbn. f_equal. ring.
Qed.
(** Writing. *)
Lemma cop_write p (T : Z -> kind) ls lt a v s t : fits p -> literal p a \/ aside p a -> cop p T ls lt s t ->
  cop p (fun x => if x =? a then Plain else T x) ls lt (write a v s) (write (there p a) v t).
Proof.
  intros F Ha. cop_tac. split; [|exists w; auto]. pose proof (proj2 (proj2 (proj2 (proj2 F)))) as FR.
  destruct Ha as [La|Aa].
  - destruct (goes_in p a (proj1 La)) as (_ & _ & ->). destruct La as (Ia & N1 & N2). constructor; cbn [AC FC FZ B C D E PC SP M log write put put_ac put_flags put_sp put_pc note]; auto 10.
    + intros x Lx. replace (x + shift p =? a + shift p) with (x =? a) by lia. destruct (x =? a); auto.
    + intros x Rx. assert (x <> a) by congruence. assert (x + 1 <> a) by (intros <-; apply N2; replace (x + 1 - 1) with x by ring; exact Rx).
      replace (x + shift p =? a + shift p) with false by lia. replace (x + 1 + shift p =? a + shift p) with false by lia.
      replace (x =? a) with false by lia. replace (x + 1 =? a) with false by lia. auto.
    + intros x (Nx & Nx') K. assert (x <> a) by congruence. assert (x - shift p <> a) by congruence.
      replace (x =? a + shift p) with false by lia. replace (x =? a) with false in * by lia. apply Crest; [split; assumption|exact K].
    + intros x K1 K2. destruct (x =? a) eqn:Q1; [discriminate|]. destruct (x + 1 =? a) eqn:Q2; [discriminate|].
      destruct (Crets x K1 K2) as (B1 & B2 & B3). split; [assumption|split; [assumption|]].
      assert (x - shift p <> a) by (intro; destruct B1; congruence). assert (x + 1 - shift p <> a) by (intro; destruct B2; congruence).
      replace (x =? a + shift p) with false by lia. replace (x + 1 =? a + shift p) with false by lia. exact B3.
  - destruct Aa as (N1 & N2). rewrite (there_out p a N1). constructor; cbn [AC FC FZ B C D E PC SP M log write put put_ac put_flags put_sp put_pc note]; auto 10.
    + intros x (Ix & Lx). assert (x <> a) by congruence. assert (x <> a - shift p) by congruence.
      replace (x + shift p =? a) with false by lia. replace (x =? a) with false by lia. apply Ccode. split; assumption.
    + intros x Rx. destruct (FR x Rx) as (I1 & I2). assert (x <> a) by congruence. assert (x + 1 <> a) by congruence.
      assert (x <> a - shift p) by congruence. assert (x + 1 <> a - shift p) by congruence.
      replace (x + shift p =? a) with false by lia. replace (x + 1 + shift p =? a) with false by lia.
      replace (x =? a) with false by lia. replace (x + 1 =? a) with false by lia. auto.
    + intros x Ax K. destruct (x =? a); auto.
    + intros x K1 K2. destruct (x =? a) eqn:Q1; [discriminate|]. destruct (x + 1 =? a) eqn:Q2; [discriminate|]. apply Crets; assumption.
Qed.
(** Two halves of a return address. *)
Lemma cop_call p (T : Z -> kind) ls lt q h l h' l' s t : fits p -> aside p (q + 1) -> aside p q ->
  256 * h' + l' = goes_on p (256 * h + l) -> cop p T ls lt s t ->
  cop p (fun x => if x =? q then Low else if x =? q + 1 then High else T x) ls lt (write q l (write (q + 1) h s)) (write q l' (write (q + 1) h' t)).
Proof.
  intros F Aq1 Aq Ev. cop_tac. split; [|exists w; auto]. pose proof (proj2 (proj2 (proj2 (proj2 F)))) as FR. destruct Aq1 as (N1 & N2), Aq as (N3 & N4).
  constructor; cbn [AC FC FZ B C D E PC SP M log write put put_ac put_flags put_sp put_pc note]; auto 10.
  - intros x (Ix & Lx). assert (x <> q) by congruence. assert (x <> q + 1) by congruence. assert (x <> q - shift p) by congruence. assert (x <> q + 1 - shift p) by congruence.
    replace (x + shift p =? q) with false by lia. replace (x + shift p =? q + 1) with false by lia. replace (x =? q) with false by lia. replace (x =? q + 1) with false by lia.
    apply Ccode. split; assumption.
  - intros x Rx. destruct (FR x Rx) as (I1 & I2). assert (x <> q) by congruence. assert (x <> q + 1) by congruence. assert (x + 1 <> q) by congruence. assert (x + 1 <> q + 1) by congruence.
    assert (x <> q - shift p) by congruence. assert (x <> q + 1 - shift p) by congruence. assert (x + 1 <> q - shift p) by congruence. assert (x + 1 <> q + 1 - shift p) by congruence.
    replace (x + shift p =? q) with false by lia. replace (x + shift p =? q + 1) with false by lia. replace (x + 1 + shift p =? q) with false by lia. replace (x + 1 + shift p =? q + 1) with false by lia.
    replace (x =? q) with false by lia. replace (x =? q + 1) with false by lia. replace (x + 1 =? q) with false by lia. replace (x + 1 =? q + 1) with false by lia. auto.
  - intros x Ax K. destruct (x =? q); [discriminate|]. destruct (x =? q + 1); [discriminate|]. auto.
  - intros x K1 K2. destruct (x =? q) eqn:Q1.
    + assert (x = q) by lia. subst x. split; [split; assumption|split; [split; assumption|]].
      replace (q + 1 =? q) with false by lia. rewrite Z.eqb_refl. exact Ev.
    + destruct (x =? q + 1) eqn:Q2; [discriminate|]. destruct (x + 1 =? q) eqn:Q3; [discriminate|]. replace (x + 1 =? q + 1) with false in * by lia.
      apply Crets; assumption.
Qed.
Lemma cop_ext p (T T' : Z -> kind) ls lt s t : (forall x, T' x = T x) -> cop p T ls lt s t -> cop p T' ls lt s t.
Proof.
  intro X. cop_tac. split; [|exists w; auto]. constructor; auto 10.
  - intros x Ax K. apply Crest; [exact Ax|]. rewrite <- X. exact K.
  - intros x K1 K2. apply Crets; rewrite <- X; assumption.
Qed.
Lemma down_eq s : 1 <= SP s -> sp_down s = put_sp (SP s - 1) s.
Proof. intro H. unfold sp_down. replace (SP s =? 0) with false by lia. reflexivity. Qed.

Lemma step_cop p T ls lt s t : fits p -> valid s -> cop p T ls lt s t -> tame p T s -> cop p (tags T s) ls lt (step s) (step t).
Proof.
  intros F V H (Lp & Hm). pose proof V as (_ & _ & _ & _ & _ & Vp & Vs & _). pose proof F as (F1 & F2 & F3 & F4 & FR).
  assert (Lp' := Lp). destruct Lp' as (Ip & _). unfold inside in Ip.
  assert (Ep : PC t = PC s + shift p) by (rewrite (cp_pc _ _ _ _ (proj1 H)); apply goes_in; exact (proj1 Lp)).
  assert (Eo : M t (PC t) = M s (PC s)) by (rewrite Ep; apply (cp_code _ _ _ _ (proj1 H)); exact Lp).
  unfold step, tags. rewrite Eo. cbv zeta in Hm.
  destruct (cop_next p T ls lt s t F (proj1 Lp) H) as (H1 & E1).
  destruct (cop_get _ _ _ _ _ _ H1) as (G1 & G2 & G3 & G4 & G5 & G6 & G7 & G8).
  assert (P1 : PC (pc_next s) = PC s + 1) by (rewrite E1; reflexivity). assert (M1 : M (pc_next s) = M s) by (rewrite E1; reflexivity).
  assert (S1 : SP (pc_next s) = SP s) by (rewrite E1; reflexivity). assert (D1 : DE (pc_next s) = DE s) by (rewrite E1; reflexivity).
  assert (Z1 : SP t = SP s) by (rewrite (proj2 (proj2 (proj2 (proj2 (proj2 (proj2 (proj2 (cp_regs _ _ _ _ (proj1 H))))))))); reflexivity).
  assert (Op : refs p (PC s + 1) -> operand s = 256 * M s (PC s + 1) + M s (PC s + 1 + 1)).
  { intro R. destruct (FR _ R) as (I1 & I2). unfold inside in *. unfold operand, after. rewrite Z.min_r by lia. rewrite Z.min_r by lia. reflexivity. }
  assert (Dir : refs p (PC s + 1) -> exists s' t', (forall k, with_dir k (pc_next s) = k (operand s) s') /\ (forall k, with_dir k (pc_next t) = k (there p (operand s)) t') /\
    cop p T ls lt s' t' /\ s' = put_pc (PC s + 3) s).
  { intro R. rewrite (Op R). pose proof R as R'. rewrite <- P1 in R'. destruct (cop_dir p T ls lt _ _ F R' H1) as (s' & t' & X1 & X2 & X3 & X4). rewrite P1, M1 in *.
    exists s', t'. repeat (split; [assumption|]). rewrite X4, E1. unfold put_pc. cbn. f_equal. ring. }
  set (i := decode (M s (PC s))) in *. clearbody i.
  destruct i; cbn [exec_instr]; try contradiction.
  - rewrite G1. apply cop_put, H1.
  - rewrite G1. apply cop_ac, H1.
  - rewrite G2. apply cop_put, H1.
  - exact H1.
  - apply cop_imm; [exact F|rewrite P1; exact Hm|exact H1|]. intros. apply cop_put. assumption.
  - apply cop_imm; [exact F|rewrite P1; exact Hm|exact H1|]. intros. apply cop_ac. assumption.
  - destruct x; [rewrite G1; apply cop_alu, H1|rewrite G2; apply cop_alu, H1|].
    apply cop_imm; [exact F|rewrite P1; exact Hm|exact H1|]. intros. apply cop_alu. assumption.
  - rewrite G1. apply cop_flags, cop_put, H1.
  - rewrite G2. apply cop_flags, cop_ac, H1.
  - rewrite G2. apply cop_flags, cop_ac, H1.
  - destruct Hm as (R & Hd). destruct (Dir R) as (s' & t' & X1 & X2 & X3 & X4). rewrite X1, X2.
    replace (M t' (there p (operand s))) with (M s' (operand s)); [apply cop_ac; exact X3|].
    destruct Hd as [Ld|(Ad & Kd)].
    + destruct (goes_in p _ (proj1 Ld)) as (_ & _ & ->). symmetry. apply (cp_code _ _ _ _ (proj1 X3)). exact Ld.
    + rewrite there_out by (apply Ad). symmetry. apply (cp_rest _ _ _ _ (proj1 X3)); assumption.
  - destruct Hm as (R & Hd). destruct (Dir R) as (s' & t' & X1 & X2 & X3 & X4). rewrite X1, X2.
    destruct (cop_get _ _ _ _ _ _ X3) as (_ & -> & _). apply cop_write; assumption.
  - destruct Hm as (Ad & Kd). rewrite G6, D1. replace (M (pc_next t) (DE s)) with (M (pc_next s) (DE s)); [apply cop_ac; exact H1|].
    symmetry. apply (cp_rest _ _ _ _ (proj1 H1)); assumption.
  - rewrite G2, G6, D1. pose proof (cop_write p T ls lt (DE s) (AC (pc_next s)) _ _ F (or_intror Hm) H1) as H2. rewrite there_out in H2 by (apply Hm). exact H2.
  - destruct Hm as (R & N). destruct (Dir R) as (s' & t' & X1 & X2 & X3 & X4). rewrite X1, X2.
    destruct (cop_get _ _ _ _ _ _ X3) as (_ & _ & _ & -> & _). destruct (FZ s'); [|exact X3]. apply cop_pc; [apply there_goes; exact N|exact X3].
  - destruct Hm as (R & N). destruct (Dir R) as (s' & t' & X1 & X2 & X3 & X4). rewrite X1, X2.
    destruct (cop_get _ _ _ _ _ _ X3) as (_ & _ & -> & _). destruct (FC s'); [|exact X3]. apply cop_pc; [apply there_goes; exact N|exact X3].
  - destruct Hm as (R & N). destruct (Dir R) as (s' & t' & X1 & X2 & X3 & X4). rewrite X1, X2. apply cop_pc; [apply there_goes; exact N|exact X3].
  - rewrite G7. apply cop_ac, H1.
  - rewrite G2. unfold load_flags. apply cop_flags, H1.
  - destruct Hm as (R & N). destruct (Dir R) as (s' & t' & X1 & X2 & X3 & X4). rewrite X1, X2, there_out by exact N. apply cop_sp, X3.
  - rewrite G2. unfold push. pose proof (cop_down _ _ _ _ _ _ H1) as H2. destruct (cop_get _ _ _ _ _ _ H2) as (_ & _ & _ & _ & -> & _).
    rewrite (proj1 (down_sp (pc_next s) ltac:(lia))), S1. pose proof (cop_write p T ls lt (before (SP s)) (AC (pc_next s)) _ _ F (or_intror Hm) H2) as H3. rewrite there_out in H3 by (apply Hm). exact H3.
  - destruct Hm as (Ad & Kd). unfold pop. rewrite G5, S1. replace (M (pc_next t) (SP s)) with (M (pc_next s) (SP s)); [apply cop_ac, cop_up; exact H1|].
    symmetry. apply (cp_rest _ _ _ _ (proj1 H1)); assumption.
  - destruct Hm as ((R & N) & Hs & A1 & A2). destruct (Dir R) as (s' & t' & X1 & X2 & X3 & X4). rewrite X1, X2. clear X1 X2.
    destruct (cop_get _ _ _ _ _ _ X3) as (_ & _ & _ & _ & Y5 & _ & _ & Y8).
    assert (Q : SP s' = SP s) by (rewrite X4; reflexivity). unfold push.
    rewrite (down_eq s') by lia. rewrite (down_eq t') by lia. cbn [SP put_sp write].
    rewrite (down_eq (write _ _ (put_sp _ s'))) by (cbn; lia). rewrite (down_eq (write _ _ (put_sp _ t'))) by (cbn; lia). cbn [SP put_sp write].
    rewrite Y5, Q. apply cop_pc; [apply there_goes; exact N|].
    set (q := SP s - 2) in *. replace (SP s - 1) with (q + 1) in * by (unfold q; ring). replace (q + 1 - 1) with q by ring.
    pose proof (cop_call p T ls lt q (PC s' / 256) (PC s' mod 256) (PC t' / 256) (PC t' mod 256) _ _ F A1 A2
      ltac:(rewrite <- !Z.div_mod by lia; exact Y8) (cop_sp p T ls lt q _ _ X3)) as H2.
    exact H2.
  - destruct Hm as (K1 & K2 & Hs). destruct (cp_rets _ _ _ _ (proj1 H1) _ K1 K2) as (A1 & A2 & A3).
    pose proof (cop_up _ _ _ _ _ _ (cop_up _ _ _ _ _ _ H1)) as H2. unfold pop. rewrite G5, S1.
    destruct (up_sp (pc_next s) ltac:(lia)) as (U1 & U2). destruct (up_sp (pc_next t) ltac:(lia)) as (U3 & U4).
    rewrite U1, U2, U3, U4, G5, S1. unfold after. rewrite Z.min_r by lia. apply cop_pc; [exact A3|exact H2].
  - destruct Hm as (K1 & K2 & Hs & Ad & Kd). destruct (cp_rets _ _ _ _ (proj1 H1) _ K1 K2) as (A1 & A2 & A3).
    pose proof (cop_up _ _ _ _ _ _ (cop_up _ _ _ _ _ _ (cop_up _ _ _ _ _ _ H1))) as H2. unfold pop.
    destruct (up_sp (pc_next s) ltac:(lia)) as (U1 & U2). destruct (up_sp (pc_next t) ltac:(lia)) as (U3 & U4).
    destruct (up_sp (sp_up (pc_next s))) as (U5 & U6); [rewrite U1; apply after_le|]. destruct (up_sp (sp_up (pc_next t))) as (U7 & U8); [rewrite U3; apply after_le|].
    rewrite U5, U6, U7, U8, U1, U2, U3, U4, G5, S1. unfold after. rewrite Z.min_r by lia. rewrite Z.min_r by lia.
    replace (SP s + 1 + 1) with (SP s + 2) by ring.
    replace (M (pc_next t) (SP s + 2)) with (M (pc_next s) (SP s + 2)) by (symmetry; apply (cp_rest _ _ _ _ (proj1 H1)); assumption).
    unfold load_flags. apply cop_flags, cop_pc; [exact A3|exact H2].
  - exact H1.
  - exact H1.
  - apply cop_imm; [exact F|rewrite P1; exact Hm|exact H1|]. auto.
Qed.

(** ** Many instructions *)
Lemma run_cop n : forall p T ls lt s t, fits p -> (forall m, (m <= n)%nat -> valid (steps m s)) -> cop p T ls lt s t -> tames p T n s ->
  cop p (tagged T n s) ls lt (steps n s) (steps n t) /\ total_cycles n s = total_cycles n t /\ (forall m, (m < n)%nat -> opcode (steps m s) = opcode (steps m t)).
Proof.
  induction n as [|n IH]; intros p T ls lt s t F V H R.
  - split; [exact H|]. split; [reflexivity|]. intros; lia.
  - cbn [tames] in R. destruct R as (R1 & R2). pose proof (step_cop p T ls lt s t F (V 0%nat ltac:(lia)) H R1) as H1.
    destruct (IH p _ ls lt (step s) (step t) F ltac:(intros m Hm; apply (V (S m)); lia) H1 R2) as (L & Cy & O).
    destruct (cop_get _ _ _ _ _ _ H) as (_ & _ & G3 & G4 & _ & _ & _ & G8).
    assert (Eo : M t (PC t) = M s (PC s)) by (rewrite G8; destruct (goes_in p _ (proj1 (proj1 R1))) as (-> & _); apply (cp_code _ _ _ _ (proj1 H)); exact (proj1 R1)).
    cbn [steps total_cycles tagged]. split; [exact L|]. split.
    + rewrite Cy, Eo, G3, G4. reflexivity.
    + intros [|m] Hm; [cbn [steps]; unfold opcode; rewrite Eo; reflexivity|]. apply O. lia.
Qed.

(** ** C107 *)
(** Two machines, with whatever histories, on the second of which the program is [shift p] cells
    further on, with its own addresses in it changed accordingly; the program keeps to the rules.
    Then any number of its instructions takes as many clock cycles on the second and leaves the
    same registers, flags, stack pointer and data, the program counter being moved. *)
Theorem C107_runs : forall n p u l1 h1 k1 a1 l2 h2 k2 a2 w h1', fits p ->
  live l1 h1 k1 -> boundary h1 -> shows h1 a1 -> live l2 h2 k2 -> boundary h2 -> shows h2 a2 -> (u = true -> k2 = true) ->
  copied p ordinary a1 a2 -> tames p ordinary n a1 -> instructions n h1 (repeat u w) h1' ->
  exists h2' b1 b2, instructions n h2 (repeat u w) h2' /\ shows h1' b1 /\ shows h2' b2 /\ copied p (tagged ordinary n a1) b1 b2 /\
    exists new, log b1 = new ++ log a1 /\ log b2 = new ++ log a2.
Proof.
  intros n p u l1 h1 k1 a1 l2 h2 k2 a2 w h1' F L1 B1 S1 L2 B2 S2 Hu A R I.
  destruct (C14_programs n l1 h1 k1 a1 _ h1' L1 B1 S1 I) as (S1' & _ & _ & Cy).
  destruct (run_cop n p ordinary (log a1) (log a2) a1 a2 F (fun m _ => live_steps_valid l1 h1 k1 a1 L1 B1 S1 m) (conj A (ex_intro _ [] (conj eq_refl eq_refl))) R) as ((A' & New) & T & _).
  destruct (C14_programs_run n u l2 h2 k2 a2 L2 B2 S2 Hu) as (h2' & I2). rewrite <- T, <- Cy, repeat_length, Nat2Z.id in I2.
  destruct (C14_programs n l2 h2 k2 a2 _ h2' L2 B2 S2 I2) as (S2' & _).
  exists h2', (steps n a1), (steps n a2). repeat (split; [assumption|]). exact New.
Qed.
(** "Run program" stops at FIN on both. *)
Theorem C107_program : forall n p u l1 h1 k1 a1 l2 h2 k2 a2, fits p ->
  live l1 h1 k1 -> boundary h1 -> shows h1 a1 -> live l2 h2 k2 -> boundary h2 -> shows h2 a2 -> (u = true -> k1 = true /\ k2 = true) ->
  copied p ordinary a1 a2 -> first_fin n a1 -> tames p ordinary (S n) a1 ->
  exists h1' h2' b1 b2, run_program u false h1 h1' /\ run_program u false h2 h2' /\ shows h1' b1 /\ shows h2' b2 /\ copied p (tagged ordinary (S n) a1) b1 b2 /\
    exists new, log b1 = new ++ log a1 /\ log b2 = new ++ log a2.
Proof.
  intros n p u l1 h1 k1 a1 l2 h2 k2 a2 F L1 B1 S1 L2 B2 S2 Hu A Ff R.
  destruct (run_cop (S n) p ordinary (log a1) (log a2) a1 a2 F (fun m _ => live_steps_valid l1 h1 k1 a1 L1 B1 S1 m) (conj A (ex_intro _ [] (conj eq_refl eq_refl))) R) as ((A' & New) & T & O).
  assert (F2 : first_fin n a2). { destruct Ff as (F1 & F2). split; [rewrite <- O by lia; exact F1|]. intros m Hm. rewrite <- O by lia. apply F2. exact Hm. }
  destruct (C41_stops_after_fin n u l1 h1 k1 a1 ltac:(intros X; apply Hu; exact X) L1 B1 S1 Ff) as (h1' & P1 & S1' & _).
  destruct (C41_stops_after_fin n u l2 h2 k2 a2 ltac:(intros X; apply Hu; exact X) L2 B2 S2 F2) as (h2' & P2 & S2' & _).
  exists h1', h2', (steps (S n) a1), (steps (S n) a2). repeat (split; [assumption|]). exact New.
Qed.
(** A program that never ends does not end there either. *)
Theorem C107_endless : forall p u l1 h1 k1 a1 l2 h2 k2 a2, fits p ->
  live l1 h1 k1 -> boundary h1 -> shows h1 a1 -> live l2 h2 k2 -> boundary h2 -> shows h2 a2 -> (u = true -> k1 = true /\ k2 = true) ->
  copied p ordinary a1 a2 -> (forall n, tames p ordinary n a1) -> (forall h', ~ run_program u false h1 h') -> forall h', ~ run_program u false h2 h'.
Proof.
  intros p u l1 h1 k1 a1 l2 h2 k2 a2 F L1 B1 S1 L2 B2 S2 Hu A R N h' P. destruct (C41_stops_only_after_fin u l2 h2 k2 a2 h' ltac:(intros X; apply Hu; exact X) L2 B2 S2 P) as (n & Ff & _).
  destruct (run_cop (S n) p ordinary (log a1) (log a2) a1 a2 F (fun m _ => live_steps_valid l1 h1 k1 a1 L1 B1 S1 m) (conj A (ex_intro _ [] (conj eq_refl eq_refl))) (R (S n))) as (_ & _ & O).
  assert (F1 : first_fin n a1). { destruct Ff as (F1 & F2). split; [rewrite O by lia; exact F1|]. intros m Hm. rewrite O by lia. apply F2. exact Hm. }
  destruct (C41_stops_after_fin n u l1 h1 k1 a1 ltac:(intros X; apply Hu; exact X) L1 B1 S1 F1) as (h1' & P1 & _). exact (N h1' P1).
Qed.

(** ** Cases *)
Definition block (from : Z) (bytes : list Z) (x : Z) : Z :=
  if (from <=? x) && (x <? from + Z.of_nat (length bytes)) then nth (Z.to_nat (x - from)) bytes 0 else 0.
Definition start (pc : Z) (m : Z -> Z) : arch := mkArch 0 false false 0 0 0 0 pc 0 m [].
Lemma start_valid pc m : 0 <= pc <= 65535 -> (forall a, 0 <= m a <= 255) -> valid (start pc m).
Proof. intros. repeat split; cbn; try lia; apply H0. Qed.
Lemma block_byte from bytes : (forall b, In b bytes -> 0 <= b <= 255) -> forall x, 0 <= block from bytes x <= 255.
Proof.
  intros H x. unfold block. destruct (_ && _); [|lia]. destruct (Nat.lt_ge_cases (Z.to_nat (x - from)) (length bytes)) as [G|G]; [apply H, nth_In; exact G|rewrite nth_overflow by exact G; lia].
Qed.
(** INISP 0200; CALL S; FIN; S: INC AC; RET, at 0 and at 0100. *)
Definition here_bytes : list Z := [195; 2; 0; 196; 0; 7; 255; 75; 197].
Definition there_bytes : list Z := [195; 2; 0; 196; 1; 7; 255; 75; 197].
Definition P9 : place := mkPlace 0 9 256 (fun x => x = 1 \/ x = 4).
Lemma P9_literal x : literal P9 x <-> x = 0 \/ x = 3 \/ x = 6 \/ x = 7 \/ x = 8.
Proof. unfold literal, inside. cbn [base size refs P9]. lia. Qed.
Lemma P9_aside x : aside P9 x <-> ~ (0 <= x < 9) /\ ~ (256 <= x < 265).
Proof. unfold aside, inside. cbn [base size shift P9]. lia. Qed.
Ltac val e := let v := eval vm_compute in e in replace e with v by (vm_compute; reflexivity).
Ltac tame_tac := unfold tame;
  match goal with |- context [decode ?e] => val (decode e) end; cbv iota zeta beta;
  match goal with |- literal P9 ?e /\ _ => split; [val e; apply P9_literal; lia|] end.
Example C107_nonvacuous : fits P9 /\ copied P9 ordinary (start 0 (block 0 here_bytes)) (start 256 (block 256 there_bytes)) /\
  first_fin 4 (start 0 (block 0 here_bytes)) /\ tames P9 ordinary 5 (start 0 (block 0 here_bytes)) /\ AC (steps 5 (start 0 (block 0 here_bytes))) = 1 /\
  (exists l h, live l h true /\ boundary h /\ shows h (start 0 (block 0 here_bytes))) /\
  (exists l h, live l h true /\ boundary h /\ shows h (start 256 (block 256 there_bytes))).
Proof.
  split; [unfold fits, inside; cbn [base size shift refs P9]; do 4 (split; [lia|]); intros x Hx; lia|]. split; [|split; [|split; [|split; [reflexivity|]]]].
  - constructor.
    + cbn. auto 10.
    + reflexivity.
    + intros x Lx. apply P9_literal in Lx. destruct Lx as [->|[->|[->|[->| ->]]]]; reflexivity.
    + intros x [->| ->]; reflexivity.
    + intros x Ax _. apply P9_aside in Ax. cbn [M start]. unfold block. cbn [length here_bytes there_bytes].
      replace ((0 <=? x) && (x <? 0 + Z.of_nat 9)) with false by lia. replace ((256 <=? x) && (x <? 256 + Z.of_nat 9)) with false by lia. reflexivity.
    + intros x K. discriminate K.
  - split; [reflexivity|]. intros m Hm. destruct m as [|[|[|[|m]]]]; [| | | |exfalso; lia]; intro X; vm_compute in X; discriminate X.
  - cbn [tames]. split; [tame_tac; val (operand (start 0 (block 0 here_bytes))); unfold inside; cbn [PC start base size refs P9]; lia|].
    split; [tame_tac; cbn [base size refs P9]|].
    { val (PC (step (start 0 (block 0 here_bytes)))). val (operand (step (start 0 (block 0 here_bytes)))). val (SP (step (start 0 (block 0 here_bytes)))).
      split; [lia|]. split; [lia|]. split; apply P9_aside; lia. }
    split; [tame_tac; exact I|]. split; [tame_tac; vm_compute; auto|]. split; [tame_tac; exact I|exact I].
  - split; apply C14_nonvacuous; try reflexivity; (apply start_valid; [lia|]); apply block_byte; intros b Hb; cbn in Hb; lia.
Qed.
(** Copying the bytes alone is not enough: JMP 0004; FIN; INC AC; FIN at 0100 jumps back to 0004. *)
Theorem C107_bytes_refuted : ~ (forall n bytes k, (forall b, In b bytes -> 0 <= b <= 255) -> 0 <= k -> k + Z.of_nat (length bytes) <= 65535 ->
  AC (steps n (start 0 (block 0 bytes))) = AC (steps n (start k (block k bytes)))).
Proof.
  intro H. specialize (H 2%nat [116; 0; 4; 255; 75; 255] 256 ltac:(intros b Hb; cbn in Hb; lia) ltac:(lia) ltac:(cbn; lia)). vm_compute in H. discriminate H.
Qed.
Print Assumptions C107_runs.
Print Assumptions C107_program.
Print Assumptions C107_endless.
Print Assumptions C107_bytes_refuted.
