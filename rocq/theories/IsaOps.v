(** * Every opcode: its microstates perform its documented effect (proof layer) *)
From Coq Require Import ZArith List Bool Lia ZifyBool.
From Verif Require Import Prog Tables Components ZMachine ZRefine Rtl Isa Micro MicroIsa.
Import ListNotations.
Open Scope Z_scope.

(** the specification's saturating moves, with the test at the leaves *)
Definition pcn (s : arch) : arch :=
  mkArch (AC s) (FC s) (FZ s) (Isa.B s) (C s) (D s) (E s) (nxt (PC s)) (SP s) (M s) (nlog E_PC (PC s) (log s)).
Definition spu (s : arch) : arch :=
  mkArch (AC s) (FC s) (FZ s) (Isa.B s) (C s) (D s) (E s) (PC s) (nxt (SP s)) (M s) (nlog E_SP (SP s) (log s)).
Definition spd (s : arch) : arch :=
  mkArch (AC s) (FC s) (FZ s) (Isa.B s) (C s) (D s) (E s) (PC s) (prv (SP s)) (M s) (plog E_SP (SP s) (log s)).
Lemma pc_next_eq : forall s, pc_next s = pcn s.
Proof. intros s. unfold pc_next, pcn, nxt, nlog. destruct (Z.eqb_spec (PC s) 65535); reflexivity. Qed.
Lemma sp_up_eq : forall s, sp_up s = spu s.
Proof. intros s. unfold sp_up, spu, nxt, nlog. destruct (Z.eqb_spec (SP s) 65535); reflexivity. Qed.
Lemma sp_down_eq : forall s, sp_down s = spd s.
Proof. intros s. unfold sp_down, spd, prv, plog. destruct (Z.eqb_spec (SP s) 0); reflexivity. Qed.

Lemma flag_eq1 : forall b, (flag b =? 1) = b. Proof. destruct b; reflexivity. Qed.

Ltac rsim := cbv beta iota zeta delta
  [rrun' fold_left rtl' rtl set store report set_pc pc_inc' sp_inc' sp_dec' HL greg low2 high2 lo4 hi4 set_flags
   flags8 flags_of_byte abs fl reg mem errs regid_eqb regid_num N.eqb Pos.eqb
   exec_instr with_dir with_imm pop push pcn spu spd get put put_ac put_flags put_pc put_sp write note
   AC FC FZ Isa.B C D E PC SP M log imm DE alu_step alu_result alu_carry load_flags flags_byte andb].

Definition op_prop (op fc fz : Z) : Prop :=
  forall l, path op fc fz = Some l ->
  forall ac b c d e h l' o pch pcl pc sp ri m lg,
  m pc = op -> (forall a, 0 <= a < 65536 -> 0 <= m a <= 255) -> 0 <= sp <= 65535 -> 0 <= pc <= 65535 ->
  arch_eq (abs (rrun' l (fl ac fc fz b c d e h l' o pch pcl pc sp ri m lg)))
          (step (abs (fl ac fc fz b c d e h l' o pch pcl pc sp ri m lg))).

Ltac nx_range :=
  repeat match goal with |- context [nxt ?v] =>
    lazymatch goal with H : 0 <= nxt v <= 65535 |- _ => fail | _ =>
      assert (0 <= nxt v <= 65535) by (unfold nxt; destruct (v =? 65535) eqn:?; lia) end end.

Ltac mfacts Hm :=
  repeat match goal with |- context [?m ?a] =>
    is_var m; lazymatch type of m with Z -> Z =>
    lazymatch goal with H : 0 <= m a <= 255 |- _ => fail | _ =>
    assert (0 <= m a <= 255) by (apply Hm; lia) end end end.

Ltac opx :=
  let l := fresh "l" in let H := fresh "H" in
  intros l H; vm_compute in H; injection H as <-;
  intros ac b c d e h l' o pch pcl pc sp ri m lg Hop Hm Hsp Hpc;
  let mm := fresh "mm" in
  unfold step;
  change (M (abs _)) with m; change (PC (abs _)) with pc; rewrite Hop;
  match goal with |- context [decode ?op] => let i := eval vm_compute in (decode op) in change (decode op) with i end;
  rewrite pc_next_eq;
  cbv beta iota zeta delta [exec_instr with_dir with_imm pop push];
  rewrite ?pc_next_eq, ?sp_up_eq, ?sp_down_eq;
  unfold rrun'; cbn [fold_left];
  match goal with |- context [rtl' 0 ?s] =>
    replace (rtl' 0 s) with (pc_inc' (set R_RI (m pc) s)) by reflexivity; rewrite Hop end;
  rsim; unfold arch_eq;
  rsim; rewrite ?flag_eq1;
  repeat split; intros;
  try reflexivity;
  try (nx_range; mfacts Hm; lia).


Lemma op_all : forall op fc fz, 0 <= op <= 255 -> 0 <= fc <= 1 -> 0 <= fz <= 1 -> op_prop op fc fz.
Proof.
  intros op fc fz Ho Hfc Hfz.
  assert (fc = 0 \/ fc = 1) as [-> | ->] by lia;
  assert (fz = 0 \/ fz = 1) as [-> | ->] by lia; clear Hfc Hfz;
  (destruct op as [|op|op]; [clear Ho; opx | do 8 (try destruct op as [op|op|]); try lia; clear Ho; opx | lia]).
Qed.

Definition flatten (s : cpu) : cpu :=
  fl (reg s R_AC) (reg s R_FC) (reg s R_FZ) (reg s R_B) (reg s R_C) (reg s R_D) (reg s R_E)
     (reg s R_H) (reg s R_L) (reg s R_2OP) (reg s R_PCH) (reg s R_PCL) (reg s R_PC) (reg s R_SP)
     (reg s R_RI) (mem s) (errs s).
Lemma flatten_same : forall s, same s (flatten s).
Proof. intros s. split; [|split; reflexivity]. intros r. destruct r; reflexivity. Qed.

Lemma arch_eq_refl : forall s, arch_eq s s. Proof. intros. unfold arch_eq. tauto. Qed.
Lemma arch_eq_sym : forall s t, arch_eq s t -> arch_eq t s.
Proof. unfold arch_eq. intros s t H. intuition congruence. Qed.
Lemma arch_eq_trans : forall s t u, arch_eq s t -> arch_eq t u -> arch_eq s u.
Proof.
  unfold arch_eq. intros s t u (?&?&?&?&?&?&?&?&?&h&?) (?&?&?&?&?&?&?&?&?&h'&?).
  repeat split; congruence.
Qed.
Lemma abs_same : forall s t, same s t -> arch_eq (abs s) (abs t).
Proof.
  intros s t (R & Mm & L). unfold arch_eq, abs; cbn [AC FC FZ Isa.B C D E PC SP M log].
  rewrite !R. repeat split; auto.
Qed.

(** instruction-level effect of the whole path *)
Definition presync (s : cpu) : Prop := insync s \/ reg s R_PC < 65535.

Lemma instr_ok : forall s, cvalid s -> presync s ->
  exists s', usteps (Z.to_nat (cycles (mem s (reg s R_PC)) (reg s R_FC =? 1) (reg s R_FZ =? 1))) (s, 0) = (s', 0)
    /\ arch_eq (abs s') (step (abs s)) /\ cvalid s' /\ insync s'.
Proof.
  intros s V Y.
  pose proof (cv_r s V R_FC) as X2; pose proof (cv_r s V R_FZ) as X3;
  pose proof (cv_r s V R_PC) as X4; pose proof (cv_r s V R_SP) as X6; cbn [rhi] in X2, X3, X4, X6.
  pose proof (cv_m s V (reg s R_PC) ltac:(lia)) as X5.
  destruct (path_some _ _ _ X5 X2 X3) as (l & Hl & Hn).
  pose proof (usteps_path s l V Hl) as U.
  rewrite <- Hn, Nat2Z.id. exists (rrun l s). split; [exact U|].
  destruct (path_inv _ _ _ _ Hl) as (n & l' & El & _).
  assert (Fl : same (rrun l s) (rrun' l (flatten s))).
  { eapply same_trans; [apply rrun_cong; apply flatten_same|].
    rewrite El. apply rrun'_same0.
    - eapply cvalid_same; [apply flatten_same|exact V].
    - exact Y. }
  split; [|split].
  - eapply arch_eq_trans; [apply abs_same; exact Fl|].
    pose proof (op_all _ _ _ X5 X2 X3 l Hl) as O.
    apply (O (reg s R_AC) (reg s R_B) (reg s R_C) (reg s R_D) (reg s R_E)
     (reg s R_H) (reg s R_L) (reg s R_2OP) (reg s R_PCH) (reg s R_PCL) (reg s R_PC) (reg s R_SP)
     (reg s R_RI) (mem s) (errs s) eq_refl (cv_m s V) X6 X4).
  - apply rrun_valid; auto.
  - rewrite El. rewrite rrun_cons. apply rrun_insync; [apply rtl_valid; auto|apply rtl0_insync; exact Y].
Qed.

(** the specification does not distinguish equal states *)
Lemma arch_eq_inv : forall s t, arch_eq s t -> exists m,
  t = mkArch (AC s) (FC s) (FZ s) (Isa.B s) (C s) (D s) (E s) (PC s) (SP s) m (log s) /\ forall a, M s a = m a.
Proof.
  intros s [] H. unfold arch_eq in H. cbn in H. destruct H as (?&?&?&?&?&?&?&?&?&h&?). subst.
  eexists. split; [reflexivity|exact h].
Qed.

Lemma exec_cong : forall i s t, arch_eq s t -> arch_eq (exec_instr i s) (exec_instr i t).
Proof.
  intros i [ac fc fz b c d e pc sp m lg] t H. apply arch_eq_inv in H. destruct H as (m' & -> & Hm).
  cbn [M AC FC FZ Isa.B C D E PC SP log] in *.
  destruct i;
  repeat match goal with x : r8 |- _ => destruct x | x : alu |- _ => destruct x | x : src |- _ => destruct x end;
  cbv beta iota zeta delta [exec_instr with_dir with_imm pop push]; rewrite ?pc_next_eq, ?sp_up_eq, ?sp_down_eq;
  unfold arch_eq; rsim; rewrite <- ?Hm; repeat split; intros; auto;
  try match goal with |- context [if ?x then _ else _] => destruct x; rsim; auto end;
  try match goal with |- context [if ?x then _ else _] => destruct x; rsim; auto end.
Qed.
Lemma step_cong : forall s t, arch_eq s t -> arch_eq (step s) (step t).
Proof.
  intros s t H. unfold step.
  assert (E1 : M s (PC s) = M t (PC t)).
  { destruct H as (?&?&?&?&?&?&?&Hpc&?&h&?). rewrite Hpc. apply h. }
  rewrite E1. apply exec_cong. rewrite !pc_next_eq.
  destruct s as [ac fc fz b c d e pc sp m lg]. apply arch_eq_inv in H. destruct H as (m' & -> & Hm).
  unfold arch_eq; rsim. repeat split; auto.
Qed.
Lemma steps_cong : forall n s t, arch_eq s t -> arch_eq (steps n s) (steps n t).
Proof. induction n; cbn; intros; auto. apply IHn. apply step_cong; auto. Qed.
