(** * Sequences of microstates implement the instructions (proof layer) *)
From Coq Require Import ZArith List Bool Lia ZifyBool.
From Verif Require Import Prog Tables Components ZMachine ZRefine Rtl Isa.
Import ListNotations.
Open Scope Z_scope.

(** ** Sequencing *)
(** number on the D buses after the sequencer ran in state [q] *)
Definition succ (q ri fc fz : Z) : Z :=
  let row := find_row [Z.testbit q 5; Z.testbit q 4; Z.testbit q 3; Z.testbit q 2; Z.testbit q 1; Z.testbit q 0;
            Z.testbit ri 7; Z.testbit ri 6; Z.testbit ri 5; Z.testbit ri 4; Z.testbit ri 3; Z.testbit ri 2;
            Z.testbit ri 1; Z.testbit ri 0; Z.testbit fz 0; Z.testbit fc 0] in
  drow row 22 + 2 * drow row 21 + 4 * drow row 20 + 8 * drow row 19 + 16 * drow row 18 + 32 * drow row 17.

(** microstate machine: registers and memory, state to run next *)
Definition ustep (c : cpu * Z) : cpu * Z :=
  let '(s, q) := c in (rtl q s, succ q (reg s R_RI) (reg s R_FC) (reg s R_FZ)).
Fixpoint usteps (n : nat) (c : cpu * Z) : cpu * Z :=
  match n with O => c | S n' => usteps n' (ustep c) end.

Definition abs (s : cpu) : arch :=
  mkArch (reg s R_AC) (reg s R_FC =? 1) (reg s R_FZ =? 1)
         (reg s R_B) (reg s R_C) (reg s R_D) (reg s R_E) (reg s R_PC) (reg s R_SP)
         (mem s) (errs s).

Record cvalid (s : cpu) : Prop := mkCvalid {
  cv_r : forall r, 0 <= reg s r <= rhi r;
  cv_m : forall a, 0 <= a < 65536 -> 0 <= mem s a <= 255
}.

Definition insync (s : cpu) : Prop := reg s R_PC = 256 * reg s R_PCH + reg s R_PCL.

(** ** Microstates with the saturation pushed to the leaves *)
Definition nxt (v : Z) : Z := if v =? 65535 then v else v + 1.
Definition prv (v : Z) : Z := if v =? 0 then v else v - 1.
Definition nlog (m : msg) (v : Z) (l : list msg) : list msg := if v =? 65535 then m :: l else l.
Definition plog (m : msg) (v : Z) (l : list msg) : list msg := if v =? 0 then m :: l else l.

Definition lo4 (v : Z) : Z :=
  match v with
  | Zpos (xI (xI _)) => 3 | Zpos (xO (xI _)) => 2 | Zpos (xI (xO _)) => 1 | Zpos (xO (xO _)) => 0
  | Zpos 3 => 3 | Zpos 2 => 2 | Zpos 1 => 1 | _ => 0
  end.
Definition hi4 (v : Z) : Z :=
  match v with
  | Zpos (xI (xI p)) | Zpos (xO (xI p)) | Zpos (xI (xO p)) | Zpos (xO (xO p)) => lo4 (Zpos p)
  | _ => 0
  end.

Lemma lo4_ok : forall v, 0 <= v -> lo4 v = v mod 4.
Proof.
  intros v H. destruct v as [|p|p]; [reflexivity| |lia].
  destruct p as [[p|p|]|[p|p|]|]; cbn [lo4]; lia.
Qed.
Lemma hi4_ok : forall v, 0 <= v -> hi4 v = v / 4 mod 4.
Proof.
  intros v H. destruct v as [|p|p]; [reflexivity| |lia].
  destruct p as [[p|p|]|[p|p|]|]; cbn [hi4]; try reflexivity; rewrite lo4_ok by lia; f_equal; lia.
Qed.

(** explicit state *)
Definition fl (ac fc fz b c d e h l o pch pcl pc sp ri : Z) (m : Z -> Z) (lg : list msg) : cpu :=
  mkCpu (fun x => match x with
    | R_AC => ac | R_FC => fc | R_FZ => fz | R_B => b | R_C => c | R_D => d | R_E => e
    | R_H => h | R_L => l | R_2OP => o | R_PCH => pch | R_PCL => pcl | R_PC => pc | R_SP => sp
    | R_RI => ri end) m lg.

Definition pc_inc' (s : cpu) : cpu :=
  let v := nxt (reg s R_PC) in
  let s' := set_pc v s in mkCpu (reg s') (mem s') (nlog E_PC (reg s R_PC) (errs s')).
Definition sp_inc' (s : cpu) : cpu :=
  let s' := set R_SP (nxt (reg s R_SP)) s in mkCpu (reg s') (mem s') (nlog E_SP (reg s R_SP) (errs s')).
Definition sp_dec' (s : cpu) : cpu :=
  let s' := set R_SP (prv (reg s R_SP)) s in mkCpu (reg s') (mem s') (plog E_SP (reg s R_SP) (errs s')).

Definition rtl' (q : Z) (s : cpu) : cpu :=
  let r := reg s in
  let lo := greg (lo4 (r R_RI)) in
  match q with
  | 0 => pc_inc' (set R_RI (mem s (r R_PC)) s)
  | 2 => set R_2OP (r lo) s
  | 3 => set (greg (hi4 (r R_RI))) (r R_2OP) s
  | 8 => let v := (r R_2OP + 1) mod 256 in set_flags false v (set lo v s)
  | 15 => pc_inc' (set R_2OP (mem s (r R_PC)) s)
  | 16 => pc_inc' (set R_H (mem s (r R_PC)) s)
  | 17 => pc_inc' (set R_L (mem s (r R_PC)) s)
  | 26 | 40 | 42 => sp_dec' s
  | 31 | 41 | 43 => sp_inc' s
  | 39 | 44 => set lo (r R_2OP) s
  | _ => rtl q s
  end.

Lemma same_refl : forall s, same s s.
Proof. repeat split. Qed.
Lemma same_sym : forall s t, same s t -> same t s.
Proof. intros s t (a & b & c). repeat split; auto. Qed.
Lemma same_trans : forall s t u, same s t -> same t u -> same s u.
Proof. intros s t u (a & b & c) (a' & b' & c'). repeat split; intros; congruence. Qed.

Lemma pc_inc_same : forall s, insync s \/ reg s R_PC < 65535 -> (forall r, 0 <= reg s r <= rhi r) ->
  same (pc_inc s) (pc_inc' s).
Proof.
  intros s Hy Hr. unfold pc_inc, pc_inc', nlog, nxt.
  destruct (Z.eqb_spec (reg s R_PC) 65535) as [E|E]; [|apply same_refl].
  unfold insync in Hy.
  pose proof (Hr R_PCH); pose proof (Hr R_PCL). cbn [rhi] in *.
  split; [|split; reflexivity]. intros r. destruct r; cbn; try reflexivity; lia.
Qed.
Lemma sp_inc_same : forall s, same (sp_inc s) (sp_inc' s).
Proof.
  intros s. unfold sp_inc, sp_inc', nlog, nxt.
  destruct (Z.eqb_spec (reg s R_SP) 65535) as [E|E]; [|apply same_refl].
  split; [|split; reflexivity]. intros r; destruct r; reflexivity.
Qed.
Lemma sp_dec_same : forall s, same (sp_dec s) (sp_dec' s).
Proof.
  intros s. unfold sp_dec, sp_dec', plog, prv.
  destruct (Z.eqb_spec (reg s R_SP) 0) as [E|E]; [|apply same_refl].
  split; [|split; reflexivity]. intros r; destruct r; reflexivity.
Qed.

Definition busy (q : Z) : bool := (q =? 0) || (q =? 15) || (q =? 16) || (q =? 17).

Lemma rtl'_same : forall q s, insync s \/ reg s R_PC < 65535 -> cvalid s ->
  same (rtl q s) (rtl' q s).
Proof.
  intros q s Hy [Hr Hm].
  assert (Hl : low2 s = greg (lo4 (reg s R_RI))) by (unfold low2; rewrite lo4_ok; auto; apply Hr).
  assert (Hh : high2 s = greg (hi4 (reg s R_RI))) by (unfold high2; rewrite hi4_ok; auto; apply Hr).
  assert (Hpc : forall x v, (x = R_RI \/ x = R_2OP \/ x = R_H \/ x = R_L) -> 0 <= v <= 255 ->
             same (pc_inc (set x v s)) (pc_inc' (set x v s))).
  { intros x v Hx Hv. apply pc_inc_same.
    - unfold insync. destruct Hx as [-> | [-> | [-> | ->]]]; exact Hy.
    - intros r. pose proof (Hr r). unfold set; cbn [reg].
      destruct (regid_eqb r x) eqn:E; auto. apply regid_eqb_eq in E. subst.
      destruct Hx as [-> | [-> | [-> | ->]]]; exact Hv. }
  assert (Hmem : 0 <= mem s (reg s R_PC) <= 255).
  { apply Hm. pose proof (Hr R_PC). cbn in H. lia. }
  destruct (Z.eq_dec q 0) as [->|]; [apply Hpc; auto|].
  destruct (Z.eq_dec q 15) as [->|]; [apply Hpc; auto|].
  destruct (Z.eq_dec q 16) as [->|]; [apply Hpc; auto|].
  destruct (Z.eq_dec q 17) as [->|]; [apply Hpc; auto|].
  destruct (Z.eq_dec q 2) as [->|]. { cbv beta iota zeta delta [rtl rtl']. rewrite Hl. apply same_refl. }
  destruct (Z.eq_dec q 3) as [->|]. { cbv beta iota zeta delta [rtl rtl']. rewrite Hh. apply same_refl. }
  destruct (Z.eq_dec q 8) as [->|]. { cbv beta iota zeta delta [rtl rtl']. rewrite Hl. apply same_refl. }
  destruct (Z.eq_dec q 39) as [->|]. { cbv beta iota zeta delta [rtl rtl']. rewrite Hl. apply same_refl. }
  destruct (Z.eq_dec q 44) as [->|]. { cbv beta iota zeta delta [rtl rtl']. rewrite Hl. apply same_refl. }
  destruct (Z.eq_dec q 26) as [->|]; [apply sp_dec_same|].
  destruct (Z.eq_dec q 40) as [->|]; [apply sp_dec_same|].
  destruct (Z.eq_dec q 42) as [->|]; [apply sp_dec_same|].
  destruct (Z.eq_dec q 31) as [->|]; [apply sp_inc_same|].
  destruct (Z.eq_dec q 41) as [->|]; [apply sp_inc_same|].
  destruct (Z.eq_dec q 43) as [->|]; [apply sp_inc_same|].
  replace (rtl' q s) with (rtl q s); [apply same_refl|].
  unfold rtl' at 1.
  repeat match goal with |- _ = match ?q with _ => _ end => destruct q; try reflexivity; try congruence end.
Qed.

(** ** Congruence, validity and synchrony are preserved *)
Lemma set_cong : forall r v v' s t, v = v' -> same s t -> same (set r v s) (set r v' t).
Proof.
  intros r v v' s t -> (a & b & c). split; [|split]; cbn; auto.
  intros x. destruct (regid_eqb x r); auto.
Qed.
Lemma store_cong : forall o o' v v' s t, o = o' -> v = v' -> same s t -> same (store o v s) (store o' v' t).
Proof.
  intros o o' v v' s t -> -> (a & b & c). split; [|split]; cbn; auto.
  intros x. destruct (x =? o'); auto.
Qed.
Lemma report_cong : forall m s t, same s t -> same (report m s) (report m t).
Proof. intros m s t (a & b & c). split; [|split]; cbn; auto. congruence. Qed.
Lemma reg_same : forall s t r, same s t -> reg s r = reg t r.
Proof. intros s t r H. apply H. Qed.
Lemma mem_same : forall s t r, same s t -> mem s r = mem t r.
Proof. intros s t r H. apply H. Qed.
Lemma set_pc_cong : forall v v' s t, v = v' -> same s t -> same (set_pc v s) (set_pc v' t).
Proof. intros v v' s t -> H. unfold set_pc. repeat apply set_cong; auto. Qed.
Lemma pc_inc_cong : forall s t, same s t -> same (pc_inc s) (pc_inc t).
Proof.
  intros s t H. unfold pc_inc. rewrite (reg_same s t R_PC H).
  destruct (_ =? _). { apply report_cong; auto. } apply set_pc_cong; auto.
Qed.
Lemma sp_inc_cong : forall s t, same s t -> same (sp_inc s) (sp_inc t).
Proof.
  intros s t H. unfold sp_inc. rewrite (reg_same s t R_SP H).
  destruct (_ =? _). { apply report_cong; auto. } apply set_cong; auto.
Qed.
Lemma sp_dec_cong : forall s t, same s t -> same (sp_dec s) (sp_dec t).
Proof.
  intros s t H. unfold sp_dec. rewrite (reg_same s t R_SP H).
  destruct (_ =? _). { apply report_cong; auto. } apply set_cong; auto.
Qed.

Ltac qcases q :=
  destruct q as [|q|q];
  [| do 6 (try destruct q as [q|q|]) |].

Lemma rtl_cong : forall q s t, same s t -> same (rtl q s) (rtl q t).
Proof.
  intros q s t H.
  assert (Hr : reg t = reg t) by reflexivity.
  assert (R : forall r, reg s r = reg t r) by apply H.
  assert (Mm : forall r, mem s r = mem t r) by apply H.
  assert (Hl : low2 s = low2 t) by (unfold low2; rewrite R; auto).
  assert (Hh : high2 s = high2 t) by (unfold high2; rewrite R; auto).
  assert (HHL : HL s = HL t) by (unfold HL; rewrite !R; auto).
  assert (HF : flags8 s = flags8 t) by (unfold flags8; rewrite !R; auto).
  qcases q; cbv beta iota zeta delta [rtl]; try exact H;
  unfold set_flags, flags_of_byte;
  repeat first [ apply set_cong | apply store_cong | apply report_cong | apply set_pc_cong
               | apply pc_inc_cong | apply sp_inc_cong | apply sp_dec_cong | exact H ];
  rewrite ?Hl, ?Hh, ?HHL, ?HF, ?R, ?Mm; try reflexivity;
  repeat first [ apply set_cong | exact H | reflexivity ]; rewrite ?R; reflexivity.
Qed.

Lemma set_valid : forall r v s, cvalid s -> 0 <= v <= rhi r -> cvalid (set r v s).
Proof.
  intros r v s [Hr Hm] Hv. split; cbn; auto. intros x.
  destruct (regid_eqb x r) eqn:E; auto. apply regid_eqb_eq in E. subst; auto.
Qed.
Lemma store_valid : forall o v s, cvalid s -> 0 <= v <= 255 -> cvalid (store o v s).
Proof.
  intros o v s [Hr Hm] Hv. split; cbn; auto. intros x Hx.
  destruct (x =? o) eqn:E; auto.
Qed.
Lemma report_valid : forall m s, cvalid s -> cvalid (report m s).
Proof. intros m s [Hr Hm]. split; auto. Qed.
Lemma set_pc_valid : forall v s, cvalid s -> 0 <= v <= 65535 -> cvalid (set_pc v s).
Proof. intros v s H Hv. unfold set_pc. repeat apply set_valid; auto; cbn [rhi]; lia. Qed.
Lemma pc_inc_valid : forall s, cvalid s -> cvalid (pc_inc s).
Proof.
  intros s H. unfold pc_inc. pose proof (cv_r s H R_PC) as P; cbn [rhi] in P.
  destruct (Z.eqb_spec (reg s R_PC) 65535). { apply report_valid; auto. } apply set_pc_valid; auto; lia.
Qed.
Lemma sp_inc_valid : forall s, cvalid s -> cvalid (sp_inc s).
Proof.
  intros s H. unfold sp_inc. pose proof (cv_r s H R_SP) as P; cbn [rhi] in P.
  destruct (Z.eqb_spec (reg s R_SP) 65535). { apply report_valid; auto. } apply set_valid; auto; cbn [rhi]; lia.
Qed.
Lemma sp_dec_valid : forall s, cvalid s -> cvalid (sp_dec s).
Proof.
  intros s H. unfold sp_dec. pose proof (cv_r s H R_SP) as P; cbn [rhi] in P.
  destruct (Z.eqb_spec (reg s R_SP) 0). { apply report_valid; auto. } apply set_valid; auto; cbn [rhi]; lia.
Qed.

Lemma flag_range : forall b, 0 <= flag b <= 1. Proof. destruct b; cbn; lia. Qed.
Lemma rhi_greg : forall n, rhi (greg n) = 255.
Proof. intros n. destruct n as [|[[|[]|]|[|[]|]|]|]; reflexivity. Qed.
From Verif Require Import Micro.

Lemma rtl_valid : forall q s, cvalid s -> cvalid (rtl q s).
Proof.
  intros q s H.
  assert (Hmem : forall a, 0 <= a <= 65535 -> 0 <= mem s a <= 255)
    by (intros; apply (cv_m s H); lia).
  pose proof (cv_r s H R_AC) as Hac; pose proof (cv_r s H R_2OP) as Hop;
  pose proof (cv_r s H R_H) as Hh; pose proof (cv_r s H R_L) as Hl;
  pose proof (cv_r s H R_PC) as Hpc; pose proof (cv_r s H R_SP) as Hsp;
  pose proof (cv_r s H R_FC) as Hfc; pose proof (cv_r s H R_FZ) as Hfz;
  pose proof (cv_r s H R_PCH) as Hch; pose proof (cv_r s H R_PCL) as Hcl;
  pose proof (cv_r s H R_D) as Hd; pose proof (cv_r s H R_E) as He;
  cbn [rhi] in *.
  assert (HHL : 0 <= HL s <= 65535) by (unfold HL; lia).
  assert (Hlow : 0 <= reg s (low2 s) <= 255).
  { pose proof (cv_r s H (low2 s)) as X. unfold low2 in *. rewrite rhi_greg in X. exact X. }
  assert (HF : 0 <= flags8 s <= 255) by (unfold flags8; lia).
  pose proof (land_range _ _ Hac Hop); pose proof (lor_range _ _ Hac Hop); pose proof (lxor_range _ _ Hac Hop).
  pose proof (Hmem _ Hpc); pose proof (Hmem _ Hsp); pose proof (Hmem _ HHL).
  qcases q; cbv beta iota zeta delta [rtl]; try exact H;
  unfold set_flags, flags_of_byte;
  repeat first [ apply set_valid | apply store_valid | apply report_valid | apply set_pc_valid
               | apply pc_inc_valid | apply sp_inc_valid | apply sp_dec_valid | exact H ];
  unfold low2, high2; rewrite ?rhi_greg; cbn [rhi];
  try apply flag_range; try assumption; try lia.
Qed.

Lemma insync_set : forall r v s, insync s -> r <> R_PC -> r <> R_PCH -> r <> R_PCL -> insync (set r v s).
Proof.
  intros r v s H h1 h2 h3. unfold insync in *. unfold set; cbn [reg].
  replace (regid_eqb R_PC r) with false by (symmetry; apply not_true_iff_false; rewrite regid_eqb_eq; congruence).
  replace (regid_eqb R_PCH r) with false by (symmetry; apply not_true_iff_false; rewrite regid_eqb_eq; congruence).
  replace (regid_eqb R_PCL r) with false by (symmetry; apply not_true_iff_false; rewrite regid_eqb_eq; congruence).
  exact H.
Qed.
Lemma insync_set_pc : forall v s, insync (set_pc v s).
Proof. intros v s. change (v = 256 * (v / 256) + v mod 256). lia. Qed.
Lemma insync_pc_inc : forall s, insync s \/ reg s R_PC < 65535 -> insync (pc_inc s).
Proof.
  intros s H. unfold pc_inc. destruct (Z.eqb_spec (reg s R_PC) 65535).
  - destruct H as [H|H]; [exact H|lia].
  - apply insync_set_pc.
Qed.
Lemma greg_ne : forall n, greg n <> R_PC /\ greg n <> R_PCH /\ greg n <> R_PCL.
Proof. intros n. destruct n as [|[[|[]|]|[|[]|]|]|]; cbn; repeat split; discriminate. Qed.

Lemma rtl_insync : forall q s, cvalid s -> insync s -> insync (rtl q s).
Proof.
  intros q s V H.
  pose proof (cv_r s V R_PCH) as Hch; pose proof (cv_r s V R_PCL) as Hcl; cbn [rhi] in *.
  destruct (greg_ne (reg s R_RI mod 4)) as (g1 & g2 & g3).
  destruct (greg_ne (reg s R_RI / 4 mod 4)) as (g4 & g5 & g6).
  assert (Hmem : 0 <= mem s (reg s R_SP) <= 255).
  { apply (cv_m s V). pose proof (cv_r s V R_SP) as X; cbn in X; lia. }
  qcases q; cbv beta iota zeta delta [rtl]; try exact H;
  unfold set_flags, flags_of_byte, sp_inc, sp_dec;
  try (destruct (_ =? _); [exact H|]);
  try (apply insync_pc_inc; left);
  repeat first [ exact H | apply insync_set_pc | apply insync_set; [|discriminate..]
               | apply insync_set; [| assumption ..] ];
  try exact H.
  - change (256 * mem s (reg s R_SP) + reg s R_PC mod 256 = 256 * mem s (reg s R_SP) + reg s R_PCL).
    unfold insync in H. lia.
  - change (reg s R_PC / 256 * 256 + mem s (reg s R_SP) = 256 * reg s R_PCH + mem s (reg s R_SP)).
    unfold insync in H. lia.
Qed.

Lemma rtl0_insync : forall s, insync s \/ reg s R_PC < 65535 -> insync (rtl 0 s).
Proof. intros s H. cbv beta iota zeta delta [rtl]. apply insync_pc_inc. exact H. Qed.

(** ** The path of microstates of an opcode *)
Fixpoint go (n : nat) (q ri fc fz : Z) : option (list Z) :=
  match n with
  | O => None
  | S n' => if q =? 0 then Some []
            else match go n' (succ q ri fc fz) ri fc fz with Some l => Some (q :: l) | None => None end
  end.
Definition path (ri fc fz : Z) : option (list Z) :=
  match go 9 (succ 1 ri fc fz) ri fc fz with Some l => Some (0 :: 1 :: l) | None => None end.

Definition range (n : nat) : list Z := map Z.of_nat (seq 0 n).
Lemma in_range : forall n z, 0 <= z < Z.of_nat n -> In z (range n).
Proof.
  intros n z H. unfold range. apply in_map_iff. exists (Z.to_nat z). split; [lia|].
  apply in_seq. lia.
Qed.

(** one pass over the whole (finite) domain of the sequencer *)
Definition chk (q n n0 : Z) : bool :=
  (0 <=? n) && (n <? 45)
  && ((q =? 17) || (n =? n0))
  && (if q =? 0 then n =? 1 else negb (n =? 1))
  && ((q =? 0) || (q =? 1) || (q =? 16) || negb ((n =? 16) || (n =? 17))).
Lemma chk_spec : forall q n n0, chk q n n0 = true ->
  0 <= n < 45 /\ (q <> 17 -> n = n0) /\ (q = 0 -> n = 1) /\ (q <> 0 -> n <> 1) /\
  (q <> 0 -> n = 16 \/ n = 17 -> q = 1 \/ q = 16).
Proof. intros q n n0. unfold chk. destruct (q =? 0) eqn:?; lia. Qed.
Lemma succ_check_b : forallb (fun q => forallb (fun ri => forallb (fun fc => forallb (fun fz =>
  chk q (succ q ri fc fz) (succ q ri 0 0)) (range 2)) (range 2)) (range 256)) (range 45) = true.
Proof. vm_compute. reflexivity. Qed.
Lemma forall4 : forall (f : Z -> Z -> Z -> Z -> bool) a b c d,
  forallb (fun q => forallb (fun ri => forallb (fun fc => forallb (fun fz =>
  f q ri fc fz) (range d)) (range c)) (range b)) (range a) = true ->
  forall q ri fc fz, 0 <= q < Z.of_nat a -> 0 <= ri < Z.of_nat b -> 0 <= fc < Z.of_nat c -> 0 <= fz < Z.of_nat d ->
  f q ri fc fz = true.
Proof.
  intros f a b c d F q ri fc fz Hq Hri Hfc Hfz.
  rewrite forallb_forall in F. specialize (F q (in_range _ q Hq)).
  rewrite forallb_forall in F. specialize (F ri (in_range _ ri Hri)).
  rewrite forallb_forall in F. specialize (F fc (in_range _ fc Hfc)).
  rewrite forallb_forall in F. exact (F fz (in_range _ fz Hfz)).
Qed.
Lemma succ_facts : forall q ri fc fz, 0 <= q < 45 -> 0 <= ri <= 255 -> 0 <= fc <= 1 -> 0 <= fz <= 1 ->
  0 <= succ q ri fc fz < 45 /\ (q <> 17 -> succ q ri fc fz = succ q ri 0 0) /\
  (q = 0 -> succ q ri fc fz = 1) /\ (q <> 0 -> succ q ri fc fz <> 1) /\
  (q <> 0 -> succ q ri fc fz = 16 \/ succ q ri fc fz = 17 -> q = 1 \/ q = 16).
Proof.
  intros q ri fc fz Hq Hri Hfc Hfz. apply chk_spec.
  apply (forall4 (fun q ri fc fz => chk q (succ q ri fc fz) (succ q ri 0 0)) 45 256 2 2 succ_check_b); lia.
Qed.
Lemma succ_flags : forall q ri fc fz, 0 <= q < 45 -> q <> 17 -> 0 <= ri <= 255 -> 0 <= fc <= 1 -> 0 <= fz <= 1 ->
  succ q ri fc fz = succ q ri 0 0.
Proof. intros q ri fc fz Hq H1 Hri Hfc Hfz. apply succ_facts; auto. Qed.
Lemma succ_range : forall q ri fc fz, 0 <= q < 45 -> 0 <= ri <= 255 -> 0 <= fc <= 1 -> 0 <= fz <= 1 ->
  0 <= succ q ri fc fz < 45.
Proof. intros q ri fc fz Hq Hri Hfc Hfz. apply succ_facts; auto. Qed.
Lemma succ_0 : forall ri fc fz, 0 <= ri <= 255 -> 0 <= fc <= 1 -> 0 <= fz <= 1 -> succ 0 ri fc fz = 1.
Proof. intros ri fc fz Hri Hfc Hfz. apply succ_facts; auto. lia. Qed.
Lemma succ_ne_1 : forall q ri fc fz, 0 < q < 45 -> 0 <= ri <= 255 -> 0 <= fc <= 1 -> 0 <= fz <= 1 ->
  succ q ri fc fz <> 1.
Proof. intros q ri fc fz Hq Hri Hfc Hfz. apply succ_facts; auto; lia. Qed.
(** the operand-address states follow one another *)
Lemma succ_addr : forall q ri fc fz, 0 < q < 45 -> 0 <= ri <= 255 -> 0 <= fc <= 1 -> 0 <= fz <= 1 ->
  succ q ri fc fz = 16 \/ succ q ri fc fz = 17 -> q = 1 \/ q = 16.
Proof. intros q ri fc fz Hq Hri Hfc Hfz. apply succ_facts; auto; lia. Qed.

Lemma path_some_b : forallb (fun ri => forallb (fun fc => forallb (fun fz =>
  match path ri fc fz with
  | Some l => (Z.of_nat (length l) =? cycles ri (fc =? 1) (fz =? 1))
  | None => false end) (range 2)) (range 2)) (range 256) = true.
Proof. vm_compute. reflexivity. Qed.
Lemma path_some : forall ri fc fz, 0 <= ri <= 255 -> 0 <= fc <= 1 -> 0 <= fz <= 1 ->
  exists l, path ri fc fz = Some l /\ Z.of_nat (length l) = cycles ri (fc =? 1) (fz =? 1).
Proof.
  intros ri fc fz Hri Hfc Hfz. pose proof path_some_b as F.
  rewrite forallb_forall in F. specialize (F ri (in_range 256 ri ltac:(lia))).
  rewrite forallb_forall in F. specialize (F fc (in_range 2 fc ltac:(lia))).
  rewrite forallb_forall in F. specialize (F fz (in_range 2 fz ltac:(lia))).
  destruct (path ri fc fz) as [l|]; [|discriminate]. exists l. split; auto. apply Z.eqb_eq. exact F.
Qed.
Lemma rtl_16_flags : forall s, reg (rtl 16 s) R_FC = reg s R_FC /\ reg (rtl 16 s) R_FZ = reg s R_FZ.
Proof. intros s. cbv beta iota zeta delta [rtl pc_inc]. destruct (_ =? _); split; reflexivity. Qed.

Lemma rtl_ri : forall q s, q <> 0 -> reg (rtl q s) R_RI = reg s R_RI.
Proof.
  intros q s H.
  assert (G : forall n v t, reg (set (greg n) v t) R_RI = reg t R_RI).
  { intros n v t. destruct n as [|[[|[]|]|[|[]|]|]|]; reflexivity. }
  qcases q; try congruence; try reflexivity; cbv beta iota zeta delta [rtl];
    unfold pc_inc, sp_inc, sp_dec, low2, high2, set_flags, flags_of_byte;
    try (destruct (_ =? _); reflexivity); try apply G.
Qed.

Definition rrun (l : list Z) (s : cpu) : cpu := fold_left (fun s q => rtl q s) l s.
Definition rrun' (l : list Z) (s : cpu) : cpu := fold_left (fun s q => rtl' q s) l s.

Lemma usteps_go : forall n q ri fc fz l s, go n q ri fc fz = Some l -> cvalid s -> reg s R_RI = ri ->
  0 <= fc <= 1 -> 0 <= fz <= 1 ->
  0 <= q < 45 -> (q = 1 \/ q = 16 \/ q = 17 -> reg s R_FC = fc /\ reg s R_FZ = fz) ->
  usteps (length l) (s, q) = (rrun l s, 0).
Proof.
  induction n as [|n IH]; cbn [go]; intros q ri fc fz l s H V Hri Hfc Hfz Hq H1; [discriminate|].
  destruct (Z.eqb_spec q 0) as [E|E]. { injection H as <-. subst. reflexivity. }
  destruct (go n (succ q ri fc fz) ri fc fz) as [l'|] eqn:G; [|discriminate]. injection H as <-.
  cbn [length usteps rrun fold_left].
  pose proof (cv_r s V R_RI) as X1; pose proof (cv_r s V R_FC) as X2; pose proof (cv_r s V R_FZ) as X3;
  cbn [rhi] in *.
  cbn [ustep]. rewrite Hri. rewrite Hri in X1.
  assert (Es : succ q ri (reg s R_FC) (reg s R_FZ) = succ q ri fc fz).
  { destruct (Z.eq_dec q 17) as [->|N17].
    - destruct H1 as [-> ->]; auto.
    - rewrite succ_flags by lia. symmetry. apply succ_flags; lia. }
  rewrite Es.
  apply IH with (ri := ri) (fc := fc) (fz := fz); auto.
  - apply rtl_valid; auto.
  - rewrite rtl_ri; auto.
  - apply succ_range; lia.
  - intros Hn.
    assert (Hq1 : q = 1 \/ q = 16).
    { destruct Hn as [Hn|Hn].
      - exfalso. revert Hn. apply succ_ne_1; lia.
      - apply (succ_addr q ri fc fz); auto; lia. }
    destruct Hq1 as [-> | ->].
    + apply H1; auto.
    + destruct (rtl_16_flags s) as [-> ->]. apply H1; auto.
Qed.

Lemma usteps_S : forall n c, usteps (S n) c = usteps n (ustep c). Proof. reflexivity. Qed.
Lemma rrun_cons : forall q l s, rrun (q :: l) s = rrun l (rtl q s). Proof. reflexivity. Qed.
Lemma rtl_1 : forall s, rtl 1 s = s. Proof. reflexivity. Qed.

Lemma path_inv : forall ri fc fz l, path ri fc fz = Some l ->
  exists n l', l = 0 :: 1 :: l' /\ go n (succ 1 ri fc fz) ri fc fz = Some l'.
Proof.
  intros ri fc fz l. unfold path. generalize (succ 1 ri fc fz). generalize 9%nat. intros n q H.
  exists n. destruct (go n q ri fc fz) as [l'|]; [|discriminate]. injection H as <-. exists l'. auto.
Qed.
Lemma rtl_0_facts : forall s, reg (rtl 0 s) R_RI = mem s (reg s R_PC) /\ reg (rtl 0 s) R_FC = reg s R_FC
              /\ reg (rtl 0 s) R_FZ = reg s R_FZ.
Proof. intros s. cbv beta iota zeta delta [rtl pc_inc]. destruct (_ =? _); repeat split. Qed.
Lemma ustep_eq : forall s q, ustep (s, q) = (rtl q s, succ q (reg s R_RI) (reg s R_FC) (reg s R_FZ)).
Proof. reflexivity. Qed.
Lemma len2 : forall (l : list Z), length (0 :: 1 :: l) = S (S (length l)). Proof. reflexivity. Qed.

Lemma usteps_path : forall s l, cvalid s -> path (mem s (reg s R_PC)) (reg s R_FC) (reg s R_FZ) = Some l ->
  usteps (length l) (s, 0) = (rrun l s, 0).
Proof.
  intros s l V H. apply path_inv in H. destruct H as (n & l' & -> & G).
  rewrite len2, !usteps_S, !rrun_cons, rtl_1, !ustep_eq.
  pose proof (cv_r s V R_RI) as X1; pose proof (cv_r s V R_FC) as X2; pose proof (cv_r s V R_FZ) as X3;
  pose proof (cv_r s V R_PC) as X4; cbn [rhi] in X1, X2, X3, X4.
  pose proof (cv_m s V (reg s R_PC) ltac:(lia)) as X5.
  rewrite succ_0 by lia.
  destruct (rtl_0_facts s) as (E1 & E2 & E3).
  rewrite rtl_1. rewrite E1, E2, E3.
  refine (usteps_go n _ (mem s (reg s R_PC)) (reg s R_FC) (reg s R_FZ) l' (rtl 0 s) G _ E1 X2 X3 _ _).
  - apply rtl_valid; auto.
  - apply succ_range; lia.
  - intros _. split; assumption.
Qed.

Lemma rrun_cong : forall l s t, same s t -> same (rrun l s) (rrun l t).
Proof. induction l; cbn; intros; auto. apply IHl. apply rtl_cong; auto. Qed.

Lemma rrun_valid : forall l s, cvalid s -> cvalid (rrun l s).
Proof. induction l; cbn; intros; auto. apply IHl. apply rtl_valid; auto. Qed.
Lemma rrun_insync : forall l s, cvalid s -> insync s -> insync (rrun l s).
Proof. induction l; cbn; intros; auto. apply IHl. apply rtl_valid; auto. apply rtl_insync; auto. Qed.

Lemma cvalid_same : forall s t, same s t -> cvalid s -> cvalid t.
Proof. intros s t (a & b & c) [H1 H2]. split; intros; rewrite <- ?a, <- ?b; auto. Qed.
Lemma insync_same : forall s t, same s t -> insync s -> insync t.
Proof. intros s t (a & b & c) H. unfold insync in *. rewrite <- !a. exact H. Qed.

Lemma rrun'_same : forall l s, cvalid s -> insync s -> same (rrun l s) (rrun' l s).
Proof.
  induction l as [|q l IH]; intros s V Y; cbn. { apply same_refl. }
  assert (S1 : same (rtl q s) (rtl' q s)) by (apply rtl'_same; auto).
  eapply same_trans; [apply rrun_cong; exact S1|].
  apply IH.
  - eapply cvalid_same; [exact S1|]. apply rtl_valid; auto.
  - eapply insync_same; [exact S1|]. apply rtl_insync; auto.
Qed.
Lemma rrun'_same0 : forall l s, cvalid s -> insync s \/ reg s R_PC < 65535 ->
  same (rrun (0 :: l) s) (rrun' (0 :: l) s).
Proof.
  intros l s V Y. cbn.
  assert (S1 : same (rtl 0 s) (rtl' 0 s)) by (apply rtl'_same; auto).
  eapply same_trans; [apply rrun_cong; exact S1|].
  apply rrun'_same.
  - eapply cvalid_same; [exact S1|]. apply rtl_valid; auto.
  - eapply insync_same; [exact S1|]. apply rtl0_insync; auto.
Qed.
