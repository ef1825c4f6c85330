(** * Running programs of the instruction set symbolically
    Helpers to follow a program whose bytes are in memory up to its first FIN. *)
From Coq Require Import ZArith List Bool Lia ZifyBool.
From Verif Require Import Prog Isa Api Usage Front IsaFacts Reach PropsApi PropsIsa PropsRun.
Import ListNotations.
Open Scope Z_scope.

(** [t] is reached from [s] without executing FIN. *)
Definition goes (s t : arch) : Prop := exists n, steps n s = t /\ forall m, (m < n)%nat -> opcode (steps m s) <> 255.
Lemma goes_refl : forall s, goes s s.
Proof. intros s. exists 0%nat. split; [reflexivity|]. intros m Hm. lia. Qed.
Lemma goes_step : forall s t, opcode s <> 255 -> goes (step s) t -> goes s t.
Proof.
  intros s t H (n & E & G). exists (S n). split; [exact E|]. intros m Hm. destruct m as [|m]; [exact H|]. cbn [steps]. apply G. lia.
Qed.
Lemma steps_add : forall n m s, steps (n + m) s = steps m (steps n s).
Proof. induction n as [|n IH]; intros m s; cbn [steps Nat.add]; auto. Qed.
Lemma goes_trans : forall s t u, goes s t -> goes t u -> goes s u.
Proof.
  intros s t u (n & E & G) (n' & E' & G'). exists (n + n')%nat. split; [rewrite steps_add, E; exact E'|]. intros m Hm.
  destruct (Nat.lt_ge_cases m n) as [L|L]; [apply G; exact L|]. replace m with (n + (m - n))%nat by lia. rewrite steps_add, E. apply G'. lia.
Qed.
Lemma goes_fin : forall s t, goes s t -> opcode t = 255 -> exists n, first_fin n s /\ steps n s = t.
Proof. intros s t (n & E & G) F. exists n. split; auto. split; auto. rewrite E. exact F. Qed.
Lemma first_fin_unique : forall n m s, first_fin n s -> first_fin m s -> n = m.
Proof.
  intros n m s (F1 & F2) (G1 & G2). destruct (Nat.lt_trichotomy n m) as [L|[L|L]]; auto.
  - destruct (G2 n L F1).
  - destruct (F2 m L G1).
Qed.
(** FIN changes the program counter only. *)
Lemma step_fin : forall s, opcode s = 255 -> PC s < 65535 -> step s = put_pc (PC s + 1) s.
Proof.
  intros s H Hp. unfold opcode in H. unfold step. rewrite H. change (decode 255) with FIN. cbn [exec_instr]. unfold pc_next.
  destruct (Z.eqb_spec (PC s) 65535); [lia|reflexivity].
Qed.
Lemma goes_end : forall s t, goes s t -> opcode t = 255 -> PC t < 65535 -> exists n, first_fin n s /\ steps (S n) s = put_pc (PC t + 1) t.
Proof.
  intros s t G F Hp. destruct (goes_fin s t G F) as (n & Fn & E). exists n. split; auto. replace (S n) with (n + 1)%nat by lia. rewrite steps_add, E.
  cbn [steps]. apply step_fin; auto.
Qed.

(** A state with [P] is reached from [s] without executing FIN. *)
Definition reach (s : arch) (P : arch -> Prop) : Prop := exists t, goes s t /\ P t.
Lemma reach_here : forall s (P : arch -> Prop), P s -> reach s P.
Proof. intros s P H. exists s. split; auto. apply goes_refl. Qed.
Lemma reach_step : forall s P, opcode s <> 255 -> reach (step s) P -> reach s P.
Proof. intros s P H (t & G & Ht). exists t. split; auto. apply goes_step; auto. Qed.
Lemma reach_trans : forall s (P Q : arch -> Prop), reach s P -> (forall t, P t -> reach t Q) -> reach s Q.
Proof. intros s P Q (t & G & Ht) K. destruct (K t Ht) as (u & G' & Hu). exists u. split; auto. eapply goes_trans; eauto. Qed.

(** One instruction with its opcode known. *)
Lemma step_known : forall s op i, M s (PC s) = op -> decode op = i -> PC s < 65535 -> step s = exec_instr i (put_pc (PC s + 1) s).
Proof. intros s op i H1 H2 Hp. unfold step. rewrite H1, H2. f_equal. unfold pc_next. destruct (Z.eqb_spec (PC s) 65535); [lia|reflexivity]. Qed.
Lemma high_low : forall v, 256 * (v / 256) + v mod 256 = v.
Proof. intros v. pose proof (Z.div_mod v 256 ltac:(lia)). lia. Qed.

(** [m] read at [o + k], for the code in memory. *)
Definition code_at (m : Z -> Z) (o : Z) (bytes : list Z) : Prop :=
  forall k, (k < length bytes)%nat -> m (o + Z.of_nat k) = nth k bytes 0.
Lemma code_write : forall m o bytes a v, code_at m o bytes -> a < o \/ o + Z.of_nat (length bytes) <= a ->
  code_at (fun x => if x =? a then v else m x) o bytes.
Proof. intros m o bytes a v H Ha k Hk. cbn beta. destruct (Z.eqb_spec (o + Z.of_nat k) a); [lia|]. apply H. exact Hk. Qed.

Ltac norm_pc o := repeat match goal with
  | |- context [o + ?a + ?b] => let c := eval compute in (a + b) in replace (o + a + b) with (o + c) by lia
  | |- context [o + ?a =? 65535] => replace (o + a =? 65535) with false by lia
  end.
Ltac norm_lit := repeat match goal with
  | |- context [Z.add (Zpos ?a) (Zpos ?b)] => let c := eval compute in (Zpos a + Zpos b) in change (Z.add (Zpos a) (Zpos b)) with c
  | |- context [Z.sub (Zpos ?a) (Zpos ?b)] => let c := eval compute in (Zpos a - Zpos b) in change (Z.sub (Zpos a) (Zpos b)) with c
  | |- context [Z.mul (Zpos ?a) (Zpos ?b)] => let c := eval compute in (Zpos a * Zpos b) in change (Z.mul (Zpos a) (Zpos b)) with c
  end.
Ltac name_post P := match goal with |- reach _ ?Q => set (P := Q) end.
Ltac name_mem m1 := match goal with |- reach (mkArch _ _ _ _ _ _ _ _ _ ?f _) _ => set (m1 := f) end.
(** Read the code byte at [o + k] from the hypothesis [H : code_at m o bytes]. *)
Ltac code_byte H k := let n := eval compute in (Z.to_nat k) in
  let X := fresh "X" in pose proof (H n ltac:(cbn [length]; lia)) as X; let z := eval compute in (Z.of_nat n) in change (Z.of_nat n) with z in X; cbn [nth] in X; rewrite ?X; clear X.
(** Execute one instruction whose opcode is a literal at [o + k]. *)
Ltac isa_step H o k i :=
  apply reach_step; [unfold opcode; cbn [PC M]; code_byte H k; discriminate|];
  erewrite (step_known _ _ i); [|cbn [PC M]; code_byte H k; reflexivity|reflexivity|cbn [PC]; lia];
  do 3 (cbv [exec_instr put_pc PC M AC FC FZ B C D E SP log with_dir with_imm imm pc_next put put_ac put_flags put_sp get alu_step alu_result alu_carry
    push pop sp_up sp_down write DE]; norm_pc o; norm_lit; cbn [Z.eqb Pos.eqb]).
