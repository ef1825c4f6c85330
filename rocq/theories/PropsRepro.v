(** * Theorems: a program that reads only what it was given does the same on every machine (C88) *)
From Coq Require Import ZArith List Bool Lia ZifyBool.
From Verif Require Import Prog Isa Access Api Usage Front IsaFacts Reach PropsApi PropsIsa PropsRun IsaRun.
From Verif Require ApiFacts PropsLife Shown.
Import ListNotations.
Open Scope Z_scope.

(** ** One instruction *)
(** Equal up to the cells outside [K], with the same new notices since [ls] and [lt]. *)
Definition like (K : Z -> Prop) (ls lt : list msg) (s t : arch) : Prop := alike K s t /\ exists w, log s = w ++ ls /\ log t = w ++ lt.
Lemma like_weaken : forall (K K' : Z -> Prop) ls lt s t, like K ls lt s t -> (forall x, K' x -> K x) -> like K' ls lt s t.
Proof. intros K K' ls lt s t (A & W) H. split; [|exact W]. destruct A as (A1 & A2 & A3 & A4 & A5 & A6 & A7 & A8 & A9 & A). repeat (split; [assumption|]). auto. Qed.
Ltac like_tac := let A := fresh in intros; match goal with H : like _ _ _ _ _ |- _ => destruct H as ((A1 & A2 & A3 & A4 & A5 & A6 & A7 & A8 & A9 & A10) & (w & W1 & W2)) end.
Lemma like_put : forall K ls lt r v s t, like K ls lt s t -> like K ls lt (put r v s) (put r v t).
Proof. like_tac. split; [|exists w; destruct r; auto]. destruct r; repeat split; cbn; auto. Qed.
Lemma like_ac : forall K ls lt v s t, like K ls lt s t -> like K ls lt (put_ac v s) (put_ac v t).
Proof. like_tac. split; [|exists w; auto]. repeat split; cbn; auto. Qed.
Lemma like_flags : forall K ls lt c z s t, like K ls lt s t -> like K ls lt (put_flags c z s) (put_flags c z t).
Proof. like_tac. split; [|exists w; auto]. repeat split; cbn; auto. Qed.
Lemma like_pc : forall K ls lt v s t, like K ls lt s t -> like K ls lt (put_pc v s) (put_pc v t).
Proof. like_tac. split; [|exists w; auto]. repeat split; cbn; auto. Qed.
Lemma like_sp : forall K ls lt v s t, like K ls lt s t -> like K ls lt (put_sp v s) (put_sp v t).
Proof. like_tac. split; [|exists w; auto]. repeat split; cbn; auto. Qed.
Lemma like_note : forall K ls lt m s t, like K ls lt s t -> like K ls lt (note m s) (note m t).
Proof. like_tac. split; [|exists (m :: w); cbn; rewrite W1, W2; auto]. repeat split; cbn; auto. Qed.
Lemma like_write : forall K ls lt a v s t, like K ls lt s t -> like (fun x => K x \/ x = a) ls lt (write a v s) (write a v t).
Proof. like_tac. split; [|exists w; auto]. repeat split; cbn; auto. intros x Hx. destruct (Z.eqb_spec x a); [reflexivity|]. apply A10. destruct Hx; [assumption|contradiction]. Qed.
Lemma like_get : forall K ls lt s t, like K ls lt s t -> (forall r, get r s = get r t) /\ AC s = AC t /\ FC s = FC t /\ FZ s = FZ t /\ PC s = PC t /\ SP s = SP t /\ DE s = DE t /\ flags_byte s = flags_byte t /\ forall x, K x -> M s x = M t x.
Proof. like_tac. unfold DE, flags_byte. rewrite A2, A3, A6, A7. repeat split; auto. destruct r; auto. Qed.
Lemma like_next : forall K ls lt s t, like K ls lt s t -> like K ls lt (pc_next s) (pc_next t).
Proof. intros K ls lt s t H. unfold pc_next. pose proof (like_get _ _ _ _ _ H) as (_ & _ & _ & _ & -> & _). destruct (_ =? _); [apply like_note|apply like_pc]; exact H. Qed.
Lemma like_up : forall K ls lt s t, like K ls lt s t -> like K ls lt (sp_up s) (sp_up t).
Proof. intros K ls lt s t H. unfold sp_up. pose proof (like_get _ _ _ _ _ H) as (_ & _ & _ & _ & _ & -> & _). destruct (_ =? _); [apply like_note|apply like_sp]; exact H. Qed.
Lemma like_down : forall K ls lt s t, like K ls lt s t -> like K ls lt (sp_down s) (sp_down t).
Proof. intros K ls lt s t H. unfold sp_down. pose proof (like_get _ _ _ _ _ H) as (_ & _ & _ & _ & _ & -> & _). destruct (_ =? _); [apply like_note|apply like_sp]; exact H. Qed.
Lemma like_imm : forall K K' ls lt k s t, like K ls lt s t -> K (PC s) -> (forall v s' t', like K ls lt s' t' -> M s' = M s -> PC s' = PC (pc_next s) -> SP s' = SP s -> s' = pc_next s -> v = M s (PC s) -> like K' ls lt (k v s') (k v t')) ->
  like K' ls lt (with_imm k s) (with_imm k t).
Proof.
  intros K K' ls lt k s t H Hp Hk. unfold with_imm, imm. pose proof (like_get _ _ _ _ _ H) as (_ & _ & _ & _ & Ep & _ & _ & _ & Em). rewrite <- Ep, <- (Em _ Hp).
  apply Hk; auto; [apply like_next; exact H|unfold pc_next; destruct (_ =? _); reflexivity|unfold pc_next; destruct (_ =? _); reflexivity].
Qed.
Lemma next_pc : forall s, PC s <= 65535 -> PC (pc_next s) = after (PC s) /\ M (pc_next s) = M s /\ SP (pc_next s) = SP s.
Proof. intros s H. unfold pc_next, after. destruct (Z.eqb_spec (PC s) 65535); cbn; repeat split; lia. Qed.
Lemma up_sp : forall s, SP s <= 65535 -> SP (sp_up s) = after (SP s) /\ M (sp_up s) = M s.
Proof. intros s H. unfold sp_up, after. destruct (Z.eqb_spec (SP s) 65535); cbn; split; (reflexivity || lia). Qed.
Lemma down_sp : forall s, 0 <= SP s -> SP (sp_down s) = before (SP s) /\ M (sp_down s) = M s.
Proof. intros s H. unfold sp_down, before. destruct (Z.eqb_spec (SP s) 0); cbn; split; (reflexivity || lia). Qed.
Lemma after_le : forall p, after p <= 65535. Proof. intros. unfold after. lia. Qed.
Lemma before_ge : forall p, 0 <= before p. Proof. intros. unfold before. lia. Qed.
Lemma like_pop : forall K K' ls lt k s t, like K ls lt s t -> SP s <= 65535 -> K (SP s) -> (forall v s' t', like K ls lt s' t' -> SP s' = after (SP s) -> like K' ls lt (k v s') (k v t')) ->
  like K' ls lt (pop k s) (pop k t).
Proof.
  intros K K' ls lt k s t H B Hp Hk. unfold pop. pose proof (like_get _ _ _ _ _ H) as (_ & _ & _ & _ & _ & Es & _ & _ & Em). rewrite <- Es, <- (Em _ Hp).
  apply Hk; [apply like_up; exact H|apply up_sp; exact B].
Qed.
Lemma like_push : forall K ls lt v s t, like K ls lt s t -> 0 <= SP s -> like (fun x => K x \/ x = before (SP s)) ls lt (push v s) (push v t).
Proof.
  intros K ls lt v s t H B. unfold push. pose proof (like_down _ _ _ _ _ H) as H'. pose proof (like_get _ _ _ _ _ H') as (_ & _ & _ & _ & _ & Es & _). rewrite <- Es, (proj1 (down_sp s B)). apply like_write. exact H'.
Qed.
Lemma like_alu : forall K ls lt o b s t, like K ls lt s t -> like K ls lt (alu_step o b s) (alu_step o b t).
Proof. intros K ls lt o b s t H. unfold alu_step. pose proof (like_get _ _ _ _ _ H) as (_ & Ea & _). rewrite Ea. apply like_flags. destruct o; try exact H; apply like_ac; exact H. Qed.

Lemma step_like : forall K ls lt s t, valid s -> like K ls lt s t -> (forall x, In x (reads s) -> K x) -> like (fun x => K x \/ In x (writes s)) ls lt (step s) (step t).
Proof.
  intros K ls lt s t V H R. pose proof V as (_ & _ & _ & _ & _ & Vp & Vs & _). unfold step, writes. unfold reads in R.
  assert (Kp : K (PC s)) by (apply R; left; reflexivity). pose proof (like_get _ _ _ _ _ H) as (_ & _ & _ & _ & Ep & _ & _ & _ & Em). rewrite <- Ep, <- (Em _ Kp).
  pose proof (like_next _ _ _ _ _ H) as H1. destruct (next_pc s ltac:(lia)) as (P1 & M1 & S1).
  set (i := decode (M s (PC s))) in *. clearbody i.
  set (s1 := pc_next s) in *. set (t1 := pc_next t) in *.
  pose proof (like_get _ _ _ _ _ H1) as (G1 & G2 & G3 & G4 & G5 & G6 & G7 & G8 & G9).
  assert (Gd : DE s1 = DE s) by (unfold s1, pc_next, DE; destruct (_ =? _); reflexivity).
  assert (W : forall K0 : Z -> Prop, (forall x, K x \/ In x [] -> K0 x) -> forall x, K x \/ In x [] -> K0 x) by auto.
  assert (Q : forall u v, like K ls lt u v -> like (fun x => K x \/ In x []) ls lt u v) by (intros u v X; apply (like_weaken K); [exact X|]; intros x [Hx|[]]; exact Hx).
  assert (Dir : forall K' k, K (after (PC s)) -> K (after (after (PC s))) ->
     (forall s' t', like K ls lt s' t' -> M s' = M s -> SP s' = SP s -> like K' ls lt (k (operand s) s') (k (operand s) t')) -> like K' ls lt (with_dir k s1) (with_dir k t1)).
  { intros K' k Ka Kb Hk. unfold with_dir. apply (like_imm K); [exact H1|rewrite P1; exact Ka|]. intros v s' t' L1 Mm Pp Ss Eq ->. subst s'. apply (like_imm K); [exact L1| |].
    - destruct (next_pc s1) as (P2 & _); [rewrite P1; apply after_le|]. rewrite P2, P1. exact Kb.
    - intros v s' t'' L2 Mm2 Pp2 Ss2 _ ->. destruct (next_pc s1) as (P2 & M2 & S2); [rewrite P1; apply after_le|]. rewrite P2, M2, M1, P1. fold (operand s). apply Hk; [exact L2|rewrite Mm2, M2, M1; reflexivity|rewrite Ss2, S2, S1; reflexivity]. }
  assert (Imm1 : forall k, K (after (PC s)) -> (forall v s' t', like K ls lt s' t' -> like K ls lt (k v s') (k v t')) -> like (fun x => K x \/ In x []) ls lt (with_imm k s1) (with_imm k t1)).
  { intros k Ka Hk. apply Q. apply (like_imm K); [exact H1|rewrite P1; exact Ka|]. intros; apply Hk; assumption. }
  destruct i; cbn [exec_instr] in *; cbn [In] in R.
  - rewrite G1. apply Q, like_put, H1.
  - rewrite G1. apply Q, like_ac, H1.
  - rewrite G2. apply Q, like_put, H1.
  - apply Q, H1.
  - apply Imm1; [apply R; auto|]. intros. apply like_put. assumption.
  - apply Imm1; [apply R; auto|]. intros. apply like_ac. assumption.
  - destruct x; [rewrite G1; apply Q, like_alu, H1|rewrite G2; apply Q, like_alu, H1|apply Imm1; [apply R; cbn; auto|]; intros; apply like_alu; assumption].
  - rewrite G1. apply Q, like_flags, like_put, H1.
  - rewrite G2. apply Q, like_flags, like_ac, H1.
  - rewrite G2. apply Q, like_flags, like_ac, H1.
  - apply Dir; [apply R; auto|apply R; auto|]. intros s' t' L Mm _. pose proof (like_get _ _ _ _ _ L) as (_ & _ & _ & _ & _ & _ & _ & _ & Gm). rewrite (Gm (operand s)) by (apply R; auto). apply Q, like_ac, L.
  - apply Dir; [apply R; auto|apply R; auto|]. intros s' t' L Mm _. pose proof (like_get _ _ _ _ _ L) as (_ & Ga & _). rewrite Ga. eapply like_weaken; [apply like_write; exact L|]. cbn. intros x [?|[?|[]]]; auto.
  - rewrite <- G7, Gd, G9 by (apply R; auto). apply Q, like_ac, H1.
  - rewrite <- G7, Gd, G2. eapply like_weaken; [apply like_write; exact H1|]. cbn. intros x [?|[?|[]]]; auto.
  - apply Dir; [apply R; auto|apply R; auto|]. intros s' t' L Mm _. pose proof (like_get _ _ _ _ _ L) as (_ & _ & _ & Gz & _). rewrite Gz. apply Q. destruct (FZ t'); [apply like_pc|]; exact L.
  - apply Dir; [apply R; auto|apply R; auto|]. intros s' t' L Mm _. pose proof (like_get _ _ _ _ _ L) as (_ & _ & Gc & _). rewrite Gc. apply Q. destruct (FC t'); [apply like_pc|]; exact L.
  - apply Dir; [apply R; auto|apply R; auto|]. intros. apply Q, like_pc. assumption.
  - rewrite G8. apply Q, like_ac, H1.
  - rewrite G2. apply Q. unfold load_flags. apply like_flags, H1.
  - apply Dir; [apply R; auto|apply R; auto|]. intros. apply Q, like_sp. assumption.
  - rewrite G2. eapply like_weaken; [apply like_push; [exact H1|lia]|]. rewrite S1. cbn. intros x [?|[?|[]]]; auto.
  - apply Q. apply (like_pop K); [exact H1|lia|rewrite S1; apply R; auto|]. intros. apply like_ac. assumption.
  - apply Dir; [apply R; auto|apply R; auto|]. intros s' t' L Mm Ss. pose proof (like_get _ _ _ _ _ L) as (_ & _ & _ & _ & Gp & _). rewrite <- Gp. apply like_pc.
    eapply like_weaken; [apply like_push; [apply like_push; [exact L|lia]|]|]; unfold push; rewrite ?(proj1 (down_sp s' ltac:(lia))); cbn [SP write]; rewrite ?(proj1 (down_sp s' ltac:(lia))), Ss; [apply before_ge|].
    cbn. intros x [?|[?|[?|[]]]]; auto.
  - apply Q. apply (like_pop K); [exact H1|lia|rewrite S1; apply R; auto|]. intros v s' t' L E1. apply (like_pop K); [exact L|rewrite E1; apply after_le|rewrite E1, S1; apply R; auto|]. intros. apply like_pc. assumption.
  - apply Q. apply (like_pop K); [exact H1|lia|rewrite S1; apply R; auto|]. intros v s' t' L E1. apply (like_pop K); [exact L|rewrite E1; apply after_le|rewrite E1, S1; apply R; auto|].
    intros v2 s2 t2 L2 E2. apply (like_pop K); [exact L2|rewrite E2; apply after_le|rewrite E2, E1, S1; apply R; auto|]. intros. unfold load_flags. apply like_flags, like_pc. assumption.
  - apply Q, H1.
  - apply Q, H1.
  - apply Imm1; [apply R; auto|]. auto.
Qed.

(** ** Many instructions *)
Lemma writes_like : forall K ls lt s t, like K ls lt s t -> (forall x, In x (reads s) -> K x) -> writes s = writes t /\ cycles (M s (PC s)) (FC s) (FZ s) = cycles (M t (PC t)) (FC t) (FZ t) /\ opcode s = opcode t.
Proof.
  intros K ls lt s t H R. pose proof (like_get _ _ _ _ _ H) as (_ & _ & Ec & Ez & Ep & Es & Ed & _ & Em). assert (Kp : K (PC s)) by (apply R; left; reflexivity).
  unfold opcode. rewrite <- Ec, <- Ez, <- Ep, <- (Em _ Kp). split; [|auto]. unfold writes. rewrite <- Ep, <- (Em _ Kp). unfold reads in R.
  destruct (decode (M s (PC s))); try reflexivity; try congruence. unfold operand. rewrite <- Ep. rewrite <- !Em; [reflexivity|apply R; cbn; auto|apply R; cbn; auto].
Qed.
Lemma run_like : forall n K ls lt s t, (forall m, (m <= n)%nat -> valid (steps m s)) -> like K ls lt s t -> relies K n s ->
  like (fun x => K x \/ In x (written n s)) ls lt (steps n s) (steps n t) /\ total_cycles n s = total_cycles n t /\ written n s = written n t /\ (forall m, (m < n)%nat -> opcode (steps m s) = opcode (steps m t)).
Proof.
  induction n as [|n IH]; intros K ls lt s t V H R.
  - split; [|repeat split; intros; lia]. cbn. eapply like_weaken; [exact H|]. intros x [Hx|[]]; exact Hx.
  - cbn [relies] in R. destruct R as (R1 & R2). pose proof (step_like K ls lt s t (V 0%nat ltac:(lia)) H R1) as H1. destruct (writes_like K ls lt s t H R1) as (W & Cy & Op).
    destruct (IH _ ls lt (step s) (step t) ltac:(intros m Hm; apply (V (S m)); lia) H1 R2) as (L & T & Wr & O). cbn [steps total_cycles written]. split; [|split; [|split]].
    + eapply like_weaken; [exact L|]. cbn beta. intros x [Hx|Hx]; [left; left; exact Hx|]. apply in_app_or in Hx. destruct Hx; auto.
    + rewrite Cy, T. reflexivity.
    + rewrite W, Wr. reflexivity.
    + intros [|m] Hm; [exact Op|]. apply O. lia.
Qed.
Lemma live_steps_valid : forall l h k a, live l h k -> boundary h -> shows h a -> forall m, valid (steps m a).
Proof.
  intros l h k a L Bd S m. destruct (C14_programs_run m false l h k a L Bd S ltac:(discriminate)) as (h' & I). destruct (C14_programs m l h k a _ h' L Bd S I) as (S' & _ & L' & _). exact (live_valid _ _ _ _ L' S').
Qed.
(** The cells an instruction does not write stay. *)
Lemma write_frame : forall a v s x, x <> a -> M (write a v s) x = M s x.
Proof. intros a v s x H. cbn. destruct (Z.eqb_spec x a); [contradiction|reflexivity]. Qed.
Lemma step_frame : forall s, valid s -> forall x, ~ In x (writes s) -> M (step s) x = M s x.
Proof.
  intros s V x. pose proof V as (_ & _ & _ & _ & _ & Vp & Vs & _). unfold step, writes. set (i := decode (M s (PC s))). clearbody i. destruct (next_pc s ltac:(lia)) as (P1 & M1 & S1).
  set (s1 := pc_next s) in *. assert (Gd : DE s1 = DE s) by (unfold s1, pc_next, DE; destruct (_ =? _); reflexivity).
  assert (Np : forall t, M (pc_next t) = M t) by (intros t; unfold pc_next; destruct (_ =? _); reflexivity).
  assert (Nu : forall t, M (sp_up t) = M t) by (intros t; unfold sp_up; destruct (_ =? _); reflexivity).
  assert (Nd : forall t, M (sp_down t) = M t) by (intros t; unfold sp_down; destruct (_ =? _); reflexivity).
  assert (Dir : forall k, with_dir k s1 = k (operand s) (pc_next (pc_next s1))).
  { intros k. unfold with_dir, with_imm, imm, operand. destruct (next_pc s1) as (P2 & M2 & S2); [rewrite P1; apply after_le|]. rewrite P2, M2, M1, P1. reflexivity. }
  assert (S2 : SP (pc_next (pc_next s1)) = SP s) by (unfold pc_next; rewrite <- S1; repeat (destruct (_ =? _); cbn; try reflexivity)).
  assert (Ms : M s1 x = M s x) by (rewrite M1; reflexivity).
  destruct i; cbn [exec_instr]; rewrite ?Dir; intros N; unfold with_imm, pop, alu_step, load_flags; cbn [M put put_ac put_flags put_pc put_sp write];
    repeat first [ match goal with |- context [match ?r with RB => _ | RC => _ | RD => _ | RE => _ end] => destruct r end
                 | match goal with |- context [put ?r _ _] => destruct r; cbn [put M] end
                 | match goal with |- context [match ?o with ADD => _ | SUB => _ | CMP => _ | AND => _ | OR => _ | XOR => _ end] => destruct o end
                 | match goal with |- context [match ?o with Reg _ => _ | Acc => _ | Imm => _ end] => destruct o end
                 | match goal with |- context [if ?b then _ else _] => lazymatch b with context [x =? _] => fail | _ => destruct b end end
                 | progress cbn [M put put_ac put_flags put_pc put_sp write] ]; rewrite ?Nu, ?Np; try exact Ms.
  - destruct (Z.eqb_spec x (operand s)); [subst; exfalso; apply N; left; reflexivity|exact Ms].
  - destruct (Z.eqb_spec x (DE s1)); [subst; exfalso; apply N; left; symmetry; exact Gd|exact Ms].
  - unfold push. rewrite write_frame, Nd; [exact Ms|]. rewrite (proj1 (down_sp s1 ltac:(lia))), S1. intros ->. apply N. left. reflexivity.
  - unfold push. set (s2 := pc_next (pc_next s1)) in *. pose proof (down_sp s2 ltac:(lia)) as (D1 & _).
    pose proof (down_sp (write (SP (sp_down s2)) (PC s2 / 256) (sp_down s2))) as D2. cbn [SP write] in D2. rewrite D1 in D2. specialize (D2 (before_ge _)). destruct D2 as (D2 & _). rewrite S2 in *.
    rewrite write_frame, Nd, write_frame, Nd; [unfold s2; rewrite !Np; exact Ms|rewrite D1; intros ->; apply N; left; reflexivity|rewrite D1, D2; intros ->; apply N; right; left; reflexivity].
Qed.
Lemma steps_frame : forall n s, (forall m, (m <= n)%nat -> valid (steps m s)) -> forall x, ~ In x (written n s) -> M (steps n s) x = M s x.
Proof.
  induction n as [|n IH]; intros s V x N; [reflexivity|]. cbn [written steps] in *. rewrite IH; [apply (step_frame s (V 0%nat ltac:(lia)))| |]; [intros I; apply N, in_or_app; auto| |intros I; apply N, in_or_app; auto].
  intros m Hm. apply (V (S m)). lia.
Qed.

(** ** C88 *)
(** Two machines, with whatever histories, that show equal registers and equal cells in
    [K]; the program on the first reads only cells of [K] and cells it wrote. *)
(** Then any number of instructions takes as many clock cycles on the second and leaves the
    same registers, the same cells of [K] and the same values in every cell written, with
    the same new notices.  Every other cell keeps its own value. *)
Theorem C88_steps : forall n K u l1 h1 k1 a1 l2 h2 k2 a2 w h1', live l1 h1 k1 -> boundary h1 -> shows h1 a1 -> live l2 h2 k2 -> boundary h2 -> shows h2 a2 -> (u = true -> k2 = true) ->
  alike K a1 a2 -> relies K n a1 -> instructions n h1 (repeat u w) h1' ->
  exists h2' b1 b2, instructions n h2 (repeat u w) h2' /\ shows h1' b1 /\ shows h2' b2 /\ alike (fun x => K x \/ In x (written n a1)) b1 b2 /\
    (forall x, ~ In x (written n a1) -> M b1 x = M a1 x /\ M b2 x = M a2 x) /\ exists new, log b1 = new ++ log a1 /\ log b2 = new ++ log a2.
Proof.
  intros n K u l1 h1 k1 a1 l2 h2 k2 a2 w h1' L1 B1 S1 L2 B2 S2 Hu A R I.
  destruct (C14_programs n l1 h1 k1 a1 _ h1' L1 B1 S1 I) as (S1' & _ & _ & Cy).
  destruct (run_like n K (log a1) (log a2) a1 a2 (fun m _ => live_steps_valid l1 h1 k1 a1 L1 B1 S1 m) (conj A (ex_intro _ [] (conj eq_refl eq_refl))) R) as ((A' & New) & T & W & _).
  destruct (C14_programs_run n u l2 h2 k2 a2 L2 B2 S2 Hu) as (h2' & I2). rewrite <- T, <- Cy, repeat_length, Nat2Z.id in I2.
  destruct (C14_programs n l2 h2 k2 a2 _ h2' L2 B2 S2 I2) as (S2' & _).
  exists h2', (steps n a1), (steps n a2). split; [exact I2|]. split; [exact S1'|]. split; [exact S2'|]. split; [exact A'|]. split; [|exact New].
  intros x N. split; [apply steps_frame; [exact (fun m _ => live_steps_valid l1 h1 k1 a1 L1 B1 S1 m)|exact N]|apply steps_frame; [exact (fun m _ => live_steps_valid l2 h2 k2 a2 L2 B2 S2 m)|rewrite <- W; exact N]].
Qed.
(** "Run program" stops on both, or on neither. *)
Theorem C88_program : forall n K u l1 h1 k1 a1 l2 h2 k2 a2, live l1 h1 k1 -> boundary h1 -> shows h1 a1 -> live l2 h2 k2 -> boundary h2 -> shows h2 a2 -> (u = true -> k1 = true /\ k2 = true) ->
  alike K a1 a2 -> first_fin n a1 -> relies K (S n) a1 ->
  exists h1' h2' b1 b2, run_program u false h1 h1' /\ run_program u false h2 h2' /\ shows h1' b1 /\ shows h2' b2 /\ alike (fun x => K x \/ In x (written (S n) a1)) b1 b2 /\
    (forall x, ~ In x (written (S n) a1) -> M b1 x = M a1 x /\ M b2 x = M a2 x) /\ exists new, log b1 = new ++ log a1 /\ log b2 = new ++ log a2.
Proof.
  intros n K u l1 h1 k1 a1 l2 h2 k2 a2 L1 B1 S1 L2 B2 S2 Hu A F R.
  destruct (run_like (S n) K (log a1) (log a2) a1 a2 (fun m _ => live_steps_valid l1 h1 k1 a1 L1 B1 S1 m) (conj A (ex_intro _ [] (conj eq_refl eq_refl))) R) as ((A' & New) & T & W & O).
  assert (F2 : first_fin n a2). { destruct F as (F1 & F2). split; [rewrite <- O by lia; exact F1|]. intros m Hm. rewrite <- O by lia. apply F2. exact Hm. }
  destruct (C41_stops_after_fin n u l1 h1 k1 a1 ltac:(intros X; apply Hu; exact X) L1 B1 S1 F) as (h1' & P1 & S1' & _).
  destruct (C41_stops_after_fin n u l2 h2 k2 a2 ltac:(intros X; apply Hu; exact X) L2 B2 S2 F2) as (h2' & P2 & S2' & _).
  exists h1', h2', (steps (S n) a1), (steps (S n) a2). split; [exact P1|]. split; [exact P2|]. split; [exact S1'|]. split; [exact S2'|]. split; [exact A'|]. split; [|exact New].
  intros x N. split; [apply steps_frame; [exact (fun m _ => live_steps_valid l1 h1 k1 a1 L1 B1 S1 m)|exact N]|apply steps_frame; [exact (fun m _ => live_steps_valid l2 h2 k2 a2 L2 B2 S2 m)|rewrite <- W; exact N]].
Qed.
Theorem C88_endless : forall K u l1 h1 k1 a1 l2 h2 k2 a2, live l1 h1 k1 -> boundary h1 -> shows h1 a1 -> live l2 h2 k2 -> boundary h2 -> shows h2 a2 -> (u = true -> k1 = true /\ k2 = true) ->
  alike K a1 a2 -> (forall n, relies K n a1) -> (forall h', ~ run_program u false h1 h') -> forall h', ~ run_program u false h2 h'.
Proof.
  intros K u l1 h1 k1 a1 l2 h2 k2 a2 L1 B1 S1 L2 B2 S2 Hu A R N h' P. destruct (C41_stops_only_after_fin u l2 h2 k2 a2 h' ltac:(intros X; apply Hu; exact X) L2 B2 S2 P) as (n & F & _).
  destruct (run_like (S n) K (log a1) (log a2) a1 a2 (fun m _ => live_steps_valid l1 h1 k1 a1 L1 B1 S1 m) (conj A (ex_intro _ [] (conj eq_refl eq_refl))) (R (S n))) as (_ & _ & _ & O).
  assert (F1 : first_fin n a1). { destruct F as (F1 & F2). split; [rewrite O by lia; exact F1|]. intros m Hm. rewrite O by lia. apply F2. exact Hm. }
  destruct (C41_stops_after_fin n u l1 h1 k1 a1 ltac:(intros X; apply Hu; exact X) L1 B1 S1 F1) as (h1' & P1 & _). exact (N h1' P1).
Qed.
(** The memory starts with random values.  A program saved in a page just opened, reading
    only its own bytes and what it wrote, gives the same results every time. *)
Definition opened_with (rnd : Z -> Z) (bytes : list Z) (h : hstate) : Prop :=
  exists g, run_calls [Init rnd; SetUi true] boot = Some g /\ save_to_memory 0 bytes g = Some h.
Lemma calls_cons : forall c l h, run_calls (c :: l) h = match do_call c h with Some h' => run_calls l h' | None => None end.
Proof. reflexivity. Qed.
Lemma calls_nil : forall h, run_calls [] h = Some h.
Proof. reflexivity. Qed.
Lemma ui_call : forall h, do_call (SetUi true) h = Some (set_ui h true).
Proof. reflexivity. Qed.
Lemma two_calls : forall rnd b g, run_calls [Init rnd; SetUi true] b = Some g -> exists g0, do_call (Init rnd) b = Some g0 /\ g = set_ui g0 true.
Proof. intros rnd b g. rewrite calls_cons. generalize (do_call (Init rnd) b). intros [g0|] E; [|discriminate E]. rewrite calls_cons, ui_call, calls_nil in E. injection E as <-. exists g0. auto. Qed.
Lemma two_calls_back : forall rnd b g0, do_call (Init rnd) b = Some g0 -> run_calls [Init rnd; SetUi true] b = Some (set_ui g0 true).
Proof. intros rnd b g0. rewrite calls_cons. generalize (do_call (Init rnd) b). intros x ->. rewrite calls_cons, ui_call, calls_nil. reflexivity. Qed.
Lemma init_only : forall rnd b, do_call (Init rnd) b = api_init rnd b.
Proof. reflexivity. Qed.
Lemma mem_ui : forall x h, get_memory_value x (set_ui h true) = get_memory_value x h.
Proof. reflexivity. Qed.
Lemma opened_live : forall rnd bytes h, (forall i, 0 <= rnd i) -> (forall b, In b bytes -> 0 <= b <= 255) -> Z.of_nat (length bytes) <= 65536 -> opened_with rnd bytes h -> exists l, live l h true.
Proof.
  intros rnd bytes h Hr Hb Hn (g & E & Sv).
  assert (Lg : live [Init rnd; SetUi true] g true).
  { split; [|exact E]. change [Init rnd; SetUi true] with ([Init rnd] ++ [SetUi true]). econstructor; [|apply (A_set_ui (mkUse true false) true)]. change [Init rnd] with ([] ++ [Init rnd]). econstructor; [constructor|]. apply (A_init (mkUse false false)). auto. }
  destruct (live_up _ _ _ Lg) as (_ & z & U). destruct (ApiFacts.up_obs g z U) as (O & _).
  destruct (PropsLife.C42_save bytes _ g 0 _ Lg O ltac:(lia) ltac:(lia) Hb) as (h2 & S2 & L2 & _). rewrite Sv in S2. injection S2 as <-. eauto.
Qed.
Lemma opened_facts : forall rnd bytes h a, (forall i, 0 <= rnd i) -> (forall b, In b bytes -> 0 <= b <= 255) -> Z.of_nat (length bytes) <= 65536 -> opened_with rnd bytes h -> shows h a ->
  (exists l, live l h true) /\ boundary h /\ AC a = 0 /\ FC a = false /\ FZ a = false /\ B a = 0 /\ C a = 0 /\ D a = 0 /\ E a = 0 /\ PC a = 0 /\ SP a = 0 /\ log a = [] /\
  forall i, (i < length bytes)%nat -> nth_error bytes i = Some (M a (Z.of_nat i)).
Proof.
  intros rnd bytes h a Hr Hb Hn (g & E & Sv) Sh.
  assert (Lg : live [Init rnd; SetUi true] g true).
  { split; [|exact E]. change [Init rnd; SetUi true] with ([Init rnd] ++ [SetUi true]). econstructor; [|apply (A_set_ui (mkUse true false) true)]. change [Init rnd] with ([] ++ [Init rnd]). econstructor; [constructor|]. apply (A_init (mkUse false false)). auto. }
  destruct (live_up _ _ _ Lg) as (_ & z & U). destruct (ApiFacts.up_obs g z U) as (O & _).
  destruct (PropsLife.C42_save bytes _ g 0 _ Lg O ltac:(lia) ltac:(lia) Hb) as (h2 & S2 & L2 & Rg & Mm & _ & _ & N & Hl). rewrite Sv in S2. injection S2 as <-.
  destruct (PropsLife.C52_init [] _ rnd boot P_start eq_refl Hr) as (g0 & E0 & R0 & _ & _ & _ & Hl0). destruct (two_calls rnd boot g E) as (g1 & E1 & Eg). rewrite E0 in E1. injection E1 as E1. rewrite <- E1 in Eg. subst g.
  assert (R1 : forall r, get_register_value r h = Some 0) by (intros r; rewrite Rg; exact (R0 r)).
  destruct Sh as (H1 & H2 & H3 & H4 & H5 & H6 & H7 & H8 & H9 & H10 & H11). rewrite R1 in *.
  split; [eauto|]. split; [split; [exact N|]; rewrite R1; discriminate|]. injection H1 as H1. injection H2 as H2. injection H3 as H3. injection H4 as H4. injection H5 as H5. injection H6 as H6. injection H7 as H7. injection H8 as H8. injection H9 as H9.
  repeat (split; [first [symmetry; assumption|destruct (FC a); [discriminate H2|reflexivity]|destruct (FZ a); [discriminate H3|reflexivity]]|]).
  split; [rewrite <- H11, Hl; exact Hl0|]. intros i Hi. rewrite <- (Mm i Hi), <- H10 by lia. reflexivity.
Qed.
Theorem C88_fresh : forall bytes rnd1 rnd2 h1 h2 a1 n u, (forall i, 0 <= rnd1 i) -> (forall i, 0 <= rnd2 i) -> (forall b, In b bytes -> 0 <= b <= 255) -> Z.of_nat (length bytes) <= 65536 ->
  opened_with rnd1 bytes h1 -> opened_with rnd2 bytes h2 -> shows h1 a1 -> first_fin n a1 -> relies (fun x => 0 <= x < Z.of_nat (length bytes)) (S n) a1 ->
  exists h1' h2' b1 b2, run_program u false h1 h1' /\ run_program u false h2 h2' /\ shows h1' b1 /\ shows h2' b2 /\ log b1 = log b2 /\
    alike (fun x => 0 <= x < Z.of_nat (length bytes) \/ In x (written (S n) a1)) b1 b2.
Proof.
  intros bytes rnd1 rnd2 h1 h2 a1 n u Hr1 Hr2 Hb Hn O1 O2 S1 F R.
  assert (S2 : exists a2, shows h2 a2). { destruct O2 as (g & E & Sv). destruct (opened_live rnd2 bytes h2) as (l & L); auto. { exists g. auto. } destruct (Shown.live_shows l h2 true L) as (a2 & S2 & _). eauto. }
  destruct S2 as (a2 & S2).
  destruct (opened_facts rnd1 bytes h1 a1 Hr1 Hb Hn O1 S1) as ((l1 & L1) & B1 & A1 & A2 & A3 & A4 & A5 & A6 & A7 & A8 & A9 & A10 & A11).
  destruct (opened_facts rnd2 bytes h2 a2 Hr2 Hb Hn O2 S2) as ((l2 & L2) & B2 & C1 & C2 & C3 & C4 & C5 & C6 & C7 & C8 & C9 & C10 & C11).
  destruct (C88_program n (fun x => 0 <= x < Z.of_nat (length bytes)) u l1 h1 true a1 l2 h2 true a2 L1 B1 S1 L2 B2 S2 ltac:(auto)) as (h1' & h2' & b1 & b2 & P1 & P2 & S1' & S2' & Al & _ & (w & W1 & W2)); auto.
  { unfold alike. rewrite A1, A2, A3, A4, A5, A6, A7, A8, A9, C1, C2, C3, C4, C5, C6, C7, C8, C9. repeat (split; [reflexivity|]). intros x Hx.
    specialize (A11 (Z.to_nat x) ltac:(lia)). specialize (C11 (Z.to_nat x) ltac:(lia)). rewrite Z2Nat.id in * by lia. congruence. }
  exists h1', h2', b1, b2. repeat (split; [assumption|]). split; [|exact Al]. rewrite W1, W2, A10, C10. reflexivity.
Qed.
(** The condition itself does not depend on the other cells either. *)
Lemma reads_like : forall K ls lt s t, like K ls lt s t -> (forall x, In x (reads s) -> K x) -> reads s = reads t.
Proof.
  intros K ls lt s t H R. pose proof (like_get _ _ _ _ _ H) as (_ & _ & Ec & Ez & Ep & Es & Ed & _ & Em). assert (Kp : K (PC s)) by (apply R; left; reflexivity).
  unfold reads in *. rewrite <- Ep, <- (Em _ Kp), <- Es, <- Ed. destruct (decode (M s (PC s))); try reflexivity. unfold operand. rewrite <- Ep. rewrite <- !Em; [reflexivity|apply R; cbn; auto|apply R; cbn; auto].
Qed.
Lemma relies_like : forall n K ls lt s t, (forall m, (m <= n)%nat -> valid (steps m s)) -> like K ls lt s t -> relies K n s -> relies K n t.
Proof.
  induction n as [|n IH]; intros K ls lt s t V H R; [exact I|]. cbn [relies] in *. destruct R as (R1 & R2). rewrite <- (reads_like K ls lt s t H R1). split; [exact R1|].
  pose proof (step_like K ls lt s t (V 0%nat ltac:(lia)) H R1) as H1. destruct (writes_like K ls lt s t H R1) as (W & _). rewrite <- W. apply (IH _ ls lt (step s) (step t)); auto. intros m Hm. apply (V (S m)). lia.
Qed.
Theorem C88_condition : forall n K l1 h1 k1 a1 a2, live l1 h1 k1 -> boundary h1 -> shows h1 a1 -> alike K a1 a2 -> relies K n a1 -> relies K n a2.
Proof.
  intros n K l1 h1 k1 a1 a2 L B S A R. exact (relies_like n K (log a1) (log a2) a1 a2 (fun m _ => live_steps_valid l1 h1 k1 a1 L B S m) (conj A (ex_intro _ [] (conj eq_refl eq_refl))) R).
Qed.
Lemma opened_exists : forall rnd bytes, (forall i, 0 <= rnd i) -> (forall b, In b bytes -> 0 <= b <= 255) -> Z.of_nat (length bytes) <= 65536 -> exists h a, opened_with rnd bytes h /\ shows h a /\
  (forall x, Z.of_nat (length bytes) <= x < 65536 -> M a x = rnd x mod 255).
Proof.
  intros rnd bytes Hr Hb Hn. destruct (PropsLife.C52_init [] _ rnd boot P_start eq_refl Hr) as (g0 & E0 & _).
  assert (Er : run_calls [Init rnd; SetUi true] boot = Some (set_ui g0 true)). { exact (two_calls_back rnd boot g0 E0). }
  assert (Lg : live [Init rnd; SetUi true] (set_ui g0 true) true).
  { split; [|exact Er]. change [Init rnd; SetUi true] with ([Init rnd] ++ [SetUi true]). econstructor; [|apply (A_set_ui (mkUse true false) true)]. change [Init rnd] with ([] ++ [Init rnd]). econstructor; [constructor|]. apply (A_init (mkUse false false)). auto. }
  destruct (live_up _ _ _ Lg) as (_ & z & U). destruct (ApiFacts.up_obs _ z U) as (O & _).
  destruct (PropsLife.C42_save bytes _ _ 0 _ Lg O ltac:(lia) ltac:(lia) Hb) as (h & Sv & L & _ & _ & Mm & _). destruct (Shown.live_shows _ h true L) as (a & Sh & _).
  exists h, a. split; [exists (set_ui g0 true); auto|]. split; [exact Sh|]. intros x Hx. destruct Sh as (_ & _ & _ & _ & _ & _ & _ & _ & _ & Sm & _). specialize (Sm x ltac:(lia)). rewrite Mm in Sm by lia.
  rewrite mem_ui in Sm.
  destruct (ApiFacts.init_up boot rnd HeapSim.sane0 Hr) as (g1 & z1 & Ei & U1 & _ & _ & _ & V). rewrite init_only in E0. rewrite E0 in Ei. injection Ei as <-. destruct (ApiFacts.up_obs g0 z1 U1) as ((_ & O2 & _) & _). rewrite O2, V in Sm by lia. injection Sm as <-. reflexivity.
Qed.
(** Examples: [fresh bytes v] is a machine with [bytes] at 0 and [v] in every other cell. *)
Definition fresh (bytes : list Z) (v : Z) : arch := mkArch 0 false false 0 0 0 0 0 0 (fun x => nth (Z.to_nat x) bytes v) [].
Lemma fresh_valid : forall bytes v, (forall b, In b bytes -> 0 <= b <= 255) -> 0 <= v <= 255 -> forall m, valid (steps m (fresh bytes v)).
Proof.
  intros bytes v Hb Hv. assert (V : valid (fresh bytes v)). { repeat split; cbn; try lia; destruct (Nat.lt_ge_cases (Z.to_nat a) (length bytes)) as [G|G]; [apply Hb, nth_In; exact G|rewrite nth_overflow by exact G; lia|apply Hb, nth_In; exact G|rewrite nth_overflow by exact G; lia]. }
  destruct (every_state_reachable (fresh bytes v) V eq_refl) as (l & h & L & Bd & S). exact (live_steps_valid l h true _ L Bd S).
Qed.
Fixpoint reliesb (len : Z) (L : list Z) (n : nat) (s : arch) : bool :=
  match n with O => true | S n' => forallb (fun x => (0 <=? x) && (x <? len) || existsb (Z.eqb x) L) (reads s) && reliesb len (writes s ++ L) n' (step s) end.
Lemma reliesb_ok : forall n len L (K : Z -> Prop) s, (forall x, 0 <= x < len -> K x) -> (forall x, In x L -> K x) -> reliesb len L n s = true -> relies K n s.
Proof.
  induction n as [|n IH]; intros len L K s H1 H2 H; [exact I|]. cbn [reliesb relies] in *. apply andb_true_iff in H. destruct H as (Ha & Hb). split.
  - intros x Hx. rewrite forallb_forall in Ha. specialize (Ha x Hx). apply orb_true_iff in Ha. destruct Ha as [Ha|Ha]; [apply H1; lia|]. apply existsb_exists in Ha. destruct Ha as (y & Hy & E). apply Z.eqb_eq in E. subst y. apply H2. exact Hy.
  - apply (IH len (writes s ++ L)); [auto| |exact Hb]. intros x Hx. apply in_app_iff in Hx. destruct Hx; auto.
Qed.
(** LDA 1000, FIN: AC ends with whatever the cell 1000 held. *)
Theorem C88_unset_refuted : ~ (forall bytes rnd1 rnd2 h1 h2 h1' h2' b1 b2, (forall i, 0 <= rnd1 i) -> (forall i, 0 <= rnd2 i) -> (forall b, In b bytes -> 0 <= b <= 255) -> Z.of_nat (length bytes) <= 65536 ->
  opened_with rnd1 bytes h1 -> opened_with rnd2 bytes h2 -> run_program false false h1 h1' -> run_program false false h2 h2' -> shows h1' b1 -> shows h2' b2 -> AC b1 = AC b2).
Proof.
  intros H. set (p := [112; 16; 0; 255]). assert (Hb : forall b, In b p -> 0 <= b <= 255). { intros b [<-|[<-|[<-|[<-|[]]]]]; lia. }
  assert (G : forall v, 0 <= v < 255 -> exists h h' b, opened_with (fun _ => v) p h /\ run_program false false h h' /\ shows h' b /\ AC b = v).
  { intros v Hv. destruct (opened_exists (fun _ => v) p ltac:(intros; lia) Hb ltac:(cbn; lia)) as (h & a & O & Sh & Mr).
    destruct (opened_facts (fun _ => v) p h a ltac:(intros; lia) Hb ltac:(cbn; lia) O Sh) as ((l & L) & Bd & A1 & A2 & A3 & A4 & A5 & A6 & A7 & A8 & A9 & A10 & A11).
    assert (Al : like (fun x => 0 <= x < 65536) [] (log a) (fresh p v) a).
    { split; [|exists []; split; reflexivity]. unfold alike, fresh; cbn [AC FC FZ B C D E PC SP M]. rewrite A1, A2, A3, A4, A5, A6, A7, A8, A9. repeat (split; [reflexivity|]). intros x Hx.
      destruct (Z.lt_ge_cases x 4) as [X|X]; [|rewrite nth_overflow by (cbn; lia); rewrite Mr by (cbn; lia); rewrite Z.mod_small by lia; reflexivity].
      specialize (A11 (Z.to_nat x) ltac:(cbn; lia)). rewrite Z2Nat.id in A11 by lia. exact (nth_error_nth p (Z.to_nat x) v A11). }
    destruct (run_like 2 _ _ _ _ _ (fun m _ => fresh_valid p v Hb ltac:(lia) m) Al) as ((A' & _) & _ & _ & Op).
    { apply (reliesb_ok 2 65536 []); [auto|intros x []|vm_compute; reflexivity]. }
    assert (F : first_fin 1 a). { split; [rewrite <- Op by lia; reflexivity|]. intros m Hm. rewrite <- Op by lia. replace m with 0%nat by lia. discriminate. }
    destruct (C41_stops_after_fin 1 false l h true a ltac:(discriminate) L Bd Sh F) as (h' & P & S' & _). exists h, h', (steps 2 a). split; [exact O|]. split; [exact P|]. split; [exact S'|].
    destruct A' as (A' & _). rewrite <- A'. reflexivity. }
  destruct (G 0 ltac:(lia)) as (h1 & h1' & b1 & O1 & P1 & S1 & E1). destruct (G 1 ltac:(lia)) as (h2 & h2' & b2 & O2 & P2 & S2 & E2).
  pose proof (H p (fun _ => 0) (fun _ => 1) h1 h2 h1' h2' b1 b2 ltac:(intros; lia) ltac:(intros; lia) Hb ltac:(cbn; lia) O1 O2 P1 P2 S1 S2) as X. rewrite E1, E2 in X. discriminate X.
Qed.
(** MOV 05,AC; STA 0200; LDA 0200; FIN meets the condition in every page just opened. *)
Example C88_nonvacuous : let p := [100; 5; 113; 2; 0; 112; 2; 0; 255] in forall rnd1 rnd2, (forall i, 0 <= rnd1 i) -> (forall i, 0 <= rnd2 i) ->
  exists h1 h2 a1, opened_with rnd1 p h1 /\ opened_with rnd2 p h2 /\ shows h1 a1 /\ first_fin 3 a1 /\ relies (fun x => 0 <= x < Z.of_nat (length p)) 4 a1 /\ written 4 a1 = [512].
Proof.
  intros p rnd1 rnd2 Hr1 Hr2. assert (Hb : forall b, In b p -> 0 <= b <= 255). { intros b [<-|[<-|[<-|[<-|[<-|[<-|[<-|[<-|[<-|[]]]]]]]]]]; lia. }
  destruct (opened_exists rnd1 p Hr1 Hb ltac:(cbn; lia)) as (h1 & a1 & O1 & S1 & _). destruct (opened_exists rnd2 p Hr2 Hb ltac:(cbn; lia)) as (h2 & _ & O2 & _).
  destruct (opened_facts rnd1 p h1 a1 Hr1 Hb ltac:(cbn; lia) O1 S1) as (_ & _ & A1 & A2 & A3 & A4 & A5 & A6 & A7 & A8 & A9 & A10 & A11).
  assert (Al : like (fun x => 0 <= x < Z.of_nat (length p)) [] (log a1) (fresh p 0) a1).
  { split; [|exists []; split; reflexivity]. unfold alike, fresh; cbn [AC FC FZ B C D E PC SP M]. rewrite A1, A2, A3, A4, A5, A6, A7, A8, A9. repeat (split; [reflexivity|]). intros x Hx.
    specialize (A11 (Z.to_nat x) ltac:(lia)). rewrite Z2Nat.id in A11 by lia. exact (nth_error_nth p (Z.to_nat x) 0 A11). }
  assert (R : relies (fun x => 0 <= x < Z.of_nat (length p)) 4 (fresh p 0)).
  { apply (reliesb_ok 4 (Z.of_nat (length p)) []); [auto|intros x []|vm_compute; reflexivity]. }
  pose proof (fun m (_ : (m <= 4)%nat) => fresh_valid p 0 Hb ltac:(lia) m) as V. destruct (run_like 4 _ _ _ _ _ V Al R) as (_ & _ & W & Op).
  exists h1, h2, a1. split; [exact O1|]. split; [exact O2|]. split; [exact S1|]. split.
  { split; [rewrite <- Op by lia; reflexivity|]. intros m Hm. rewrite <- Op by lia. destruct m as [|[|[|m]]]; [discriminate|discriminate|discriminate|lia]. }
  split; [exact (relies_like 4 _ _ _ _ _ V Al R)|]. rewrite <- W. reflexivity.
Qed.
Print Assumptions C88_steps.
Print Assumptions C88_program.
Print Assumptions C88_endless.
Print Assumptions C88_fresh.
Print Assumptions C88_condition.
Print Assumptions C88_unset_refuted.
Print Assumptions C88_nonvacuous.
