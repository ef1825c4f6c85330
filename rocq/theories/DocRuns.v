(** * The programs of the documentation, run on the instruction set *)
From Coq Require Import ZArith List Bool Lia ZifyBool Factorial.
From Verif Require Import Prog Isa Usage PropsRun IsaRun IsaExamples.
Import ListNotations.
Open Scope Z_scope.

(** ** Stack instructions at any stack pointer *)
Lemma step_push : forall ac fc fz b c d e pc sp m lg, m pc = 0xC1 -> pc + 1 <= 65535 -> 1 <= sp ->
  step (mkArch ac fc fz b c d e pc sp m lg) = mkArch ac fc fz b c d e (pc + 1) (sp - 1) (fun x => if x =? sp - 1 then ac else m x) lg.
Proof.
  intros. rewrite (step_known _ 0xC1 PUSH); [|assumption|reflexivity|cbn [PC]; lia]. cbn [PC exec_instr]. unfold put_pc. cbn [AC FC FZ B C D E SP M log]. rewrite push_eq by lia. reflexivity.
Qed.
Lemma step_pop : forall ac fc fz b c d e pc sp m lg, m pc = 0xC2 -> pc + 1 <= 65535 -> sp + 1 <= 65535 ->
  step (mkArch ac fc fz b c d e pc sp m lg) = mkArch (m sp) fc fz b c d e (pc + 1) (sp + 1) m lg.
Proof.
  intros. rewrite (step_known _ 0xC2 POP); [|assumption|reflexivity|cbn [PC]; lia]. cbn [PC exec_instr]. unfold put_pc, pop, sp_up. cbn [AC FC FZ B C D E SP M log].
  replace (sp =? 65535) with false by lia. reflexivity.
Qed.
Lemma step_ret : forall ac fc fz b c d e pc sp m lg, m pc = 0xC5 -> pc + 1 <= 65535 -> sp + 2 <= 65535 ->
  step (mkArch ac fc fz b c d e pc sp m lg) = mkArch ac fc fz b c d e (256 * m (sp + 1) + m sp) (sp + 2) m lg.
Proof.
  intros. rewrite (step_known _ 0xC5 RET); [|assumption|reflexivity|cbn [PC]; lia]. cbn [PC exec_instr]. unfold put_pc, pop, sp_up. cbn [AC FC FZ B C D E SP M log].
  replace (sp =? 65535) with false by lia. cbn [SP]. unfold put_sp. cbn [AC FC FZ B C D E SP M log PC]. replace (sp + 1 =? 65535) with false by lia. cbn [M SP]. replace (sp + 1 + 1) with (sp + 2) by lia. reflexivity.
Qed.
Lemma code_keep : forall m m' o bytes, code_at m o bytes -> (forall x, o <= x < o + Z.of_nat (length bytes) -> m' x = m x) -> code_at m' o bytes.
Proof. intros m m' o bytes H E k Hk. rewrite E by lia. apply H. exact Hk. Qed.
Ltac do_push K o k := apply reach_step; [unfold opcode; cbn [PC M]; code_byte K k; discriminate|]; rewrite step_push; [|code_byte K k; reflexivity|lia|lia]; norm_pc o; norm_lit.
Ltac do_pop K o k := apply reach_step; [unfold opcode; cbn [PC M]; code_byte K k; discriminate|]; rewrite step_pop; [|code_byte K k; reflexivity|lia|lia]; norm_pc o; norm_lit.
Ltac do_call K o k h l := apply reach_step; [unfold opcode; cbn [PC M]; code_byte K k; discriminate|];
  rewrite (step_call _ _ _ _ _ _ _ _ _ _ _ h l); [|code_byte K k; reflexivity|lia|lia|norm_pc o; let k1 := eval compute in (k + 1) in code_byte K k1; reflexivity|norm_pc o; let k2 := eval compute in (k + 2) in code_byte K k2; reflexivity];
  rewrite ?high_low; norm_pc o; norm_lit.
Ltac do_ret K o k := apply reach_step; [unfold opcode; cbn [PC M]; code_byte K k; discriminate|]; rewrite step_ret; [|code_byte K k; reflexivity|lia|lia]; norm_lit.

(** ** Factorial *)
Definition fact_bytes (o n : Z) : list Z :=
  [0xC3; 0xEE; 0xEE; 0x64; n; 0xC4; (o + 9) / 256; (o + 9) mod 256; 0xFF;
   0x67; 1; 0x72; (o + 29) / 256; (o + 29) mod 256; 0xC1; 0x66; 1; 0xC4; (o + 9) / 256; (o + 9) mod 256; 0x41; 0xC2; 0x40; 0xC4; (o + 32) / 256; (o + 32) mod 256; 0x74; (o + 31) / 256; (o + 31) mod 256;
   0x64; 1; 0xC5;
   0x10; 0xC1; 0x11; 0x67; 1; 0x72; (o + 50) / 256; (o + 50) mod 256; 0xC2; 0x30; 0xC1; 0x11; 0x66; 1; 0x41; 0x74; (o + 34) / 256; (o + 34) mod 256;
   0xC2; 0xC5; 0xFF].
(** The return address at the top of the stack. *)
Definition returns (m : Z -> Z) (sp r : Z) : Prop := 256 * m (sp + 1) + m sp = r.
(** The loop of the multiplication: the partial result is on top of the stack. *)
Lemma fmult_loop : forall n o n0 b c ac fc fz d e sp m lg r, 0 <= o -> o + 53 <= 65535 -> apart o 53 sp -> 0 <= sp -> sp + 3 <= 65535 -> code_at m o (fact_bytes o n0) ->
  (1 <= n <= 256)%nat -> 0 <= b <= 255 -> c = Z.of_nat n mod 256 -> 0 <= m sp <= 255 -> returns m (sp + 1) r ->
  reach (mkArch ac fc fz b c d e (o + 34) sp m lg)
    (fun t => AC t = (m sp + b * (Z.of_nat n - 1)) mod 256 /\ PC t = r /\ SP t = sp + 3 /\ forall x, x <> sp -> M t x = m x).
Proof.
  induction n as [|n IH]; intros o n0 b c ac fc fz d e sp m lg r Ho Ho2 Ap Sp1 Sp2 H Hn Hb Hc Hm Hr; [lia|].
  pose proof H as K. unfold fact_bytes in K. name_post P.
  isa_step K o 34 (MOV_r_ac RC). isa_step K o 35 (OP CMP Imm). isa_step K o 37 BEQ. code_byte K 36. code_byte K 38. code_byte K 39. rewrite high_low.
  destruct ((c - 1) mod 256 =? 0) eqn:Ez.
  - assert (n = 0%nat) as ->. { assert (0 <= c < 256) by (subst c; apply Z.mod_pos_bound; lia). destruct (Z.eq_dec c 0) as [E0|]; [rewrite E0 in Ez; discriminate|]. rewrite Z.mod_small in Ez by lia.
      destruct (Z.eq_dec (Z.of_nat (S n)) 256) as [E2|]; [rewrite E2 in Hc; change (256 mod 256) with 0 in Hc; lia|]. rewrite Z.mod_small in Hc by lia. lia. }
    do_pop K o 50. do_ret K o 51. apply reach_here. unfold P. cbn [AC PC SP M]. split; [rewrite Z.mod_small; lia|]. split; [exact Hr|]. split; [lia|auto].
  - do_pop K o 40. isa_step K o 41 (OP ADD (Reg RB)). do_push K o 42. replace (sp + 1 - 1) with sp by lia.
    name_mem m1. assert (H1 : code_at m1 o (fact_bytes o n0)) by (apply code_write; [exact H|exact Ap]). clear K. pose proof H1 as K. unfold fact_bytes in K.
    isa_step K o 43 (MOV_r_ac RC). isa_step K o 44 (OP SUB Imm). isa_step K o 46 (MOV_ac_r RC). isa_step K o 47 JMP. code_byte K 45. code_byte K 48. code_byte K 49. rewrite high_low.
    eapply reach_trans; [eapply (IH o n0 b ((c - 1) mod 256)); eauto|].
    + assert (n <> 0)%nat; [|lia]. intros ->. subst c. discriminate.
    + subst c. rewrite Zminus_mod_idemp_l. f_equal. lia.
    + unfold m1. rewrite Z.eqb_refl. pose proof (Z.mod_pos_bound (m sp + b) 256 ltac:(lia)). lia.
    + unfold returns, m1 in *. replace (sp + 1 + 1 =? sp) with false by lia. replace (sp + 1 =? sp) with false by lia. exact Hr.
    + intros t (E1 & E2 & E3 & E4). apply reach_here. unfold P. split; [|split; [exact E2|split; [exact E3|]]].
      * rewrite E1. unfold m1. rewrite Z.eqb_refl, Z.add_mod_idemp_l by lia. f_equal. nia.
      * intros x Hx. rewrite E4 by exact Hx. unfold m1. replace (x =? sp) with false by lia. reflexivity.
Qed.
(** A call of TFMULT. *)
Lemma fmult_runs : forall o n0 b c ac fc fz d e sp m lg r, 0 <= o -> o + 53 <= 65535 -> apart o 53 (sp - 1) -> 1 <= sp -> sp + 2 <= 65535 -> code_at m o (fact_bytes o n0) ->
  0 <= b <= 255 -> 0 <= c <= 255 -> returns m sp r ->
  reach (mkArch ac fc fz b c d e (o + 32) sp m lg)
    (fun t => AC t = (b * c) mod 256 /\ PC t = r /\ SP t = sp + 2 /\ forall x, x <> sp - 1 -> M t x = m x).
Proof.
  intros o n0 b c ac fc fz d e sp m lg r Ho Ho2 Ap Sp1 Sp2 H Hb Hc Hr. pose proof H as K. unfold fact_bytes in K. name_post P.
  isa_step K o 32 (MOV_r_ac RB). do_push K o 33. name_mem m1. assert (H1 : code_at m1 o (fact_bytes o n0)) by (apply code_write; [exact H|exact Ap]).
  assert (E1 : m1 (sp - 1) = b) by (unfold m1; rewrite Z.eqb_refl; reflexivity).
  assert (R1 : returns m1 (sp - 1 + 1) r). { unfold returns, m1 in *. replace (sp - 1 + 1 + 1 =? sp - 1) with false by lia. replace (sp - 1 + 1 =? sp - 1) with false by lia. replace (sp - 1 + 1) with sp by lia. exact Hr. }
  assert (G : forall t, (PC t = r /\ SP t = sp - 1 + 3 /\ forall x, x <> sp - 1 -> M t x = m1 x) -> PC t = r /\ SP t = sp + 2 /\ forall x, x <> sp - 1 -> M t x = m x).
  { intros t (X1 & X2 & X3). split; [exact X1|]. split; [lia|]. intros x Hx. rewrite X3 by exact Hx. unfold m1. replace (x =? sp - 1) with false by lia. reflexivity. }
  destruct (Z.eq_dec c 0) as [->|Nc].
  - eapply reach_trans; [apply (fmult_loop 256 o n0 b 0); eauto; try lia; reflexivity|]. intros t (Q1 & Q2). apply reach_here. unfold P. split; [|apply G; exact Q2]. rewrite Q1, E1. change (Z.of_nat 256 - 1) with 255.
    replace (b + b * 255) with (0 + b * 256) by lia. rewrite Z.mod_add, Z.mul_0_r by lia. reflexivity.
  - eapply reach_trans; [apply (fmult_loop (Z.to_nat c) o n0 b c); eauto; try lia; rewrite Z2Nat.id, Z.mod_small; lia|]. intros t (Q1 & Q2). apply reach_here. unfold P. split; [|apply G; exact Q2].
    rewrite Q1, E1, Z2Nat.id by lia. f_equal. lia.
Qed.
(** The recursive function: [N] rounds, AC being [N] modulo 256. *)
Lemma ffact_runs : forall N o n0 b c ac fc fz d e sp m lg r, 0 <= o -> o + 53 <= 65535 -> (1 <= N <= 256)%nat -> 3 * (Z.of_nat N - 1) <= sp -> sp + 2 <= 65535 ->
  o + 53 <= sp - 3 * (Z.of_nat N - 1) \/ sp <= o -> code_at m o (fact_bytes o n0) -> ac = Z.of_nat N mod 256 -> returns m sp r -> 
  reach (mkArch ac fc fz b c d e (o + 9) sp m lg)
    (fun t => AC t = Z.of_nat (fact N) mod 256 /\ PC t = r /\ SP t = sp + 2 /\ forall x, x < sp - 3 * (Z.of_nat N - 1) \/ sp <= x -> M t x = m x).
Proof.
  induction N as [|N IH]; intros o n0 b c ac fc fz d e sp m lg r Ho Ho2 HN Sp1 Sp2 Ap H Ha Hr; [lia|].
  pose proof H as K. unfold fact_bytes in K. name_post P.
  isa_step K o 9 (OP CMP Imm). isa_step K o 11 BEQ. code_byte K 10. code_byte K 12. code_byte K 13. rewrite high_low.
  assert (Rg : 0 <= ac < 256) by (subst ac; apply Z.mod_pos_bound; lia).
  destruct ((ac - 1) mod 256 =? 0) eqn:Ez.
  - assert (N = 0%nat) as ->. { destruct (Z.eq_dec ac 0) as [E0|]; [rewrite E0 in Ez; discriminate|]. rewrite Z.mod_small in Ez by lia.
      destruct (Z.eq_dec (Z.of_nat (S N)) 256) as [E2|]; [rewrite E2 in Ha; change (256 mod 256) with 0 in Ha; lia|]. rewrite Z.mod_small in Ha by lia. lia. }
    isa_step K o 29 MOV_i_ac. code_byte K 30. do_ret K o 31. apply reach_here. unfold P. cbn [AC PC SP M]. split; [reflexivity|]. split; [exact Hr|]. split; [reflexivity|auto].
  - assert (NN : (N <> 0)%nat). { intros ->. subst ac. discriminate. }
    do_push K o 14. name_mem m1. assert (H1 : code_at m1 o (fact_bytes o n0)) by (apply code_write; [exact H|cbn [length fact_bytes]; lia]). clear K. pose proof H1 as K. unfold fact_bytes in K.
    isa_step K o 15 (OP SUB Imm). code_byte K 16. do_call K o 17 ((o + 9) / 256) ((o + 9) mod 256). name_mem m2.
    assert (W2 : forall x, x < sp - 3 \/ sp <= x -> m2 x = m x). { intros x Hx. unfold m2, m1. replace (x =? sp - 1 - 1 - 1) with false by lia. replace (x =? sp - 1 - 1) with false by lia. replace (x =? sp - 1) with false by lia. reflexivity. }
    assert (W2a : m2 (sp - 1) = ac). { unfold m2, m1. replace (sp - 1 =? sp - 1 - 1 - 1) with false by lia. replace (sp - 1 =? sp - 1 - 1) with false by lia. rewrite Z.eqb_refl. reflexivity. }
    assert (H2 : code_at m2 o (fact_bytes o n0)) by (apply (code_keep m); [exact H|intros x Hx; cbn [length fact_bytes] in Hx; apply W2; lia]).
    assert (R2 : returns m2 (sp - 1 - 1 - 1) (o + 20)). { unfold returns, m2. replace (sp - 1 - 1 - 1 + 1 =? sp - 1 - 1 - 1) with false by lia. replace (sp - 1 - 1 - 1 + 1 =? sp - 1 - 1) with true by lia. rewrite Z.eqb_refl. apply high_low. }
    eapply reach_trans; [eapply (IH o n0); eauto; try lia|].
    intros [ac3 fc3 fz3 b3 c3 d3 e3 pc3 sp3 m3 lg3]. cbn [AC PC SP M]. intros (E1 & -> & -> & E4).
    assert (H3 : code_at m3 o (fact_bytes o n0)) by (apply (code_keep m2); [exact H2|intros x Hx; cbn [length fact_bytes] in Hx; apply E4; lia]). clear K. pose proof H3 as K. unfold fact_bytes in K.
    replace (sp - 1 - 1 - 1 + 2) with (sp - 1) by lia. isa_step K o 20 (MOV_ac_r RC). do_pop K o 21. isa_step K o 22 (MOV_ac_r RB). replace (sp - 1 + 1) with sp by lia.
    do_call K o 23 ((o + 32) / 256) ((o + 32) mod 256). name_mem m4. replace (m3 (sp - 1)) with ac by (rewrite E4 by lia; auto).
    assert (W4 : forall x, x < sp - 2 \/ sp <= x -> m4 x = m3 x). { intros x Hx. unfold m4. replace (x =? sp - 1 - 1) with false by lia. replace (x =? sp - 1) with false by lia. reflexivity. }
    assert (H4 : code_at m4 o (fact_bytes o n0)) by (apply (code_keep m3); [exact H3|intros x Hx; cbn [length fact_bytes] in Hx; apply W4; lia]).
    assert (R4 : returns m4 (sp - 1 - 1) (o + 26)). { unfold returns, m4. replace (sp - 1 - 1 + 1 =? sp - 1 - 1) with false by lia. replace (sp - 1 - 1 + 1 =? sp - 1) with true by lia. rewrite Z.eqb_refl. apply high_low. }
    assert (Rc : 0 <= ac3 <= 255) by (rewrite E1; pose proof (Z.mod_pos_bound (Z.of_nat (fact N)) 256); lia).
    eapply reach_trans; [eapply (fmult_runs o n0 ac ac3); eauto; try lia; unfold apart; lia|].
    intros [ac5 fc5 fz5 b5 c5 d5 e5 pc5 sp5 m5 lg5]. cbn [AC PC SP M]. intros (F1 & -> & -> & F4).
    assert (H5 : code_at m5 o (fact_bytes o n0)) by (apply (code_keep m4); [exact H4|intros x Hx; cbn [length fact_bytes] in Hx; apply F4; lia]). clear K. pose proof H5 as K. unfold fact_bytes in K.
    replace (sp - 1 - 1 + 2) with sp by lia. isa_step K o 26 JMP. code_byte K 27. code_byte K 28. rewrite high_low. do_ret K o 31.
    assert (W5 : forall x, x < sp - 3 * (Z.of_nat (S N) - 1) \/ sp <= x -> m5 x = m x). { intros x Hx. rewrite F4, W4, E4, W2 by lia. reflexivity. }
    apply reach_here. unfold P. cbn [AC PC SP M]. split; [|split; [|split; [lia|exact W5]]].
    + rewrite F1, E1, Ha. rewrite <- Z.mul_mod by lia. change (fact (S N)) with (S N * fact N)%nat. rewrite Nat2Z.inj_mul. reflexivity.
    + unfold returns in *. rewrite !W5 by lia. exact Hr.
Qed.
Theorem fact_runs : forall o n N s, 0 <= o -> o + 53 <= 0xEEEE - 767 \/ 0xEEEE <= o /\ o + 53 <= 65535 -> PC s = o -> code_at (M s) o (fact_bytes o n) -> (1 <= N <= 256)%nat -> n = Z.of_nat N mod 256 ->
  reach s (fun t => AC t = Z.of_nat (fact N) mod 256 /\ SP t = 0xEEEE /\ PC t = o + 8 /\ opcode t = 255).
Proof.
  intros o n N s Ho Ap Hp H HN Hn. destruct s as [ac fc fz b1 c1 d e pc sp m lg]. cbn [PC M] in *. subst pc. replace o with (o + 0) at 1 by lia. pose proof H as K. unfold fact_bytes in K. name_post P.
  isa_step K o 0 INISP. isa_step K o 3 MOV_i_ac. code_byte K 1. code_byte K 2. code_byte K 4. norm_lit. do_call K o 5 ((o + 9) / 256) ((o + 9) mod 256). name_mem m1.
  assert (W1 : forall x, x < 61164 \/ 61166 <= x -> m1 x = m x). { intros x Hx. unfold m1. replace (x =? 61164) with false by lia. replace (x =? 61165) with false by lia. reflexivity. }
  assert (H1 : code_at m1 o (fact_bytes o n)) by (apply (code_keep m); [exact H|intros x Hx; cbn [length fact_bytes] in Hx; apply W1; lia]).
  assert (R1 : returns m1 61164 (o + 8)) by (unfold returns, m1; apply high_low).
  eapply reach_trans; [eapply (ffact_runs N o n); eauto; lia|]. intros [ac5 fc5 fz5 b5 c5 d5 e5 pc5 sp5 m5 lg5]. cbn [AC PC SP M]. intros (F1 & -> & -> & F4).
  assert (H5 : code_at m5 o (fact_bytes o n)) by (apply (code_keep m1); [exact H1|intros x Hx; cbn [length fact_bytes] in Hx; apply F4; lia]). pose proof H5 as K5. unfold fact_bytes in K5.
  apply reach_here. unfold P, opcode. cbn [AC PC SP M]. code_byte K5 8. auto.
Qed.

(** ** The 16-bit decrement of examples/malicious-function.mdx *)
Definition util_bytes (o : Z) : list Z :=
  [0xC4; (o + 18) / 256; (o + 18) mod 256; 0x73; (o + 9) / 256; (o + 9) mod 256; 0x74; (o + 12) / 256; (o + 12) mod 256; 0xC4; (o + 13) / 256; (o + 13) mod 256; 0xC5;
   0x12; 0x66; 1; 0x42; 0xC5; 0x13; 0x66; 1; 0x43; 0xC5].
Lemma tfsub_runs : forall o b c ac fc fz d e sp m lg r, 0 <= o -> o + 23 <= 65535 -> o + 23 <= sp - 2 \/ sp <= o -> 2 <= sp -> sp + 2 <= 65535 -> code_at m o (util_bytes o) ->
  0 <= d <= 255 -> 0 <= e <= 255 -> returns m sp r ->
  reach (mkArch ac fc fz b c d e o sp m lg)
    (fun t => 256 * D t + E t = (256 * d + e - 1) mod 65536 /\ 0 <= D t <= 255 /\ 0 <= E t <= 255 /\ B t = b /\ C t = c /\ PC t = r /\ SP t = sp + 2 /\ forall x, x < sp - 2 \/ sp <= x -> M t x = m x).
Proof.
  intros o b c ac fc fz d e sp m lg r Ho Ho2 Ap Sp1 Sp2 H Hd He Hr. replace o with (o + 0) at 1 by lia. pose proof H as K. unfold util_bytes in K. name_post P.
  do_call K o 0 ((o + 18) / 256) ((o + 18) mod 256). name_mem m1.
  assert (W1 : forall x, x < sp - 2 \/ sp <= x -> m1 x = m x). { intros x Hx. unfold m1. replace (x =? sp - 1 - 1) with false by lia. replace (x =? sp - 1) with false by lia. reflexivity. }
  assert (R1 : returns m1 (sp - 1 - 1) (o + 3)). { unfold returns, m1. replace (sp - 1 - 1 + 1 =? sp - 1 - 1) with false by lia. replace (sp - 1 - 1 + 1 =? sp - 1) with true by lia. rewrite Z.eqb_refl. apply high_low. }
  assert (H1 : code_at m1 o (util_bytes o)) by (apply (code_keep m); [exact H|intros x Hx; cbn [length util_bytes] in Hx; apply W1; lia]). clear K. pose proof H1 as K. unfold util_bytes in K.
  isa_step K o 18 (MOV_r_ac RE). isa_step K o 19 (OP SUB Imm). code_byte K 20. isa_step K o 21 (MOV_ac_r RE). do_ret K o 22. rewrite R1. replace (sp - 1 - 1 + 2) with sp by lia.
  isa_step K o 3 BC_. code_byte K 4. code_byte K 5. rewrite high_low. destruct (e <? 1) eqn:Ee.
  - do_call K o 9 ((o + 13) / 256) ((o + 13) mod 256). name_mem m2.
    assert (W2 : forall x, x < sp - 2 \/ sp <= x -> m2 x = m x). { intros x Hx. unfold m2. replace (x =? sp - 1 - 1) with false by lia. replace (x =? sp - 1) with false by lia. apply W1. exact Hx. }
    assert (R2 : returns m2 (sp - 1 - 1) (o + 12)). { unfold returns, m2. replace (sp - 1 - 1 + 1 =? sp - 1 - 1) with false by lia. replace (sp - 1 - 1 + 1 =? sp - 1) with true by lia. rewrite Z.eqb_refl. apply high_low. }
    assert (H2 : code_at m2 o (util_bytes o)) by (apply (code_keep m); [exact H|intros x Hx; cbn [length util_bytes] in Hx; apply W2; lia]). clear K. pose proof H2 as K. unfold util_bytes in K.
    isa_step K o 13 (MOV_r_ac RD). isa_step K o 14 (OP SUB Imm). code_byte K 15. isa_step K o 16 (MOV_ac_r RD). do_ret K o 17. rewrite R2. replace (sp - 1 - 1 + 2) with sp by lia.
    do_ret K o 12. apply reach_here. unfold P. cbn [B C D E PC SP M]. assert (e = 0) by lia. subst e. change ((0 - 1) mod 256) with 255.
    split. { destruct (Z.eq_dec d 0) as [->|]; [reflexivity|]. rewrite !Z.mod_small by lia. lia. }
    split; [pose proof (Z.mod_pos_bound (d - 1) 256); lia|]. split; [lia|]. split; [reflexivity|]. split; [reflexivity|]. split; [unfold returns in *; rewrite !W2 by lia; exact Hr|]. split; [reflexivity|exact W2].
  - isa_step K o 6 JMP. code_byte K 7. code_byte K 8. rewrite high_low. do_ret K o 12. apply reach_here. unfold P. cbn [B C D E PC SP M].
    rewrite !Z.mod_small by lia. split; [lia|]. split; [lia|]. split; [lia|]. split; [reflexivity|]. split; [reflexivity|]. split; [unfold returns in *; rewrite !W1 by lia; exact Hr|]. split; [reflexivity|exact W1].
Qed.

(** ** Code that goes back to itself for ever *)
Lemma goes_on : forall (I : arch -> Prop), (forall s, I s -> opcode s <> 255 /\ reach (step s) I) ->
  forall s, I s -> (forall n, ~ first_fin n s) /\ forall k, exists n, (k <= n)%nat /\ I (steps n s).
Proof.
  intros I K s Hs. split.
  - intros n. revert s Hs. induction n as [n IH] using lt_wf_ind. intros s Hs (F1 & F2). destruct (K s Hs) as (O & t & (k & E & G) & Ht).
    destruct n as [|n]; [exact (O F1)|]. cbn [steps] in F1. destruct (Nat.lt_trichotomy n k) as [L|[L|L]].
    + exact (G n L F1).
    + subst n. rewrite E in F1. destruct (K t Ht) as (Ot & _). exact (Ot F1).
    + apply (IH (n - k)%nat ltac:(lia) t Ht). split.
      * rewrite <- E, <- steps_add. replace (k + (n - k))%nat with n by lia. exact F1.
      * intros m Hm. rewrite <- E, <- steps_add. apply (F2 (S (k + m))). lia.
  - intros k. revert s Hs. induction k as [|k IH]; intros s Hs; [exists 0%nat; split; [lia|exact Hs]|]. destruct (K s Hs) as (_ & t & (j & E & _) & Ht). destruct (IH t Ht) as (n & Hn & In).
    exists (S (j + n)). split; [lia|]. cbn [steps]. rewrite steps_add, E. exact In.
Qed.
Lemma code_app : forall m o a b, code_at m o (a ++ b) -> code_at m o a /\ code_at m (o + Z.of_nat (length a)) b.
Proof.
  intros m o a b H. split; intros k Hk.
  - rewrite H by (rewrite app_length; lia). apply app_nth1. exact Hk.
  - replace (o + Z.of_nat (length a) + Z.of_nat k) with (o + Z.of_nat (length a + k)) by lia. rewrite H by (rewrite app_length; lia). rewrite app_nth2 by lia. f_equal. lia.
Qed.

(** ** The function that returns to its own call *)
Definition mal_code (o : Z) : list Z :=
  [0xC3; 0xEE; 0xEE; 0xC4; (o + 7) / 256; (o + 7) mod 256; 0xFF; 0xC2; 0x43; 0xC2; 0x42; 0xC4; (o + 25) / 256; (o + 25) mod 256; 0xC4; (o + 25) / 256; (o + 25) mod 256; 0xC4; (o + 25) / 256; (o + 25) mod 256;
   0x12; 0xC1; 0x13; 0xC1; 0xC5].
Definition mal_bytes (o : Z) : list Z := mal_code o ++ util_bytes (o + 25) ++ [0xFF].
(** Again at the call: nothing is left on the stack, and the memory is as in [m]
    except for the four bytes under the initial stack pointer. *)
Definition at_call (o : Z) (m : Z -> Z) (s : arch) : Prop :=
  PC s = o + 3 /\ SP s = 0xEEEE /\ forall x, x < 0xEEEE - 4 \/ 0xEEEE <= x -> M s x = m x.
Lemma mal_sub : forall o k b c ac fc fz d e m lg, 0 <= o -> o + 49 <= 0xEEEE - 4 \/ 0xEEEE <= o /\ o + 49 <= 65535 -> code_at m o (mal_bytes o) -> (k = 11 \/ k = 14 \/ k = 17) ->
  0 <= d <= 255 -> 0 <= e <= 255 ->
  reach (mkArch ac fc fz b c d e (o + k) 0xEEEE m lg)
    (fun t => 256 * D t + E t = (256 * d + e - 1) mod 65536 /\ 0 <= D t <= 255 /\ 0 <= E t <= 255 /\ PC t = o + (k + 3) /\ SP t = 0xEEEE /\ forall x, x < 0xEEEE - 4 \/ 0xEEEE <= x -> M t x = m x).
Proof.
  intros o k b c ac fc fz d e m lg Ho Ap H Hk Hd He. name_post P. destruct (code_app _ _ _ _ H) as (K & _). unfold mal_code in K.
  assert (Go : forall r lg', reach (mkArch ac fc fz b c d e (o + 25) 61164 (fun x => if x =? 61164 then r mod 256 else if x =? 61165 then r / 256 else m x) lg') (fun t => 256 * D t + E t = (256 * d + e - 1) mod 65536 /\ 0 <= D t <= 255 /\ 0 <= E t <= 255 /\ PC t = r /\ SP t = 0xEEEE /\ forall x, x < 0xEEEE - 4 \/ 0xEEEE <= x -> M t x = m x)).
  { intros r lg'. name_mem m1. assert (W1 : forall x, x < 61164 \/ 61166 <= x -> m1 x = m x). { intros x Hx. unfold m1. replace (x =? 61164) with false by lia. replace (x =? 61165) with false by lia. reflexivity. }
    assert (H1 : code_at m1 o (mal_bytes o)) by (apply (code_keep m); [exact H|intros x Hx; cbn [length mal_bytes mal_code util_bytes app] in Hx; apply W1; lia]).
    destruct (code_app _ _ _ _ H1) as (_ & H2). destruct (code_app _ _ _ _ H2) as (H3 & _). change (Z.of_nat (length (mal_code o))) with 25 in H3.
    eapply reach_trans; [eapply (tfsub_runs (o + 25)) with (r := r); eauto; try lia; unfold returns, m1; apply high_low|].
    intros t (F1 & F2 & F3 & _ & _ & F6 & F7 & F8). apply reach_here. repeat (split; [assumption || lia|]). intros x Hx. rewrite F8 by lia. apply W1. lia. }
  destruct Hk as [->|[->| ->]].
  - do_call K o 11 ((o + 25) / 256) ((o + 25) mod 256). apply Go.
  - do_call K o 14 ((o + 25) / 256) ((o + 25) mod 256). apply Go.
  - do_call K o 17 ((o + 25) / 256) ((o + 25) mod 256). apply Go.
Qed.
Lemma mal_again : forall o m s, 0 <= o -> o + 49 <= 0xEEEE - 4 \/ 0xEEEE <= o /\ o + 49 <= 65535 -> code_at m o (mal_bytes o) -> at_call o m s -> opcode s <> 255 /\ reach (step s) (at_call o m).
Proof.
  intros o m s Ho Ap H (Hp & Hs & Hm). destruct s as [ac fc fz b c d e pc sp m0 lg]. cbn [PC SP M] in *. subst pc sp.
  assert (H0 : code_at m0 o (mal_bytes o)) by (apply (code_keep m); [exact H|intros x Hx; cbn [length mal_bytes mal_code util_bytes app] in Hx; apply Hm; lia]). clear H.
  destruct (code_app _ _ _ _ H0) as (K & _). unfold mal_code in K. split; [unfold opcode; cbn [PC M]; code_byte K 3; discriminate|]. name_post P.
  rewrite (step_call _ _ _ _ _ _ _ _ _ _ _ ((o + 7) / 256) ((o + 7) mod 256)); [|code_byte K 3; reflexivity|lia|lia|norm_pc o; code_byte K 4; reflexivity|norm_pc o; code_byte K 5; reflexivity]. rewrite high_low. norm_pc o. norm_lit.
  name_mem m1. assert (W1 : forall x, x < 61164 \/ 61166 <= x -> m1 x = m0 x). { intros x Hx. unfold m1. replace (x =? 61164) with false by lia. replace (x =? 61165) with false by lia. reflexivity. }
  assert (H1 : code_at m1 o (mal_bytes o)) by (apply (code_keep m0); [exact H0|intros x Hx; cbn [length mal_bytes mal_code util_bytes app] in Hx; apply W1; lia]). clear K. destruct (code_app _ _ _ _ H1) as (K & _). unfold mal_code in K.
  do_pop K o 7. change (m1 61164) with ((o + 6) mod 256). isa_step K o 8 (MOV_ac_r RE). do_pop K o 9. change (m1 61165) with ((o + 6) / 256). isa_step K o 10 (MOV_ac_r RD).
  assert (Rl : 0 <= (o + 6) mod 256 <= 255) by (pose proof (Z.mod_pos_bound (o + 6) 256); lia).
  assert (Rh : 0 <= (o + 6) / 256 <= 255) by (pose proof (high_low (o + 6)); lia).
  eapply reach_trans; [apply (mal_sub o 11); auto|]. intros [ac2 fc2 fz2 b2 c2 d2 e2 pc2 sp2 m2 lg2]. cbn [D E PC SP M]. intros (F1 & F2 & F3 & -> & -> & F6). rewrite high_low in F1. rewrite Z.mod_small in F1 by lia.
  assert (H2 : code_at m2 o (mal_bytes o)) by (apply (code_keep m1); [exact H1|intros x Hx; cbn [length mal_bytes mal_code util_bytes app] in Hx; apply F6; lia]).
  eapply reach_trans; [apply (mal_sub o 14); auto|]. intros [ac3 fc3 fz3 b3 c3 d3 e3 pc3 sp3 m3 lg3]. cbn [D E PC SP M]. intros (G1 & G2 & G3 & -> & -> & G6). rewrite F1 in G1. rewrite Z.mod_small in G1 by lia.
  assert (H3 : code_at m3 o (mal_bytes o)) by (apply (code_keep m2); [exact H2|intros x Hx; cbn [length mal_bytes mal_code util_bytes app] in Hx; apply G6; lia]).
  eapply reach_trans; [apply (mal_sub o 17); auto|]. intros [ac4 fc4 fz4 b4 c4 d4 e4 pc4 sp4 m4 lg4]. cbn [D E PC SP M]. intros (J1 & J2 & J3 & -> & -> & J6). rewrite G1 in J1. rewrite Z.mod_small in J1 by lia.
  assert (H4 : code_at m4 o (mal_bytes o)) by (apply (code_keep m3); [exact H3|intros x Hx; cbn [length mal_bytes mal_code util_bytes app] in Hx; apply J6; lia]).
  clear K. destruct (code_app _ _ _ _ H4) as (K & _). unfold mal_code in K. change (17 + 3) with 20.
  isa_step K o 20 (MOV_r_ac RD). do_push K o 21. name_mem m5. assert (W5 : forall x, x <> 61165 -> m5 x = m4 x) by (intros x Hx; unfold m5; replace (x =? 61165) with false by lia; reflexivity).
  assert (H5 : code_at m5 o (mal_bytes o)) by (apply (code_keep m4); [exact H4|intros x Hx; cbn [length mal_bytes mal_code util_bytes app] in Hx; apply W5; lia]). clear K. destruct (code_app _ _ _ _ H5) as (K & _). unfold mal_code in K.
  isa_step K o 22 (MOV_r_ac RE). do_push K o 23. name_mem m6. assert (W6 : forall x, x <> 61164 -> m6 x = m5 x) by (intros x Hx; unfold m6; replace (x =? 61164) with false by lia; reflexivity).
  assert (H6 : code_at m6 o (mal_bytes o)) by (apply (code_keep m5); [exact H5|intros x Hx; cbn [length mal_bytes mal_code util_bytes app] in Hx; apply W6; lia]). clear K. destruct (code_app _ _ _ _ H6) as (K & _). unfold mal_code in K.
  do_ret K o 24. change (m6 61165) with d4. change (m6 61164) with e4. apply reach_here. unfold P, at_call. cbn [PC SP M]. split; [lia|]. split; [reflexivity|].
  intros x Hx. rewrite W6, W5, J6, G6, F6, W1 by lia. apply Hm. lia.
Qed.
Theorem mal_runs : forall o s, 0 <= o -> o + 49 <= 0xEEEE - 4 \/ 0xEEEE <= o /\ o + 49 <= 65535 -> PC s = o -> code_at (M s) o (mal_bytes o) ->
  (forall n, ~ first_fin n s) /\ forall k, exists n, (k <= n)%nat /\ at_call o (M s) (steps n s).
Proof.
  intros o s Ho Ap Hp H. destruct (code_app _ _ _ _ H) as (K & _). unfold mal_code in K.
  assert (Ns : opcode s <> 255). { unfold opcode. rewrite Hp. replace o with (o + 0) by lia. code_byte K 0. discriminate. }
  assert (I0 : at_call o (M s) (step s)).
  { erewrite (step_known s _ INISP); [|rewrite Hp; replace o with (o + 0) at 1 by lia; code_byte K 0; reflexivity|reflexivity|lia]. destruct s as [ac fc fz b c d e pc sp m lg]. cbn [PC M] in *. subst pc.
    do 3 (cbv [exec_instr put_pc PC M AC FC FZ B C D E SP log with_dir with_imm imm pc_next put put_ac put_flags put_sp get]; norm_pc o; norm_lit; cbn [Z.eqb Pos.eqb]).
    replace (o + 1 =? 65535) with false by lia. cbv [put_pc PC M SP AC FC FZ B C D E log]. norm_pc o. code_byte K 1. code_byte K 2. unfold at_call. cbn [PC SP M]. auto. }
  destruct (goes_on (at_call o (M s)) (fun t => mal_again o (M s) t Ho Ap H) (step s) I0) as (N & Inf). split.
  - intros [|n] (F1 & F2); [exact (Ns F1)|]. apply (N n). split; [exact F1|]. intros m Hm. apply (F2 (S m)). lia.
  - intros k. destruct (Inf k) as (n & Hn & In). exists (S n). split; [lia|exact In].
Qed.

(** ** The multiplication that starts from 0 *)
Definition mult0_bytes (o b c : Z) : list Z :=
  [0x60; b; 0x61; c; 0xC3; 0x12; 0x34; 0x64; 0; 0xC1;
   0x11; 0x67; 0; 0x72; (o + 26) / 256; (o + 26) mod 256; 0xC2; 0x30; 0xC1; 0x11; 0x66; 1; 0x41; 0x74; (o + 10) / 256; (o + 10) mod 256;
   0xC2; 0xFF].
Lemma mult0_loop : forall n o b c b0 c0 ac fc fz d e m lg, 0 <= o -> o + 28 <= 65535 -> apart o 28 0x1233 -> code_at m o (mult0_bytes o b0 c0) ->
  (n <= 255)%nat -> 0 <= b <= 255 -> c = Z.of_nat n -> 0 <= m 0x1233 <= 255 ->
  reach (mkArch ac fc fz b c d e (o + 10) 0x1233 m lg)
    (fun t => AC t = (m 0x1233 + b * Z.of_nat n) mod 256 /\ PC t = o + 27 /\ opcode t = 255).
Proof.
  induction n as [|n IH]; intros o b c b0 c0 ac fc fz d e m lg Ho Ho2 Ap H Hn Hb Hc Hm;
  pose proof H as K; unfold mult0_bytes in K; name_post P;
  isa_step K o 10 (MOV_r_ac RC); isa_step K o 11 (OP CMP Imm); isa_step K o 13 BEQ; code_byte K 12; code_byte K 14; code_byte K 15; rewrite high_low, Z.sub_0_r, Z.mod_small by lia.
  - subst c. change (Z.of_nat 0 =? 0) with true. cbv iota. isa_step K o 26 POP. apply reach_here. unfold P, opcode. cbn [AC PC M]. split; [rewrite Z.mod_small; lia|]. split; auto. code_byte K 27. reflexivity.
  - replace (c =? 0) with false by lia. isa_step K o 16 POP. isa_step K o 17 (OP ADD (Reg RB)). isa_step K o 18 PUSH.
    name_mem m1.
    assert (H1 : code_at m1 o (mult0_bytes o b0 c0)) by (apply code_write; [exact H|exact Ap]). clear K. pose proof H1 as K. unfold mult0_bytes in K.
    isa_step K o 19 (MOV_r_ac RC). isa_step K o 20 (OP SUB Imm). isa_step K o 22 (MOV_ac_r RC). isa_step K o 23 JMP. code_byte K 21. code_byte K 24. code_byte K 25. rewrite high_low.
    eapply reach_trans; [eapply (IH o b ((c - 1) mod 256) b0 c0); eauto; try lia|].
    + unfold m1. rewrite Z.eqb_refl. pose proof (Z.mod_pos_bound (m 4659 + b) 256 ltac:(lia)). lia.
    + intros t (E1 & E2 & E3). apply reach_here. unfold P. split; [|auto]. rewrite E1. unfold m1. rewrite Z.eqb_refl, Z.add_mod_idemp_l by lia. f_equal. nia.
Qed.
Theorem mult0_runs : forall o b c s, 0 <= o -> o + 28 <= 65535 -> apart o 28 0x1233 -> PC s = o -> code_at (M s) o (mult0_bytes o b c) -> 0 <= b <= 255 -> 0 <= c <= 255 ->
  reach s (fun t => AC t = (b * c) mod 256 /\ PC t = o + 27 /\ opcode t = 255).
Proof.
  intros o b c s Ho Ho2 Ap Hp H Hb Hc. destruct s as [ac fc fz b1 c1 d e pc sp m lg]. cbn [PC M] in *. subst pc. replace o with (o + 0) at 1 by lia. pose proof H as K. unfold mult0_bytes in K. name_post P.
  isa_step K o 0 (MOV_i_r RB). isa_step K o 2 (MOV_i_r RC). isa_step K o 4 INISP. isa_step K o 7 MOV_i_ac. code_byte K 1. code_byte K 3. code_byte K 5. code_byte K 6. code_byte K 8.
  norm_lit. isa_step K o 9 PUSH.
  name_mem m1. assert (H1 : code_at m1 o (mult0_bytes o b c)) by (apply code_write; [exact H|exact Ap]).
  assert (E1 : m1 4659 = 0) by reflexivity.
  eapply reach_trans; [apply (mult0_loop (Z.to_nat c) o b c b c); auto; lia|]. intros t (R1 & R2 & R3). apply reach_here. unfold P. split; auto.
  rewrite R1, E1, Z2Nat.id by lia. reflexivity.
Qed.
