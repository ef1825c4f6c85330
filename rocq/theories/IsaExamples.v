(** * The shipped example programs, run on the instruction set *)
From Coq Require Import ZArith List Bool Lia ZifyBool.
From Verif Require Import Prog Isa Usage PropsRun IsaRun.
Import ListNotations.
Open Scope Z_scope.

(** ** Multiplication *)
Definition mult_bytes (o b c : Z) : list Z :=
  [0x60; b; 0x61; c; 0xC3; 0x12; 0x34; 0x10; 0xC1;
   0x11; 0x67; 1; 0x72; (o + 25) / 256; (o + 25) mod 256; 0xC2; 0x30; 0xC1; 0x11; 0x66; 1; 0x41; 0x74; (o + 9) / 256; (o + 9) mod 256;
   0xC2; 0xFF].
Definition apart (o n a : Z) : Prop := a < o \/ o + n <= a.
Lemma mult_loop : forall n o b c b0 c0 ac fc fz d e m lg, 0 <= o -> o + 27 <= 65535 -> apart o 27 0x1233 -> code_at m o (mult_bytes o b0 c0) ->
  (1 <= n <= 256)%nat -> 0 <= b <= 255 -> c = Z.of_nat n mod 256 -> 0 <= m 0x1233 <= 255 ->
  reach (mkArch ac fc fz b c d e (o + 9) 0x1233 m lg)
    (fun t => AC t = (m 0x1233 + b * (Z.of_nat n - 1)) mod 256 /\ PC t = o + 26 /\ opcode t = 255).
Proof.
  induction n as [|n IH]; intros o b c b0 c0 ac fc fz d e m lg Ho Ho2 Ap H Hn Hb Hc Hm; [lia|].
  pose proof H as K. unfold mult_bytes in K. name_post P.
  isa_step K o 9 (MOV_r_ac RC). isa_step K o 10 (OP CMP Imm). isa_step K o 12 BEQ. code_byte K 11. code_byte K 13. code_byte K 14. rewrite high_low.
  destruct ((c - 1) mod 256 =? 0) eqn:Ez.
  - assert (n = 0%nat) as ->. { assert (0 <= c < 256) by (subst c; apply Z.mod_pos_bound; lia). destruct (Z.eq_dec c 0) as [E0|]; [rewrite E0 in Ez; discriminate|]. rewrite Z.mod_small in Ez by lia.
      destruct (Z.eq_dec (Z.of_nat (S n)) 256) as [E2|]; [rewrite E2 in Hc; change (256 mod 256) with 0 in Hc; lia|]. rewrite Z.mod_small in Hc by lia. lia. }
    isa_step K o 25 POP. apply reach_here. unfold P, opcode. cbn [AC PC M]. split; [rewrite Z.mod_small; lia|]. split; auto. code_byte K 26. reflexivity.
  - isa_step K o 15 POP. isa_step K o 16 (OP ADD (Reg RB)). isa_step K o 17 PUSH.
    name_mem m1.
    assert (H1 : code_at m1 o (mult_bytes o b0 c0)) by (apply code_write; [exact H|exact Ap]). clear K. pose proof H1 as K. unfold mult_bytes in K.
    isa_step K o 18 (MOV_r_ac RC). isa_step K o 19 (OP SUB Imm). isa_step K o 21 (MOV_ac_r RC). isa_step K o 22 JMP. code_byte K 20. code_byte K 23. code_byte K 24. rewrite high_low.
    eapply reach_trans; [eapply (IH o b ((c - 1) mod 256) b0 c0); eauto|].
    + assert (n <> 0)%nat; [|lia]. intros ->. subst c. discriminate.
    + subst c. rewrite Zminus_mod_idemp_l. f_equal. lia.
    + unfold m1. rewrite Z.eqb_refl. pose proof (Z.mod_pos_bound (m 4659 + b) 256 ltac:(lia)). lia.
    + intros t (E1 & E2 & E3). apply reach_here. unfold P. split; [|auto]. rewrite E1. unfold m1. rewrite Z.eqb_refl, Z.add_mod_idemp_l by lia. f_equal. nia.
Qed.
Theorem mult_runs : forall o b c s, 0 <= o -> o + 27 <= 65535 -> apart o 27 0x1233 -> PC s = o -> code_at (M s) o (mult_bytes o b c) -> 0 <= b <= 255 -> 0 <= c <= 255 ->
  reach s (fun t => AC t = (b * c) mod 256 /\ PC t = o + 26 /\ opcode t = 255).
Proof.
  intros o b c s Ho Ho2 Ap Hp H Hb Hc. destruct s as [ac fc fz b1 c1 d e pc sp m lg]. cbn [PC M] in *. subst pc. replace o with (o + 0) at 1 by lia. pose proof H as K. unfold mult_bytes in K. name_post P.
  isa_step K o 0 (MOV_i_r RB). isa_step K o 2 (MOV_i_r RC). isa_step K o 4 INISP. isa_step K o 7 (MOV_r_ac RB). code_byte K 1. code_byte K 3. code_byte K 5. code_byte K 6.
  norm_lit. isa_step K o 8 PUSH.
  name_mem m1. assert (H1 : code_at m1 o (mult_bytes o b c)) by (apply code_write; [exact H|exact Ap]).
  assert (E1 : m1 4659 = b) by reflexivity.
  destruct (Z.eq_dec c 0) as [->|Nc].
  - eapply reach_trans; [apply (mult_loop 256 o b 0 b 0); auto; try lia; reflexivity|]. intros t (R1 & R2 & R3). apply reach_here. unfold P. split; auto. rewrite R1, E1. change (Z.of_nat 256 - 1) with 255.
    replace (b + b * 255) with (0 + b * 256) by lia. rewrite Z.mod_add, Z.mul_0_r by lia. reflexivity.
  - eapply reach_trans; [apply (mult_loop (Z.to_nat c) o b c b c); auto; try lia; rewrite Z2Nat.id, Z.mod_small; lia|]. intros t (R1 & R2 & R3). apply reach_here. unfold P. split; auto.
    rewrite R1, E1, Z2Nat.id by lia. f_equal. lia.
Qed.

(** ** Counting to five *)
Definition count_bytes (o : Z) : list Z :=
  [0x64; 0; 0x4B; 0x67; 5; 0x72; (o + 11) / 256; (o + 11) mod 256; 0x74; (o + 2) / 256; (o + 2) mod 256; 0xFF].
Lemma count_loop : forall n o ac fc fz b c d e sp m lg, 0 <= o -> o + 12 <= 65535 -> code_at m o (count_bytes o) -> ac = 4 - Z.of_nat n -> 0 <= ac ->
  reach (mkArch ac fc fz b c d e (o + 2) sp m lg) (fun t => t = mkArch 5 false true b c d e (o + 11) sp m lg /\ opcode t = 255).
Proof.
  induction n as [|n IH]; intros o ac fc fz b c d e sp m lg Ho Ho2 H Ha H0; pose proof H as K; unfold count_bytes in K; name_post P;
    isa_step K o 2 INC_ac; isa_step K o 3 (OP CMP Imm); isa_step K o 5 BEQ; code_byte K 4; code_byte K 6; code_byte K 7; rewrite high_low, (Z.mod_small (ac + 1) 256) by lia.
  - assert (ac = 4) as -> by lia. norm_lit. change (5 <? 5) with false. change (0 mod 256 =? 0) with true. cbv iota. apply reach_here. unfold P, opcode. cbn [M PC]. code_byte K 11. split; reflexivity.
  - replace ((ac + 1 - 5) mod 256 =? 0) with false.
    2:{ symmetry. apply Z.eqb_neq. replace (ac + 1 - 5) with (ac + 252 + (-1) * 256) by lia. rewrite Z.mod_add by lia. rewrite Z.mod_small; lia. }
    isa_step K o 8 JMP. code_byte K 9. code_byte K 10. rewrite high_low. apply IH; auto; lia.
Qed.
Theorem count_runs : forall o s, 0 <= o -> o + 12 <= 65535 -> PC s = o -> code_at (M s) o (count_bytes o) ->
  reach s (fun t => t = mkArch 5 false true (B s) (C s) (D s) (E s) (o + 11) (SP s) (M s) (log s) /\ opcode t = 255).
Proof.
  intros o s Ho Ho2 Hp H. destruct s as [ac fc fz b c d e pc sp m lg]. cbn [PC M B C D E SP log] in *. subst pc. replace o with (o + 0) at 1 by lia.
  pose proof H as K. unfold count_bytes in K. name_post P. isa_step K o 0 MOV_i_ac. code_byte K 1. apply (count_loop 4); auto; lia.
Qed.

(** ** Searching a buffer *)
Definition search_bytes (o : Z) : list Z :=
  [0x62; 1; 0x63; 2; 0x64; 5; 0x90; 0x62; 0; 0x63; 0xFE;
   0xB0; 0x67; 5; 0x72; (o + 31) / 256; (o + 31) mod 256; 0x13; 0x67; 0xFF; 0x72; (o + 26) / 256; (o + 26) mod 256; 0x74; (o + 27) / 256; (o + 27) mod 256;
   0x2E; 0x2F; 0x74; (o + 11) / 256; (o + 11) mod 256; 0xFF].
(** The first address from 0xFE on that holds 5. *)
Definition first_five (m : Z -> Z) (a : Z) : Prop := 0xFE <= a /\ m a = 5 /\ forall x, 0xFE <= x < a -> m x <> 5.
Lemma byte_eq : forall x y, 0 <= x <= 255 -> 0 <= y <= 255 -> ((x - y) mod 256 =? 0) = (x =? y).
Proof.
  intros x y Hx Hy. destruct (Z.eqb_spec x y) as [->|N]; [rewrite Z.sub_diag; reflexivity|]. apply Z.eqb_neq. intros X.
  destruct (Z.le_gt_cases y x); [rewrite Z.mod_small in X; lia|]. replace (x - y) with (x - y + 256 + (-1) * 256) in X by lia. rewrite Z.mod_add, Z.mod_small in X; lia.
Qed.
Lemma search_loop : forall n o ac fc fz b c d e sp m lg, 0 <= o -> o + 32 <= 65535 -> code_at m o (search_bytes o) -> (forall x, 0 <= x < 65536 -> 0 <= m x <= 255) -> m 0x102 = 5 ->
  let a := 0x102 - Z.of_nat n in 0xFE <= a -> d = a / 256 -> e = a mod 256 -> (forall x, 0xFE <= x < a -> m x <> 5) ->
  reach (mkArch ac fc fz b c d e (o + 11) sp m lg) (fun t => (exists a, first_five (M t) a /\ a <= 0x102 /\ D t = a / 256 /\ E t = a mod 256) /\ AC t = 5 /\ PC t = o + 31 /\ opcode t = 255).
Proof.
  induction n as [|n IH]; intros o ac fc fz b c d e sp m lg Ho Ho2 H Hm H5 a Ha Hd He Hn; pose proof H as K; unfold search_bytes in K; name_post P;
    isa_step K o 11 LDAX; isa_step K o 12 (OP CMP Imm); isa_step K o 14 BEQ; code_byte K 13; code_byte K 15; code_byte K 16;
    rewrite !high_low; (assert (Ed : 256 * d + e = a) by (rewrite Hd, He; apply high_low)); rewrite Ed, (byte_eq (m a) 5) by (try apply Hm; lia).
  - assert (a = 0x102) by lia. replace (m a =? 5) with true by (rewrite H0, H5; reflexivity). apply reach_here. unfold P, opcode. cbn [AC PC M D E]. split; [|code_byte K 31; rewrite H0, H5; auto].
    exists a. split; [split; [lia|split; [rewrite H0; exact H5|exact Hn]]|split; [lia|auto]].
  - destruct (Z.eqb_spec (m a) 5) as [E5|N5].
    + apply reach_here. unfold P, opcode. cbn [AC PC M D E]. split; [|code_byte K 31; auto]. exists a. split; [split; auto|split; [lia|auto]].
    + isa_step K o 17 (MOV_r_ac RE). isa_step K o 18 (OP CMP Imm). isa_step K o 20 BEQ. code_byte K 19. code_byte K 21. code_byte K 22. rewrite !high_low.
      assert (Ea : a = 254 \/ a = 255 \/ a = 256 \/ a = 257) by lia.
      assert (G : forall ac fc fz d' e', d' = (a + 1) / 256 -> e' = (a + 1) mod 256 -> reach (mkArch ac fc fz b c d' e' (o + 11) sp m lg) P).
      { intros ac' fc' fz' d' e' Hd' He'. unfold P. apply IH; auto; try lia.
        intros x Hx. destruct (Z.eq_dec x a) as [->|]; auto. apply Hn. lia. }
      assert (Er : 0 <= e <= 255) by (rewrite He; pose proof (Z.mod_pos_bound a 256); lia). rewrite (byte_eq e 255) by lia.
      destruct (Z.eqb_spec e 255) as [E255|N255].
      * isa_step K o 26 (INC_r RD). isa_step K o 27 (INC_r RE). isa_step K o 28 JMP. code_byte K 29. code_byte K 30. rewrite high_low.
        assert (A : a = 255). { destruct Ea as [X|[X|[X|X]]]; rewrite X in He; try exact X; compute in He; lia. }
        apply G; rewrite A in *; rewrite ?Hd, ?He; reflexivity.
      * isa_step K o 23 JMP. code_byte K 24. code_byte K 25. rewrite high_low. isa_step K o 27 (INC_r RE). isa_step K o 28 JMP. code_byte K 29. code_byte K 30. rewrite high_low.
        apply G; destruct Ea as [X|[X|[X|X]]]; rewrite X in *; rewrite ?Hd, ?He; try reflexivity; exfalso; apply N255; rewrite He; reflexivity.
Qed.
Theorem search_runs : forall o s, 0 <= o -> o + 32 <= 65535 -> apart o 32 0x102 -> PC s = o -> code_at (M s) o (search_bytes o) -> (forall x, 0 <= x < 65536 -> 0 <= M s x <= 255) ->
  reach s (fun t => (exists a, first_five (M t) a /\ a <= 0x102 /\ D t = a / 256 /\ E t = a mod 256) /\ AC t = 5 /\ PC t = o + 31 /\ opcode t = 255).
Proof.
  intros o s Ho Ho2 Ap Hp H Hm. destruct s as [ac fc fz b c d e pc sp m lg]. cbn [PC M B C D E SP log] in *. subst pc. replace o with (o + 0) at 1 by lia.
  pose proof H as K. unfold search_bytes in K. name_post P. isa_step K o 0 (MOV_i_r RD). isa_step K o 2 (MOV_i_r RE). isa_step K o 4 MOV_i_ac. code_byte K 1. code_byte K 3. code_byte K 5.
  isa_step K o 6 STAX. name_mem m1. assert (H1 : code_at m1 o (search_bytes o)) by (apply code_write; [exact H|exact Ap]). clear K. pose proof H1 as K. unfold search_bytes in K.
  isa_step K o 7 (MOV_i_r RD). isa_step K o 9 (MOV_i_r RE). code_byte K 8. code_byte K 10. apply (search_loop 4); auto; try lia; try reflexivity.
  intros x Hx. unfold m1. destruct (x =? 258); [lia|]. apply Hm. exact Hx.
Qed.

(** ** Calling a function *)
Definition call_bytes (o b c : Z) : list Z :=
  [0xC3; 1; 0x23; 0x62; 0xFF; 0x63; 0xFA; 0x64; 0x10; 0x90; 0x2F; 0x64; 0x31; 0x90; 0x2F; 0x64; 0x42; 0x90; 0x2F; 0x64; 0xC5; 0x90;
   0x60; b; 0x61; c; 0xC4; 0xFF; 0xFA; 0xFF].
Lemma with_imm_eq : forall k ac fc fz b c d e pc sp m lg, pc < 65535 -> with_imm k (mkArch ac fc fz b c d e pc sp m lg) = k (m pc) (mkArch ac fc fz b c d e (pc + 1) sp m lg).
Proof. intros. unfold with_imm, imm, pc_next. cbn [PC M]. replace (pc =? 65535) with false by lia. reflexivity. Qed.
Lemma push_eq : forall v ac fc fz b c d e pc sp m lg, 0 < sp -> push v (mkArch ac fc fz b c d e pc sp m lg) = mkArch ac fc fz b c d e pc (sp - 1) (fun x => if x =? sp - 1 then v else m x) lg.
Proof. intros. unfold push, sp_down. cbn [SP]. replace (sp =? 0) with false by lia. reflexivity. Qed.
Lemma step_call : forall ac fc fz b c d e pc sp m lg h l, m pc = 0xC4 -> pc + 3 <= 65535 -> 2 <= sp -> m (pc + 1) = h -> m (pc + 2) = l ->
  step (mkArch ac fc fz b c d e pc sp m lg) =
  mkArch ac fc fz b c d e (256 * h + l) (sp - 1 - 1) (fun x => if x =? sp - 1 - 1 then (pc + 3) mod 256 else if x =? sp - 1 then (pc + 3) / 256 else m x) lg.
Proof.
  intros ac fc fz b c d e pc sp m lg h l H1 H2 H3 H4 H5. rewrite (step_known _ 0xC4 CALL); [|exact H1|reflexivity|cbn [PC]; lia].
  change (put_pc _ _) with (mkArch ac fc fz b c d e (pc + 1) sp m lg). unfold exec_instr, with_dir. rewrite with_imm_eq, with_imm_eq by lia.
  replace (pc + 1 + 1) with (pc + 2) by lia. replace (pc + 2 + 1) with (pc + 3) by lia. rewrite H4, H5. cbn [PC]. rewrite push_eq, push_eq by lia. reflexivity.
Qed.
Ltac lit_step i :=
  apply reach_step; [unfold opcode; cbn; discriminate|];
  erewrite (step_known _ _ i); [|cbn; reflexivity|reflexivity|cbn [PC]; lia];
  do 3 (cbv [exec_instr put_pc PC M AC FC FZ B C D E SP log with_dir with_imm imm pc_next put put_ac put_flags put_sp get alu_step alu_result alu_carry
    push pop sp_up sp_down write DE]; norm_lit; cbn [Z.eqb Pos.eqb]).
Theorem call_runs : forall o b c s, 0 <= o -> o + 30 <= 0xFFFA -> apart o 30 0x121 -> apart o 30 0x122 -> PC s = o -> code_at (M s) o (call_bytes o b c) -> 0 <= b <= 255 -> 0 <= c <= 255 ->
  reach s (fun t => D t = (b + c) mod 256 /\ B t = b /\ C t = c /\ SP t = 0x123 /\ PC t = o + 29 /\ opcode t = 255).
Proof.
  intros o b c s Ho Ho2 Ap1 Ap2 Hp H Hb Hc. destruct s as [ac fc fz b1 c1 d e pc sp m lg]. cbn [PC M B C D E SP log] in *. subst pc. replace o with (o + 0) at 1 by lia.
  assert (W : forall m a v, code_at m o (call_bytes o b c) -> apart o 30 a -> code_at (fun x => if x =? a then v else m x) o (call_bytes o b c)) by (intros; apply code_write; auto).
  pose proof H as K. unfold call_bytes in K. name_post P. isa_step K o 0 INISP. isa_step K o 3 (MOV_i_r RD). isa_step K o 5 (MOV_i_r RE). isa_step K o 7 MOV_i_ac.
  code_byte K 1. code_byte K 2. code_byte K 4. code_byte K 6. code_byte K 8. isa_step K o 9 STAX. name_mem m1.
  assert (H1 : code_at m1 o (call_bytes o b c)) by (apply W; [auto|unfold apart; lia]). clear K. pose proof H1 as K. unfold call_bytes in K.
  isa_step K o 10 (INC_r RE). change (251 mod 256) with 251. isa_step K o 11 MOV_i_ac. code_byte K 12. isa_step K o 13 STAX. name_mem m2.
  assert (H2 : code_at m2 o (call_bytes o b c)) by (apply W; [auto|unfold apart; lia]). clear K. pose proof H2 as K. unfold call_bytes in K.
  isa_step K o 14 (INC_r RE). change (252 mod 256) with 252. isa_step K o 15 MOV_i_ac. code_byte K 16. isa_step K o 17 STAX. name_mem m3.
  assert (H3 : code_at m3 o (call_bytes o b c)) by (apply W; [auto|unfold apart; lia]). clear K. pose proof H3 as K. unfold call_bytes in K.
  isa_step K o 18 (INC_r RE). change (253 mod 256) with 253. isa_step K o 19 MOV_i_ac. code_byte K 20. isa_step K o 21 STAX. name_mem m4.
  assert (H4 : code_at m4 o (call_bytes o b c)) by (apply W; [auto|unfold apart; lia]). clear K. pose proof H4 as K. unfold call_bytes in K.
  isa_step K o 22 (MOV_i_r RB). isa_step K o 24 (MOV_i_r RC). code_byte K 23. code_byte K 25. apply reach_step; [unfold opcode; cbn [PC M]; code_byte K 26; discriminate|].
  rewrite (step_call _ _ _ _ _ _ _ _ _ _ _ 255 250); [|code_byte K 26; reflexivity|lia|lia|norm_pc o; code_byte K 27; reflexivity|norm_pc o; code_byte K 28; reflexivity]. norm_pc o. norm_lit.
  name_mem m5. assert (H5 : code_at m5 o (call_bytes o b c)) by (apply (W (fun x => if x =? 290 then _ else m4 x)); [apply W; auto|auto]). norm_lit.
  lit_step (MOV_r_ac RB). lit_step (OP ADD (Reg RC)). lit_step (MOV_ac_r RD). lit_step RET.
  assert (R1 : m5 289 = (o + 29) mod 256) by reflexivity. assert (R2 : m5 290 = (o + 29) / 256) by reflexivity.
  clear K. pose proof H5 as K. unfold call_bytes in K.
  rewrite R1, R2, high_low. apply reach_here. unfold P, opcode. cbn [AC PC M B C D E SP]. code_byte K 29. auto 10.
Qed.
