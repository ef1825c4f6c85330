(** * Theorems: what each instruction does (C01-C12), timing (C13), programs (C14)
    [executes a h'] (Usage.v): a machine reached through the exported functions
    by any allowed history stands between two instructions, its getters show [a],
    and one more instruction takes it to [h'].  [shows h' b]: the getters then
    show [b].  Every valid [a] occurs: [executes_nonvacuous] below. *)
From Coq Require Import ZArith List Bool Lia ZifyBool.
From Verif Require Import Prog Isa Api Usage IsaOps Reach Runs IsaFacts.
Import ListNotations.
Open Scope Z_scope.

(** The hypothesis [executes a h'] is met for every valid programmer-visible state
    (all register, flag and memory contents). *)
Theorem executes_nonvacuous : forall a, valid a -> log a = [] -> exists h', executes a h'.
Proof. exact every_state_executes. Qed.

(** Register numbers in opcodes. *)
Definition num (r : r8) : Z := match r with RB => 0 | RC => 1 | RD => 2 | RE => 3 end.
(** The address operand, high byte first. *)
Definition operand16 (a : arch) : Z := 256 * M a (PC a + 1) + M a (PC a + 2).

Lemma step_at : forall a h' op i, executes a h' -> opcode a = op -> decode op = i -> PC a < 65535 ->
  shows h' (exec_instr i (put_pc (PC a + 1) a)).
Proof.
  intros a h' op i X Ho Hi Hp. apply executes_step in X. unfold step in X. unfold opcode in Ho.
  rewrite Ho, Hi, pc_next_put in X by exact Hp. exact X.
Qed.
Lemma with_imm_at : forall f s, PC s < 65535 -> with_imm f s = f (M s (PC s)) (put_pc (PC s + 1) s).
Proof. intros f s H. unfold with_imm, imm. rewrite pc_next_put by exact H. reflexivity. Qed.
Lemma with_dir_at : forall f s, PC s < 65534 ->
  with_dir f s = f (256 * M s (PC s) + M s (PC s + 1)) (put_pc (PC s + 2) s).
Proof.
  intros f s H. unfold with_dir. rewrite with_imm_at by lia. rewrite with_imm_at by (cbn; lia).
  cbn [put_pc PC M]. replace (PC s + 1 + 1) with (PC s + 2) by lia. reflexivity.
Qed.

Ltac op1 X := eapply step_at in X; [|eassumption|reflexivity|lia];
  match type of X with context [decode ?o] => let v := eval vm_compute in (decode o) in change (decode o) with v in X end.
Ltac imm1 X := op1 X; unfold exec_instr in X; rewrite with_imm_at in X by (cbn; lia); cbn [put_pc PC M] in X;
  rewrite <- Z.add_assoc in X; change (1 + 1) with 2 in X.
Ltac dir1 X := op1 X; unfold exec_instr in X; rewrite with_dir_at in X by (cbn; lia); cbn [put_pc PC M] in X;
  rewrite <- !Z.add_assoc in X; change (1 + 1) with 2 in X; change (1 + 2) with 3 in X.

(** ** C01 MOV *)
Theorem C01_mov_reg_reg : forall a h' s d, executes a h' -> opcode a = 4 * num d + num s -> PC a < 65535 ->
  shows h' (put d (get s a) (put_pc (PC a + 1) a)).
Proof. intros a h' s d X Ho Hp. destruct s, d; op1 X; exact X. Qed.
Theorem C01_mov_reg_ac : forall a h' s, executes a h' -> opcode a = 0x10 + num s -> PC a < 65535 ->
  shows h' (put_ac (get s a) (put_pc (PC a + 1) a)).
Proof. intros a h' s X Ho Hp. destruct s; op1 X; exact X. Qed.
Theorem C01_mov_ac_reg : forall a h' d, executes a h' -> opcode a = 0x40 + num d -> PC a < 65535 ->
  shows h' (put d (AC a) (put_pc (PC a + 1) a)).
Proof. intros a h' d X Ho Hp. destruct d; op1 X; exact X. Qed.
Theorem C01_mov_ac_ac : forall a h', executes a h' -> opcode a = 0x44 -> PC a < 65535 ->
  shows h' (put_pc (PC a + 1) a).
Proof. intros a h' X Ho Hp. op1 X; exact X. Qed.
Theorem C01_mov_imm_reg : forall a h' d, executes a h' -> opcode a = 0x60 + num d -> PC a < 65534 ->
  shows h' (put d (M a (PC a + 1)) (put_pc (PC a + 2) a)).
Proof. intros a h' d X Ho Hp. destruct d; imm1 X; exact X. Qed.
Theorem C01_mov_imm_ac : forall a h', executes a h' -> opcode a = 0x64 -> PC a < 65534 ->
  shows h' (put_ac (M a (PC a + 1)) (put_pc (PC a + 2) a)).
Proof. intros a h' X Ho Hp. imm1 X; exact X. Qed.

(** ** C02-C04: one-operand arithmetic and logic
    [takes a x n op_r op_ac op_imm]: the opcode at PC is the form of the
    instruction whose operand is [x] and which is [n] bytes long. *)
Definition takes (op_r op_ac op_imm : Z) (a : arch) (x n : Z) : Prop :=
  (exists r, opcode a = op_r + num r /\ x = get r a /\ n = 1) \/
  (opcode a = op_ac /\ x = AC a /\ n = 1) \/
  (opcode a = op_imm /\ x = M a (PC a + 1) /\ n = 2).

Lemma takes_range : forall p q i a h' x n, executes a h' -> takes p q i a x n -> PC a + n <= 65535 ->
  0 <= x <= 255 /\ 0 <= AC a <= 255.
Proof.
  intros p q i a h' x n X T Hp. destruct (executes_valid a h' X) as (V1 & V2 & V3 & V4 & V5 & V6 & V7 & V8).
  split; [|exact V1]. destruct T as [(r & _ & -> & _)|[(_ & -> & _)|(_ & -> & ->)]]; auto.
  - destruct r; cbn; auto.
  - apply V8. lia.
Qed.

Lemma alu_takes : forall p q i o, (forall r, decode (p + num r) = OP o (Reg r)) -> decode q = OP o Acc -> decode i = OP o Imm ->
  forall a h' x n, executes a h' -> takes p q i a x n -> PC a + n <= 65535 -> shows h' (alu_step o x (put_pc (PC a + n) a)).
Proof.
  intros p q i o Dp Dq Di a h' x n X T Hp. destruct T as [(r & Ho & -> & ->)|[(Ho & -> & ->)|(Ho & -> & ->)]].
  - eapply step_at in X; [|eassumption|apply Dp|lia]. destruct r; exact X.
  - eapply step_at in X; [|eassumption|exact Dq|lia]. exact X.
  - eapply step_at in X; [|eassumption|exact Di|lia]. unfold exec_instr in X. rewrite with_imm_at in X by (cbn; lia). cbn [put_pc PC M] in X.
    rewrite <- Z.add_assoc in X; change (1 + 1) with 2 in X. exact X.
Qed.
Ltac dec := intros []; reflexivity.

Theorem C02_add : forall a h' x n, executes a h' -> takes 0x30 0x45 0x65 a x n -> PC a + n <= 65535 ->
  shows h' (put_flags (255 <? AC a + x) ((AC a + x) mod 256 =? 0)
             (put_ac ((AC a + x) mod 256) (put_pc (PC a + n) a))).
Proof. intros a h' x n X T Hp. exact (alu_takes 0x30 0x45 0x65 ADD ltac:(dec) eq_refl eq_refl a h' x n X T Hp). Qed.

Lemma sub_zero : forall u v, 0 <= u <= 255 -> 0 <= v <= 255 -> ((u - v) mod 256 =? 0) = (u =? v).
Proof. intros u v Hu Hv. lia. Qed.
Theorem C03_sub : forall a h' x n, executes a h' -> takes 0x18 0x46 0x66 a x n -> PC a + n <= 65535 ->
  shows h' (put_flags (AC a <? x) (AC a =? x) (put_ac ((AC a - x) mod 256) (put_pc (PC a + n) a))).
Proof.
  intros a h' x n X T Hp. destruct (takes_range _ _ _ _ _ _ _ X T Hp).
  pose proof (alu_takes 0x18 0x46 0x66 SUB ltac:(dec) eq_refl eq_refl a h' x n X T Hp) as S.
  unfold alu_step, alu_result, alu_carry in S. cbn [put_pc AC] in S. rewrite sub_zero in S by assumption. exact S.
Qed.
Theorem C03_cmp : forall a h' x n, executes a h' -> takes 0x1C 0x47 0x67 a x n -> PC a + n <= 65535 ->
  shows h' (put_flags (AC a <? x) (AC a =? x) (put_pc (PC a + n) a)).
Proof.
  intros a h' x n X T Hp. destruct (takes_range _ _ _ _ _ _ _ X T Hp).
  pose proof (alu_takes 0x1C 0x47 0x67 CMP ltac:(dec) eq_refl eq_refl a h' x n X T Hp) as S.
  unfold alu_step, alu_result, alu_carry in S. cbn [put_pc AC] in S. rewrite sub_zero in S by assumption. exact S.
Qed.

(** [bitwise f u v w]: [w] is a byte and each of its bits is [f] of the bits of [u] and [v]. *)
Definition bitwise (f : bool -> bool -> bool) (u v w : Z) : Prop :=
  0 <= w <= 255 /\ forall i, 0 <= i < 8 -> Z.testbit w i = f (Z.testbit u i) (Z.testbit v i).

Lemma bitwise_unique : forall f u v w w', bitwise f u v w -> bitwise f u v w' -> w = w'.
Proof.
  intros f u v w w' (R1 & B1) (R2 & B2). apply Z.bits_inj'. intros i Hi. destruct (Z.ltb_spec i 8).
  - rewrite B1, B2 by lia. reflexivity.
  - rewrite !Z.bits_above_log2; auto; try lia.
    + assert (w' = 0 \/ 0 < w') as [->|Hw] by lia; [cbn; lia|]. enough (Z.log2 w' < 8) by lia. apply Z.log2_lt_pow2; lia.
    + assert (w = 0 \/ 0 < w) as [->|Hw] by lia; [cbn; lia|]. enough (Z.log2 w < 8) by lia. apply Z.log2_lt_pow2; lia.
Qed.
Lemma byte_bits : forall w, 0 <= w -> (forall i, 8 <= i -> Z.testbit w i = false) -> 0 <= w <= 255.
Proof.
  intros w Hw Hb. split; auto. destruct (Z.le_gt_cases w 255); auto. exfalso.
  assert (8 <= Z.log2 w) by (apply Z.log2_le_pow2; lia).
  pose proof (Z.bit_log2 w ltac:(lia)) as Hl. rewrite Hb in Hl by lia. discriminate.
Qed.
Lemma high_bit : forall u i, 0 <= u <= 255 -> 8 <= i -> Z.testbit u i = false.
Proof.
  intros u i Hu Hi. assert (u = 0 \/ 0 < u) as [->|Hw] by lia; [apply Z.bits_0|].
  apply Z.bits_above_log2; [lia|]. enough (Z.log2 u < 8) by lia. apply Z.log2_lt_pow2; lia.
Qed.
Lemma land_bitwise : forall u v, 0 <= u <= 255 -> 0 <= v <= 255 -> bitwise andb u v (Z.land u v).
Proof.
  intros u v Hu Hv. split; [|intros; apply Z.land_spec]. apply byte_bits; [apply Z.land_nonneg; lia|].
  intros i Hi. rewrite Z.land_spec, (high_bit u i), (high_bit v i) by lia. reflexivity.
Qed.
Lemma lor_bitwise : forall u v, 0 <= u <= 255 -> 0 <= v <= 255 -> bitwise orb u v (Z.lor u v).
Proof.
  intros u v Hu Hv. split; [|intros; apply Z.lor_spec]. apply byte_bits; [apply Z.lor_nonneg; lia|].
  intros i Hi. rewrite Z.lor_spec, (high_bit u i), (high_bit v i) by lia. reflexivity.
Qed.
Lemma lxor_bitwise : forall u v, 0 <= u <= 255 -> 0 <= v <= 255 -> bitwise xorb u v (Z.lxor u v).
Proof.
  intros u v Hu Hv. split; [|intros; apply Z.lxor_spec]. apply byte_bits; [apply Z.lxor_nonneg; lia|].
  intros i Hi. rewrite Z.lxor_spec, (high_bit u i), (high_bit v i) by lia. reflexivity.
Qed.

(** Shown with the result [w] characterised bit by bit. *)
Theorem C04_and : forall a h' x n w, executes a h' -> takes 0x20 0x48 0x68 a x n -> PC a + n <= 65535 ->
  bitwise andb (AC a) x w -> shows h' (put_flags false (w =? 0) (put_ac w (put_pc (PC a + n) a))).
Proof.
  intros a h' x n w X T Hp Hw. destruct (takes_range _ _ _ _ _ _ _ X T Hp).
  rewrite (bitwise_unique _ _ _ _ _ Hw (land_bitwise (AC a) x ltac:(assumption) ltac:(assumption))).
  exact (alu_takes 0x20 0x48 0x68 AND ltac:(dec) eq_refl eq_refl a h' x n X T Hp).
Qed.
Theorem C04_or : forall a h' x n w, executes a h' -> takes 0x24 0x49 0x69 a x n -> PC a + n <= 65535 ->
  bitwise orb (AC a) x w -> shows h' (put_flags false (w =? 0) (put_ac w (put_pc (PC a + n) a))).
Proof.
  intros a h' x n w X T Hp Hw. destruct (takes_range _ _ _ _ _ _ _ X T Hp).
  rewrite (bitwise_unique _ _ _ _ _ Hw (lor_bitwise (AC a) x ltac:(assumption) ltac:(assumption))).
  exact (alu_takes 0x24 0x49 0x69 OR ltac:(dec) eq_refl eq_refl a h' x n X T Hp).
Qed.
Theorem C04_xor : forall a h' x n w, executes a h' -> takes 0x28 0x4A 0x6A a x n -> PC a + n <= 65535 ->
  bitwise xorb (AC a) x w -> shows h' (put_flags false (w =? 0) (put_ac w (put_pc (PC a + n) a))).
Proof.
  intros a h' x n w X T Hp Hw. destruct (takes_range _ _ _ _ _ _ _ X T Hp).
  rewrite (bitwise_unique _ _ _ _ _ Hw (lxor_bitwise (AC a) x ltac:(assumption) ltac:(assumption))).
  exact (alu_takes 0x28 0x4A 0x6A XOR ltac:(dec) eq_refl eq_refl a h' x n X T Hp).
Qed.
Lemma not_bitwise : forall u, 0 <= u <= 255 -> bitwise (fun b _ => negb b) u 0 (255 - u).
Proof.
  intros u Hu. split; [lia|]. intros i Hi. replace (255 - u) with (Z.lnot u + 2 ^ 8) by (unfold Z.lnot; lia).
  rewrite <- (Z.mod_pow2_bits_low (Z.lnot u + 2 ^ 8) 8) by lia.
  replace ((Z.lnot u + 2 ^ 8) mod 2 ^ 8) with (Z.lnot u mod 2 ^ 8) by (change (2^8) with 256; lia).
  rewrite Z.mod_pow2_bits_low by lia. apply Z.lnot_spec. lia.
Qed.
Theorem C04_cma : forall a h' w, executes a h' -> opcode a = 0x80 -> PC a < 65535 ->
  bitwise (fun b _ => negb b) (AC a) 0 w -> shows h' (put_flags false (w =? 0) (put_ac w (put_pc (PC a + 1) a))).
Proof.
  intros a h' w X Ho Hp Hw. destruct (executes_valid a h' X) as (V1 & _).
  rewrite (bitwise_unique _ _ _ _ _ Hw (not_bitwise (AC a) V1)). op1 X. exact X.
Qed.
(** Such a [w] always exists. *)
Example bitwise_exists : forall u v, 0 <= u <= 255 -> 0 <= v <= 255 ->
  (exists w, bitwise andb u v w) /\ (exists w, bitwise orb u v w) /\ (exists w, bitwise xorb u v w) /\
  (exists w, bitwise (fun b _ => negb b) u 0 w).
Proof.
  intros u v Hu Hv. repeat split; eexists; [apply land_bitwise|apply lor_bitwise|apply lxor_bitwise|apply not_bitwise]; auto.
Qed.

(** ** C05 INC *)
Theorem C05_inc_reg : forall a h' r, executes a h' -> opcode a = 0x2C + num r -> PC a < 65535 ->
  shows h' (put_flags false (get r a =? 255) (put r ((get r a + 1) mod 256) (put_pc (PC a + 1) a))).
Proof.
  intros a h' r X Ho Hp. destruct (executes_valid a h' X) as (V1 & V2 & V3 & V4 & V5 & _).
  replace (get r a =? 255) with ((get r a + 1) mod 256 =? 0) by (destruct r; cbn; lia).
  destruct r; op1 X; exact X.
Qed.
Theorem C05_inc_ac : forall a h', executes a h' -> opcode a = 0x4B -> PC a < 65535 ->
  shows h' (put_flags false (AC a =? 255) (put_ac ((AC a + 1) mod 256) (put_pc (PC a + 1) a))).
Proof.
  intros a h' X Ho Hp. destruct (executes_valid a h' X) as (V1 & _).
  replace (AC a =? 255) with ((AC a + 1) mod 256 =? 0) by lia. op1 X; exact X.
Qed.

(** ** C06 LDA/STA, C07 LDAX/STAX *)
Theorem C06_lda : forall a h', executes a h' -> opcode a = 0x70 -> PC a < 65533 ->
  shows h' (put_ac (M a (operand16 a)) (put_pc (PC a + 3) a)).
Proof. intros a h' X Ho Hp. dir1 X. exact X. Qed.
Theorem C06_sta : forall a h', executes a h' -> opcode a = 0x71 -> PC a < 65533 ->
  shows h' (write (operand16 a) (AC a) (put_pc (PC a + 3) a)).
Proof. intros a h' X Ho Hp. dir1 X. exact X. Qed.
Theorem C07_ldax : forall a h', executes a h' -> opcode a = 0xB0 -> PC a < 65535 ->
  shows h' (put_ac (M a (256 * D a + E a)) (put_pc (PC a + 1) a)).
Proof. intros a h' X Ho Hp. op1 X. exact X. Qed.
Theorem C07_stax : forall a h', executes a h' -> opcode a = 0x90 -> PC a < 65535 ->
  shows h' (write (256 * D a + E a) (AC a) (put_pc (PC a + 1) a)).
Proof. intros a h' X Ho Hp. op1 X. exact X. Qed.

(** ** C08 jumps *)
Theorem C08_jmp : forall a h', executes a h' -> opcode a = 0x74 -> PC a < 65533 ->
  shows h' (put_pc (operand16 a) a).
Proof. intros a h' X Ho Hp. dir1 X. exact X. Qed.
Theorem C08_beq : forall a h', executes a h' -> opcode a = 0x72 -> PC a < 65533 ->
  shows h' (put_pc (if FZ a then operand16 a else PC a + 3) a).
Proof. intros a h' X Ho Hp. dir1 X. cbn [put_pc FZ] in X. destruct (FZ a); exact X. Qed.
Theorem C08_bc : forall a h', executes a h' -> opcode a = 0x73 -> PC a < 65533 ->
  shows h' (put_pc (if FC a then operand16 a else PC a + 3) a).
Proof. intros a h' X Ho Hp. dir1 X. cbn [put_pc FC] in X. destruct (FC a); exact X. Qed.

(** ** C09 stack *)
Theorem C09_inisp : forall a h', executes a h' -> opcode a = 0xC3 -> PC a < 65533 ->
  shows h' (put_sp (operand16 a) (put_pc (PC a + 3) a)).
Proof. intros a h' X Ho Hp. dir1 X. exact X. Qed.

Lemma sp_down_at : forall s, SP s <> 0 -> sp_down s = put_sp (SP s - 1) s.
Proof. intros s H. unfold sp_down. replace (SP s =? 0) with false by lia. reflexivity. Qed.
Lemma sp_up_at : forall s, SP s <> 65535 -> sp_up s = put_sp (SP s + 1) s.
Proof. intros s H. unfold sp_up. replace (SP s =? 65535) with false by lia. reflexivity. Qed.
Lemma push_at : forall x s, SP s <> 0 -> push x s = write (SP s - 1) x (put_sp (SP s - 1) s).
Proof. intros x s H. unfold push. rewrite sp_down_at by exact H. reflexivity. Qed.
Lemma pop_at : forall f s, SP s <> 65535 -> pop f s = f (M s (SP s)) (put_sp (SP s + 1) s).
Proof. intros f s H. unfold pop. rewrite sp_up_at by exact H. reflexivity. Qed.
Ltac sp1 X := unfold exec_instr in X; cbn [put_pc AC SP PC] in X;
  repeat (first [rewrite push_at in X by (cbn; lia) | rewrite pop_at in X by (cbn; lia)]; cbn [put_pc put_sp write SP M PC AC] in X).

Theorem C09_push : forall a h', executes a h' -> opcode a = 0xC1 -> PC a < 65535 -> 1 <= SP a ->
  shows h' (write (SP a - 1) (AC a) (put_sp (SP a - 1) (put_pc (PC a + 1) a))).
Proof. intros a h' X Ho Hp Hs. op1 X. sp1 X. exact X. Qed.
Theorem C09_pop : forall a h', executes a h' -> opcode a = 0xC2 -> PC a < 65535 -> SP a < 65535 ->
  shows h' (put_ac (M a (SP a)) (put_sp (SP a + 1) (put_pc (PC a + 1) a))).
Proof. intros a h' X Ho Hp Hs. op1 X. sp1 X. exact X. Qed.

(** ** C10 CALL/RET *)
Theorem C10_call : forall a h', executes a h' -> opcode a = 0xC4 -> PC a < 65533 -> 2 <= SP a ->
  let return_address := PC a + 3 in
  shows h' (put_pc (operand16 a)
             (write (SP a - 2) (return_address mod 256)
               (write (SP a - 1) (return_address / 256) (put_sp (SP a - 2) a)))).
Proof.
  intros a h' X Ho Hp Hs r. dir1 X. cbn [put_pc PC] in X. rewrite (push_at _ (put_pc _ _)) in X by (cbn; lia). sp1 X. subst r. replace (SP a - 1 - 1) with (SP a - 2) in X by lia. exact X.
Qed.
Theorem C10_ret : forall a h', executes a h' -> opcode a = 0xC5 -> PC a < 65535 -> SP a < 65534 ->
  shows h' (put_pc (256 * M a (SP a + 1) + M a (SP a)) (put_sp (SP a + 2) a)).
Proof.
  intros a h' X Ho Hp Hs. op1 X. sp1 X. replace (SP a + 1 + 1) with (SP a + 2) in X by lia. exact X.
Qed.

(** ** C11 flags *)
Theorem C11_lfa : forall a h', executes a h' -> opcode a = 0x81 -> PC a < 65535 ->
  shows h' (put_ac (128 * Z.b2z (FC a) + Z.b2z (FZ a)) (put_pc (PC a + 1) a)).
Proof.
  intros a h' X Ho Hp. op1 X. unfold exec_instr, flags_byte in X. cbn [put_pc FC FZ] in X.
  replace (128 * Z.b2z (FC a) + Z.b2z (FZ a)) with ((if FC a then 128 else 0) + (if FZ a then 1 else 0)) by (destruct (FC a), (FZ a); reflexivity).
  exact X.
Qed.
Theorem C11_sfa : forall a h', executes a h' -> opcode a = 0x82 -> PC a < 65535 ->
  shows h' (put_flags (128 <=? AC a) (AC a mod 2 =? 1) (put_pc (PC a + 1) a)).
Proof.
  intros a h' X Ho Hp. destruct (executes_valid a h' X) as (V1 & _). op1 X. unfold exec_instr, load_flags in X. cbn [put_pc AC] in X.
  replace (128 <=? AC a) with (Z.testbit (AC a) 7). 2:{ rewrite Z.testbit_eqb by lia. change (2 ^ 7) with 128. lia. }
  replace (AC a mod 2 =? 1) with (Z.testbit (AC a) 0). 2:{ rewrite Z.testbit_eqb by lia. change (2 ^ 0) with 1. lia. }
  exact X.
Qed.
Theorem C11_iret : forall a h', executes a h' -> opcode a = 0xC0 -> PC a < 65535 -> SP a < 65533 ->
  let f := M a (SP a + 2) in
  shows h' (put_flags (128 <=? f) (f mod 2 =? 1) (put_pc (256 * M a (SP a + 1) + M a (SP a)) (put_sp (SP a + 3) a))).
Proof.
  intros a h' X Ho Hp Hs f. destruct (executes_valid a h' X) as (_ & _ & _ & _ & _ & _ & V7 & V8). op1 X. sp1 X.
  replace (SP a + 1 + 1) with (SP a + 2) in X by lia. replace (SP a + 2 + 1) with (SP a + 3) in X by lia. unfold load_flags in X.
  fold f in X. assert (0 <= f <= 255) by (apply V8; lia).
  replace (128 <=? f) with (Z.testbit f 7). 2:{ rewrite Z.testbit_eqb by lia. change (2 ^ 7) with 128. lia. }
  replace (f mod 2 =? 1) with (Z.testbit f 0). 2:{ rewrite Z.testbit_eqb by lia. change (2 ^ 0) with 1. lia. }
  exact X.
Qed.

(** ** C12 FIN and undocumented opcodes *)
Theorem C12_fin : forall a h', executes a h' -> opcode a = 0xFF -> PC a < 65535 -> shows h' (put_pc (PC a + 1) a).
Proof. intros a h' X Ho Hp. op1 X; exact X. Qed.

(** Undocumented opcodes that act as documented ones: [(op, documented op)]. *)
Definition aliases : list (Z * Z) :=
  [(0x34, 0x30); (0x35, 0x31); (0x36, 0x32); (0x37, 0x33); (0x38, 0x30); (0x39, 0x31); (0x3A, 0x32); (0x3B, 0x33);
   (0x3C, 0x30); (0x3D, 0x31); (0x3E, 0x32); (0x3F, 0x33);
   (0x4C, 0x48); (0x4D, 0x49); (0x4E, 0x4A); (0x4F, 0x4B); (0x6C, 0x68); (0x6D, 0x69); (0x6E, 0x6A)]
  ++ map (fun i => (0x90 + Z.of_nat i, 0x90)) (seq 1 15) ++ map (fun i => (0xB0 + Z.of_nat i, 0xB0)) (seq 1 15).
(** Undocumented opcodes that only move PC, by 2. *)
Definition skip2 : list Z := [0x6B; 0x6F].

Definition alias_of (op : Z) : option Z := option_map snd (find (fun p => fst p =? op) aliases).

Lemma undocumented_b : forallb (fun op => match decode_documented op with
   | Some _ => true
   | None => match alias_of op with
             | Some op' => match decode_documented op' with Some _ => true | None => false end
             | None => true end end) (map Z.of_nat (seq 0 256)) = true.
Proof. vm_compute. reflexivity. Qed.

Definition instr_dec (i j : instr) : {i = j} + {i <> j}.
Proof. repeat decide equality. Defined.
Lemma undocumented_decode : forallb (fun op => match decode_documented op with
   | Some _ => true
   | None => match alias_of op with
             | Some op' => if instr_dec (decode op) (decode op') then true else false
             | None => if existsb (Z.eqb op) skip2 then (if instr_dec (decode op) NOP_i then true else false)
                       else (if instr_dec (decode op) NOP then true else false) end end) (map Z.of_nat (seq 0 256)) = true.
Proof. vm_compute. reflexivity. Qed.

(** Every opcode without a mnemonic does what its documented alias does, or moves
    PC past itself and nothing else. *)
Theorem C12_undocumented : forall a h', executes a h' -> PC a < 65534 -> decode_documented (opcode a) = None ->
  match alias_of (opcode a) with
  | Some op' => decode_documented op' <> None /\
      exists i, decode_documented op' = Some i /\ shows h' (exec_instr i (put_pc (PC a + 1) a))
  | None => shows h' (put_pc (PC a + (if existsb (Z.eqb (opcode a)) skip2 then 2 else 1)) a)
  end.
Proof.
  intros a h' X Hp Hd. destruct (executes_valid a h' X) as (_ & _ & _ & _ & _ & V6 & _ & V8).
  pose proof (V8 (PC a) ltac:(lia)) as Vo. fold (opcode a) in Vo.
  assert (Hin : In (opcode a) (map Z.of_nat (seq 0 256))).
  { apply in_map_iff. exists (Z.to_nat (opcode a)). split; [lia|]. apply in_seq. lia. }
  pose proof (proj1 (forallb_forall _ _) undocumented_b _ Hin) as F1. pose proof (proj1 (forallb_forall _ _) undocumented_decode _ Hin) as F2.
  cbv beta in F1, F2. rewrite Hd in F1, F2.
  destruct (alias_of (opcode a)) as [op'|].
  - destruct (decode_documented op') as [i|] eqn:Ei; [|discriminate]. split; [congruence|]. exists i. split; auto.
    destruct (instr_dec (decode (opcode a)) (decode op')) as [E1|]; [|discriminate].
    apply (step_at a h' (opcode a) i X eq_refl); [|lia]. rewrite E1. unfold decode. rewrite Ei. reflexivity.
  - destruct (existsb (Z.eqb (opcode a)) skip2).
    + destruct (instr_dec (decode (opcode a)) NOP_i) as [E1|]; [|discriminate].
      pose proof (step_at a h' (opcode a) NOP_i X eq_refl E1 ltac:(lia)) as S. unfold exec_instr in S.
      rewrite with_imm_at in S by (cbn; lia). cbn [put_pc PC M] in S. rewrite <- Z.add_assoc in S. exact S.
    + destruct (instr_dec (decode (opcode a)) NOP) as [E1|]; [|discriminate].
      exact (step_at a h' (opcode a) NOP X eq_refl E1 ltac:(lia)).
Qed.
Example C12_undocumented_nonvacuous :
  length (filter (fun op => match decode_documented op with None => true | _ => false end) (map Z.of_nat (seq 0 256))) = 168%nat.
Proof. vm_compute. reflexivity. Qed.

(** ** C13 bounded, almost data-independent time *)
Theorem C13_completes : forall l h k a, live l h k -> boundary h -> shows h a ->
  exists n, (2 <= n <= 9)%nat /\
    (forall us h', instruction h us h' -> length us = n) /\
    (forall us, length us = n -> (k = false -> ~ In true us) -> exists h', instruction h us h').
Proof.
  intros l h k a L Bd S. pose proof (cycles_bound (M a (PC a)) (FC a) (FZ a)) as CB.
  exists (Z.to_nat (cycles (M a (PC a)) (FC a) (FZ a))). split; [lia|]. split.
  - intros us h' I. destruct (instruction_spec l h k a us h' L Bd S I) as (E1 & _). lia.
  - intros us El Hk. apply (instruction_exists l h k a us L Bd S); auto. lia.
Qed.
(** The number of cycles is a function of the opcode, and for BEQ and BC of the
    flag they test. *)
Theorem C13_data_independent : forall l1 h1 k1 a1 us1 h1' l2 h2 k2 a2 us2 h2',
  live l1 h1 k1 -> boundary h1 -> shows h1 a1 -> instruction h1 us1 h1' ->
  live l2 h2 k2 -> boundary h2 -> shows h2 a2 -> instruction h2 us2 h2' ->
  opcode a1 = opcode a2 ->
  (opcode a1 = 0x72 -> FZ a1 = FZ a2) -> (opcode a1 = 0x73 -> FC a1 = FC a2) ->
  length us1 = length us2.
Proof.
  intros l1 h1 k1 a1 us1 h1' l2 h2 k2 a2 us2 h2' L1 B1 S1 I1 L2 B2 S2 I2 Ho Hz Hc.
  destruct (instruction_spec l1 h1 k1 a1 us1 h1' L1 B1 S1 I1) as (E1 & _).
  destruct (instruction_spec l2 h2 k2 a2 us2 h2' L2 B2 S2 I2) as (E2 & _).
  fold (opcode a1) in E1. fold (opcode a2) in E2. rewrite <- Ho in E2.
  enough (cycles (opcode a1) (FC a1) (FZ a1) = cycles (opcode a1) (FC a2) (FZ a2)) by lia.
  unfold cycles. destruct (decode (opcode a1)) eqn:Ed; auto.
  - rewrite Hz; auto. clear -Ed. unfold decode, decode_documented, decode_undocumented in Ed.
    repeat match type of Ed with context [if ?b then _ else _] => destruct b eqn:?; try discriminate end. lia.
  - rewrite Hc; auto. clear -Ed. unfold decode, decode_documented, decode_undocumented in Ed.
    repeat match type of Ed with context [if ?b then _ else _] => destruct b eqn:?; try discriminate end. lia.
Qed.

(** ** C14 whole programs *)
Theorem C14_programs : forall n l h k a us h', live l h k -> boundary h -> shows h a -> instructions n h us h' ->
  shows h' (steps n a) /\ boundary h' /\ live (l ++ clocks us) h' k /\ Z.of_nat (length us) = total_cycles n a.
Proof.
  intros n l h k a us h' L Bd S I. destruct (instructions_spec n l h k a us h' L Bd S I) as (E1 & E2 & E3 & E4). auto.
Qed.
(** and the machine does execute any number of instructions. *)
Theorem C14_programs_run : forall n u l h k a, live l h k -> boundary h -> shows h a -> (u = true -> k = true) ->
  exists h', instructions n h (repeat u (Z.to_nat (total_cycles n a))) h'.
Proof. intros n u l h k a L Bd S Hu. exact (instructions_exist n u l h k a Hu L Bd S). Qed.
(** Every valid state is the start of such a run. *)
Theorem C14_nonvacuous : forall a, valid a -> log a = [] -> exists l h, live l h true /\ boundary h /\ shows h a.
Proof. exact every_state_reachable. Qed.

Print Assumptions C01_mov_reg_reg.
Print Assumptions C12_undocumented.
Print Assumptions C13_completes.
Print Assumptions C14_programs.
Print Assumptions C14_programs_run.
Print Assumptions C14_nonvacuous.
