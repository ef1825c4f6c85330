(** * Theorems: ends of memory (C19, C20), stack (C21), subroutines (C22), frame
      conditions (C23, C24), notices (C51), the interface's run loops (C40, C41) *)
From Coq Require Import ZArith List Bool Lia ZifyBool.
From Verif Require Import Prog Isa Api Usage Front IsaOps Reach Runs IsaFacts PropsIsa.
Import ListNotations.
Open Scope Z_scope.

(** Length in bytes of the instruction with this opcode. *)
Definition len (op : Z) : Z :=
  if (0x60 <=? op) && (op <=? 0x6F) then 2
  else if ((0x70 <=? op) && (op <=? 0x74)) || (op =? 0xC3) || (op =? 0xC4) then 3
  else 1.
(** Opcodes that can set PC: BEQ, BC, JMP, IRET, CALL, RET. *)
Definition jumps (op : Z) : bool := existsb (Z.eqb op) [0x72; 0x73; 0x74; 0xC0; 0xC4; 0xC5].
(** Opcodes that set the flags: SUB, CMP, AND, OR, XOR, INC, ADD (register,
    accumulator, immediate), CMA, SFA, IRET. *)
Definition sets_flags (op : Z) : bool :=
  ((0x18 <=? op) && (op <=? 0x3F)) || ((0x45 <=? op) && (op <=? 0x4F)) ||
  ((0x65 <=? op) && (op <=? 0x6A)) || ((0x6C <=? op) && (op <=? 0x6E)) || existsb (Z.eqb op) [0x80; 0x82; 0xC0].
(** Cells an instruction can change: STA, STAX, PUSH, CALL. *)
Definition stores_at (a : arch) : list Z :=
  let op := opcode a in
  if op =? 0x71 then [operand16 a]
  else if (0x90 <=? op) && (op <=? 0x9F) then [256 * D a + E a]
  else if op =? 0xC1 then [Z.max 0 (SP a - 1)]
  else if op =? 0xC4 then [Z.max 0 (SP a - 1); Z.max 0 (SP a - 2)]
  else [].
(** Bytes popped minus pushed. *)
Definition sp_delta (op : Z) : Z :=
  if op =? 0xC1 then -1 else if op =? 0xC2 then 1 else if op =? 0xC4 then -2
  else if op =? 0xC5 then 2 else if op =? 0xC0 then 3 else 0.

(** ** The proofs go through the decoded instruction *)
Definition bytes : list Z := map Z.of_nat (seq 0 256).
Lemma on_bytes : forall P op, forallb P bytes = true -> 0 <= op <= 255 -> P op = true.
Proof.
  intros P op F Ho. apply (proj1 (forallb_forall _ _) F). apply in_map_iff. exists (Z.to_nat op). split; [lia|].
  apply in_seq. lia.
Qed.
Definition ilen (i : instr) : Z :=
  match i with
  | MOV_i_r _ | MOV_i_ac | OP _ Imm | NOP_i => 2
  | LDA | STA | BEQ | BC_ | JMP | INISP | CALL => 3
  | _ => 1 end.
Definition ijumps (i : instr) : bool := match i with BEQ | BC_ | JMP | IRET | CALL | RET => true | _ => false end.
Definition iflags (i : instr) : bool := match i with OP _ _ | INC_r _ | INC_ac | CMA | SFA | IRET => true | _ => false end.
Definition istores (i : instr) : Z := match i with STA => 1 | STAX => 2 | PUSH => 3 | CALL => 4 | _ => 0 end.
Definition isp (i : instr) : Z := match i with PUSH => -1 | POP => 1 | CALL => -2 | RET => 2 | IRET => 3 | _ => 0 end.
Definition ostores (op : Z) : Z :=
  if op =? 0x71 then 1 else if (0x90 <=? op) && (op <=? 0x9F) then 2 else if op =? 0xC1 then 3 else if op =? 0xC4 then 4 else 0.
Lemma classes_b : forallb (fun op => let i := decode op in
  (ilen i =? len op) && Bool.eqb (ijumps i) (jumps op) && Bool.eqb (iflags i) (sets_flags op) && (istores i =? ostores op)
  && ((isp i =? sp_delta op) || (match i with INISP => true | _ => false end))
  && Bool.eqb (match i with INISP => true | _ => false end) (op =? 0xC3)) bytes = true.
Proof. vm_compute. reflexivity. Qed.
Lemma classes : forall op, 0 <= op <= 255 -> ilen (decode op) = len op /\ ijumps (decode op) = jumps op /\
  iflags (decode op) = sets_flags op /\ istores (decode op) = ostores op /\ (op <> 0xC3 -> isp (decode op) = sp_delta op) /\
  (decode op = INISP <-> op = 0xC3).
Proof.
  intros op H. pose proof (on_bytes _ op classes_b H) as F. cbv beta zeta in F.
  repeat (apply andb_prop in F; let G := fresh "G" in destruct F as (F & G)).
  apply eqb_prop in G, G2, G3. repeat split; try lia; auto.
  - intros Ed. rewrite Ed in G. lia.
  - intros ->. reflexivity.
Qed.

Lemma opcode_range : forall a, valid a -> 0 <= opcode a <= 255.
Proof. intros a (_ & _ & _ & _ & _ & V6 & _ & V8). apply V8. lia. Qed.
Lemma pc_next_facts : forall s, 0 <= PC s <= 65535 -> PC (pc_next s) = Z.min 65535 (PC s + 1) /\ AC (pc_next s) = AC s /\ FC (pc_next s) = FC s /\ FZ (pc_next s) = FZ s /\
  SP (pc_next s) = SP s /\ M (pc_next s) = M s /\ (PC s < 65535 -> log (pc_next s) = log s) /\ D (pc_next s) = D s /\ E (pc_next s) = E s.
Proof. intros s H. unfold pc_next. destruct (Z.eqb_spec (PC s) 65535) as [N|N]; unfold note, put_pc; cbn [PC AC FC FZ SP M log D E]; repeat split; auto; lia. Qed.

Ltac pcn s := let H := fresh "P" in pose proof (pc_next_facts s) as H.

Lemma put_fields : forall r v s, PC (put r v s) = PC s /\ AC (put r v s) = AC s /\ FC (put r v s) = FC s /\ FZ (put r v s) = FZ s /\
  SP (put r v s) = SP s /\ M (put r v s) = M s /\ log (put r v s) = log s.
Proof. intros [] v s; cbn; auto 9. Qed.
Lemma alu_fields : forall o v s, PC (alu_step o v s) = PC s /\ SP (alu_step o v s) = SP s /\ M (alu_step o v s) = M s /\ log (alu_step o v s) = log s.
Proof. intros [] v s; cbn; auto. Qed.
Lemma sp_fields : forall s, PC (sp_up s) = PC s /\ PC (sp_down s) = PC s /\ M (sp_up s) = M s /\ M (sp_down s) = M s /\
  FC (sp_up s) = FC s /\ FC (sp_down s) = FC s /\ FZ (sp_up s) = FZ s /\ FZ (sp_down s) = FZ s /\
  (0 <= SP s <= 65535 -> SP (sp_up s) = Z.min 65535 (SP s + 1) /\ SP (sp_down s) = Z.max 0 (SP s - 1)) /\
  (SP s < 65535 -> log (sp_up s) = log s) /\ (0 < SP s -> log (sp_down s) = log s).
Proof.
  intros s. unfold sp_up, sp_down. destruct (Z.eqb_spec (SP s) 65535), (Z.eqb_spec (SP s) 0); unfold note, put_sp; cbn [PC AC FC FZ SP M log D E]; repeat split; auto; lia.
Qed.

Lemma push_facts : forall v s, 0 <= SP s <= 65535 -> SP (push v s) = Z.max 0 (SP s - 1) /\
  (forall x, M (push v s) x = if x =? Z.max 0 (SP s - 1) then v else M s x) /\ PC (push v s) = PC s /\ FC (push v s) = FC s /\ FZ (push v s) = FZ s /\
  (0 < SP s -> log (push v s) = log s).
Proof.
  intros v s H. destruct (sp_fields s) as (_ & Q0 & _ & Q1 & _ & Q3 & _ & Q4 & Q2 & _ & Q5). unfold push. cbn [write SP M PC FC FZ log].
  rewrite Q1, Q0, Q3, Q4, (proj2 (Q2 H)). auto 9.
Qed.

(** ** C19 *)
Lemma exec_pc : forall i s, 0 <= PC s <= 65535 -> ijumps i = false -> PC (exec_instr i s) = Z.min 65535 (PC s + (ilen i - 1)).
Proof.
  assert (W1 : forall k s, 0 <= PC s <= 65535 -> (forall v t, PC (k v t) = PC t) -> PC (with_imm k s) = Z.min 65535 (PC s + 1)).
  { intros k s H Hk. unfold with_imm. rewrite Hk. apply pc_next_facts. exact H. }
  assert (W2 : forall k s, 0 <= PC s <= 65535 -> (forall v t, PC (k v t) = PC t) -> PC (with_dir k s) = Z.min 65535 (PC s + 2)).
  { intros k s H Hk. unfold with_dir, with_imm. rewrite Hk. destruct (pc_next_facts s H) as (P1 & _).
    destruct (pc_next_facts (pc_next s)) as (P2 & _); [lia|]. rewrite P2, P1. lia. }
  intros i s H Hj. destruct i; try discriminate; cbn [ilen]; change (2 - 1) with 1; change (1 - 1) with 0; change (3 - 1) with 2;
    try (rewrite Z.min_r by lia; cbn [exec_instr]; unfold push, pop;
         repeat first [rewrite (proj1 (put_fields _ _ _)) | cbn [put_ac put_flags write PC load_flags]]; try lia; fail).
  all: try (cbn [exec_instr]; first [apply W2|apply W1]; auto; intros; try reflexivity; try apply put_fields; try apply alu_fields; fail).
  - destruct x; [| |cbn [exec_instr]; apply W1; auto; intros; apply alu_fields];
    rewrite Z.min_r by lia; cbn [exec_instr]; rewrite (proj1 (alu_fields _ _ _)); lia.
  - rewrite Z.min_r by lia. cbn [exec_instr]. unfold push. cbn [write PC]. rewrite (proj1 (proj2 (sp_fields _))). lia.
  - rewrite Z.min_r by lia. cbn [exec_instr]. unfold pop. cbn [put_ac PC]. rewrite (proj1 (sp_fields _)). lia.
Qed.

(** PC moves past the instruction, but never beyond 65535. *)
Theorem C19_pc_advances : forall a h' b, executes a h' -> shows h' b -> jumps (opcode a) = false ->
  PC b = Z.min 65535 (PC a + len (opcode a)).
Proof.
  intros a h' b X S Hj. pose proof (executes_valid a h' X) as V. pose proof (opcode_range a V) as Ho.
  destruct V as (_ & _ & _ & _ & _ & V6 & _). destruct (classes _ Ho) as (C1 & C2 & _).
  destruct (shows_agree h' b (step a) S (executes_step a h' X)) as (_ & _ & _ & _ & _ & _ & _ & E1 & _).
  rewrite E1. unfold step. destruct (pc_next_facts a V6) as (P1 & _). rewrite exec_pc; [|lia|fold (opcode a); congruence].
  fold (opcode a). rewrite P1, C1.
  assert (1 <= len (opcode a) <= 3). { unfold len. destruct (_ && _); [lia|]. destruct (_ || _); lia. } lia.
Qed.
(** So a program that reaches the last address with an instruction that does not
    jump or store there stays there forever, instead of wrapping around to 0. *)
Lemma step_mem_frame : forall a i, 0 <= SP a <= 65535 -> 0 <= PC a <= 65535 -> PC a + len (opcode a) <= 65535 \/ opcode a <> 0x71 /\ opcode a <> 0xC4 ->
  0 <= opcode a <= 255 -> ~ In i (stores_at a) -> M (step a) i = M a i.
Proof.
  intros a i V7 V6 Hl Ho Hn. destruct (classes _ Ho) as (C1 & C2 & C3 & C4 & _). unfold step.
  assert (W1 : forall k s, 0 <= PC s <= 65535 -> (forall v t, M (k v t) = M t) -> M (with_imm k s) = M s).
  { intros k s H Hk. unfold with_imm. rewrite Hk. apply pc_next_facts. exact H. }
  assert (W2 : forall k s, 0 <= PC s <= 65535 -> (forall v t, M (k v t) = M t) -> M (with_dir k s) = M s).
  { intros k s H Hk. unfold with_dir, with_imm. rewrite Hk. destruct (pc_next_facts s H) as (P1 & _ & _ & _ & _ & P0 & _).
    destruct (pc_next_facts (pc_next s)) as (_ & _ & _ & _ & _ & P2 & _); [lia|]. congruence. }
  fold (opcode a). destruct (pc_next_facts a V6) as (P1 & P2 & _ & _ & P5 & P6 & _ & P7 & P8).
  set (s := pc_next a) in *. assert (Hs : 0 <= PC s <= 65535) by lia. rewrite <- P6. assert (Hsp : 0 <= SP s <= 65535) by lia.
  assert (Hops : ostores (opcode a) = 0 \/ ostores (opcode a) = 1 \/ ostores (opcode a) = 2 \/ ostores (opcode a) = 3 \/ ostores (opcode a) = 4).
  { unfold ostores. repeat (destruct (_ =? _); [auto|]); destruct (_ && _); auto; repeat (destruct (_ =? _); auto). }
  unfold stores_at in Hn. unfold ostores in C4.
  destruct (decode (opcode a)) eqn:Ed; cbn [istores] in C4;
   try (cbn [exec_instr]; unfold pop; cbn [put_ac put_flags put_pc M load_flags];
        repeat first [rewrite (proj1 (proj2 (proj2 (sp_fields _)))) | rewrite (proj1 (proj2 (proj2 (proj2 (proj2 (proj2 (put_fields _ _ _)))))))]; reflexivity).
  - cbn [exec_instr]. rewrite W1; auto. intros; apply put_fields.
  - cbn [exec_instr]. rewrite W1; auto.
  - destruct x; cbn [exec_instr]; try (rewrite (proj1 (proj2 (proj2 (alu_fields _ _ _)))); reflexivity). rewrite W1; auto. intros; apply alu_fields.
  - cbn [exec_instr]. rewrite W2; auto.
  - (* STA *) destruct (Z.eqb_spec (opcode a) 0x71) as [E1|]; [|repeat match type of C4 with context [if ?b then _ else _] => destruct b end; lia].
    rewrite E1 in Hl. change (len 0x71) with 3 in Hl. cbn [exec_instr].
    unfold s. rewrite pc_next_put by lia. rewrite with_dir_at by (cbn; lia). cbn [put_pc write PC M].
    replace (PC a + 1 + 1) with (PC a + 2) by lia. destruct (Z.eqb_spec i (256 * M a (PC a + 1) + M a (PC a + 2))); auto.
    exfalso. apply Hn. left. unfold operand16. lia.
  - (* STAX *) repeat match type of C4 with context [if ?b then _ else _] => destruct b eqn:?; try lia end.
    cbv zeta in Hn; cbv iota in Hn. cbn [exec_instr write M]. unfold DE. rewrite P7, P8.
    destruct (Z.eqb_spec i (256 * D a + E a)); auto. exfalso. apply Hn. left. auto.
  - cbn [exec_instr]. rewrite W2; auto. intros. destruct (FZ t); reflexivity.
  - cbn [exec_instr]. rewrite W2; auto. intros. destruct (FC t); reflexivity.
  - cbn [exec_instr]. rewrite W2; auto.
  - cbn [exec_instr]. rewrite W2; auto.
  - (* PUSH *) repeat match type of C4 with context [if ?b then _ else _] => destruct b eqn:?; try lia end.
    cbv zeta in Hn; cbv iota in Hn. cbn [exec_instr]. unfold push. cbn [write M].
    destruct (sp_fields s) as (_ & _ & _ & Q1 & _ & _ & _ & _ & Q2 & _). rewrite Q1, (proj2 (Q2 Hsp)), P5.
    destruct (Z.eqb_spec i (Z.max 0 (SP a - 1))); auto. exfalso. apply Hn. left. auto.
  - (* CALL *) repeat match type of C4 with context [if ?b then _ else _] => destruct b eqn:?; try lia end.
    cbv zeta in Hn; cbv iota in Hn. assert (E1 : opcode a = 0xC4) by lia.
    rewrite E1 in Hl. change (len 0xC4) with 3 in Hl. cbn [exec_instr].
    unfold s. rewrite pc_next_put by lia. rewrite with_dir_at by (cbn; lia). cbn [put_pc PC M].
    set (t := put_pc _ _). assert (Ht : 0 <= SP t <= 65535) by (cbn; lia).
    destruct (push_facts ((PC a + 1 + 2) / 256) t Ht) as (Q1 & Q2 & _).
    destruct (push_facts ((PC a + 1 + 2) mod 256) (push ((PC a + 1 + 2) / 256) t) ltac:(lia)) as (R1 & R2 & _).
    rewrite R2, Q2, Q1. change (SP t) with (SP a). change (M t) with (M a).
    destruct (Z.eqb_spec i (Z.max 0 (Z.max 0 (SP a - 1) - 1))). { exfalso. apply Hn. right. left. lia. }
    destruct (Z.eqb_spec i (Z.max 0 (SP a - 1))); auto. exfalso. apply Hn. left. auto.
  - cbn [exec_instr]. rewrite W1; auto.
Qed.


Definition stores (op : Z) : bool := (op =? 0x71) || ((0x90 <=? op) && (op <=? 0x9F)) || (op =? 0xC1) || (op =? 0xC4).
Lemma stores_nil : forall a, stores (opcode a) = false -> stores_at a = [].
Proof.
  intros a H. unfold stores, stores_at in *. destruct (opcode a =? 0x71); [discriminate|]. destruct (_ && _); [discriminate|].
  destruct (opcode a =? 0xC1); [discriminate|]. destruct (opcode a =? 0xC4); [discriminate|]. reflexivity.
Qed.
Lemma stay_step : forall a, valid a -> PC a = 65535 -> jumps (M a 65535) = false -> stores (M a 65535) = false ->
  PC (step a) = 65535 /\ M (step a) 65535 = M a 65535.
Proof.
  intros a V Hp Hj Hst. pose proof (opcode_range a V) as Ho. pose proof V as (_ & _ & _ & _ & _ & V6 & V7 & _).
  assert (Eo : opcode a = M a 65535) by (unfold opcode; congruence).
  split.
  - destruct (classes _ Ho) as (C1 & C2 & _). unfold step. destruct (pc_next_facts a V6) as (P1 & _). rewrite exec_pc; [|lia|fold (opcode a); congruence].
    fold (opcode a). rewrite P1, C1.
    assert (1 <= len (opcode a) <= 3). { unfold len. destruct (_ && _); [lia|]. destruct (_ || _); lia. } lia.
  - apply step_mem_frame; auto.
    + right. rewrite Eo. unfold stores in Hst. lia.
    + rewrite stores_nil; [auto|congruence].
Qed.
(** A program that reaches the last address with an instruction that neither
    jumps nor stores stays there forever, instead of wrapping around to 0. *)
Theorem C19_stays : forall n l h k a us h', live l h k -> boundary h -> shows h a -> instructions n h us h' ->
  PC a = 65535 -> jumps (M a 65535) = false -> stores (M a 65535) = false ->
  get_register_value R_PC h' = Some 65535 /\ get_memory_value 65535 h' = Some (M a 65535).
Proof.
  intros n l h k a us h' L Hb Hs I. revert l a L Hb Hs. induction I as [h|n h us h1 vs h' I1 I2 IH]; intros l a L Hb Hs Hp Hj Hst.
  - destruct Hs as (_ & _ & _ & _ & _ & _ & _ & S8 & _ & S10 & _). rewrite S8, S10, Hp by lia. auto.
  - destruct (instruction_spec l h k a us h1 L Hb Hs I1) as (_ & E2 & E3 & E4).
    destruct (stay_step a (live_valid l h k a L Hs) Hp Hj Hst) as (X1 & X2). rewrite <- X2.
    apply (IH (l ++ clocks us) (step a)); auto; congruence.
Qed.
(** The 16-bit counter one would expect wraps to 0. *)
Theorem C19_wraps_refuted : exists a h' b, executes a h' /\ shows h' b /\ PC a = 65535 /\ jumps (opcode a) = false /\
  len (opcode a) = 1 /\ PC b <> (PC a + 1) mod 65536 /\ log b = [E_PC].
Proof.
  set (a := mkArch 7 false false 1 2 3 4 65535 100 (fun _ => 0x44) []).
  destruct (every_state_executes a) as (h' & X). { repeat split; cbn; lia. } { reflexivity. }
  exists a, h', (step a). split; [exact X|]. split; [exact (executes_step a h' X)|].
  repeat split; try reflexivity. cbn. lia.
Qed.

(** ** C20: the stack pointer saturates at both ends *)
Lemma sp_down_0 : forall s, SP s = 0 -> sp_down s = note E_SP s.
Proof. intros s H. unfold sp_down. rewrite H. reflexivity. Qed.
Lemma sp_up_end : forall s, SP s = 65535 -> sp_up s = note E_SP s.
Proof. intros s H. unfold sp_up. rewrite H. reflexivity. Qed.
Theorem C20_push_at_0 : forall a h', executes a h' -> opcode a = 0xC1 -> PC a < 65535 -> SP a = 0 ->
  shows h' (write 0 (AC a) (note E_SP (put_pc (PC a + 1) a))).
Proof.
  intros a h' X Ho Hp Hs. op1 X. unfold exec_instr, push in X. rewrite sp_down_0 in X by exact Hs.
  cbn [note SP put_pc AC] in X. rewrite Hs in X. exact X.
Qed.
Theorem C20_pop_at_end : forall a h', executes a h' -> opcode a = 0xC2 -> PC a < 65535 -> SP a = 65535 ->
  shows h' (put_ac (M a 65535) (note E_SP (put_pc (PC a + 1) a))).
Proof.
  intros a h' X Ho Hp Hs. op1 X. unfold exec_instr, pop in X. rewrite sp_up_end in X by exact Hs.
  cbn [SP put_pc M] in X. rewrite Hs in X. exact X.
Qed.
(** RET with nothing above: the same byte is taken twice. *)
Theorem C20_ret_at_end : forall a h', executes a h' -> opcode a = 0xC5 -> PC a < 65535 -> SP a = 65535 ->
  shows h' (put_pc (256 * M a 65535 + M a 65535) (note E_SP (note E_SP a))).
Proof.
  intros a h' X Ho Hp Hs. op1 X. unfold exec_instr, pop in X. rewrite (sp_up_end (put_pc _ _)) in X by exact Hs.
  rewrite sp_up_end in X by exact Hs. cbn [SP put_pc M note] in X. rewrite Hs in X. exact X.
Qed.
(** CALL with SP = 0 or 1 loses the high byte of the return address. *)
Theorem C20_call_at_0 : forall a h', executes a h' -> opcode a = 0xC4 -> PC a < 65533 -> SP a = 0 ->
  shows h' (put_pc (operand16 a) (write 0 ((PC a + 3) mod 256) (note E_SP (write 0 ((PC a + 3) / 256) (note E_SP a))))).
Proof.
  intros a h' X Ho Hp Hs. dir1 X. cbn [put_pc PC] in X. unfold push in X. rewrite (sp_down_0 (put_pc _ _)) in X by exact Hs.
  rewrite sp_down_0 in X by exact Hs. cbn [SP write put_pc note] in X. rewrite Hs in X. exact X.
Qed.
(** Pushing and popping at SP = 0 does not restore SP. *)
Theorem C20_restore_refuted : exists l h a us h', live l h true /\ boundary h /\ shows h a /\ instructions 2 h us h' /\
  opcode a = 0xC1 /\ M a (PC a + 1) = 0xC2 /\ PC a + 1 < 65535 /\ 100 < PC a /\ get_register_value R_SP h' <> Some (SP a).
Proof.
  set (a := mkArch 7 false false 1 2 3 4 200 0 (fun i => if i =? 200 then 0xC1 else 0xC2) []).
  destruct (every_state_reachable a) as (l & h & L & Bd & S). { repeat split; cbn; try lia; destruct (_ =? _); lia. } { reflexivity. }
  destruct (instructions_exist 2 true l h true a ltac:(auto) L Bd S) as (h' & I).
  exists l, h, a, (repeat true (Z.to_nat (total_cycles 2 a))), h'. split; [exact L|]. split; [exact Bd|]. split; [exact S|]. split; [exact I|].
  destruct (instructions_spec 2 l h true a _ h' L Bd S I) as (_ & (_ & _ & _ & _ & _ & _ & _ & _ & S9 & _) & _).
  repeat split; try (cbn; lia). rewrite S9. vm_compute. discriminate.
Qed.

(** ** C22 *)
Theorem C22_subroutine : forall a h1 b c h3,
  executes a h1 -> opcode a = 0xC4 -> PC a < 65533 -> 2 <= SP a -> shows h1 b ->
  executes c h3 -> opcode c = 0xC5 -> PC c < 65535 -> SP c = SP b ->
  M c (SP b) = M b (SP b) -> M c (SP b + 1) = M b (SP b + 1) ->
  exists d, shows h3 d /\ PC d = PC a + 3 /\ SP d = SP a /\
    (forall i, M d i = M c i) /\ AC d = AC c /\ FC d = FC c /\ FZ d = FZ c /\ Isa.B d = Isa.B c /\ C d = C c /\ D d = D c /\ E d = E c.
Proof.
  intros a h1 b c h3 X1 O1 P1 S1 Sb X2 O2 P2 Sc M1 M2.
  pose proof (executes_valid a h1 X1) as (_ & _ & _ & _ & _ & V6 & V7 & _).
  pose proof (C10_call a h1 X1 O1 P1 S1) as Q. cbv zeta in Q.
  destruct (shows_agree h1 b _ Sb Q) as (_ & _ & _ & _ & _ & _ & _ & _ & Q9 & Q10 & _). unfold put_pc, write, put_sp in Q9, Q10. cbn [SP M] in Q9, Q10.
  rewrite Q9 in *. replace (SP a - 2 + 1) with (SP a - 1) in M2 by lia. rewrite Q10 in M1, M2 by lia.
  pose proof (C10_ret c h3 X2 O2 P2 ltac:(lia)) as R. eexists. split; [exact R|]. unfold put_pc, put_sp. cbn [PC SP M AC FC FZ Isa.B C D E].
  split; [|split; [lia|auto 9]]. rewrite Sc. replace (SP a - 2 + 1) with (SP a - 1) by lia. rewrite M1, M2.
  rewrite Z.eqb_refl. replace (SP a - 2 =? SP a - 1) with false by lia. rewrite Z.eqb_refl.
  replace (SP a - 1 =? SP a - 2) with false by lia. lia.
Qed.
(** A subroutine consisting of RET, called, returns: the hypotheses are met. *)
Example C22_nonvacuous : exists a h1 b h3, executes a h1 /\ opcode a = 0xC4 /\ PC a < 65533 /\ 2 <= SP a /\ shows h1 b /\
  executes b h3 /\ opcode b = 0xC5 /\ PC b < 65535.
Proof.
  set (a := mkArch 7 false false 1 2 3 4 200 500 (fun i => if i =? 200 then 0xC4 else if i =? 201 then 1 else if i =? 202 then 0x2C else if i =? 300 then 0xC5 else 0) []).
  destruct (every_state_executes a) as (h1 & X). { repeat split; cbn; try lia; repeat (destruct (_ =? _); try lia). } { reflexivity. }
  exists a, h1, (step a). destruct X as (l & h & k & us & L & Bd & S & I).
  destruct (instruction_spec l h k a us h1 L Bd S I) as (_ & S1 & B1 & L1).
  destruct (completes _ _ _ L1) as (n & Hn & Hx). destruct (Hx (repeat false n) (repeat_length _ _)) as (h3 & I3).
  { intros _. apply repeat_false. }
  exists h3. split; [exists l, h, k, us; auto|]. split; [reflexivity|]. split; [cbn; lia|]. split; [cbn; lia|]. split; [exact S1|].
  split; [exists (l ++ clocks us), h1, k, (repeat false n); auto|]. split; [vm_compute; reflexivity|vm_compute; reflexivity].
Qed.

(** ** C23 *)
Lemma exec_flags : forall i s, 0 <= PC s <= 65535 -> iflags i = false -> FC (exec_instr i s) = FC s /\ FZ (exec_instr i s) = FZ s.
Proof.
  assert (W1 : forall k s, 0 <= PC s <= 65535 -> (forall v t, FC (k v t) = FC t /\ FZ (k v t) = FZ t) -> FC (with_imm k s) = FC s /\ FZ (with_imm k s) = FZ s).
  { intros k s H Hk. unfold with_imm. destruct (Hk (imm s) (pc_next s)) as (-> & ->). destruct (pc_next_facts s H) as (_ & _ & P1 & P2 & _). auto. }
  assert (W2 : forall k s, 0 <= PC s <= 65535 -> (forall v t, FC (k v t) = FC t /\ FZ (k v t) = FZ t) -> FC (with_dir k s) = FC s /\ FZ (with_dir k s) = FZ s).
  { intros k s H Hk. unfold with_dir, with_imm. destruct (pc_next_facts s H) as (P1 & _ & P2 & P3 & _). 
    destruct (pc_next_facts (pc_next s)) as (_ & _ & Q1 & Q2 & _); [lia|].
    destruct (Hk (256 * imm s + imm (pc_next s)) (pc_next (pc_next s))) as (-> & ->). split; congruence. }
  assert (Pu : forall v s, FC (push v s) = FC s /\ FZ (push v s) = FZ s).
  { intros v s. unfold push. cbn [write FC FZ]. destruct (sp_fields s) as (_ & _ & _ & _ & _ & F1 & _ & F2 & _). auto. }
  intros i s H Hf. destruct i; try discriminate; cbn [exec_instr]; try (first [apply W2|apply W1]; auto; intros);
    try (split; reflexivity); try (split; apply put_fields).
  - destruct (FZ t) eqn:F0; cbn [put_pc FC FZ]; auto.
  - destruct (FC t) eqn:F0; cbn [put_pc FC FZ]; auto.
  - unfold push. cbn [write FC FZ]. destruct (sp_fields s) as (_ & _ & _ & _ & _ & F1 & _ & F2 & _). auto.
  - unfold pop. cbn [put_ac FC FZ]. destruct (sp_fields s) as (_ & _ & _ & _ & F1 & _ & F2 & _). auto.
  - cbn [put_pc FC FZ]. rewrite !(proj1 (Pu _ _)), !(proj2 (Pu _ _)). auto.
  - unfold pop. cbn [put_pc FC FZ]. destruct (sp_fields s) as (_ & _ & _ & _ & F1 & _ & F2 & _).
    destruct (sp_fields (sp_up s)) as (_ & _ & _ & _ & G1 & _ & G2 & _). split; congruence.
Qed.
Theorem C23_flags_frame : forall a h' b, executes a h' -> shows h' b -> sets_flags (opcode a) = false -> FC b = FC a /\ FZ b = FZ a.
Proof.
  intros a h' b X S Hf. pose proof (executes_valid a h' X) as V. pose proof (opcode_range a V) as Ho.
  destruct V as (_ & _ & _ & _ & _ & V6 & _). destruct (classes _ Ho) as (_ & _ & C3 & _).
  destruct (shows_agree h' b (step a) S (executes_step a h' X)) as (_ & -> & -> & _). unfold step. fold (opcode a).
  destruct (pc_next_facts a V6) as (P1 & _ & P2 & P3 & _). destruct (exec_flags (decode (opcode a)) (pc_next a)) as (-> & ->); [lia|congruence|auto].
Qed.

(** ** C24 *)
Theorem C24_memory_frame : forall a h' b i, executes a h' -> shows h' b -> 0 <= i < 65536 ->
  PC a + len (opcode a) <= 65535 -> ~ In i (stores_at a) -> M b i = M a i.
Proof.
  intros a h' b i X S Hi Hl Hn. pose proof (executes_valid a h' X) as V. pose proof (opcode_range a V) as Ho.
  destruct V as (_ & _ & _ & _ & _ & V6 & V7 & _).
  destruct (shows_agree h' b (step a) S (executes_step a h' X)) as (_ & _ & _ & _ & _ & _ & _ & _ & _ & E1 & _).
  rewrite E1 by exact Hi. apply step_mem_frame; auto.
Qed.
(** At the end of memory too, for every opcode that does not store. *)
Theorem C24_no_store : forall a h' b i, executes a h' -> shows h' b -> 0 <= i < 65536 -> stores (opcode a) = false -> M b i = M a i.
Proof.
  intros a h' b i X S Hi Hst. pose proof (executes_valid a h' X) as V. pose proof (opcode_range a V) as Ho.
  destruct V as (_ & _ & _ & _ & _ & V6 & V7 & _).
  destruct (shows_agree h' b (step a) S (executes_step a h' X)) as (_ & _ & _ & _ & _ & _ & _ & _ & _ & E1 & _).
  rewrite E1 by exact Hi. apply step_mem_frame; auto. { right. unfold stores in Hst. lia. } rewrite (stores_nil a Hst). auto.
Qed.

(** ** C21: the stack behaves as a stack
    Programs made of "load a byte and push it" and "pop": [MOV b, AC; PUSH] and
    [POP].  [play] is the abstract stack machine: stack, accumulator; it refuses
    to pop an empty stack or to hold more than [room] bytes. *)
Inductive sop := Push (b : Z) | Pop.
Definition code_of (ops : list sop) : list Z :=
  flat_map (fun o => match o with Push b => [0x64; b; 0xC1] | Pop => [0xC2] end) ops.
Fixpoint count (ops : list sop) : nat :=
  match ops with [] => 0 | Push _ :: l => 2 + count l | Pop :: l => 1 + count l end.
Fixpoint play (room : nat) (ops : list sop) (st : list Z) (ac : Z) : option (list Z * Z) :=
  match ops with
  | [] => Some (st, ac)
  | Push b :: l => if (length st <? room)%nat then play room l (b :: st) b else None
  | Pop :: l => match st with [] => None | b :: st' => play room l st' b end
  end.

Lemma step_op : forall s op, opcode s = op -> PC s < 65535 -> step s = exec_instr (decode op) (put_pc (PC s + 1) s).
Proof. intros s op Ho Hp. unfold step. unfold opcode in Ho. rewrite Ho, pc_next_put by exact Hp. reflexivity. Qed.
Lemma step_load : forall s, opcode s = 0x64 -> PC s < 65534 -> step s = put_ac (M s (PC s + 1)) (put_pc (PC s + 2) s).
Proof.
  intros s Ho Hp. rewrite (step_op s _ Ho) by lia. change (decode 0x64) with MOV_i_ac. cbn [exec_instr]. rewrite with_imm_at by (cbn; lia).
  cbn [put_pc PC M]. replace (PC s + 1 + 1) with (PC s + 2) by lia. reflexivity.
Qed.
Lemma step_push : forall s, opcode s = 0xC1 -> PC s < 65535 -> 0 < SP s ->
  step s = write (SP s - 1) (AC s) (put_sp (SP s - 1) (put_pc (PC s + 1) s)).
Proof.
  intros s Ho Hp Hs. rewrite (step_op s _ Ho) by lia. change (decode 0xC1) with PUSH. cbn [exec_instr]. rewrite push_at by (cbn; lia). reflexivity.
Qed.
Lemma step_pop : forall s, opcode s = 0xC2 -> PC s < 65535 -> SP s < 65535 ->
  step s = put_ac (M s (SP s)) (put_sp (SP s + 1) (put_pc (PC s + 1) s)).
Proof.
  intros s Ho Hp Hs. rewrite (step_op s _ Ho) by lia. change (decode 0xC2) with POP. cbn [exec_instr]. rewrite pop_at by (cbn; lia). reflexivity.
Qed.

Lemma play_ok : forall base room m ops st st' v s,
  base <= 65535 -> Z.of_nat room <= base ->
  play room ops st (AC s) = Some (st', v) ->
  SP s = base - Z.of_nat (length st) -> (length st <= room)%nat ->
  (forall i, (i < length st)%nat -> M s (SP s + Z.of_nat i) = nth i st 0) ->
  (forall x, x < base - Z.of_nat room \/ base <= x -> M s x = m x) ->
  0 <= PC s -> PC s + Z.of_nat (length (code_of ops)) <= 65535 ->
  (forall i, (i < length (code_of ops))%nat -> m (PC s + Z.of_nat i) = nth i (code_of ops) 0) ->
  (PC s + Z.of_nat (length (code_of ops)) <= base - Z.of_nat room \/ base <= PC s) ->
  let s' := steps (count ops) s in
  AC s' = v /\ SP s' = base - Z.of_nat (length st') /\
  (forall i, (i < length st')%nat -> M s' (SP s' + Z.of_nat i) = nth i st' 0) /\
  (forall x, x < base - Z.of_nat room \/ base <= x -> M s' x = m x) /\
  PC s' = PC s + Z.of_nat (length (code_of ops)) /\
  FC s' = FC s /\ FZ s' = FZ s /\ Isa.B s' = Isa.B s /\ C s' = C s /\ D s' = D s /\ E s' = E s /\ log s' = log s.
Proof.
  intros base room m. induction ops as [|[b|] ops IH]; intros st st' v s Hb Hr Hp Hsp Hlen Hst Hm Hpc0 Hpc Hcode Hdis.
  - cbn in *. injection Hp as <- <-. repeat split; auto. lia.
  - cbn [play] in Hp. destruct (Nat.ltb_spec (length st) room) as [Hlt|]; [|discriminate].
    change (code_of (Push b :: ops)) with (0x64 :: b :: 0xC1 :: code_of ops) in *. cbn [length] in *.
    assert (C0 : M s (PC s) = 0x64). { rewrite Hm by lia. specialize (Hcode 0%nat ltac:(lia)). cbn [nth] in Hcode. rewrite <- Hcode. f_equal. lia. }
    assert (C1 : M s (PC s + 1) = b). { rewrite Hm by lia. specialize (Hcode 1%nat ltac:(lia)). exact Hcode. }
    assert (C2 : M s (PC s + 2) = 0xC1). { rewrite Hm by lia. specialize (Hcode 2%nat ltac:(lia)). exact Hcode. }
    cbn [count Nat.add steps]. rewrite (step_load s C0) by lia. rewrite C1.
    set (s1 := put_ac b (put_pc (PC s + 2) s)). rewrite step_push; [|exact C2|cbn; lia|cbn; lia].
    change (SP s1) with (SP s). change (AC s1) with b. change (PC s1) with (PC s + 2).
    set (s2 := write _ _ _).
    assert (P2 : PC s2 = PC s + 3) by (change (PC s2) with (PC s + 2 + 1); lia).
    assert (N : SP s2 = base - Z.of_nat (length (b :: st))) by (change (SP s2) with (SP s - 1); cbn [length]; lia).
    assert (W : forall x, M s2 x = if x =? SP s - 1 then b else M s x) by reflexivity.
    specialize (IH (b :: st) st' v s2 Hb Hr Hp N). rewrite P2 in IH. cbn [length] in IH.
    replace (PC s + Z.of_nat (S (S (S (length (code_of ops)))))) with (PC s + 3 + Z.of_nat (length (code_of ops))) in * by lia.
    apply IH; clear IH; try lia.
    + intros i Hi. rewrite W. destruct i as [|i].
      * cbn [nth]. replace (SP s2 + Z.of_nat 0 =? SP s - 1) with true by (cbn [length] in N; lia). reflexivity.
      * replace (SP s2 + Z.of_nat (S i) =? SP s - 1) with false by (cbn [length] in N; lia).
        replace (SP s2 + Z.of_nat (S i)) with (SP s + Z.of_nat i) by (cbn [length] in N; lia). cbn [nth]. apply Hst. lia.
    + intros x Hx. rewrite W. replace (x =? SP s - 1) with false by lia. apply Hm. exact Hx.
    + intros i Hi. specialize (Hcode (S (S (S i))) ltac:(lia)). cbn [nth] in Hcode. rewrite <- Hcode. f_equal. lia.
  - cbn [play] in Hp. destruct st as [|b st]; [discriminate|].
    change (code_of (Pop :: ops)) with (0xC2 :: code_of ops) in *. cbn [length] in *.
    assert (C0 : M s (PC s) = 0xC2). { rewrite Hm by lia. specialize (Hcode 0%nat ltac:(lia)). cbn [nth] in Hcode. rewrite <- Hcode. f_equal. lia. }
    cbn [count Nat.add steps]. rewrite (step_pop s C0) by lia.
    assert (T : M s (SP s) = b). { specialize (Hst 0%nat ltac:(lia)). cbn [nth] in Hst. rewrite <- Hst. f_equal. lia. }
    rewrite T. set (s2 := put_ac _ _).
    assert (P2 : PC s2 = PC s + 1) by reflexivity.
    assert (N : SP s2 = base - Z.of_nat (length st)) by (change (SP s2) with (SP s + 1); lia).
    specialize (IH st st' v s2 Hb Hr Hp N). rewrite P2 in IH.
    replace (PC s + Z.of_nat (S (length (code_of ops)))) with (PC s + 1 + Z.of_nat (length (code_of ops))) in * by lia.
    apply IH; clear IH; try lia.
    + intros i Hi. change (M s2) with (M s). specialize (Hst (S i) ltac:(lia)). cbn [nth] in Hst. rewrite <- Hst. f_equal. lia.
    + intros x Hx. apply Hm. exact Hx.
    + intros i Hi. specialize (Hcode (S i) ltac:(lia)). cbn [nth] in Hcode. rewrite <- Hcode. f_equal. lia.
Qed.

(** Any such program, placed at PC and disjoint from the stack area, refines the
    abstract stack: same accumulator, same stack contents, nothing else touched. *)
Theorem C21_stack : forall l h k a us h' room ops st v,
  live l h k -> boundary h -> shows h a -> instructions (count ops) h us h' ->
  play room ops [] (AC a) = Some (st, v) -> Z.of_nat room <= SP a ->
  let n := Z.of_nat (length (code_of ops)) in
  PC a + n <= 65535 -> (PC a + n <= SP a - Z.of_nat room \/ SP a <= PC a) ->
  (forall i, (i < length (code_of ops))%nat -> M a (PC a + Z.of_nat i) = nth i (code_of ops) 0) ->
  exists b, shows h' b /\ AC b = v /\ SP b = SP a - Z.of_nat (length st) /\
    (forall i, (i < length st)%nat -> M b (SP b + Z.of_nat i) = nth i st 0) /\
    (forall x, x < SP a - Z.of_nat room \/ SP a <= x -> M b x = M a x) /\
    PC b = PC a + n /\ FC b = FC a /\ FZ b = FZ a /\ Isa.B b = Isa.B a /\ C b = C a /\ D b = D a /\ E b = E a /\ log b = log a.
Proof.
  intros l h k a us h' room ops st v L Bd Sh I Hp Hr n Hn Hd Hc.
  pose proof (live_valid l h k a L Sh) as (_ & _ & _ & _ & _ & V6 & V7 & _).
  exists (steps (count ops) a). split; [apply (instructions_spec _ l h k a us h' L Bd Sh I)|].
  apply (play_ok (SP a) room (M a) ops [] st v a); auto; cbn [length]; try lia.
Qed.
(** Last in, first out: after pushing [bs] and popping [j] times the accumulator
    holds the [j]-th from the end and SP shows how many are left. *)
Lemma play_push : forall room bs st ac ops, (length st + length bs <= room)%nat ->
  play room (map Push bs ++ ops) st ac = play room ops (rev bs ++ st) (last bs ac).
Proof.
  intros room. induction bs as [|b bs IH]; intros st ac ops Hl; [reflexivity|]. cbn [map app play length] in *.
  replace (length st <? room)%nat with true by (symmetry; apply Nat.ltb_lt; lia). rewrite IH by (cbn [length]; lia). cbn [rev]. rewrite <- app_assoc. cbn [app].
  f_equal. destruct bs as [|b' bs]; [reflexivity|]. clear. revert b'. cbn [last]. induction bs as [|c bs IH]; intros b'; auto. cbn [last] in *. destruct bs; auto.
Qed.
Lemma play_pop : forall room j st ac, (S j <= length st)%nat -> play room (repeat Pop (S j)) st ac = Some (skipn (S j) st, nth j st 0).
Proof.
  intros room. induction j as [|j IH]; intros st ac Hl; destruct st as [|b st]; cbn [length] in Hl; try lia.
  - reflexivity.
  - change (repeat Pop (S (S j))) with (Pop :: repeat Pop (S j)). cbn [play]. rewrite IH by lia. reflexivity.
Qed.
Theorem C21_lifo : forall l h k a us h' bs j,
  live l h k -> boundary h -> shows h a -> (j < length bs)%nat ->
  let ops := map Push bs ++ repeat Pop (S j) in
  instructions (count ops) h us h' ->
  let n := Z.of_nat (length (code_of ops)) in let room := Z.of_nat (length bs) in
  room <= SP a -> PC a + n <= 65535 -> (PC a + n <= SP a - room \/ SP a <= PC a) ->
  (forall i, (i < length (code_of ops))%nat -> M a (PC a + Z.of_nat i) = nth i (code_of ops) 0) ->
  exists b, shows h' b /\ AC b = nth j (rev bs) 0 /\ SP b = SP a - room + Z.of_nat (S j) /\
    (forall x, x < SP a - room \/ SP a <= x -> M b x = M a x).
Proof.
  intros l h k a us h' bs j L Bd Sh Hj ops I n room Hr Hn Hd Hc.
  assert (P : play (length bs) ops [] (AC a) = Some (skipn (S j) (rev bs), nth j (rev bs) 0)).
  { unfold ops. rewrite play_push by (cbn; lia). rewrite app_nil_r. apply play_pop. rewrite rev_length. lia. }
  destruct (C21_stack l h k a us h' (length bs) ops _ _ L Bd Sh I P Hr Hn Hd Hc) as (b & S1 & S2 & S3 & _ & S5 & _).
  exists b. split; auto. split; auto. split; auto. rewrite S3, skipn_length, rev_length. unfold room. lia.
Qed.
(** The hypotheses can be met: any list of bytes, pushed from address 0. *)
Example C21_nonvacuous : forall bs j, (j < length bs)%nat -> (length bs <= 1000)%nat -> Forall (fun b => 0 <= b <= 255) bs ->
  exists l h a us h', let ops := map Push bs ++ repeat Pop (S j) in
    live l h true /\ boundary h /\ shows h a /\ instructions (count ops) h us h' /\
    SP a = 65535 /\ PC a = 0 /\
    forall i, (i < length (code_of ops))%nat -> M a (PC a + Z.of_nat i) = nth i (code_of ops) 0.
Proof.
  intros bs j Hj Hl Hb. set (ops := map Push bs ++ repeat Pop (S j)).
  assert (Hcb : Forall (fun b => 0 <= b <= 255) (code_of ops)).
  { unfold ops, code_of. rewrite flat_map_app. apply Forall_app. split.
    - clear -Hb. induction Hb as [|b bs Hb0 Hb IH]; [constructor|]. cbn [map flat_map app]. constructor; [lia|]. constructor; [exact Hb0|]. constructor; [lia|exact IH].
    - generalize (S j). clear. intros n. induction n as [|n IH]; [constructor|]. cbn [repeat flat_map app]. constructor; [lia|exact IH]. }
  set (a := mkArch 0 false false 0 0 0 0 0 65535 (fun i => nth (Z.to_nat i) (code_of ops) 0) []).
  destruct (every_state_reachable a) as (l & h & L & Bd & Sh). { repeat split; cbn; try lia.
    all: destruct (nth_in_or_default (Z.to_nat a0) (code_of ops) 0) as [Hi|Hd]; [|rewrite Hd; lia];
         apply (proj1 (Forall_forall _ _) Hcb) in Hi; lia. } { reflexivity. }
  destruct (instructions_exist (count ops) true l h true a ltac:(auto) L Bd Sh) as (h' & I).
  exists l, h, a, (repeat true (Z.to_nat (total_cycles (count ops) a))), h'. cbv zeta. fold ops. repeat split; try apply Bd; try apply L; try apply Sh; auto.
  intros i Hi. cbn [a M PC]. f_equal. lia.
Qed.

(** ** C51, per instruction: no notice unless PC or SP leaves its range *)
Lemma exec_log : forall i s, 0 <= PC s -> PC s + (ilen i - 1) <= 65535 -> 0 <= SP s <= 65535 -> 0 <= SP s + isp i <= 65535 -> log (exec_instr i s) = log s.
Proof.
  assert (W1 : forall k s, 0 <= PC s -> PC s + 1 <= 65535 -> (forall v t, log (k v t) = log t) -> log (with_imm k s) = log s).
  { intros k s H H1 Hk. unfold with_imm. rewrite Hk. apply pc_next_facts; lia. }
  assert (W2 : forall k s, 0 <= PC s -> PC s + 2 <= 65535 -> (forall v t, SP t = SP s -> log (k v t) = log t) -> log (with_dir k s) = log s).
  { intros k s H H1 Hk. rewrite with_dir_at by lia. rewrite Hk; reflexivity. }
  intros i s H H1 H2 H3. destruct i; cbn [ilen isp] in *; cbn [exec_instr];
    try (first [apply W2|apply W1]; try lia; intros; try reflexivity; try apply put_fields; try apply alu_fields; fail);
    try reflexivity; try apply put_fields.
  - destruct x; try apply alu_fields. apply W1; try lia. intros; apply alu_fields.
  - apply W2; try lia. intros v t _. destruct (FZ t); reflexivity.
  - apply W2; try lia. intros v t _. destruct (FC t); reflexivity.
  - apply push_facts; lia.
  - rewrite pop_at by lia. reflexivity.
  - apply W2; try lia. intros v t Ht. cbn [put_pc log]. destruct (push_facts (PC t / 256) t ltac:(lia)) as (P1 & _ & _ & _ & _ & P2).
    destruct (push_facts (PC t mod 256) (push (PC t / 256) t) ltac:(lia)) as (_ & _ & _ & _ & _ & P3). rewrite P3, P2; auto; lia.
  - rewrite pop_at by lia. rewrite pop_at by (cbn; lia). reflexivity.
  - rewrite pop_at by lia. rewrite pop_at by (cbn; lia). rewrite pop_at by (cbn [put_sp SP]; lia). reflexivity.
Qed.
Theorem C51_instruction_quiet : forall a h' b, executes a h' -> shows h' b ->
  PC a + len (opcode a) <= 65535 -> 0 <= SP a + sp_delta (opcode a) <= 65535 -> log b = log a.
Proof.
  intros a h' b X S Hl Hs. pose proof (executes_valid a h' X) as V. pose proof (opcode_range a V) as Ho.
  destruct V as (_ & _ & _ & _ & _ & V6 & V7 & _). destruct (classes _ Ho) as (C1 & _ & _ & _ & C5 & C6).
  destruct (shows_agree h' b (step a) S (executes_step a h' X)) as (_ & _ & _ & _ & _ & _ & _ & _ & _ & _ & E1).
  assert (1 <= len (opcode a)). { unfold len. destruct (_ && _); [lia|]. destruct (_ || _); lia. }
  rewrite E1. unfold step. fold (opcode a). destruct (pc_next_facts a V6) as (P1 & _ & _ & _ & P5 & _ & P7 & _). rewrite exec_log; try lia.
  - apply P7. lia.
  - rewrite P5. destruct (Z.eq_dec (opcode a) 0xC3) as [Ec|Nc]; [rewrite Ec; cbn [isp]; change (isp (decode 195)) with 0; lia|]. rewrite C5 by exact Nc. lia.
Qed.

(** ** C40 *)
(** The loop of "run instruction" always ends. *)
Theorem C40_ends : forall l h, live l h true -> exists h', run_instruction h h'.
Proof.
  intros l h L. destruct (completes l h true L) as (n & Hn & Hx). destruct (Hx (repeat true n) (repeat_length _ _)) as (h' & I); [discriminate|].
  destruct (live_up l h true L) as (_ & z & U). exists h'. exact (run_instruction_of n h h' z U I).
Qed.
(** It stops at the first state whose next microstate is the fetch, after at most nine clock cycles. *)
Theorem C40_completes : forall l h h', live l h true -> run_instruction h h' ->
  get_next_state h' = Some 0 /\ exists n, (1 <= n <= 9)%nat /\ instruction h (repeat true n) h'.
Proof.
  intros l h h' L R. destruct (run_instruction_inv h h' R) as (n & I). split; [apply I|]. exists n. split; auto.
  destruct (completes l h true L) as (m & Hm & Hx). destruct (Hx (repeat true m) (repeat_length _ _)) as (h2 & I2); [discriminate|].
  assert (E1 : repeat true n = repeat true m). { apply (instruction_length_unique h _ _ h' h2 I I2). intros u v Hu Hv. apply repeat_spec in Hu, Hv. congruence. }
  apply (f_equal (@length bool)) in E1. rewrite !repeat_length in E1. lia.
Qed.
(** Started between two instructions it executes one instruction. *)
Theorem C40_one_instruction : forall l h a h', live l h true -> boundary h -> shows h a -> run_instruction h h' ->
  executes a h' /\ shows h' (step a) /\ boundary h'.
Proof.
  intros l h a h' L Bd Sh R. destruct (run_instruction_inv h h' R) as (n & I).
  destruct (instruction_spec l h true a _ h' L Bd Sh I) as (_ & S1 & B1 & _). split; auto. exists l, h, true, (repeat true n). auto.
Qed.

(** ** C41 *)
(** The first FIN is reached after [n] instructions. *)
Definition first_fin (n : nat) (a : arch) : Prop := opcode (steps n a) = 255 /\ forall m, (m < n)%nat -> opcode (steps m a) <> 255.
Theorem C41_stops_after_fin : forall n u l h k a, (u = true -> k = true) -> live l h k -> boundary h -> shows h a -> first_fin n a ->
  exists h', run_program u false h h' /\ shows h' (steps (S n) a) /\ boundary h'.
Proof. intros n u l h k a Hu L Bd Sh (F1 & F2). exact (run_program_stops n u l h k a Hu L Bd Sh F1 F2). Qed.
Theorem C41_stops_only_after_fin : forall u l h k a h', (u = true -> k = true) -> live l h k -> boundary h -> shows h a ->
  run_program u false h h' -> exists n, first_fin n a /\ shows h' (steps (S n) a) /\ boundary h'.
Proof.
  intros u l h k a h' Hu L Bd Sh R. destruct (run_program_only u h h' l k a R Hu L Bd Sh) as (n & E1 & E2 & E3 & E4).
  exists n. split; [split; auto|auto].
Qed.
(** A program with 0xFF as an operand: MOV FF, AC; FIN.  The loop passes the operand and stops after FIN. *)
Example C41_nonvacuous : exists l h a, live l h true /\ boundary h /\ shows h a /\ M a (PC a + 1) = 255 /\ first_fin 1 a.
Proof.
  set (a := mkArch 0 false false 0 0 0 0 10 0 (fun i => if i =? 10 then 0x64 else 255) []).
  destruct (every_state_reachable a) as (l & h & L & Bd & S). { repeat split; cbn; try lia; destruct (_ =? _); lia. } { reflexivity. }
  exists l, h, a. split; auto. split; auto. split; auto. split; [reflexivity|]. split; [reflexivity|]. intros m Hm. assert (m = 0%nat) as -> by lia. discriminate.
Qed.

(** ** C54: every programmer-visible state can be reached through the exported functions *)
Theorem C54_every_state_reachable : forall a, valid a -> log a = [] -> exists l h, live l h true /\ boundary h /\ shows h a.
Proof. exact every_state_reachable. Qed.

Print Assumptions C19_pc_advances.
Print Assumptions C19_stays.
Print Assumptions C20_restore_refuted.
Print Assumptions C21_stack.
Print Assumptions C22_subroutine.
Print Assumptions C23_flags_frame.
Print Assumptions C24_memory_frame.
Print Assumptions C51_instruction_quiet.
Print Assumptions C40_completes.
Print Assumptions C41_stops_only_after_fin.
