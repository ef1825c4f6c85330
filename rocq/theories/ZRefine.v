(** * The component functions act as their integer versions *)
From Coq Require Import ZArith List Bool Lia.
From Coq Require Import ZifyBool ZifyNat.
From Verif Require Import Word WordFacts Prog Tables Components Machine ZMachine ZWord.
Import ListNotations.
Open Scope Z_scope.

(** ** Ranges *)
Definition tlo (t : topic) : Z := match t with T_DIR1 => -1 | _ => 0 end.
Definition thi (t : topic) : Z :=
  match t with
  | T_NONE => 0
  | T_DATA | T_ACO | T_OP2O | T_RIO => 255
  | T_DIR1 => 65536
  | T_DIR2 | T_PCO | T_SPO | T_HLO | T_FFFCO => 65535
  | T_SELREG | T_FLAGS | T_JNR1 | T_JNR2 | T_JNR3 | T_JNR4 => 3
  | T_JOINER => 1023
  | T_CONTROL => 2147483647
  | _ => 1
  end.
Definition rhi (r : regid) : Z :=
  match r with R_FC | R_FZ => 1 | R_PC | R_SP => 65535 | _ => 255 end.

Record rng (z : zs) : Prop := mkRng {
  rng_t : forall t, tlo t <= tv z t <= thi t;
  rng_r : forall r, 0 <= rv z r <= rhi r;
  rng_m : forall o, 0 <= o < 65536 -> 0 <= zm z o <= 255
}.

Record Rz (s : mstate) (z : zs) : Prop := mkRz {
  Rz_t : forall t, nx s t = int_to_word (tv z t);
  Rz_r : forall r, rg s r = int_to_word (rv z r);
  Rz_m : forall o, mm s o = zm z o;
  Rz_l : lg s = zl z
}.

Definition ok (p : prog) (f : zs -> zs) : Prop :=
  forall s z, Rz s z -> rng z -> exists s', exec p s = Some s' /\ Rz s' (f z) /\ rng (f z).

Lemma topic_eqb_eq : forall a b, topic_eqb a b = true <-> a = b.
Proof.
  intros. unfold topic_eqb. rewrite N.eqb_eq. split; [|intros ->; auto].
  destruct a, b; cbn; intro H; try reflexivity; discriminate H.
Qed.
Lemma regid_eqb_eq : forall a b, regid_eqb a b = true <-> a = b.
Proof.
  intros. unfold regid_eqb. rewrite N.eqb_eq. split; [|intros ->; auto].
  destruct a, b; cbn; intro H; try reflexivity; discriminate H.
Qed.
Lemma comp_eqb_eq : forall a b, comp_eqb a b = true <-> a = b.
Proof.
  intros. unfold comp_eqb. rewrite N.eqb_eq. split; [|intros ->; auto].
  destruct a, b; cbn; intro H; try reflexivity; discriminate H.
Qed.
Lemma busid_eqb_eq : forall a b, busid_eqb a b = true <-> a = b.
Proof.
  intros [c1 t1] [c2 t2]. unfold busid_eqb. cbn.
  rewrite andb_true_iff, comp_eqb_eq, topic_eqb_eq. split.
  - intros [-> ->]. auto.
  - intros E. injection E as -> ->. auto.
Qed.

(** ** Relation and ranges are preserved by the primitive updates *)
Lemma Rz_pub : forall n c r m l z t v,
  Rz (mkM n c r m l) z -> Rz (mkM (tset n t (int_to_word v)) c r m l) (P t v z).
Proof.
  intros. destruct H as [H1 H2 H3 H4]. split; cbn in *; auto.
  intros t'. unfold tset. destruct (topic_eqb t' t); auto.
Qed.
Lemma Rz_wr : forall n c r m l z t v,
  Rz (mkM n c r m l) z -> Rz (mkM n c (rset r t (int_to_word v)) m l) (W t v z).
Proof.
  intros. destruct H as [H1 H2 H3 H4]. split; cbn in *; auto.
  intros t'. unfold rset. destruct (regid_eqb t' t); auto.
Qed.
Lemma Rz_sm : forall n c r m l z o v,
  Rz (mkM n c r m l) z -> Rz (mkM n c r (mset m o v) l) (SM o v z).
Proof.
  intros. destruct H as [H1 H2 H3 H4]. split; cbn in *; auto.
  intros t'. unfold mset. destruct (t' =? o); auto.
Qed.
Lemma Rz_nt : forall n c r m l z e,
  Rz (mkM n c r m l) z -> Rz (mkM n c r m (e :: l)) (NT e z).
Proof. intros. destruct H as [H1 H2 H3 H4]. split; cbn in *; auto. f_equal; auto. Qed.
Lemma Rz_cv : forall n c c' r m l z, Rz (mkM n c r m l) z -> Rz (mkM n c' r m l) z.
Proof. intros. destruct H as [H1 H2 H3 H4]. split; cbn in *; auto. Qed.

Lemma rng_pub : forall z t v, rng z -> tlo t <= v <= thi t -> rng (P t v z).
Proof.
  intros. destruct H as [H1 H2 H3]. split; cbn in *; auto.
  intros t'. unfold tset. destruct (topic_eqb t' t) eqn:E; auto.
  apply topic_eqb_eq in E. subst. auto.
Qed.
Lemma rng_wr : forall z t v, rng z -> 0 <= v <= rhi t -> rng (W t v z).
Proof.
  intros. destruct H as [H1 H2 H3]. split; cbn in *; auto.
  intros t'. unfold rset. destruct (regid_eqb t' t) eqn:E; auto.
  apply regid_eqb_eq in E. subst. auto.
Qed.
Lemma rng_sm : forall z o v, rng z -> 0 <= v <= 255 -> rng (SM o v z).
Proof.
  intros. destruct H as [H1 H2 H3]. split; cbn in *; auto.
  intros o'. unfold mset. destruct (o' =? o) eqn:E; auto.
Qed.
Lemma rng_nt : forall z e, rng z -> rng (NT e z).
Proof. intros. destruct H as [H1 H2 H3]. split; cbn in *; auto. Qed.

Lemma exec_Call : forall p k s,
  exec (Call p k) s = match exec p s with Some s' => exec k s' | None => None end.
Proof.
  induction p; intros; cbn [Call exec]; auto.
  destruct (valid_offset o); auto.
Qed.

Lemma ok_Call : forall p k f g, ok p f -> ok k g -> ok (Call p k) (fun z => g (f z)).
Proof.
  intros p k f g Hp Hk s z HR Hr.
  destruct (Hp s z HR Hr) as (s1 & E1 & HR1 & Hr1).
  destruct (Hk s1 _ HR1 Hr1) as (s2 & E2 & HR2 & Hr2).
  exists s2. rewrite exec_Call, E1. auto.
Qed.
Lemma ok_Done : ok Done (fun z => z).
Proof. intros s z ? ?. exists s. auto. Qed.

Lemma rset_same : forall A (f : regid -> A) r v, rset f r v r = v.
Proof. intros. unfold rset. replace (regid_eqb r r) with true; auto. symmetry. apply regid_eqb_eq. auto. Qed.

Arguments int_to_word : simpl never.
Arguments word_to_int : simpl never.
Arguments bit : simpl never.
Arguments get_used_bits : simpl never.
Arguments ToInt : simpl never.
Arguments Int : simpl never.
Arguments lb : simpl never.
Arguments lb2 : simpl never.
Arguments lb3 : simpl never.
Arguments valid_offset : simpl never.
Arguments copy_bits : simpl never.
Arguments get_flags : simpl never.
Arguments setbit : simpl never.
Arguments zero_word : simpl never.


Lemma bit_ctl : forall z p, (p < 32)%nat -> bit (int_to_word (tv z T_CONTROL)) p = ctl z p.
Proof. intros. apply bit_int_to_word. auto. Qed.

(** symbolic execution *)
Ltac go := cbn [exec nx cv rg mm lg topic_of comp_of tset rset bset busid_eqb comp_eqb topic_eqb
   regid_eqb regid_num comp_num topic_num N.eqb Pos.eqb andb rv tv zm zl P W SM NT bit_length].
Ltac start :=
  let n := fresh "n" in let HR := fresh "HR" in
  let Hr := fresh "Hr" in let c := fresh "c" in let r := fresh "r" in
  let m := fresh "m" in let l := fresh "l" in let z := fresh "z" in
  intros [n c r m l] z HR Hr;
  let Ht := fresh "Ht" in let Hg := fresh "Hg" in let Bt := fresh "Bt" in let Bg := fresh "Bg" in
  pose proof (Rz_t _ _ HR) as Ht; pose proof (Rz_r _ _ HR) as Hg;
  pose proof (rng_t _ Hr) as Bt; pose proof (rng_r _ Hr) as Bg;
  cbn [nx cv rg mm lg] in Ht, Hg.
Ltac bits := repeat (rewrite bit_ctl by (unfold EOI, INTAIN, SPCAR, PCLCAR, PCHCAR, LCAR, HCAR,
  FLCAR, SELFL, OP2CAR, ACCAR, REGCAR, PCCAR, RICAR, PCLBUS, PCHBUS, ALUBUS, ACBUS, FLBUS,
  MEMBUS, REGBUS, LE, ID_0, ID_1, SELDIR_0, SELDIR_1, MXREG_0, MXREG_1, SELALU_0,
  SELALU_1, SELALU_2; lia)).
Ltac rwH := repeat match goal with
  | H : forall t : topic, _ t = int_to_word (tv _ t) |- _ => rewrite !H
  | H : forall t : regid, _ t = int_to_word (rv _ t) |- _ => rewrite !H end.
Lemma Call_ToInt : forall w f k, Call (ToInt w f) k = ToInt w (fun v => Call (f v) k).
Proof. intros. unfold ToInt. destruct (word_to_int w); auto. Qed.
Ltac norm := repeat progress (go; rwH; rewrite ?ToInt_lb, ?ToInt_lb2, ?ToInt_lb3; bits); go.
Ltac tb t := let H := fresh "Bd" in
  match goal with B : forall t, tlo t <= tv _ t <= thi t |- _ => pose proof (B t) as H end; cbn [tlo thi] in H.
Ltac rb r := let H := fresh "Bd" in
  match goal with B : forall r, 0 <= rv _ r <= rhi r |- _ => pose proof (B r) as H end; cbn [rhi] in H.
Ltac close :=
  eexists; split; [reflexivity|]; split;
  [ repeat first [apply Rz_pub | apply Rz_wr | apply Rz_sm | apply Rz_nt];
    eapply Rz_cv; eassumption
  | repeat first [apply rng_pub | apply rng_wr | apply rng_sm | apply rng_nt];
    first [assumption | lia | cbn [tlo thi rhi]; try lia ] ].
Ltac i2w := rewrite ToInt_i2w by (unfold INT_MAX; lia).

Lemma fold_ctl2 : forall z p q, Z.b2z (ctl z p) + 2 * Z.b2z (ctl z q) = ctl2 z p q.
Proof. intros. unfold ctl2. destruct (ctl z p), (ctl z q); reflexivity. Qed.
Lemma fold_ctl3 : forall z p q r,
  Z.b2z (ctl z p) + 2 * Z.b2z (ctl z q) + 4 * Z.b2z (ctl z r) = ctl3 z p q r.
Proof. intros. unfold ctl3. destruct (ctl z p), (ctl z q), (ctl z r); reflexivity. Qed.

Lemma ok_acumm : ok run_acumm z_acumm.
Proof.
  start. tb T_DATA. rb R_AC. unfold run_acumm, z_acumm. norm.
  destruct (ctl z ACCAR); norm.
  - rewrite used_bits_fits by lia. replace (fits 8 (tv z T_DATA)) with true by (unfold fits; lia).
    cbn [negb]. destruct (ctl z ACBUS); norm; close.
  - destruct (ctl z ACBUS); norm; close.
Qed.

Lemma ok_addsub : ok run_addsub z_addsub.
Proof.
  start. tb T_DIR2. unfold run_addsub, z_addsub. norm. i2w. norm.
  destruct (ctl z ID_1), (ctl z ID_0); cbn [Z.b2z]; cbn -[int_to_word Int exec ToInt]; go;
    rewrite ?Int_ok by (unfold INT_MIN, INT_MAX; lia); close.
Qed.

Lemma byte_of_bits : forall x, (forall i, 8 <= i -> Z.testbit x i = false) -> 0 <= x < 256.
Proof.
  intros. assert (x = x mod 2 ^ 8) as ->.
  { apply Z.bits_inj'. intros i Hi. destruct (Z.ltb_spec i 8).
    - rewrite Z.mod_pow2_bits_low by lia. reflexivity.
    - rewrite Z.mod_pow2_bits_high by lia. apply H. lia. }
  apply Z.mod_pos_bound. reflexivity.
Qed.
Lemma bitop_bounds : forall a b, 0 <= a <= 255 -> 0 <= b <= 255 ->
  0 <= Z.land a b < 256 /\ 0 <= Z.lor a b < 256 /\ 0 <= Z.lxor a b < 256.
Proof.
  intros. repeat apply conj; apply byte_of_bits; intros;
  rewrite ?Z.land_spec, ?Z.lor_spec, ?Z.lxor_spec;
  rewrite (testbit_small a 8), (testbit_small b 8) by lia; reflexivity.
Qed.

Lemma alu_op_bound : forall sel a b, 0 <= a <= 255 -> 0 <= b <= 255 ->
  -256 <= fst (alu_op sel a b) <= 510.
Proof.
  intros. pose proof (bitop_bounds a b H H0). pose proof (Z.lnot_spec a).
  unfold alu_op, Z.lnot.
  repeat match goal with |- context [if ?b then _ else _] => destruct b end; cbn [fst]; lia.
Qed.

Lemma ok_alu : ok run_alu z_alu.
Proof.
  start. tb T_ACO. tb T_OP2O. unfold run_alu, z_alu, isz, dbit. norm. i2w. norm. i2w.
  rewrite fold_ctl3.
  pose proof (alu_op_bound (ctl3 z SELALU_0 SELALU_1 SELALU_2) (tv z T_ACO) (tv z T_OP2O)
    ltac:(lia) ltac:(lia)) as Hb.
  destruct (alu_op _ _ _) as [res working]. cbn [fst snd] in *.
  rewrite Int_ok by (unfold INT_MIN, INT_MAX; lia).
  rewrite used_bits_fits by (change (2 ^ 31) with 2147483648; lia).
  assert (0 <= res mod 256 < 256) by (apply Z.mod_pos_bound; lia).
  assert (fits 8 res = true -> res = res mod 256).
  { unfold fits. intros. symmetry. apply Z.mod_small. change (2 ^ 8) with 256 in *. lia. }
  destruct (fits 8 res) eqn:E; cbn [negb andb]; go.
  - rewrite <- H0 in * by auto. norm. rewrite ?ToInt_lb; bits.
    destruct (ctl z ALUBUS); cbn [Z.b2z Z.eqb Pos.eqb]; go; close; destruct (res =? 0); cbn; lia.
  - rewrite clear_high_i2w. i2w. norm.
    destruct (ctl z ALUBUS); cbn [Z.b2z Z.eqb Pos.eqb]; go; close;
     destruct (res mod 256 =? 0), working; cbn; lia.
Qed.

Lemma ok_fffc : ok run_fffc z_fffc.
Proof. start. unfold run_fffc, z_fffc. norm. close. Qed.

Lemma get_flags_int : forall fc fz, 0 <= fc <= 1 -> 0 <= fz <= 1 ->
  get_flags (int_to_word fc) (int_to_word fz) = int_to_word (fz + 2 * fc).
Proof.
  intros. assert (fc = 0 \/ fc = 1) as [-> | ->] by lia;
  assert (fz = 0 \/ fz = 1) as [-> | ->] by lia; reflexivity.
Qed.

Lemma ok_flags : ok run_flags z_flags.
Proof.
  start. tb T_MX7. tb T_MX0. rb R_FC. rb R_FZ. unfold run_flags, z_flags. norm.
  destruct (ctl z FLCAR); cbn [Z.b2z Z.eqb Pos.eqb]; norm;
    rewrite get_flags_int by lia; close.
Qed.

Lemma ok_greg : ok run_greg z_greg.
Proof.
  start. tb T_SELREG. tb T_DATA. unfold run_greg, z_greg. norm. i2w.
  assert (get_gregister (tv z T_SELREG) = Some (gr (tv z T_SELREG))) as ->.
  { unfold get_gregister, gr.
    repeat match goal with |- context [?a =? ?b] => destruct (Z.eqb_spec a b); try reflexivity end. lia. }
  rb (gr (tv z T_SELREG)).
  assert (rhi (gr (tv z T_SELREG)) = 255 /\ bit_length (gr (tv z T_SELREG)) = 8) as [Hh Hb].
  { unfold gr. repeat match goal with |- context [if ?b then _ else _] => destruct b end; auto. }
  norm. rewrite Hb.
  destruct (ctl z REGCAR), (ctl z REGBUS); cbn [Z.b2z Z.eqb Pos.eqb]; norm;
  rewrite ?used_bits_fits by lia; try (replace (fits 8 (tv z T_DATA)) with true by (unfold fits; lia));
  cbn [negb]; norm; rewrite ?ToInt_lb; bits; cbn [Z.b2z Z.eqb Pos.eqb]; go;
  rewrite ?rset_same; close.
Qed.

Lemma ok_hl : ok run_hl z_hl.
Proof.
  start. tb T_DATA. rb R_H. rb R_L. unfold run_hl, z_hl. norm.
  destruct (ctl z HCAR), (ctl z LCAR); cbn [Z.b2z Z.eqb Pos.eqb]; norm; rewrite ?ToInt_lb; bits;
  cbn [Z.b2z Z.eqb Pos.eqb]; norm; rewrite copy_hl by lia; close.
Qed.

Lemma ok_mem : ok run_mem z_mem.
Proof.
  start. tb T_DIR2. tb T_DATA. unfold run_mem, z_mem. norm. i2w. norm.
  assert (valid_offset (tv z T_DIR2) = true) as Hv
    by (unfold valid_offset, mem_size; lia).
  pose proof (rng_m _ Hr (tv z T_DIR2) ltac:(lia)) as Bm.
  pose proof (Rz_m _ _ HR (tv z T_DIR2)) as Hm. cbn [mm] in Hm.
  destruct (ctl z LE); cbn [Z.b2z Z.eqb Pos.eqb]; norm.
  - rewrite Hv. norm. rewrite Hm.
    destruct (ctl z MEMBUS); cbn [Z.b2z Z.eqb Pos.eqb]; norm; close.
  - i2w. replace (is_mem_value_valid (tv z T_DATA)) with true by (unfold is_mem_value_valid; lia).
    rewrite Hv. norm. rewrite Hv. close.
Qed.

Lemma ok_mxdir : ok run_mxdir z_mxdir.
Proof.
  start. tb T_PCO. tb T_SPO. tb T_HLO. tb T_FFFCO. unfold run_mxdir, z_mxdir.
  norm. i2w. norm. i2w. norm. i2w. norm. i2w. norm.
  rewrite fold_ctl2.
  assert (0 <= run_4x1_mx (ctl2 z SELDIR_0 SELDIR_1) (tv z T_PCO) (tv z T_SPO) (tv z T_HLO) (tv z T_FFFCO)
    <= 65535).
  { unfold ctl2. destruct (ctl z SELDIR_0), (ctl z SELDIR_1); cbn; lia. }
  destruct (Z.eqb_spec (run_4x1_mx (ctl2 z SELDIR_0 SELDIR_1) (tv z T_PCO) (tv z T_SPO) (tv z T_HLO) (tv z T_FFFCO)) (-1)); [lia|].
  norm. close.
Qed.

Lemma ok_mxfldx : ok cll_run_mxfldx z_mxfldx.
Proof.
  start. tb T_DATA. tb T_ALUFC. tb T_ALUFZ.
  unfold cll_run_mxfldx, z_mxfldx, isz, dbit, run_mxfld7, run_mxfld0. cbn [Call].
  do 8 (norm; rewrite ?Call_ToInt; cbn [Call]; norm;
    rewrite ?bit_int_to_word by lia; rewrite ?ToInt_i2w by (unfold INT_MAX; lia); cbn [Call]).
  unfold run_2x1_mx.
  destruct (ctl z SELFL); cbn [Z.b2z Z.eqb Pos.eqb]; change (Z.of_nat 7) with 7; change (Z.of_nat 0) with 0; close.
  all: match goal with |- context [Z.b2z ?b] => destruct b end; cbn; lia.
Qed.

Lemma ok_mxreg : ok run_mxreg z_mxreg.
Proof.
  start. tb T_JNR1. tb T_JNR2. unfold run_mxreg, z_mxreg. norm. i2w. norm. i2w.
  rewrite fold_ctl2.
  assert (0 <= run_4x1_mx (ctl2 z MXREG_0 MXREG_1) (tv z T_JNR1) (tv z T_JNR2) 2 3 <= 3).
  { unfold ctl2. destruct (ctl z MXREG_0), (ctl z MXREG_1); cbn; lia. }
  norm. close.
Qed.

Lemma ok_op2 : ok run_op2 z_op2.
Proof.
  start. tb T_DATA. rb R_2OP. unfold run_op2, z_op2. norm.
  destruct (ctl z OP2CAR); cbn [Z.b2z Z.eqb Pos.eqb]; norm; close.
Qed.

Lemma ok_sp : ok run_sp z_sp.
Proof.
  start. tb T_DIR1. rb R_SP. unfold run_sp, z_sp, z_sp_f. norm.
  destruct (ctl z SPCAR); cbn [Z.b2z Z.eqb Pos.eqb]; norm.
  - rewrite used_bits_fits by (change (2 ^ 31) with 2147483648; lia).
    destruct (fits 16 (tv z T_DIR1)) eqn:E; cbn [negb]; norm;
    unfold fits in E; change (2 ^ 16) with 65536 in E; close.
  - close.
Qed.

