(** * Theorems: each component alone does its job and touches nothing else (C101) *)
From Coq Require Import ZArith List Bool Lia ZifyBool.
From Verif Require Import Word WordFacts Prog Tables Components Machine ZMachine ZWord ZRefine ZRefineC Alone.
Import ListNotations.
Open Scope Z_scope.

Ltac tick := cbn [exec nx cv rg mm lg topic_of]; repeat match goal with |- context [bset ?f ?a ?v (B ?c ?t)] =>
  let e := eval cbv in (busid_eqb (B c t) a) in
  match e with true => change (bset f a v (B c t)) with v | false => change (bset f a v (B c t)) with (f (B c t)) end end; cbn [exec nx cv rg mm lg topic_of].
Ltac other := let x := fresh "x" in let Hx := fresh "Hx" in intros x Hx; cbn [nx rg mm]; unfold tset, rset, mset;
  repeat match goal with |- context [if ?c then _ else _] => let E := fresh in destruct c eqn:E;
    [exfalso; apply Hx; first [apply topic_eqb_eq in E | apply regid_eqb_eq in E | apply Z.eqb_eq in E]; subst x; cbn [In]; tauto|] end; reflexivity.
Ltac frame := unfold nothing, only; repeat split; try solve [other]; try reflexivity.


Lemma up_nth : forall s k, nth k (nx s T_CONTROL) false = up s k.
Proof. reflexivity. Qed.

Ltac known H := unfold carries, holds in H; rewrite ?H.
Ltac sels := repeat match goal with |- context [bit (nx ?s T_CONTROL) ?k] => change (bit (nx s T_CONTROL) k) with (up s k) end.
Ltac steps := repeat (tick; rewrite ?ToInt_lb, ?ToInt_lb2, ?ToInt_lb3; sels).

Theorem C101_alu : forall s a b, byte a -> byte b -> carries s T_ACO a -> carries s T_OP2O b ->
  exists s', exec run_alu s = Some s' /\ only [T_ALUFC; T_ALUFZ; T_DATA] [] [] [] s s' /\
  (let (r, c) := operation (selected s) a b in
   carries s' T_ALUFC (if c then 1 else 0) /\ carries s' T_ALUFZ (if r =? 0 then 1 else 0) /\
   if up s ALUBUS then carries s' T_DATA r else nx s' T_DATA = nx s T_DATA).
Proof.
  intros s a b Ha Hb Ca Cb. unfold byte, carries in *. unfold run_alu. steps.
  rewrite Ca. rewrite ToInt_i2w by (unfold INT_MAX; lia). tick.
  rewrite Cb. rewrite ToInt_i2w by (unfold INT_MAX; lia). unfold selected.
  set (n := num2 _ _ + _).
  replace (Z.b2z (up s SELALU_0) + 2 * Z.b2z (up s SELALU_1) + 4 * Z.b2z (up s SELALU_2)) with n by reflexivity.
  assert (Hn : 0 <= n <= 7) by (subst n; unfold num2; destruct (up s SELALU_0), (up s SELALU_1), (up s SELALU_2); cbn; lia).
  clearbody n.
  pose proof (bitop_bounds a b Ha Hb) as (B1 & B2 & B3).
  assert (P : exists res w, alu_op n a b = (res, w) /\ - 256 <= res <= 510 /\
     operation n a b = (res mod 256, w && negb ((0 <=? res) && (res <=? 255)))).
  { assert (n = 0 \/ n = 1 \/ n = 2 \/ n = 3 \/ n = 4 \/ n = 5 \/ n = 6 \/ n = 7) as C by lia.
    destruct C as [->|[->|[->|[->|[->|[->|[->| ->]]]]]]]; cbn [alu_op operation Z.eqb Pos.eqb]; eexists _, _; (split; [reflexivity|]); cbn [andb]; (split; [unfold Z.lnot; lia|]); f_equal; try lia; try (rewrite Z.mod_small; lia).
    unfold Z.lnot. apply (Z.mod_unique _ _ (-1)); lia. }
  destruct P as (res & w & -> & Hr & ->). unfold Int.
  replace (in_int res) with true by (unfold in_int, INT_MIN, INT_MAX; lia).
  rewrite used_bits_fits by lia. unfold fits. change (2 ^ 8) with 256.
  replace ((0 <=? res) && (res <=? 255)) with ((0 <=? res) && (res <? 256)) by lia.
  destruct ((0 <=? res) && (res <? 256)) eqn:E; cbn [negb].
  - rewrite (Z.mod_small res) by lia. steps.
    destruct (up s ALUBUS); cbn [Z.b2z Z.eqb Pos.eqb]; tick; eexists; (split; [reflexivity|]); (split; [frame|]); destruct w, (res =? 0); cbn; repeat split; reflexivity.
  - rewrite clear_high_i2w. assert (0 <= res mod 256 < 256) by (apply Z.mod_pos_bound; lia).
    rewrite ToInt_i2w by (unfold INT_MAX; lia). steps.
    destruct (up s ALUBUS); cbn [Z.b2z Z.eqb Pos.eqb]; tick; eexists; (split; [reflexivity|]); (split; [frame|]); destruct w, (res mod 256 =? 0); cbn; repeat split; reflexivity.
Qed.

Ltac fin := eexists; (split; [reflexivity|]); repeat split; try solve [other]; try reflexivity; try assumption.
Ltac is_closed b := match b with R_AC => idtac | R_FC => idtac | R_FZ => idtac | R_B => idtac | R_C => idtac | R_D => idtac | R_E => idtac | R_H => idtac | R_L => idtac | R_2OP => idtac | R_PCH => idtac | R_PCL => idtac | R_PC => idtac | R_SP => idtac | R_RI => idtac end.
Ltac regs := cbn [exec nx cv rg mm lg topic_of]; repeat match goal with |- context [rset ?f ?a ?v ?b] => is_closed b;
  let e := eval cbv in (regid_eqb b a) in
  match e with true => change (rset f a v b) with v | false => change (rset f a v b) with (f b) end end; cbn [exec nx cv rg mm lg topic_of].

Ltac tops := cbn [nx]; repeat match goal with |- context [tset ?f ?a ?v ?b] =>
  let e := eval cbv in (topic_eqb b a) in
  match e with true => change (tset f a v b) with v | false => change (tset f a v b) with (f b) end end.

Theorem C101_addsub : forall s v, address v -> carries s T_DIR2 v ->
  exists s', exec run_addsub s = Some s' /\ only [T_DIR1] [] [] [] s s' /\
  carries s' T_DIR1 (if up s ID_1 then if up s ID_0 then v - 1 else v + 1 else v).
Proof.
  intros s v Hv Cv. unfold address, carries in *. unfold run_addsub. steps. rewrite Cv, ToInt_i2w by (unfold INT_MAX; lia). steps.
  destruct (up s ID_0), (up s ID_1); cbn [Z.b2z Z.mul Z.add Pos.mul Pos.add Z.eqb Pos.eqb]; unfold Int;
    try replace (in_int (v - 1)) with true by (unfold in_int, INT_MIN, INT_MAX; lia);
    try replace (in_int (v + 1)) with true by (unfold in_int, INT_MIN, INT_MAX; lia); steps; fin.
Qed.

Lemma wide : forall d n, 0 <= n < 31 -> 0 <= d <= INT_MAX -> (get_used_bits (int_to_word d) >? n) = (2 ^ n - 1 <? d).
Proof.
  intros d n Hn Hd. unfold INT_MAX in Hd. rewrite used_bits_fits by lia. unfold fits.
  assert (0 < 2 ^ n) by lia. lia.
Qed.

Theorem C101_acumm : forall s d a, 0 <= d <= INT_MAX -> carries s T_DATA d -> holds s R_AC a ->
  exists s', exec run_acumm s = Some s' /\
  if up s ACCAR && (255 <? d) then nothing [E_ACUMM] s s' else
  let v := if up s ACCAR then d else a in
  only [T_ACO; T_DATA] [R_AC] [] [] s s' /\ holds s' R_AC v /\ carries s' T_ACO v /\
  if up s ACBUS then carries s' T_DATA v else nx s' T_DATA = nx s T_DATA.
Proof.
  intros s d a Hd Cd Ha. unfold carries, holds in *. unfold run_acumm. steps.
  destruct (up s ACCAR); cbn [andb]; steps.
  - rewrite Cd, (wide d (bit_length R_AC)) by (cbn; lia). change (2 ^ bit_length R_AC - 1) with 255.
    destruct (255 <? d); [steps; fin|destruct (up s ACBUS); steps; regs; fin].
  - destruct (up s ACBUS); steps; regs; fin.
Qed.

Theorem C101_op2 : forall s d o, carries s T_DATA d -> holds s R_2OP o ->
  exists s', exec run_op2 s = Some s' /\ let v := if up s OP2CAR then d else o in
  only [T_OP2O] [R_2OP] [] [] s s' /\ holds s' R_2OP v /\ carries s' T_OP2O v.
Proof.
  intros s d o Cd Ho. unfold carries, holds in *. unfold run_op2. steps.
  destruct (up s OP2CAR); cbn [Z.b2z Z.eqb Pos.eqb]; steps; rewrite ?Cd; regs; fin.
Qed.

Theorem C101_hl : forall s d h l, byte d -> byte h -> byte l -> carries s T_DATA d -> holds s R_H h -> holds s R_L l ->
  exists s', exec run_hl s = Some s' /\
  let h' := if up s HCAR then d else h in let l' := if up s LCAR then d else l in
  only [T_HLO] [R_H; R_L] [] [] s s' /\ holds s' R_H h' /\ holds s' R_L l' /\ carries s' T_HLO (256 * h' + l').
Proof.
  intros s d h l Bd Bh Bl Cd Hh Hl. unfold carries, holds, byte in *. unfold run_hl. steps.
  destruct (up s HCAR), (up s LCAR); cbn [Z.b2z Z.eqb Pos.eqb]; steps; cbn [Z.eqb Pos.eqb]; rewrite ?Cd; regs;
  (eexists; (split; [reflexivity|]); cbn zeta; repeat split; try solve [other]; try reflexivity; try assumption);
  cbn [nx]; unfold tset; cbv [topic_eqb topic_num N.eqb Pos.eqb]; regs; rewrite ?Hh, ?Hl; rewrite copy_hl by lia; f_equal; lia.
Qed.

Theorem C101_sp : forall s x p, 0 <= x <= INT_MAX -> carries s T_DIR1 x -> holds s R_SP p ->
  exists s', exec run_sp s = Some s' /\
  if up s SPCAR && (65535 <? x) then nothing [E_SP] s s' else
  let v := if up s SPCAR then x else p in
  only [T_SPO] [R_SP] [] [] s s' /\ holds s' R_SP v /\ carries s' T_SPO v.
Proof.
  intros s x p Bx Cx Hp. unfold carries, holds in *. unfold run_sp. steps.
  destruct (up s SPCAR); cbn [Z.b2z Z.eqb Pos.eqb andb]; steps; [|regs; fin].
  rewrite Cx, (wide x (bit_length R_SP)) by (cbn; lia). change (2 ^ bit_length R_SP - 1) with 65535.
  destruct (65535 <? x); steps; regs; fin.
Qed.

Theorem C101_greg : forall s n d r, 0 <= n <= INT_MAX -> 0 <= d <= INT_MAX -> carries s T_SELREG n -> carries s T_DATA d -> holds s (bank n) r ->
  exists s', exec run_greg s = Some s' /\
  if 3 <? n then nothing [E_NOREG] s s' else
  if up s REGCAR && (255 <? d) then nothing [E_GREG] s s' else
  let v := if up s REGCAR then d else r in
  only [T_DATA] [bank n] [] [] s s' /\ holds s' (bank n) v /\
  if up s REGBUS then carries s' T_DATA v else nx s' T_DATA = nx s T_DATA.
Proof.
  intros s n d r Bn Bd Cn Cd Hr. unfold carries, holds in *. unfold run_greg. steps. rewrite Cn, ToInt_i2w by lia.
  destruct (Z_le_gt_dec n 3) as [L|L].
  - replace (3 <? n) with false by lia.
    assert (n = 0 \/ n = 1 \/ n = 2 \/ n = 3) as [->|[->|[->| ->]]] by lia; cbn [get_gregister Z.eqb Pos.eqb bank] in *; steps;
    destruct (up s REGCAR); cbn [Z.b2z Z.eqb Pos.eqb andb]; steps;
    try match goal with |- context [bit_length ?x] => rewrite Cd, (wide d (bit_length x)) by (cbn; lia); change (2 ^ bit_length x - 1) with 255; destruct (255 <? d) end; steps; try solve [fin]; destruct (up s REGBUS); cbn [Z.b2z Z.eqb Pos.eqb]; steps; regs; fin.
  - replace (3 <? n) with true by lia. unfold get_gregister.
    replace (n =? 0) with false by lia. replace (n =? 1) with false by lia. replace (n =? 2) with false by lia. replace (n =? 3) with false by lia.
    steps. fin.
Qed.

Theorem C101_pc : forall s d x p h l, byte d -> address x -> address p -> byte h -> byte l ->
  carries s T_DATA d -> carries s T_DIR1 x -> holds s R_PC p -> holds s R_PCH h -> holds s R_PCL l ->
  exists s', exec run_pc s = Some s' /\
  let high := if up s PCHCAR then d else p / 256 in let low := if up s PCLCAR then d else p mod 256 in
  let p' := if up s PCCAR then x else 256 * high + low in
  only [T_PCO; T_DATA] [R_PC; R_PCH; R_PCL] [] [] s s' /\ holds s' R_PC p' /\ carries s' T_PCO p' /\
  holds s' R_PCH (if up s PCCAR then x / 256 else if up s PCHCAR then d else h) /\
  holds s' R_PCL (if up s PCCAR then x mod 256 else if up s PCLCAR then d else l) /\
  (if up s PCLBUS && negb (up s PCLCAR) then carries s' T_DATA l else
   if up s PCHBUS && negb (up s PCHCAR) then carries s' T_DATA h else nx s' T_DATA = nx s T_DATA).
Proof.
  intros s d x p h l Bd Bx Bp Bh Bl Cd Cx Hp Hh Hl. unfold carries, holds, byte, address in *. unfold run_pc. steps.
  assert (H256 : 0 <= p / 256 < 256) by (split; [apply Z.div_pos; lia|apply Z.div_lt_upper_bound; lia]).
  assert (M256 : 0 <= p mod 256 < 256) by (apply Z.mod_pos_bound; lia).
  assert (Wd : (get_used_bits (int_to_word d) >? 8) = false) by (rewrite wide by (unfold INT_MAX; lia); lia).
  assert (Wx : (get_used_bits (int_to_word x) >? 16) = false) by (rewrite wide by (unfold INT_MAX; lia); lia).
  change (bit_length R_PC) with 16. change (bit_length R_PCH) with 8. change (bit_length R_PCL) with 8.
  destruct (up s PCHCAR), (up s PCLCAR), (up s PCCAR), (up s PCHBUS), (up s PCLBUS); cbn [Z.b2z Z.eqb Pos.eqb andb negb];
  repeat (progress (tick; regs; rewrite ?Cd, ?Cx, ?Wd, ?Wx, ?Hp, ?Hh, ?Hl;
    try rewrite copy_high by lia; try rewrite copy_low by lia; try rewrite copy_down by lia));
  (eexists; (split; [reflexivity|]); (split; [frame|]));
  cbn [nx rg]; tops; regs; rewrite ?Hp, ?Hh, ?Hl, ?Cd;
  repeat split; try reflexivity; f_equal; try solve [lia | Z.div_mod_to_equations; lia].
Qed.

Theorem C101_pc_wide : forall s x, 65535 < x <= INT_MAX -> carries s T_DIR1 x ->
  up s PCCAR = true -> up s PCHCAR = false -> up s PCLCAR = false -> up s PCHBUS = false -> up s PCLBUS = false ->
  exists s', exec run_pc s = Some s' /\ nothing [E_PC] s s'.
Proof.
  intros s x Bx Cx U1 U2 U3 U4 U5. unfold carries in *. unfold run_pc. steps. rewrite U1, U2, U3, U4, U5. cbn [Z.b2z Z.eqb Pos.eqb]. tick.
  rewrite Cx, wide by (cbn; lia). change (2 ^ bit_length R_PC - 1) with 65535. replace (65535 <? x) with true by lia. tick. fin.
Qed.

Theorem C101_mem : forall s a d, 0 <= a <= INT_MAX -> 0 <= d <= INT_MAX -> carries s T_DIR2 a -> carries s T_DATA d ->
  exists s', exec run_mem s = Some s' /\
  if up s LE then
    if 65535 <? a then nothing [E_MEMGET] s s' else
    if up s MEMBUS then only [T_DATA] [] [] [] s s' /\ carries s' T_DATA (mm s a) else nothing [] s s'
  else
    if (65535 <? a) || (255 <? d) then nothing [E_MEMSET] s s' else only [] [] [a] [] s s' /\ mm s' a = d.
Proof.
  intros s a d Ba Bd Ca Cd. unfold carries in *. unfold run_mem. steps. rewrite Ca, ToInt_i2w by lia. steps.
  unfold is_mem_value_valid, valid_offset, mem_size.
  destruct (up s LE); cbn [Z.b2z Z.eqb Pos.eqb]; tick; unfold valid_offset, mem_size.
  - destruct (65535 <? a) eqn:E.
    + replace (negb ((a <? 0) || (a >=? 65536))) with false by lia. tick. fin.
    + replace (negb ((a <? 0) || (a >=? 65536))) with true by lia. tick. rewrite ToInt_lb. sels.
      destruct (up s MEMBUS); cbn [Z.b2z Z.eqb Pos.eqb]; tick; fin.
  - rewrite Cd, ToInt_i2w by lia. destruct ((65535 <? a) || (255 <? d)) eqn:E.
    + replace (negb ((d <? 0) || (d >? 255)) && negb ((a <? 0) || (a >=? 65536))) with false by lia. tick. fin.
    + replace (negb ((d <? 0) || (d >? 255)) && negb ((a <? 0) || (a >=? 65536))) with true by lia. tick.
      unfold valid_offset, mem_size. replace (negb ((a <? 0) || (a >=? 65536))) with true by lia. fin.
      cbn [mm]. unfold mset. rewrite Z.eqb_refl. reflexivity.
Qed.

Theorem C101_mxdir : forall s pc sp hl fffc, address pc -> address sp -> address hl -> address fffc ->
  carries s T_PCO pc -> carries s T_SPO sp -> carries s T_HLO hl -> carries s T_FFFCO fffc ->
  exists s', exec run_mxdir s = Some s' /\ only [T_DIR2] [] [] [] s s' /\
  carries s' T_DIR2 (match up s SELDIR_1, up s SELDIR_0 with false, false => pc | false, true => sp | true, false => hl | true, true => fffc end).
Proof.
  intros s pc sp hl f B1 B2 B3 B4 C1 C2 C3 C4. unfold carries, address in *. unfold run_mxdir. steps.
  rewrite C1, ToInt_i2w by (unfold INT_MAX; lia). tick. rewrite C2, ToInt_i2w by (unfold INT_MAX; lia). tick.
  rewrite C3, ToInt_i2w by (unfold INT_MAX; lia). tick. rewrite C4, ToInt_i2w by (unfold INT_MAX; lia).
  destruct (up s SELDIR_0), (up s SELDIR_1); cbn [Z.b2z Z.mul Z.add Pos.mul Pos.add]; unfold run_4x1_mx; cbn [Z.eqb Pos.eqb];
  match goal with |- context [?v =? -1] => replace (v =? -1) with false by lia end; tick; fin.
Qed.

Theorem C101_mxreg : forall s x y, address x -> address y -> carries s T_JNR1 x -> carries s T_JNR2 y ->
  exists s', exec run_mxreg s = Some s' /\ only [T_SELREG] [] [] [] s s' /\
  carries s' T_SELREG (match up s MXREG_1, up s MXREG_0 with false, false => x | false, true => y | true, false => 2 | true, true => 3 end).
Proof.
  intros s x y B1 B2 C1 C2. unfold carries, address in *. unfold run_mxreg. steps.
  rewrite C1, ToInt_i2w by (unfold INT_MAX; lia). tick. rewrite C2, ToInt_i2w by (unfold INT_MAX; lia).
  destruct (up s MXREG_0), (up s MXREG_1); cbn [Z.b2z Z.mul Z.add Pos.mul Pos.add]; unfold run_4x1_mx; cbn [Z.eqb Pos.eqb]; tick; fin.
Qed.

Lemma bit_at : forall d k, (k < 32)%nat -> bit (int_to_word d) k = Z.odd (d / 2 ^ Z.of_nat k).
Proof. intros. rewrite bit_int_to_word by auto. rewrite Z.testbit_odd, Z.shiftr_div_pow2 by lia. reflexivity. Qed.

Theorem C101_flag_inputs : forall s d c z, byte d -> 0 <= c <= 1 -> 0 <= z <= 1 -> carries s T_DATA d -> carries s T_ALUFC c -> carries s T_ALUFZ z ->
  exists s', exec cll_run_mxfldx s = Some s' /\ only [T_MX7; T_MX0] [] [] [] s s' /\
  carries s' T_MX7 (if up s SELFL then c else d / 128) /\ carries s' T_MX0 (if up s SELFL then z else d mod 2).
Proof.
  intros s d c z Bd Bc Bz Cd Cc Cz. unfold carries, byte in *. unfold cll_run_mxfldx, run_mxfld7, run_mxfld0. cbn [Call]. steps.
  repeat (progress (rewrite ?Call_ToInt; cbn [Call]; steps; tops; rewrite ?Cc, ?Cz; try rewrite ToInt_i2w by (unfold INT_MAX; lia))).
  rewrite Cd, !bit_at by lia. change (2 ^ Z.of_nat 7) with 128. change (2 ^ Z.of_nat 0) with 1. rewrite Z.div_1_r.
  assert (E7 : Z.b2z (Z.odd (d / 128)) = d / 128).
  { assert (d / 128 = 0 \/ d / 128 = 1) as [-> | ->] by (Z.div_mod_to_equations; lia); reflexivity. }
  assert (E0 : Z.b2z (Z.odd d) = d mod 2) by (rewrite Zmod_odd; destruct (Z.odd d); reflexivity).
  rewrite E7, E0.
  destruct (up s SELFL); cbn [Z.b2z]; unfold run_2x1_mx; cbn [Z.eqb Pos.eqb]; fin.
Qed.

Theorem C101_flags : forall s x y c z, 0 <= x <= 1 -> 0 <= y <= 1 -> 0 <= c <= 1 -> 0 <= z <= 1 ->
  carries s T_MX7 x -> carries s T_MX0 y -> holds s R_FC c -> holds s R_FZ z ->
  exists s', exec run_flags s = Some s' /\
  let c' := if up s FLCAR then x else c in let z' := if up s FLCAR then y else z in
  only [T_FLAGS] [R_FC; R_FZ] [] [] s s' /\ holds s' R_FC c' /\ holds s' R_FZ z' /\ carries s' T_FLAGS (2 * c' + z').
Proof.
  intros s x y c z Bx By Bc Bz Cx Cy Hc Hz. unfold carries, holds in *. unfold run_flags. steps. rewrite ?Cx, ?Cy.
  destruct (up s FLCAR); cbn [Z.b2z Z.eqb Pos.eqb]; tick; regs; rewrite ?Cx, ?Cy, ?Hc, ?Hz, get_flags_int by lia;
  (eexists; (split; [reflexivity|]); cbn zeta; (split; [frame|])); cbn [rg]; tops; regs; rewrite ?Hc, ?Hz; repeat split; f_equal; lia.
Qed.

Theorem C101_flag_byte : forall s c z, 0 <= c <= 1 -> 0 <= z <= 1 -> carries s T_FLAGS (2 * c + z) ->
  exists s', exec cll_run_flagsinta s = Some s' /\
  if up s FLBUS then only [T_DATA] [] [] [] s s' /\ carries s' T_DATA (128 * c + z) else nothing [] s s'.
Proof.
  intros s c z Bc Bz C. unfold carries in *. unfold cll_run_flagsinta. steps. rewrite C.
  destruct (up s FLBUS); cbn [Z.b2z Z.eqb Pos.eqb negb]; tick; fin.
  tops. assert (c = 0 \/ c = 1) as [-> | ->] by lia; assert (z = 0 \/ z = 1) as [-> | ->] by lia; reflexivity.
Qed.

Theorem C101_fffc : forall s, exists s', exec run_fffc s = Some s' /\ only [T_FFFCO] [] [] [] s s' /\ carries s' T_FFFCO 0xFFFC.
Proof. intros s. unfold run_fffc. tick. fin. Qed.

Theorem C101_joiners : forall s r c z, byte r -> 0 <= c <= 1 -> 0 <= z <= 1 -> carries s T_RIO r -> carries s T_FLAGS (2 * c + z) ->
  (exists s', exec run_cu_mxreg_jnr s = Some s' /\ only [T_JNR1; T_JNR2] [] [] [] s s' /\ carries s' T_JNR1 (r mod 4) /\ carries s' T_JNR2 (r / 4 mod 4)) /\
  (exists s', exec run_cu_seq_b_jnr s = Some s' /\ only [T_JOINER] [] [] [] s s' /\ carries s' T_JOINER (4 * r + 2 * z + c)).
Proof.
  intros s r c z Br Bc Bz Cr Cf. unfold carries, byte in *. split.
  - unfold run_cu_mxreg_jnr. steps. rewrite Cr, lb2_mod, lb2_mod4. fin.
  - unfold run_cu_seq_b_jnr. steps. rewrite Cr, Cf, joiner_int by lia. eexists. split; [reflexivity|]. split; [frame|].
    tops. f_equal. assert (c = 0 \/ c = 1) as [-> | ->] by lia; assert (z = 0 \/ z = 1) as [-> | ->] by lia; repeat match goal with |- context [Z.testbit ?a ?b] => let v := eval vm_compute in (Z.testbit a b) in change (Z.testbit a b) with v end; cbn [Z.b2z]; lia.
Qed.

Theorem C101_flip_flops : forall s, exists s', exec run_cu_dxflipflop s = Some s' /\ only [T_Q5; T_Q4; T_Q3; T_Q2; T_Q1; T_Q0] [] [] [] s s' /\
  nx s' T_Q5 = nx s T_D5 /\ nx s' T_Q4 = nx s T_D4 /\ nx s' T_Q3 = nx s T_D3 /\
  nx s' T_Q2 = nx s T_D2 /\ nx s' T_Q1 = nx s T_D1 /\ nx s' T_Q0 = nx s T_D0.
Proof.
  intros s. eexists. split; [unfold run_cu_dxflipflop; cbv beta iota delta [exec nx cv rg mm lg topic_of comp_of bset busid_eqb comp_eqb topic_eqb
   comp_num topic_num N.eqb Pos.eqb andb]; reflexivity|].
  split; [frame|]. repeat split.
Qed.

Definition rom_lines_b : bool := forallb (fun q => forallb (fun k => Bool.eqb (nth k (rom_word (nth q ROM [])) false)
  (negb (nth (30 - k) (nth q ROM []) 0 =? 0))) (seq 0 31)) (seq 0 45).
Lemma rom_lines : forall q k, (q < 45)%nat -> (k < 31)%nat -> nth k (rom_word (nth q ROM [])) false = negb (nth (30 - k) (nth q ROM []) 0 =? 0).
Proof.
  assert (H : rom_lines_b = true) by (vm_compute; reflexivity). intros q k Hq Hk. unfold rom_lines_b in H.
  rewrite forallb_forall in H. specialize (H q ltac:(apply in_seq; lia)). rewrite forallb_forall in H.
  specialize (H k ltac:(apply in_seq; lia)). apply eqb_prop in H. exact H.
Qed.
Lemma state_number : forall q5 q4 q3 q2 q1 q0, let w b := int_to_word (Z.b2z b) in
  word_to_int (state_word (w q5) (w q4) (w q3) (w q2) (w q1) (w q0)) = Some (num2 q0 q1 + 4 * num2 q2 q3 + 16 * num2 q4 q5).
Proof. intros [] [] [] [] [] []; vm_compute; reflexivity. Qed.

(** Line [k] of the control bus after the ROM has run in microstate [q]: column [30 - k] of the row of [q] (rom.c:22-107). *)
Theorem C101_rom : forall s q5 q4 q3 q2 q1 q0,
  carries s T_Q5 (Z.b2z q5) -> carries s T_Q4 (Z.b2z q4) -> carries s T_Q3 (Z.b2z q3) ->
  carries s T_Q2 (Z.b2z q2) -> carries s T_Q1 (Z.b2z q1) -> carries s T_Q0 (Z.b2z q0) ->
  let q := num2 q0 q1 + 4 * num2 q2 q3 + 16 * num2 q4 q5 in
  (q < 45 -> exists s', exec run_cu_rom s = Some s' /\ only [T_CONTROL] [] [] [] s s' /\
  forall k, (k < 31)%nat -> up s' k = negb (nth (30 - k) (nth (Z.to_nat q) ROM []) 0 =? 0)) /\
  (q = 45 -> exec run_cu_rom s = None) /\
  (45 < q -> exists s', exec run_cu_rom s = Some s' /\ nothing [] s s').
Proof.
  intros s q5 q4 q3 q2 q1 q0 C5 C4 C3 C2 C1 C0. unfold carries in *.
  unfold run_cu_rom. tick. rewrite C5, C4, C3, C2, C1, C0. unfold ToInt.
  pose proof (state_number q5 q4 q3 q2 q1 q0) as N. cbn zeta in N. rewrite N. clear N.
  set (q := num2 q0 q1 + 4 * num2 q2 q3 + 16 * num2 q4 q5).
  assert (Hq : 0 <= q <= 63) by (subst q; destruct q5, q4, q3, q2, q1, q0; cbn; lia). clearbody q.
  unfold CU_SIGNAL_ROWS_COUNT.
  assert (L : length ROM = 45%nat) by reflexivity.
  cbn zeta. split; [intro Q|split; intro Q].
  - replace ((q <? 0) || (q >? 45)) with false by lia.
    rewrite (nth_error_nth' ROM []) by lia. tick. eexists. split; [reflexivity|]. split; [frame|].
    intros k Hk. unfold up. tops. apply rom_lines; lia.
  - subst q. reflexivity.
  - replace ((q <? 0) || (q >? 45)) with true by lia. tick. fin.
Qed.

(** ** The unit tests of the repository, replayed
    [test/unit/lib/components]: publish, run, look at a bus. *)
Definition blank : mstate := mkM (fun _ => zero_word) (fun _ => zero_word) (fun _ => zero_word) (fun _ => 0) [].
Fixpoint lines (ks : list nat) : Word := match ks with [] => zero_word | k :: ks' => setbit (lines ks') k true end.
Definition seen (p : prog) (t : topic) : option Z := match exec p blank with Some s => word_to_int (nx s t) | None => None end.
(** alu_test.c: the lines SELALU and ALUBUS, then A and B. *)
Definition alu_test (sel : list nat) (a b : Z) : prog :=
  Pub T_CONTROL (lines (ALUBUS :: sel)) (Pub T_ACO (int_to_word a) (Pub T_OP2O (int_to_word b) run_alu)).
Definition alu_seen (sel : list nat) (a b : Z) := (seen (alu_test sel a b) T_DATA, seen (alu_test sel a b) T_ALUFC, seen (alu_test sel a b) T_ALUFZ).

Example C101_alu_tests :
  alu_seen [] 1 1 = (Some 2, Some 0, Some 0) /\ alu_seen [] 0xFF 2 = (Some 1, Some 1, Some 0) /\
  alu_seen [SELALU_0] 1 1 = (Some 0, Some 0, Some 1) /\ alu_seen [SELALU_0] 0 2 = (Some 0xFE, Some 1, Some 0) /\
  alu_seen [SELALU_0; SELALU_1] 1 1 = (Some 1, Some 0, Some 0) /\ alu_seen [SELALU_0; SELALU_1] 0 1 = (Some 1, Some 0, Some 0) /\
  alu_seen [SELALU_2] 1 1 = (Some 0, Some 0, Some 1) /\ alu_seen [SELALU_2] 0 1 = (Some 1, Some 0, Some 0) /\
  alu_seen [SELALU_0; SELALU_2] 1 1 = (Some 0xFE, Some 0, Some 0) /\ alu_seen [SELALU_0; SELALU_2] 0 1 = (Some 0xFF, Some 0, Some 0) /\
  alu_seen [SELALU_1; SELALU_2] 0 5 = (Some 5, Some 0, Some 0) /\
  alu_seen [SELALU_0; SELALU_1; SELALU_2] 0 0xF = (Some 0x10, Some 0, Some 0) /\ alu_seen [SELALU_0; SELALU_1; SELALU_2] 0 0xFF = (Some 0, Some 0, Some 1).
Proof. vm_compute. repeat split. Qed.

(** addsub_test.c *)
Definition addsub_seen (ks : list nat) (v : Z) := seen (Pub T_CONTROL (lines ks) (Pub T_DIR2 (int_to_word v) run_addsub)) T_DIR1.
Example C101_addsub_tests : addsub_seen [ID_1] 0 = Some 1 /\ addsub_seen [] 0 = Some 0 /\ addsub_seen [ID_0] 0 = Some 0 /\ addsub_seen [ID_0; ID_1] 1 = Some 0.
Proof. vm_compute. repeat split. Qed.

(** acum_test.c: load 0xFF, then try 0xFFF, then send. *)
Definition acum_step (ks : list nat) (v : Z) (k : prog) := Pub T_CONTROL (lines ks) (Pub T_DATA (int_to_word v) (Call run_acumm k)).
Example C101_acum_tests :
  seen (acum_step [ACCAR] 0xFF Done) T_ACO = Some 0xFF /\
  seen (acum_step [ACCAR] 0xFF (acum_step [ACCAR] 0xFFF Done)) T_ACO = Some 0xFF /\
  seen (acum_step [ACCAR] 0xFF (acum_step [ACCAR] 0xFFF (Pub T_CONTROL (lines [ACBUS]) run_acumm))) T_DATA = Some 0xFF.
Proof. vm_compute. repeat split. Qed.

(** [test_run_alu_and] (alu_test.c:130-164) is the one test that [main] does not call.  Its last line expects FZ = 0 for
    0 AND 1; the ALU, as documented, says FZ = 1: the test would fail. *)
Theorem C101_uncalled_test_refuted : alu_seen [SELALU_1] 1 1 = (Some 1, Some 0, Some 0) /\ alu_seen [SELALU_1] 0 1 = (Some 0, Some 0, Some 1).
Proof. vm_compute. split; reflexivity. Qed.

Example C101_nonvacuous : exists s, carries s T_ACO 200 /\ carries s T_OP2O 100 /\ selected s = 0 /\ up s ALUBUS = true /\ operation 0 200 100 = (44, true).
Proof.
  exists (mkM (fun t => match t with T_ACO => int_to_word 200 | T_OP2O => int_to_word 100 | T_CONTROL => lines [ALUBUS] | _ => zero_word end) (fun _ => zero_word) (fun _ => zero_word) (fun _ => 0) []).
  vm_compute. repeat split.
Qed.
Example C101_pc_nonvacuous : exists s, carries s T_DATA 7 /\ carries s T_DIR1 300 /\ holds s R_PC 513 /\ holds s R_PCH 2 /\ holds s R_PCL 1 /\ up s PCHCAR = true /\ up s PCLCAR = false /\ up s PCCAR = false.
Proof.
  exists (mkM (fun t => match t with T_DATA => int_to_word 7 | T_DIR1 => int_to_word 300 | T_CONTROL => lines [PCHCAR] | _ => zero_word end) (fun _ => zero_word)
    (fun r => match r with R_PC => int_to_word 513 | R_PCH => int_to_word 2 | R_PCL => int_to_word 1 | _ => zero_word end) (fun _ => 0) []).
  vm_compute. repeat split.
Qed.

Print Assumptions C101_alu. Print Assumptions C101_addsub. Print Assumptions C101_acumm. Print Assumptions C101_op2.
Print Assumptions C101_hl. Print Assumptions C101_sp. Print Assumptions C101_greg. Print Assumptions C101_pc.
Print Assumptions C101_pc_wide. Print Assumptions C101_mem. Print Assumptions C101_mxdir. Print Assumptions C101_mxreg.
Print Assumptions C101_flag_inputs. Print Assumptions C101_flags. Print Assumptions C101_flag_byte. Print Assumptions C101_fffc.
Print Assumptions C101_joiners. Print Assumptions C101_flip_flops. Print Assumptions C101_rom. Print Assumptions C101_uncalled_test_refuted.
