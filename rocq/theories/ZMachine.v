(** * Integer-valued version of the component functions (proof layer)
    Nothing here is trusted: [ZRefine.v] proves that, on states whose values
    are in range, each component of [Components.v] executes without undefined
    behaviour and acts as its counterpart below. *)
From Coq Require Import ZArith List Bool.
From Verif Require Import Word Prog Tables Components Machine.
Import ListNotations.
Open Scope Z_scope.

Record zs := mkZ { tv : topic -> Z; rv : regid -> Z; zm : Z -> Z; zl : list msg }.

Definition P (t : topic) (v : Z) (z : zs) : zs := mkZ (tset (tv z) t v) (rv z) (zm z) (zl z).
Definition W (r : regid) (v : Z) (z : zs) : zs := mkZ (tv z) (rset (rv z) r v) (zm z) (zl z).
Definition SM (o v : Z) (z : zs) : zs := mkZ (tv z) (rv z) (mset (zm z) o v) (zl z).
Definition NT (m : msg) (z : zs) : zs := mkZ (tv z) (rv z) (zm z) (m :: zl z).

Definition ctl (z : zs) (p : nat) : bool := Z.testbit (tv z T_CONTROL) (Z.of_nat p).
Definition ctl2 (z : zs) (p0 p1 : nat) : Z :=
  if ctl z p1 then (if ctl z p0 then 3 else 2) else (if ctl z p0 then 1 else 0).
Definition ctl3 (z : zs) (p0 p1 p2 : nat) : Z :=
  if ctl z p2
  then (if ctl z p1 then (if ctl z p0 then 7 else 6) else (if ctl z p0 then 5 else 4))
  else (if ctl z p1 then (if ctl z p0 then 3 else 2) else (if ctl z p0 then 1 else 0)).
(* aliases that the symbolic computations of [Micro.v] do not unfold *)
Definition isz (v : Z) : bool := v =? 0.
Definition dbit (v i : Z) : bool := Z.testbit v i.

Definition fits (n : Z) (v : Z) : bool := (0 <=? v) && (v <? 2 ^ n).

Definition z_acumm (z : zs) : zs :=
  let z1 := if ctl z ACCAR then W R_AC (tv z T_DATA) z else z in
  let z2 := if ctl z ACBUS then P T_DATA (rv z1 R_AC) z1 else z1 in
  P T_ACO (rv z2 R_AC) z2.

Definition z_addsub (z : zs) : zs :=
  let dir := tv z T_DIR2 in
  P T_DIR1 (if ctl z ID_1 then (if ctl z ID_0 then dir - 1 else dir + 1) else dir) z.

Definition z_alu (z : zs) : zs :=
  let op := alu_op (ctl3 z SELALU_0 SELALU_1 SELALU_2) (tv z T_ACO) (tv z T_OP2O) in
  let z1 := P T_ALUFC (Z.b2z (negb (fits 8 (fst op)) && snd op)) z in
  let r := fst op mod 256 in
  let z2 := P T_ALUFZ (Z.b2z (isz r)) z1 in
  if ctl z ALUBUS then P T_DATA r z2 else z2.

Definition z_fffc (z : zs) : zs := P T_FFFCO 65532 z.

Definition z_flags (z : zs) : zs :=
  let z1 := if ctl z FLCAR then W R_FZ (tv z T_MX0) (W R_FC (tv z T_MX7) z) else z in
  P T_FLAGS (rv z1 R_FZ + 2 * rv z1 R_FC) z1.

Definition gr (sel : Z) : regid :=
  if sel =? 0 then R_B else if sel =? 1 then R_C else if sel =? 2 then R_D else R_E.

Definition z_greg (z : zs) : zs :=
  let r := gr (tv z T_SELREG) in
  let z1 := if ctl z REGCAR then W r (tv z T_DATA) z else z in
  if ctl z REGBUS then P T_DATA (rv z1 r) z1 else z1.

Definition z_hl (z : zs) : zs :=
  let z1 := if ctl z HCAR then W R_H (tv z T_DATA) z else z in
  let z2 := if ctl z LCAR then W R_L (tv z T_DATA) z1 else z1 in
  P T_HLO (rv z2 R_L + rv z2 R_H * 256) z2.

Definition z_mem (z : zs) : zs :=
  if ctl z LE
  then (if ctl z MEMBUS then P T_DATA (zm z (tv z T_DIR2)) z else z)
  else SM (tv z T_DIR2) (tv z T_DATA) z.

Definition z_mxdir (z : zs) : zs :=
  P T_DIR2 (run_4x1_mx (ctl2 z SELDIR_0 SELDIR_1)
              (tv z T_PCO) (tv z T_SPO) (tv z T_HLO) (tv z T_FFFCO)) z.

Definition z_mxfldx (z : zs) : zs :=
  let z1 := P T_MX7 (if ctl z SELFL then tv z T_ALUFC else Z.b2z (dbit (tv z T_DATA) 7)) z in
  P T_MX0 (if ctl z SELFL then tv z T_ALUFZ else Z.b2z (dbit (tv z T_DATA) 0)) z1.

Definition z_mxreg (z : zs) : zs :=
  P T_SELREG (run_4x1_mx (ctl2 z MXREG_0 MXREG_1) (tv z T_JNR1) (tv z T_JNR2) 2 3) z.

Definition z_op2 (z : zs) : zs :=
  let z1 := if ctl z OP2CAR then W R_2OP (tv z T_DATA) z else z in
  P T_OP2O (rv z1 R_2OP) z1.

Definition z_pc_f (f : bool) (z : zs) : zs :=
  let z1 := if ctl z PCHCAR then W R_PCH (tv z T_DATA) z
            else if ctl z PCHBUS then P T_DATA (rv z R_PCH) z else z in
  (* the data bus seen by the PCL load is the one latched on entry *)
  let z2 := if ctl z PCLCAR then W R_PCL (tv z T_DATA) z1
            else if ctl z PCLBUS then P T_DATA (rv z1 R_PCL) z1 else z1 in
  let z3 := if ctl z PCHCAR then W R_PC (rv z2 R_PC mod 256 + rv z2 R_PCH * 256) z2 else z2 in
  let z4 := if ctl z PCLCAR then W R_PC (rv z3 R_PCL + rv z3 R_PC / 256 * 256) z3 else z3 in
  if ctl z PCCAR then
    if f then
      let z5 := W R_PCH (tv z T_DIR1 / 256) (W R_PCL (tv z T_DIR1 mod 256) (W R_PC (tv z T_DIR1) z4)) in
      P T_PCO (rv z5 R_PC) z5
    else NT E_PC z4
  else P T_PCO (rv z4 R_PC) z4.

Definition z_pc (z : zs) : zs := z_pc_f (fits 16 (tv z T_DIR1)) z.

Definition z_sp_f (f : bool) (z : zs) : zs :=
  if ctl z SPCAR then
    if f then P T_SPO (tv z T_DIR1) (W R_SP (tv z T_DIR1) z)
    else NT E_SP z
  else P T_SPO (rv z R_SP) z.

Definition z_sp (z : zs) : zs := z_sp_f (fits 16 (tv z T_DIR1)) z.

Definition z_flagsinta (z : zs) : zs :=
  if ctl z FLBUS
  then P T_DATA (Z.b2z (dbit (tv z T_FLAGS) 0) + 128 * Z.b2z (dbit (tv z T_FLAGS) 1)) z
  else z.

Definition z_dxflipflop (z : zs) : zs :=
  P T_Q0 (tv z T_D0) (P T_Q1 (tv z T_D1) (P T_Q2 (tv z T_D2)
 (P T_Q3 (tv z T_D3) (P T_Q4 (tv z T_D4) (P T_Q5 (tv z T_D5) z))))).

Definition z_mxreg_jnr (z : zs) : zs :=
  P T_JNR2 (tv z T_RIO / 4 mod 4) (P T_JNR1 (tv z T_RIO mod 4) z).

Definition z_seq_jnr (z : zs) : zs :=
  P T_JOINER (Z.b2z (dbit (tv z T_FLAGS) 1) + 2 * Z.b2z (dbit (tv z T_FLAGS) 0)
              + tv z T_RIO * 4) z.

Definition drow (row : option (list Z)) (k : nat) : Z :=
  match row with None => 0 | Some r => Z.b2z (negb (nth k r 0 =? 0)) end.

Definition z_seq_row (z : zs) : option (list Z) :=
  let b t i := Z.testbit (tv z t) i in
  find_row [b T_Q5 0; b T_Q4 0; b T_Q3 0; b T_Q2 0; b T_Q1 0; b T_Q0 0;
            b T_JOINER 9; b T_JOINER 8; b T_JOINER 7; b T_JOINER 6; b T_JOINER 5;
            b T_JOINER 4; b T_JOINER 3; b T_JOINER 2; b T_JOINER 1; b T_JOINER 0].

Definition z_seq (z : zs) : zs :=
  let row := z_seq_row z in
  P T_D0 (drow row 22) (P T_D1 (drow row 21) (P T_D2 (drow row 20)
 (P T_D3 (drow row 19) (P T_D4 (drow row 18) (P T_D5 (drow row 17) z))))).

(** state number on the Q buses *)
Definition qpos (z : zs) : Z :=
  tv z T_Q0 + 2 * tv z T_Q1 + 4 * tv z T_Q2 + 8 * tv z T_Q3 + 16 * tv z T_Q4 + 32 * tv z T_Q5.

Definition rom_int (row : list Z) : Z := fold_left (fun a b => 2 * a + b) row 0.

Definition z_rom (z : zs) : zs :=
  P T_CONTROL (rom_int (nth (Z.to_nat (qpos z)) ROM [])) z.

Definition z_async (z : zs) : zs :=
  z_alu (z_mem (z_alu (z_mem (z_mxreg (z_mxdir (z_addsub z)))))).

Definition z_acumm_flags1 (z : zs) : zs := z_flagsinta (z_flags (z_mxfldx (z_acumm z))).

Definition z_tail (z : zs) : zs :=
  z_async (z_pc (z_async (z_sp (z_async (z_hl (z_async (z_op2 (z_async (z_greg
    (z_acumm_flags1 (z_acumm_flags1 (z_async (z_fffc z))))))))))))).

(** after the ROM has published the control word *)
Definition z_body (z : zs) : zs :=
  let z1 := z_async z in
  let z2 := if ctl z1 RICAR then W R_RI (tv z1 T_DATA) z1 else z1 in
  z_tail (P T_RIO (rv z2 R_RI) z2).

Definition z_cu_1 (z : zs) : zs :=
  z_body (z_rom (z_seq (z_mxreg_jnr (z_seq_jnr z)))).
