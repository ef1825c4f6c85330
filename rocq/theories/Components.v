(** * The component functions, statement by statement
    One definition per [run_*] function of [mpp-cpu/src/lib/components], in the
    statement language of [Prog.v].  Line numbers refer to the file named in
    each comment.  [log_debug] calls are omitted: they have no effect on the
    state. *)
From Coq Require Import ZArith List Bool.
From Verif Require Import Word Prog Tables.
Import ListNotations.
Open Scope Z_scope.

(** [Word x; initialize_word(&x, 0); x.bits[0] = control->...bits[p];] *)
Definition lb (c : Word) (p : nat) : Word := setbit zero_word 0 (bit c p).
(** the same with two and three cells *)
Definition lb2 (c : Word) (p0 p1 : nat) : Word := setbit (lb c p0) 1 (bit c p1).
Definition lb3 (c : Word) (p0 p1 p2 : nat) : Word := setbit (lb2 c p0 p1) 2 (bit c p2).

(** [for (i = 0; i < n; i++) dst.bits[d + i] = src.bits[s + i];] *)
Definition copy_bits (dst : Word) (d : nat) (src : Word) (s : nat) (n : nat) : Word :=
  fold_left (fun acc i => setbit acc (d + i) (bit src (s + i))) (seq 0 n) dst.

(** [run_4x1_mx], electronic/multiplexer.c:17-34. *)
Definition run_4x1_mx (sel i1 i2 i3 i4 : Z) : Z :=
  if sel =? 0 then i1 else if sel =? 1 then i2 else if sel =? 2 then i3
  else if sel =? 3 then i4 else -1.
(** [run_2x1_mx], electronic/multiplexer.c:39-50. *)
Definition run_2x1_mx (sel i1 i2 : Z) : Z :=
  if sel =? 0 then i1 else if sel =? 1 then i2 else -1.

(** [run_acumm], acumm.c:53-73. *)
Definition run_acumm : prog :=
  Upd (B K_ACUMM T_DATA) ;; Upd (B K_ACUMM T_CONTROL) ;;
  c <- Cur (B K_ACUMM T_CONTROL) ;;
  let rest :=                                                     (* 67-72 *)
    if bit c ACBUS
    then (v <- RdR R_AC ;; Pub T_DATA v ;; v' <- RdR R_AC ;; Pub T_ACO v' Done)
    else (v <- RdR R_AC ;; Pub T_ACO v Done) in
  if bit c ACCAR
  then (d <- Cur (B K_ACUMM T_DATA) ;;
        if get_used_bits d >? bit_length R_AC
        then Notice E_ACUMM Done                                  (* 59-62 *)
        else WrR R_AC d rest)                                     (* 64 *)
  else rest.

(** [run_addsub], addsub.c:26-54. *)
Definition run_addsub : prog :=
  Upd (B K_ADDSUB T_CONTROL) ;;
  n <- Nxt (B K_ADDSUB T_DIR2) ;; dir <- ToInt n ;;               (* 29 *)
  c <- Cur (B K_ADDSUB T_CONTROL) ;;
  id <- ToInt (lb2 c ID_0 ID_1) ;;                                (* 34-37 *)
  if id =? 2 then (r <- Int (dir + 1) ;; Pub T_DIR1 (int_to_word r) Done)
  else if id =? 3 then (r <- Int (dir - 1) ;; Pub T_DIR1 (int_to_word r) Done)
  else Pub T_DIR1 (int_to_word dir) Done.

(** Lines alu.c:55-108: the operation; the boolean is [is_fc_working].  All
    eight values of [sel_alu] (alu.h:16) are covered. *)
Definition alu_op (sel a b : Z) : Z * bool :=
  if sel =? 0 then (a + b, true)
  else if sel =? 1 then (a - b, true)
  else if sel =? 2 then (Z.land a b, false)
  else if sel =? 3 then (Z.lor a b, false)
  else if sel =? 4 then (Z.lxor a b, false)
  else if sel =? 5 then (Z.lnot a, false)
  else if sel =? 6 then (b, false)
  else if sel =? 7 then (b + 1, false)
  else (0, false).

(** [for (i = 31; i >= 8; i--) w.bits[i] = 0], alu.c:119-121. *)
Definition clear_high (w : Word) : Word :=
  fold_left (fun acc i => setbit acc i false) (rev (seq 8 24)) w.

(** [run_alu], alu.c:32-134. *)
Definition run_alu : prog :=
  Upd (B K_ALU T_ACO) ;; Upd (B K_ALU T_OP2O) ;; Upd (B K_ALU T_CONTROL) ;;
  c <- Cur (B K_ALU T_CONTROL) ;;
  sel <- ToInt (lb3 c SELALU_0 SELALU_1 SELALU_2) ;;              (* 48 *)
  na <- Nxt (B K_ALU T_ACO) ;; a <- ToInt na ;;                   (* 49 *)
  nb <- Nxt (B K_ALU T_OP2O) ;; b <- ToInt nb ;;                  (* 50 *)
  let '(res, working) := alu_op sel a b in
  result <- Int res ;;
  let has_overflow := get_used_bits (int_to_word result) >? 8 in  (* 110-112 *)
  Pub T_ALUFC (int_to_word (Z.b2z (has_overflow && working))) ;;  (* 114 *)
  let fin := fun r : Z =>
    Pub T_ALUFZ (int_to_word (Z.b2z (r =? 0))) ;;                 (* 128-129 *)
    bus <- ToInt (lb c ALUBUS) ;;
    if bus =? 1 then Pub T_DATA (int_to_word r) Done else Done in (* 131-133 *)
  if has_overflow
  then (r <- ToInt (clear_high (int_to_word result)) ;; fin r)    (* 116-124 *)
  else fin result.

(** [run_fffc], fffc.c:19-21. *)
Definition run_fffc : prog := Pub T_FFFCO (int_to_word 65532) Done.

(** [get_flags], flags.c:65-78. *)
Definition get_flags (fc fz : Word) : Word :=
  let w := if bit fc 0 then setbit zero_word 1 true else zero_word in
  if bit fz 0 then setbit w 0 true else w.

(** [run_flags], flags.c:80-99. *)
Definition run_flags : prog :=
  Upd (B K_FLAGS T_MX7) ;; Upd (B K_FLAGS T_MX0) ;; Upd (B K_FLAGS T_CONTROL) ;;
  c <- Cur (B K_FLAGS T_CONTROL) ;;
  l <- ToInt (lb c FLCAR) ;;
  let rest := (fc <- RdR R_FC ;; fz <- RdR R_FZ ;; Pub T_FLAGS (get_flags fc fz) Done) in
  if l =? 1
  then (x <- Cur (B K_FLAGS T_MX7) ;; WrR R_FC x ;;
        y <- Cur (B K_FLAGS T_MX0) ;; WrR R_FZ y rest)
  else rest.

(** [get_gregister], greg.c:74-92. *)
Definition get_gregister (sel : Z) : option regid :=
  if sel =? 0 then Some R_B else if sel =? 1 then Some R_C
  else if sel =? 2 then Some R_D else if sel =? 3 then Some R_E else None.

(** [run_greg], greg.c:94-127. *)
Definition run_greg : prog :=
  Upd (B K_GREG T_DATA) ;; Upd (B K_GREG T_SELREG) ;; Upd (B K_GREG T_CONTROL) ;;
  s <- Cur (B K_GREG T_SELREG) ;; sel <- ToInt s ;;
  match get_gregister sel with
  | None => Notice E_NOREG Done                                   (* 100-103 *)
  | Some r =>
      c <- Cur (B K_GREG T_CONTROL) ;;
      car <- ToInt (lb c REGCAR) ;;
      let rest :=
        (bus <- ToInt (lb c REGBUS) ;;
         if bus =? 1 then (v <- RdR r ;; Pub T_DATA v Done) else Done) in
      if car =? 1
      then (d <- Cur (B K_GREG T_DATA) ;;
            if get_used_bits d >? bit_length r
            then Notice E_GREG Done                               (* 116-119 *)
            else WrR r d rest)
      else rest
  end.

(** [run_hl], hl.c:61-97. *)
Definition run_hl : prog :=
  Upd (B K_HL T_DATA) ;; Upd (B K_HL T_CONTROL) ;;
  c <- Cur (B K_HL T_CONTROL) ;;
  let send :=                                                     (* 84-96 *)
    (l <- RdR R_L ;; h <- RdR R_H ;;
     Pub T_HLO (copy_bits (copy_bits zero_word 0 l 0 8) 8 h 0 8) Done) in
  hc <- ToInt (lb c HCAR) ;;
  let low :=
    (lc <- ToInt (lb c LCAR) ;;
     if lc =? 1 then (d <- Cur (B K_HL T_DATA) ;; WrR R_L d send) else send) in
  if hc =? 1 then (d <- Cur (B K_HL T_DATA) ;; WrR R_H d low) else low.

(** [is_mem_value_valid], mem.c:33-36 ([pow(2, 8) - 1] is exactly 255). *)
Definition is_mem_value_valid (num : Z) : bool := negb ((num <? 0) || (num >? 255)).

(** [mem_size], mem.c:21: 64 * 1024 * 8 / 8. *)
Definition mem_size : Z := 65536.
(** The range test of [get_value_by_offset], mem.c:76-82. *)
Definition valid_offset (o : Z) : bool := negb ((o <? 0) || (o >=? mem_size)).

(** [run_mem], mem.c:105-156, with [set_mem_value] (85-98) and
    [get_mem_value] (100-103) inlined. *)
Definition run_mem : prog :=
  Upd (B K_MEM T_DATA) ;; Upd (B K_MEM T_DIR2) ;; Upd (B K_MEM T_CONTROL) ;;
  n <- Nxt (B K_MEM T_DIR2) ;; dir <- ToInt n ;;                  (* 111 *)
  c <- Cur (B K_MEM T_CONTROL) ;;
  le <- ToInt (lb c LE) ;;
  if le =? 1 then
    m <- LdM dir ;;
    match m with
    | None => Notice E_MEMGET Done                                (* 125-130 *)
    | Some v =>
        mb <- ToInt (lb c MEMBUS) ;;
        if mb =? 1 then Pub T_DATA (int_to_word v) Done else Done (* 133 *)
    end
  else if le =? 0 then
    nd <- Nxt (B K_MEM T_DATA) ;; v <- ToInt nd ;;                (* 138 *)
    if is_mem_value_valid v && valid_offset dir
    then StM dir v Done                                           (* 95 *)
    else Notice E_MEMSET Done                                     (* 140-145 *)
  else Done.

(** [run_mxdir], mxdir.c:60-86. *)
Definition run_mxdir : prog :=
  Upd (B K_MXDIR T_PCO) ;; Upd (B K_MXDIR T_SPO) ;; Upd (B K_MXDIR T_HLO) ;;
  Upd (B K_MXDIR T_FFFCO) ;; Upd (B K_MXDIR T_CONTROL) ;;
  c <- Cur (B K_MXDIR T_CONTROL) ;;
  sel <- ToInt (lb2 c SELDIR_0 SELDIR_1) ;;
  w1 <- Nxt (B K_MXDIR T_PCO) ;; v1 <- ToInt w1 ;;
  w2 <- Nxt (B K_MXDIR T_SPO) ;; v2 <- ToInt w2 ;;
  w3 <- Nxt (B K_MXDIR T_HLO) ;; v3 <- ToInt w3 ;;
  w4 <- Nxt (B K_MXDIR T_FFFCO) ;; v4 <- ToInt w4 ;;
  let output := run_4x1_mx sel v1 v2 v3 v4 in
  if output =? -1 then Notice E_MX Done                           (* 76-82 *)
  else Pub T_DIR2 (int_to_word output) Done.

(** [cll_get_selfl_lb_value], controllers/mxfldx.c:27-34, and
    [cll_get_last_bus_data], controllers/mxfldx.c:36, are inlined below. *)

(** [run_mxfld7], mxfld7.c:37-44. *)
Definition run_mxfld7 : prog :=
  Upd (B K_MXFLD7 T_ALUFC) ;;
  d <- Cur (B K_MXFLDX T_DATA) ;;
  c <- Cur (B K_MXFLDX T_CONTROL) ;; sel <- ToInt (lb c SELFL) ;;
  f <- Cur (B K_MXFLD7 T_ALUFC) ;; fv <- ToInt f ;;
  Pub T_MX7 (int_to_word (run_2x1_mx sel (Z.b2z (bit d 7)) fv)) Done.

(** [run_mxfld0], mxfld0.c:35-42. *)
Definition run_mxfld0 : prog :=
  Upd (B K_MXFLD0 T_ALUFZ) ;;
  d <- Cur (B K_MXFLDX T_DATA) ;;
  c <- Cur (B K_MXFLDX T_CONTROL) ;; sel <- ToInt (lb c SELFL) ;;
  f <- Cur (B K_MXFLD0 T_ALUFZ) ;; fv <- ToInt f ;;
  Pub T_MX0 (int_to_word (run_2x1_mx sel (Z.b2z (bit d 0)) fv)) Done.

(** [cll_run_mxfldx], controllers/mxfldx.c:59-65. *)
Definition cll_run_mxfldx : prog :=
  Upd (B K_MXFLDX T_CONTROL) ;; Upd (B K_MXFLDX T_DATA) ;;
  Call run_mxfld7 ;; Call run_mxfld0 Done.

(** [run_mxreg], mxreg.c:47-60. *)
Definition run_mxreg : prog :=
  Upd (B K_MXREG T_JNR1) ;; Upd (B K_MXREG T_JNR2) ;; Upd (B K_MXREG T_CONTROL) ;;
  c <- Nxt (B K_MXREG T_CONTROL) ;;
  sel <- ToInt (lb2 c MXREG_0 MXREG_1) ;;
  w1 <- Cur (B K_MXREG T_JNR1) ;; v1 <- ToInt w1 ;;
  w2 <- Cur (B K_MXREG T_JNR2) ;; v2 <- ToInt w2 ;;
  Pub T_SELREG (int_to_word (run_4x1_mx sel v1 v2 2 3)) Done.

(** [run_op2], op2.c:51-66. *)
Definition run_op2 : prog :=
  Upd (B K_OP2 T_DATA) ;; Upd (B K_OP2 T_CONTROL) ;;
  c <- Cur (B K_OP2 T_CONTROL) ;;
  car <- ToInt (lb c OP2CAR) ;;
  let send := (v <- RdR R_2OP ;; Pub T_OP2O v Done) in
  if car =? 1 then (d <- Cur (B K_OP2 T_DATA) ;; WrR R_2OP d send) else send.

(** [run_pc], pc.c:72-153. *)
Definition run_pc : prog :=
  Upd (B K_PC T_DATA) ;; Upd (B K_PC T_DIR1) ;; Upd (B K_PC T_CONTROL) ;;
  c <- Cur (B K_PC T_CONTROL) ;;
  pchcar <- ToInt (lb c PCHCAR) ;; pclcar <- ToInt (lb c PCLCAR) ;;
  pchbus <- ToInt (lb c PCHBUS) ;; pclbus <- ToInt (lb c PCLBUS) ;;
  pccar <- ToInt (lb c PCCAR) ;;
  let send := (v <- RdR R_PC ;; Pub T_PCO v Done) in              (* 152 *)
  let load_pc :=                                                  (* 133-150 *)
    if pccar =? 1 then
      d <- Cur (B K_PC T_DIR1) ;;
      if get_used_bits d >? bit_length R_PC then Notice E_PC Done
      else
        WrR R_PC d ;;
        p <- RdR R_PC ;; l <- RdR R_PCL ;;
        WrR R_PCL (copy_bits l 0 p 0 8) ;;
        h <- RdR R_PCH ;;
        WrR R_PCH (copy_bits h 0 p 8 8) send
    else send in
  let mix_l :=                                                    (* 125-130 *)
    if pclcar =? 1
    then (p <- RdR R_PC ;; l <- RdR R_PCL ;; WrR R_PC (copy_bits p 0 l 0 8) load_pc)
    else load_pc in
  let mix_h :=                                                    (* 118-123 *)
    if pchcar =? 1
    then (p <- RdR R_PC ;; h <- RdR R_PCH ;; WrR R_PC (copy_bits p 8 h 0 8) mix_l)
    else mix_l in
  let do_l :=                                                     (* 104-115 *)
    if pclcar =? 1 then
      d <- Cur (B K_PC T_DATA) ;;
      if get_used_bits d >? bit_length R_PCL then Notice E_PCL Done
      else WrR R_PCL d mix_h
    else if pclbus =? 1 then (v <- RdR R_PCL ;; Pub T_DATA v mix_h)
    else mix_h in
  if pchcar =? 1 then                                             (* 91-102 *)
    d <- Cur (B K_PC T_DATA) ;;
    if get_used_bits d >? bit_length R_PCH then Notice E_PCH Done
    else WrR R_PCH d do_l
  else if pchbus =? 1 then (v <- RdR R_PCH ;; Pub T_DATA v do_l)
  else do_l.

(** [run_sp], sp.c:52-72. *)
Definition run_sp : prog :=
  Upd (B K_SP T_DIR1) ;; Upd (B K_SP T_CONTROL) ;;
  c <- Cur (B K_SP T_CONTROL) ;;
  car <- ToInt (lb c SPCAR) ;;
  let send := (v <- RdR R_SP ;; Pub T_SPO v Done) in
  if car =? 1 then
    d <- Cur (B K_SP T_DIR1) ;;
    if get_used_bits d >? bit_length R_SP then Notice E_SP Done
    else WrR R_SP d send
  else send.

(** [cll_run_flagsinta], controllers/flagsinta.c:44-66; the positions come from
    constants.h:40-45 (note that the names FC/FZ there are swapped twice, so the
    byte is FC in bit 7 and FZ in bit 0). *)
Definition cll_run_flagsinta : prog :=
  Upd (B K_FLAGSINTA T_FLAGS) ;; Upd (B K_FLAGSINTA T_CONTROL) ;;
  c <- Cur (B K_FLAGSINTA T_CONTROL) ;;
  f <- Cur (B K_FLAGSINTA T_FLAGS) ;;
  let to_send := setbit (setbit (setbit zero_word 0 (bit f 0)) 7 (bit f 1)) 6 false in
  fb <- ToInt (lb c FLBUS) ;;
  if negb (fb =? 0) then Pub T_DATA to_send Done else Done.

(** [run_cu_dxflipflop], cu/dxflipflop.c:45-59. *)
Definition run_cu_dxflipflop : prog :=
  Upd (B K_DFF T_D5) ;; Upd (B K_DFF T_D4) ;; Upd (B K_DFF T_D3) ;;
  Upd (B K_DFF T_D2) ;; Upd (B K_DFF T_D1) ;; Upd (B K_DFF T_D0) ;;
  d5 <- Cur (B K_DFF T_D5) ;; Pub T_Q5 d5 ;;
  d4 <- Cur (B K_DFF T_D4) ;; Pub T_Q4 d4 ;;
  d3 <- Cur (B K_DFF T_D3) ;; Pub T_Q3 d3 ;;
  d2 <- Cur (B K_DFF T_D2) ;; Pub T_Q2 d2 ;;
  d1 <- Cur (B K_DFF T_D1) ;; Pub T_Q1 d1 ;;
  d0 <- Cur (B K_DFF T_D0) ;; Pub T_Q0 d0 Done.

(** [run_cu_mxreg_jnr], cu/mxreg_jnr.c:23-37. *)
Definition run_cu_mxreg_jnr : prog :=
  Upd (B K_MXREGJNR T_RIO) ;;
  r <- Cur (B K_MXREGJNR T_RIO) ;;
  Pub T_JNR1 (lb2 r 0 1) ;; Pub T_JNR2 (lb2 r 2 3) Done.

(** [run_cu_seq_b_jnr], cu/seq_fgs_jnr.c:33-48 (RI_START_BIT_POS = 2). *)
Definition run_cu_seq_b_jnr : prog :=
  Upd (B K_SEQJNR T_RIO) ;; Upd (B K_SEQJNR T_FLAGS) ;;
  f <- Cur (B K_SEQJNR T_FLAGS) ;;
  let w := setbit (setbit zero_word 0 (bit f 1)) 1 (bit f 0) in
  r <- Cur (B K_SEQJNR T_RIO) ;;
  Pub T_JOINER (copy_bits w 2 r 0 30) Done.

(** One comparison of cu/seq.c:183-198: X (-1) matches anything. *)
Definition cell_matches (cell : Z) (b : bool) : bool := (cell =? -1) || (cell =? Z.b2z b).
Fixpoint row_matches (cells : list Z) (inputs : list bool) : bool :=
  match cells, inputs with
  | c :: cs, b :: bs => cell_matches c b && row_matches cs bs
  | _, _ => true
  end.
(** The search loop, cu/seq.c:181-204: first matching row. *)
Definition find_row (inputs : list bool) : option (list Z) :=
  find (fun row => row_matches (tl row) inputs) truth_table.
(** [d.bits[0] = truth_table[found][k]] (0/1 entries). *)
Definition dcell (row : option (list Z)) (k : nat) : Word :=
  match row with
  | None => zero_word
  | Some r => setbit zero_word 0 (negb (nth k r 0 =? 0))
  end.

(** [run_cu_seq], cu/seq.c:162-239. *)
Definition run_cu_seq : prog :=
  q5 <- Nxt (B K_SEQ T_Q5) ;; q4 <- Nxt (B K_SEQ T_Q4) ;; q3 <- Nxt (B K_SEQ T_Q3) ;;
  q2 <- Nxt (B K_SEQ T_Q2) ;; q1 <- Nxt (B K_SEQ T_Q1) ;; q0 <- Nxt (B K_SEQ T_Q0) ;;
  j <- Nxt (B K_SEQ T_JOINER) ;;
  let row := find_row [bit q5 0; bit q4 0; bit q3 0; bit q2 0; bit q1 0; bit q0 0;
                       bit j 9; bit j 8; bit j 7; bit j 6; bit j 5; bit j 4; bit j 3; bit j 2;
                       bit j 1; bit j 0] in
  Pub T_D5 (dcell row 17) ;; Pub T_D4 (dcell row 18) ;; Pub T_D3 (dcell row 19) ;;
  Pub T_D2 (dcell row 20) ;; Pub T_D1 (dcell row 21) ;; Pub T_D0 (dcell row 22) Done.

(** Lines cu/rom.c:122-128: the control word of a ROM row. *)
Definition rom_word (row : list Z) : Word :=
  fold_left (fun w i => setbit w (CU_SIGNAL_COLS_COUNT - 1 - i) (negb (nth i row 0 =? 0)))
            (seq 0 CU_SIGNAL_COLS_COUNT) zero_word.

(** Cells 5..0 of a state number, cu/rom.c:108-115, linker/cu.c:109-116. *)
Definition state_word (q5 q4 q3 q2 q1 q0 : Word) : Word :=
  setbit (setbit (setbit (setbit (setbit (setbit zero_word 5 (bit q5 0)) 4 (bit q4 0))
    3 (bit q3 0)) 2 (bit q2 0)) 1 (bit q1 0)) 0 (bit q0 0).

(** [run_cu_rom], cu/rom.c:107-138.  The bound at line 120 is [>], not [>=]:
    position 45 passes it and reads past the end of [ROM]: undefined. *)
Definition run_cu_rom : prog :=
  q5 <- Nxt (B K_ROM T_Q5) ;; q4 <- Nxt (B K_ROM T_Q4) ;; q3 <- Nxt (B K_ROM T_Q3) ;;
  q2 <- Nxt (B K_ROM T_Q2) ;; q1 <- Nxt (B K_ROM T_Q1) ;; q0 <- Nxt (B K_ROM T_Q0) ;;
  pos <- ToInt (state_word q5 q4 q3 q2 q1 q0) ;;
  if (pos <? 0) || (pos >? CU_SIGNAL_ROWS_COUNT) then Done
  else match nth_error ROM (Z.to_nat pos) with
       | None => Undef
       | Some row =>
           Pub T_CONTROL (rom_word row) ;;
           Upd (B K_ROM T_Q5) ;; Upd (B K_ROM T_Q4) ;; Upd (B K_ROM T_Q3) ;;
           Upd (B K_ROM T_Q2) ;; Upd (B K_ROM T_Q1) ;; Upd (B K_ROM T_Q0) Done
       end.

(** [run_asyncronus_components], cu/cu.c:112-122 (ALU_MEM_RELATION = 2). *)
Definition run_asyncronus_components : prog :=
  Call run_addsub ;; Call run_mxdir ;; Call run_mxreg ;;
  Call run_mem ;; Call run_alu ;;
  Call run_mem ;; Call run_alu Done.

(** [run_sync_comp], cu/cu.c:124-127. *)
Definition run_sync_comp (p : prog) : prog :=
  Call p ;; Call run_asyncronus_components Done.

(** [run_acumm_or_flags], cu/cu.c:129-136 (ACUM_FLAGS_RELATION = 2). *)
Definition acumm_or_flags_once : prog :=
  Call run_acumm ;; Call cll_run_mxfldx ;; Call run_flags ;; Call cll_run_flagsinta Done.
Definition run_acumm_or_flags : prog :=
  Call acumm_or_flags_once ;; Call acumm_or_flags_once Done.

(** cu/cu.c:168-174: the part of a rising edge after the RI register. *)
Definition run_cu_tail : prog :=
  Call (run_sync_comp run_fffc) ;; Call run_acumm_or_flags ;;
  Call (run_sync_comp run_greg) ;; Call (run_sync_comp run_op2) ;;
  Call (run_sync_comp run_hl) ;; Call (run_sync_comp run_sp) ;;
  Call (run_sync_comp run_pc) Done.

(** [run_cu(1)], cu/cu.c:138-175. *)
Definition run_cu_1 : prog :=
  Call run_cu_seq_b_jnr ;; Call run_cu_mxreg_jnr ;; Call run_cu_seq ;;
  Call run_cu_rom ;; Call run_asyncronus_components ;;
  Upd (B K_CU T_DATA) ;; Upd (B K_CU T_FLAGS) ;; Upd (B K_CU T_CONTROL) ;;
  c <- Cur (B K_CU T_CONTROL) ;;
  let rest := (v <- RdR R_RI ;; Pub T_RIO v run_cu_tail) in       (* 165-174 *)
  if bit c RICAR then
    d <- Cur (B K_CU T_DATA) ;;
    if get_used_bits d >? bit_length R_RI then Notice E_RI Done   (* 157-160 *)
    else WrR R_RI d rest                                          (* 162 *)
  else rest.

(** [run_cu(0)], cu/cu.c:138-175. *)
Definition run_cu_0 : prog := run_cu_dxflipflop.

(** [reset_control], linker/cu.c:160-181. *)
Definition reset_control : prog :=
  let emtpy := int_to_word 0 in
  Pub T_CONTROL emtpy ;; Pub T_JOINER emtpy ;;
  Pub T_Q5 emtpy ;; Pub T_Q4 emtpy ;; Pub T_Q3 emtpy ;;
  Pub T_Q2 emtpy ;; Pub T_Q1 emtpy ;; Pub T_Q0 emtpy ;;
  Pub T_D5 emtpy ;; Pub T_D4 emtpy ;; Pub T_D3 emtpy ;;
  Pub T_D2 emtpy ;; Pub T_D1 emtpy ;; Pub T_D0 emtpy Done.

(** [set_register_pc] up to the call of the update-UI callback,
    linker/registers.c:98-101. *)
Definition set_register_pc (value : Z) : prog :=
  WrR R_PC (int_to_word value) ;;
  v <- RdR R_PC ;; Pub T_PCO v Done.

(** [set_memory_value] up to the call of the update-UI callback,
    linker/mem.c:63-64: [get_value_by_offset] returns NULL outside the memory
    and the result is dereferenced unchecked. *)
Definition set_memory_value (offset value : Z) : prog :=
  if valid_offset offset then StM offset value Done else Undef.
