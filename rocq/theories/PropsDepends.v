(** * C111: what the results of a program depend on
    The programs of C109, run in two simulators with different histories: the same registers and flags and the same
    values in the cells that LDA lines name give the same results, whatever else memory, the stack pointer and the
    program counter held. *)
From Coq Require Import String ZArith NArith List Bool Lia ZifyBool ZifyN.
From Verif Require Import Prog Isa Access Api Usage Front ApiFacts IsaFacts Reach PropsApi PropsIsa PropsRun IsaRun PropsLife.
From Verif Require Import JsStr AsmTable Asm AsmSpec AsmRe AsmLine AsmFacts AsmExec AsmProg AsmErr PropsAsm PropsDisasm PropsLoad PropsExamples PropsSpelling.
From Verif Require Import PropsRepro PropsRelocate Relocate PropsMoved PropsAnywhere PropsOwnLines.
Import ListNotations.
Open Scope list_scope.
Open Scope Z_scope.

(** ** Specification *)
(** The cells named by number in the LDA lines of a program. *)
Definition named_by_lda (p : list code) (x : Z) : Prop := exists c, In c p /\ ins c = LDA /\ ~ is_ref (val c) /\ x = numeral_value (val c).
(** The same work registers and flags: SP and PC are left out. *)
Definition same_work (h1 h2 : hstate) : Prop := forall r, In r [R_AC; R_FC; R_FZ; R_B; R_C; R_D; R_E] -> get_register_value r h1 = get_register_value r h2.

(** ** Proofs *)
Definition wk (s t : arch) : Prop := AC s = AC t /\ FC s = FC t /\ FZ s = FZ t /\ B s = B t /\ C s = C t /\ D s = D t /\ E s = E t.
Lemma step_pair : forall a n s t c, wk s t -> PC s = PC t -> 0 <= PC s -> PC s + AsmSpec.size (ins c) <= 65535 -> (forall k, 0 <= k < AsmSpec.size (ins c) -> M s (PC s + k) = M t (PC s + k)) ->
  decode (M s (PC s)) = ins c -> syntax (ins c) <> None -> simple a a n c -> (ins c = LDA -> let x := 256 * M s (PC s + 1) + M s (PC s + 2) in M s x = M t x) ->
  wk (step s) (step t) /\ PC (step s) = PC (step t) /\
  ((forall x, M (step s) x = M s x) /\ (forall x, M (step t) x = M t x) \/
   exists y, forall x, M (step s) x = (if x =? y then AC s else M s x) /\ M (step t) x = (if x =? y then AC s else M t x)).
Proof.
  intros a n [ac fc fz rb rc rd re pc sp m lg] [ac' fc' fz' rb' rc' rd' re' pc' sp' m' lg'] c (E1 & E2 & E3 & E4 & E5 & E6 & E7) Ep H0 H1 Hb Dc Sy Si Ld.
  cbn [AC FC FZ Isa.B Isa.C Isa.D Isa.E PC M] in *. subst ac' fc' fz' rb' rc' rd' re' pc'. unfold step. cbn [PC M].
  pose proof (size_pos (ins c)) as Sp. assert (B0 : m' pc = m pc) by (specialize (Hb 0 ltac:(lia)); rewrite Z.add_0_r in Hb; congruence). rewrite B0, Dc. unfold simple, AsmSpec.size, wk in *. unfold pc_next. cbn [PC].
  destruct (ins c) as [? []|?|[]| |[]| |[] [?| |]|[]| | | | | | | | | | | | | | | | | | | |] eqn:Ei; try (destruct Si; fail); try (destruct Sy; reflexivity); cbn [value_kind syntax] in *;
    try (assert (B1 : m' (pc + 1) = m (pc + 1)) by (symmetry; apply Hb; lia)); try (assert (B2 : m' (pc + 2) = m (pc + 2)) by (symmetry; apply Hb; lia));
    unfold exec_instr, with_dir, with_imm, imm, pc_next, alu_step, load_flags; cbn [put put_pc put_ac put_flags put_sp write get note PC M FZ FC AC];
    replace (pc =? 65535) with false by lia; cbn [put put_pc put_ac put_flags put_sp write get note PC M FZ FC AC];
    try (replace (pc + 1 =? 65535) with false by lia; cbn [put put_pc put_ac put_flags put_sp write get note PC M FZ FC AC]);
    try (replace (pc + 1 + 1 =? 65535) with false by lia; cbn [put put_pc put_ac put_flags put_sp write get note PC M FZ FC AC]);
    replace (pc + 1 + 1) with (pc + 2) by lia; try rewrite B1; try rewrite B2; cbn [put put_pc put_ac put_flags put_sp write get note PC M FZ FC AC Isa.B Isa.C Isa.D Isa.E].
  all: try (split; [repeat split; reflexivity|]; split; [reflexivity|]; left; split; reflexivity).
  - cbv zeta in Ld. specialize (Ld eq_refl). rewrite <- Ld. split; [repeat split; reflexivity|]. split; [reflexivity|]. left. split; reflexivity.
  - split; [repeat split; reflexivity|]. split; [reflexivity|]. right. eexists. intros x. split; reflexivity.
  - destruct fz; (split; [repeat split; reflexivity|]; split; [reflexivity|]; left; split; reflexivity).
  - destruct fc; (split; [repeat split; reflexivity|]; split; [reflexivity|]; left; split; reflexivity).
Qed.
(** The two runs side by side; [s0] and [t0] are the machines before the program was saved. *)
Record pair (p : list code) (a : Z) (bytes : list Z) (s0 t0 s t : arch) : Prop := {
  pr_wk : wk s t;
  pr_pc : PC s = PC t;
  pr_s : at_line p a bytes s;
  pr_t : holds (M t) a bytes;
  pr_lda : forall x, named_by_lda p x -> M s x = M t x;
  pr_mem : forall x, M s x = M t x \/ (M s x = M s0 x /\ M t x = M t0 x) }.
Lemma held : forall p a bytes m m' x, Z.of_nat (List.length bytes) = total p -> holds m a bytes -> holds m' a bytes -> a <= x < a + total p -> m x = m' x.
Proof. intros p a bytes m m' x Ln H1 H2 Hx. replace x with (a + Z.of_nat (Z.to_nat (x - a))) by lia. rewrite H1, H2 by lia. reflexivity. Qed.
Lemma pair_opcode : forall p a bytes s0 t0 s t, Z.of_nat (List.length bytes) = total p -> pair p a bytes s0 t0 s t -> Usage.opcode s = Usage.opcode t.
Proof. intros p a bytes s0 t0 s t Ln [_ Pc Al Ht _ _]. unfold Usage.opcode. rewrite <- Pc. apply (held p a bytes); auto; [apply Al|]. apply (line_place p a bytes s Al). Qed.
Lemma pair_next : forall p a bytes s0 t0, image p a p bytes -> 0 <= a -> a + total p <= 65535 -> (forall c, In c p -> value_ok (map lab p) c /\ ~ byte_ref c) -> (forall c, In c p -> simple a a (total p) c) ->
  forall s t, pair p a bytes s0 t0 s t -> wk (step s) (step t) /\ PC (step s) = PC (step t) /\ (forall x, named_by_lda p x -> M (step s) x = M (step t) x) /\ (forall x, M (step s) x = M (step t) x \/ (M (step s) x = M s0 x /\ M (step t) x = M t0 x)).
Proof.
  intros p a bytes s0 t0 Im Ha Fa Vp Sp s t [Wk Pc (Ho & q & c & r & Ep & Ps) Ht Ld Mm]. pose proof (image_total _ _ _ _ Im) as Ln.
  destruct (fetched p a a bytes Im Vp Sp (M s) q c r Ep Ho) as (Dc & _ & Sy & Op). destruct (line_room p a a Fa Vp Sp q c r Ep) as (Tq & Rm). assert (Ic : In c p) by (rewrite Ep; apply in_or_app; right; left; reflexivity). pose proof (Sp c Ic) as Si.
  rewrite <- Ps in Dc, Op. assert (In1 : forall q' d r' k, p = q' ++ d :: r' -> 0 <= k < AsmSpec.size (ins d) -> M s (a + total q' + k) = M t (a + total q' + k)).
  { intros q' d r' k E' Hk. apply (held p a bytes); auto. pose proof (total_pos q'). pose proof (total_pos r'). rewrite E', total_app. change (total (d :: r')) with (AsmSpec.size (ins d) + total r'). lia. }
  destruct (step_pair a (total p) s t c Wk Pc ltac:(lia) ltac:(lia)) as (W' & P' & Mn); try assumption.
  - intros k Hk. rewrite Ps. exact (In1 q c r k Ep Hk).
  - intros El. cbv zeta. assert (K : value_kind (ins c) = Some Value16) by (rewrite El; reflexivity). rewrite (Op K). destruct (operand_value p a Vp c Ic K) as [(Nr & ->)|(_ & q' & d & r' & E' & ->)].
    + apply Ld. exists c. auto.
    + pose proof (In1 q' d r' 0 E') as X. rewrite Z.add_0_r in X. apply X. pose proof (size_pos (ins d)). lia.
  - split; [exact W'|]. split; [exact P'|]. destruct Mn as [(M1 & M2)|(y & My)].
    + split; intros x; [intros Nx|]; rewrite M1, M2; [apply Ld; exact Nx|apply Mm].
    + split; intros x; [intros Nx|]; destruct (My x) as (-> & ->); destruct (x =? y); auto.
Qed.
Lemma pair_runs : forall p a bytes s0 t0, image p a p bytes -> 0 <= a -> a + total p <= 65535 -> (forall c, In c p -> value_ok (map lab p) c /\ ~ byte_ref c) -> (forall c, In c p -> simple a a (total p) c) -> closed_end p ->
  forall n s t, pair p a bytes s0 t0 s t -> (forall m, (m < n)%nat -> Usage.opcode (steps m s) <> 255) -> pair p a bytes s0 t0 (steps n s) (steps n t) /\ forall m, (m <= n)%nat -> Usage.opcode (steps m t) = Usage.opcode (steps m s).
Proof.
  intros p a bytes s0 t0 Im Ha Fa Vp Sp Cl. pose proof (image_total _ _ _ _ Im) as Ln. induction n as [|n IH]; intros s t Pr Nf.
  - split; [exact Pr|]. intros m Hm. replace m with 0%nat by lia. symmetry. exact (pair_opcode _ _ _ _ _ _ _ Ln Pr).
  - pose proof (pair_opcode _ _ _ _ _ _ _ Ln Pr) as Oc. pose proof (Nf 0%nat ltac:(lia)) as N0. cbn [steps] in N0. destruct (pair_next p a bytes s0 t0 Im Ha Fa Vp Sp s t Pr) as (W' & P' & L' & M').
    assert (At : at_line p a bytes t). { destruct Pr as [_ Pc (_ & q & c & r & Ep & Ps) Ht _ _]. split; [exact Ht|]. exists q, c, r. split; [exact Ep|congruence]. }
    pose proof (next_line p a a bytes Im Ha Fa Vp Sp Cl s (pr_s _ _ _ _ _ _ _ Pr) N0) as As'. pose proof (next_line p a a bytes Im Ha Fa Vp Sp Cl t At ltac:(congruence)) as (Ht' & _).
    destruct (IH (step s) (step t) (Build_pair _ _ _ _ _ _ _ W' P' As' Ht' L' M') ltac:(intros m Hm; apply (Nf (S m)); lia)) as (I1 & I2). split; [exact I1|]. intros [|m] Hm; [symmetry; exact Oc|]. apply I2. lia.
Qed.
Lemma work_shown : forall h1 h2 s t, shows h1 s -> shows h2 t -> (wk s t <-> same_work h1 h2).
Proof.
  intros h1 h2 s t (X1 & X2 & X3 & X4 & X5 & X6 & X7 & _) (Y1 & Y2 & Y3 & Y4 & Y5 & Y6 & Y7 & _). split.
  - intros (A1 & A2 & A3 & A4 & A5 & A6 & A7) r Hr. cbn [In] in Hr. destruct Hr as [<-|[<-|[<-|[<-|[<-|[<-|[<-|[]]]]]]]]; congruence.
  - intros H. pose proof (H R_AC ltac:(cbn; tauto)). pose proof (H R_FC ltac:(cbn; tauto)) as F1. pose proof (H R_FZ ltac:(cbn; tauto)) as F2. pose proof (H R_B ltac:(cbn; tauto)). pose proof (H R_C ltac:(cbn; tauto)). pose proof (H R_D ltac:(cbn; tauto)). pose proof (H R_E ltac:(cbn; tauto)).
    assert (Z.b2z (FC s) = Z.b2z (FC t)) by congruence. assert (Z.b2z (FZ s) = Z.b2z (FZ t)) by congruence.
    unfold wk. split; [congruence|]. split; [destruct (FC s), (FC t); cbn in *; congruence|]. split; [destruct (FZ s), (FZ t); cbn in *; congruence|]. do 3 (split; [congruence|]). congruence.
Qed.

(** Such a source, saved in two simulators with PC at its start: if 'run program' ends in the first, it ends in the second,
    with the same work registers, flags and PC; and every cell holds the same in both or is as it was in each. *)
Theorem C111_depends : forall lines codes a u l1 h1 s1 l2 h2 s2, program lines codes a -> a + total (somes codes) <= 65535 ->
  (forall c, In c (somes codes) -> simple a a (total (somes codes)) c) -> closed_end (somes codes) ->
  live l1 h1 true -> boundary h1 -> shows h1 s1 -> live l2 h2 true -> boundary h2 -> shows h2 s2 ->
  same_work h1 h2 -> (forall x, named_by_lda (somes codes) x -> get_memory_value x h1 = get_memory_value x h2) ->
  exists out slots g1 g2, parse_input (text_of lines) a = Some out /\ new_translation out = Some slots /\ placed a (slot_values slots) h1 g1 /\ placed a (slot_values slots) h2 g2 /\
    forall g1', run_program u false g1 g1' -> exists g2', run_program u false g2 g2' /\ same_work g1' g2' /\ get_register_value R_PC g1' = get_register_value R_PC g2' /\
      forall x, 0 <= x < 65536 -> get_memory_value x g1' = get_memory_value x g2' \/ (get_memory_value x g1' = get_memory_value x h1 /\ get_memory_value x g2' = get_memory_value x h2).
Proof.
  intros lines codes a u l1 h1 s1 l2 h2 s2 P Fa Sp Cl L1 B1 S1 L2 B2 S2 Sw Sl. pose proof P as (P1 & P2 & P3 & P4 & P5 & P6).
  destruct (C44_image _ _ a P1 P2 P3 P4 P5 P6) as (out & x & A1 & A2 & Im & _). set (p := somes codes) in *. pose proof (image_total _ _ _ _ Im) as Ln. pose proof (image_bytes _ _ _ _ _ P3 P5 P6 Im) as By.
  pose proof Cl as (q0 & c0 & Ep0 & Fc0). assert (Tp : 1 <= total p). { rewrite Ep0, total_app. pose proof (total_pos q0). cbn [total fold_right]. pose proof (size_pos (ins c0)). lia. }
  destruct (placed_shows a (slot_values x) l1 h1 s1 L1 B1 S1 ltac:(lia) ltac:(lia) By) as (g1 & k1 & Pl1 & Lv1 & Bd1 & Sh1).
  destruct (placed_shows a (slot_values x) l2 h2 s2 L2 B2 S2 ltac:(lia) ltac:(lia) By) as (g2 & k2 & Pl2 & Lv2 & Bd2 & Sh2).
  exists out, x, g1, g2. do 4 (split; [assumption|]). set (t1 := ready_at a (slot_values x) s1) in *. set (t2 := ready_at a (slot_values x) s2) in *.
  pose proof S1 as (_ & _ & _ & _ & _ & _ & _ & _ & _ & X10 & _). pose proof S2 as (_ & _ & _ & _ & _ & _ & _ & _ & _ & Y10 & _).
  assert (Pr : pair p a (slot_values x) s1 s2 t1 t2).
  { split.
    - apply (proj2 (work_shown h1 h2 s1 s2 S1 S2) Sw).
    - reflexivity.
    - split; [apply stored_holds|]. destruct p as [|c r]; [cbn in Tp; lia|]. exists [], c, r. split; [reflexivity|]. cbn. lia.
    - apply stored_holds.
    - intros y (c & Hc & Il & Nr & ->). specialize (Sp c Hc). unfold simple in Sp. rewrite Il in Sp. destruct Sp as [R|(El & _)]; [destruct (Nr R)|].
      destruct (P3 c Hc) as (V & _). unfold value_ok in V. rewrite Il in V. cbn [value_kind syntax] in V. destruct V as [(Nm & Vl)|(R & _)]; [|destruct (Nr R)].
      pose proof (numeral_nonneg (val c)) as V0.
      specialize (Sl (numeral_value (val c)) ltac:(exists c; auto)). rewrite X10, Y10 in Sl by lia. injection Sl as Sl.
      cbn [M ready_at t1 t2]. unfold stored. destruct (_ && _); [reflexivity|exact Sl].
    - intros y. cbn [M ready_at t1 t2]. unfold stored. destruct (_ && _); auto. }
  intros g1' R1. destruct (C41_stops_only_after_fin u k1 g1 true t1 g1' ltac:(auto) Lv1 Bd1 Sh1 R1) as (n & (F1 & F2) & Z1 & _).
  destruct (pair_runs p a (slot_values x) s1 s2 Im P5 Fa P3 Sp Cl n t1 t2 Pr F2) as (Prn & Oc).
  assert (Ff : first_fin n t2) by (split; [rewrite Oc by lia; exact F1|]; intros m Hm; rewrite Oc by lia; apply F2; exact Hm).
  destruct (C41_stops_after_fin n u k2 g2 true t2 ltac:(auto) Lv2 Bd2 Sh2 Ff) as (g2' & R2 & Z2 & _). exists g2'. split; [exact R2|].
  destruct (pair_next p a (slot_values x) s1 s2 Im P5 Fa P3 Sp _ _ Prn) as (W' & Pc' & _ & M').
  assert (En : forall v, steps (S n) v = step (steps n v)) by (intros v; replace (S n) with (n + 1)%nat by lia; rewrite steps_add; reflexivity). rewrite <- !En in W', Pc', M'.
  split; [apply (work_shown g1' g2' _ _ Z1 Z2); exact W'|]. destruct Z1 as (_ & _ & _ & _ & _ & _ & _ & C1 & _ & D1 & _). destruct Z2 as (_ & _ & _ & _ & _ & _ & _ & C2 & _ & D2 & _).
  split; [congruence|]. intros y Hy. rewrite D1, D2, X10, Y10 by exact Hy. destruct (M' y) as [->|(-> & ->)]; auto.
Qed.
(** A case: a sum of a cell and a register, in two simulators whose memory, SP and PC differ. *)
Definition sum_lines : list str := [s2l "LDA 0400"; s2l "ADD RB"; s2l "STA 0300"; s2l "FIN"].
Definition sum_codes : list (option code) := [Some (mkCode [] LDA (s2l "0400")); Some (mkCode [] (OP ADD (Reg RB)) []); Some (mkCode [] STA (s2l "0300")); Some (mkCode [] FIN [])].
Lemma sum_program : program sum_lines sum_codes 256.
Proof.
  split; [split; [discriminate|]; intros l Hl; unfold sum_lines in Hl; cbn [In] in Hl; repeat (destruct Hl as [<-|Hl]; [no_newline|]); destruct Hl|].
  split; [unfold sum_lines, sum_codes; do 4 (constructor; [line_plain|]); constructor|].
  split; [intros c Hin; unfold sum_codes in *; cbn [somes] in *; set (L := map lab _); cbn [In] in Hin; value_checks|].
  split; [discriminate|split; [lia|]]. unfold sum_codes. cbn [somes total fold_right ins]. cbv [AsmSpec.size value_kind syntax]. lia.
Qed.
Example C111_nonvacuous : program sum_lines sum_codes 256 /\ 256 + total (somes sum_codes) <= 65535 /\ (forall c, In c (somes sum_codes) -> simple 256 256 (total (somes sum_codes)) c) /\ closed_end (somes sum_codes) /\
  named_by_lda (somes sum_codes) 1024 /\
  exists l1 h1 s1 l2 h2 s2, live l1 h1 true /\ boundary h1 /\ shows h1 s1 /\ live l2 h2 true /\ boundary h2 /\ shows h2 s2 /\ same_work h1 h2 /\
    (forall x, named_by_lda (somes sum_codes) x -> get_memory_value x h1 = get_memory_value x h2) /\ get_memory_value 1280 h1 <> get_memory_value 1280 h2 /\ SP s1 <> SP s2 /\ PC s1 <> PC s2.
Proof.
  split; [exact sum_program|]. change (total (somes sum_codes)) with 8. split; [lia|].
  split. { intros c Hc. unfold sum_codes in Hc. cbn [somes In] in Hc. destruct Hc as [<-|[<-|[<-|[<-|[]]]]]; unfold simple; cbn [ins val]; try exact I.
    - right. unfold elsewhere. change (numeral_value (s2l "0400")) with 1024. lia.
    - split; [discriminate|]. unfold elsewhere. change (numeral_value (s2l "0300")) with 768. lia. }
  split; [exists (removelast (somes sum_codes)), (mkCode [] FIN []); split; [reflexivity|left; reflexivity]|].
  split; [exists (mkCode [] LDA (s2l "0400")); split; [left; reflexivity|]; split; [reflexivity|]; split; [discriminate|reflexivity]|].
  set (s := mkArch 1 true false 2 3 4 5 9 50 (fun _ => 7) []). set (t := mkArch 1 true false 2 3 4 5 10 60 (fun x => if x =? 1280 then 8 else 7) []).
  destruct (C14_nonvacuous s) as (l1 & h1 & L1 & B1 & S1); [repeat split; cbn; lia|reflexivity|]. destruct (C14_nonvacuous t) as (l2 & h2 & L2 & B2 & S2); [repeat split; cbn; try lia; destruct (_ =? _); lia|reflexivity|].
  exists l1, h1, s, l2, h2, t. do 6 (split; [assumption|]). split; [apply (work_shown h1 h2 s t S1 S2); repeat split|].
  destruct S1 as (_ & _ & _ & _ & _ & _ & _ & _ & _ & X & _). destruct S2 as (_ & _ & _ & _ & _ & _ & _ & _ & _ & Y & _).
  split. { intros x (c & Hc & Il & _ & ->). unfold sum_codes in Hc. cbn [somes In] in Hc. destruct Hc as [<-|[<-|[<-|[<-|[]]]]]; try discriminate Il. cbn [val]. change (numeral_value (s2l "0400")) with 1024. rewrite X, Y by lia. reflexivity. }
  split; [rewrite X, Y by lia; discriminate|]. split; discriminate.
Qed.
Print Assumptions C111_depends.
Print Assumptions C111_nonvacuous.
