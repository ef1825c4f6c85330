(** * C108: a source assembled for two places of memory does the same in both
    From the text in the editor to "run program": C44 (assembling), C42 (saving), C35 (setting
    PC) and C107 (a program in another place) together. *)
From Coq Require Import String ZArith NArith List Bool Lia ZifyBool ZifyN.
From Verif Require Import Prog Isa Access Api Usage Front ApiFacts IsaFacts Reach PropsApi PropsIsa PropsRun IsaRun PropsLife.
From Verif Require Import JsStr AsmTable Asm AsmSpec AsmRe AsmLine AsmFacts AsmExec AsmProg AsmErr PropsAsm PropsDisasm PropsLoad PropsExamples PropsSpelling.
From Verif Require Import PropsRepro PropsRelocate Relocate.
Import ListNotations.
Open Scope list_scope.
Open Scope Z_scope.

(** ** Specification *)
(** The first cell of every two-byte operand, the first instruction being at [a]. *)
Fixpoint operand_cells (q : list code) (a x : Z) : Prop :=
  match q with
  | [] => False
  | c :: q' => (value_kind (ins c) = Some Value16 /\ x = a + 1) \/ operand_cells q' (a + AsmSpec.size (ins c)) x
  end.
(** The program [p] at [a], to be moved to [b]. *)
Definition from_to (p : list code) (a b : Z) : place := mkPlace a (total p) (b - a) (operand_cells p a).
(** The program names its own cells by labels only: no two-byte number is an address of it. *)
Definition by_labels (p : list code) (a : Z) : Prop :=
  forall c, In c p -> value_kind (ins c) = Some Value16 -> ~ is_ref (val c) -> ~ (a <= numeral_value (val c) < a + total p).
(** The memory [m] with [bytes] from [from] on. *)
Definition stored (from : Z) (bytes : list Z) (m : Z -> Z) (x : Z) : Z :=
  if (from <=? x) && (x <? from + Z.of_nat (List.length bytes)) then nth (Z.to_nat (x - from)) bytes 0 else m x.
(** [s] with [bytes] stored from [from] on and PC there. *)
Definition ready_at (from : Z) (bytes : list Z) (s : arch) : arch :=
  mkArch (AC s) (FC s) (FZ s) (B s) (C s) (D s) (E s) from (SP s) (stored from bytes (M s)) (log s).
(** Save at [from] and set PC to [from]. *)
Definition placed (from : Z) (bytes : list Z) (h h' : hstate) : Prop :=
  exists h0, save_to_memory from bytes h = Some h0 /\ do_call (SetPc from) h0 = Some h'.

(** ** Proofs *)
Lemma total_pos : forall p, 0 <= total p.
Proof. induction p as [|c p IH]; cbn [total fold_right]; [lia|]. pose proof (size_pos (ins c)). unfold total in IH. lia. Qed.
Lemma address_inside : forall p a n, In n (map lab p) -> a <= address p a n < a + total p.
Proof.
  induction p as [|c p IH]; intros a n H; [destruct H|]. cbn [address]. change (total (c :: p)) with (AsmSpec.size (ins c) + total p). pose proof (size_pos (ins c)). pose proof (total_pos p).
  destruct (str_eqb (lab c) n) eqn:X; [lia|]. destruct H as [H|H]; [rewrite H, (proj2 (str_eqb_eq n n) eq_refl) in X; discriminate X|]. specialize (IH (a + AsmSpec.size (ins c)) n H). lia.
Qed.
Lemma operand_cells_range : forall q a x, operand_cells q a x -> a + 1 <= x /\ x + 1 < a + total q.
Proof.
  induction q as [|c q IH]; intros a x H; [destruct H|]. cbn [operand_cells] in H. change (total (c :: q)) with (AsmSpec.size (ins c) + total q). pose proof (size_pos (ins c)). pose proof (total_pos q).
  destruct H as [(K & ->)|H]; [unfold AsmSpec.size in *; rewrite K in *; lia|]. apply IH in H. lia.
Qed.
Lemma div_mod_back : forall v, 256 * (v / 256) + v mod 256 = v.
Proof. intros v. symmetry. apply Z.div_mod. lia. Qed.
Lemma moved_image : forall p a b m m' q o x y, (forall c, In c q -> In c p /\ value_ok (map lab p) c /\ ~ byte_ref c /\ syntax (ins c) <> None) -> by_labels p a ->
  image p a q x -> image p b q y -> holds m o x -> holds m' (o + (b - a)) y ->
  (forall z, o <= z < o + total q -> ~ operand_cells q o z -> ~ operand_cells q o (z - 1) -> m' (z + (b - a)) = m z) /\
  (forall z, operand_cells q o z -> 256 * m' (z + (b - a)) + m' (z + 1 + (b - a)) = there (from_to p a b) (256 * m z + m (z + 1))).
Proof.
  intros p a b m m'. induction q as [|c q IH]; intros o x y V Nb Ix Iy Hx Hy; [split; [intros z Hz; cbn in Hz; lia|intros z []]|].
  cbn [image] in Ix, Iy. destruct Ix as (x1 & x2 & -> & E1 & Ix). destruct Iy as (y1 & y2 & -> & E2 & Iy).
  apply holds_app in Hx. destruct Hx as (Hx & Hx2). apply holds_app in Hy. destruct Hy as (Hy & Hy2). rewrite (encodes_size _ _ _ _ E1) in Hx2. rewrite (encodes_size _ _ _ _ E2) in Hy2.
  replace (o + (b - a) + AsmSpec.size (ins c)) with (o + AsmSpec.size (ins c) + (b - a)) in Hy2 by lia.
  destruct (IH (o + AsmSpec.size (ins c)) x2 y2 (fun d Hd => V d (or_intror Hd)) Nb Ix Iy Hx2 Hy2) as (I1 & I2). clear IH. destruct (V c (or_introl eq_refl)) as (Ic & Vc & Nc & Sy).
  destruct E1 as (op & O1 & ->), E2 as (op' & O2 & ->). pose proof (C43_opcode_unique _ _ _ Sy O1 O2). subst op'.
  pose proof (size_pos (ins c)) as Sp. change (total (c :: q)) with (AsmSpec.size (ins c) + total q).
  assert (H0 : m' (o + (b - a)) = m o). { pose proof (Hx 0%nat ltac:(cbn; lia)) as X. pose proof (Hy 0%nat ltac:(cbn; lia)) as Y. cbn [nth] in X, Y. change (Z.of_nat 0) with 0 in X, Y. rewrite Z.add_0_r in X, Y. congruence. }
  split.
  - intros z Hz N1 N2. cbn [operand_cells] in N1, N2. destruct (Z.lt_ge_cases z (o + AsmSpec.size (ins c))) as [G|G]; [|apply I1; [lia|tauto|tauto]].
    destruct (Z.eq_dec z o) as [->|Nz]; [exact H0|]. unfold AsmSpec.size in G. destruct (value_kind (ins c)) as [[s| |]|] eqn:K; try lia.
    + assert (z = o + 1) by lia. subst z. pose proof (Hx 1%nat ltac:(cbn; lia)) as X. pose proof (Hy 1%nat ltac:(cbn; lia)) as Y. cbn [nth] in X, Y. change (Z.of_nat 1) with 1 in X, Y. replace (o + 1 + (b - a)) with (o + (b - a) + 1) by lia. congruence.
    + exfalso. assert (z = o + 1 \/ z = o + 2) as [->| ->] by lia; [apply N1; auto|apply N2; left; split; [reflexivity|lia]].
  - intros z Hz. cbn [operand_cells] in Hz. destruct Hz as [(K & ->)|Hz]; [|apply I2; exact Hz]. rewrite K in Hx, Hy.
    pose proof (Hx 1%nat ltac:(cbn; lia)) as X1. pose proof (Hx 2%nat ltac:(cbn; lia)) as X2. pose proof (Hy 1%nat ltac:(cbn; lia)) as Y1. pose proof (Hy 2%nat ltac:(cbn; lia)) as Y2.
    cbn [nth] in X1, X2, Y1, Y2. change (Z.of_nat 1) with 1 in X1, Y1. change (Z.of_nat 2) with 2 in X2, Y2.
    replace (o + 1 + (b - a)) with (o + (b - a) + 1) by lia. replace (o + 1 + 1 + (b - a)) with (o + (b - a) + 2) by lia. replace (o + 1 + 1) with (o + 2) by lia. rewrite X1, X2, Y1, Y2, !div_mod_back.
    unfold value_ok in Vc. rewrite K in Vc. unfold there. cbn [base Relocate.size shift from_to]. destruct Vc as [(Nm & _)|(Rf & Hi)].
    + assert (Nr : ~ is_ref (val c)) by (intros R; exact (ref_not_numeral _ R Nm)). rewrite !nonref_head by exact Nr. specialize (Nb c Ic K Nr).
      replace ((a <=? numeral_value (val c)) && (numeral_value (val c) <? a + total p)) with false by lia. reflexivity.
    + unfold is_ref in Rf. rewrite Rf. pose proof (address_inside p a (val c) Hi). replace ((a <=? address p a (val c)) && (address p a (val c) <? a + total p)) with true by lia.
      replace b with (a + (b - a)) at 1 by lia. apply address_moved. exact Hi.
Qed.
Lemma stored_holds : forall from bytes m, holds (stored from bytes m) from bytes.
Proof.
  intros from bytes m k Hk. unfold stored. replace ((from <=? from + Z.of_nat k) && (from + Z.of_nat k <? from + Z.of_nat (List.length bytes))) with true by lia. f_equal. lia.
Qed.
(** Assembled for [a] and for [b] and stored there, one is the other moved. *)
Theorem C108_copied : forall lines codes a b, program lines codes a -> program lines codes b -> by_labels (somes codes) a ->
  exists out1 out2 slots1 slots2, parse_input (text_of lines) a = Some out1 /\ parse_input (text_of lines) b = Some out2 /\ new_translation out1 = Some slots1 /\ new_translation out2 = Some slots2 /\
    forall s, copied (from_to (somes codes) a b) ordinary (ready_at a (slot_values slots1) s) (ready_at b (slot_values slots2) s).
Proof.
  intros lines codes a b P Q Nb. pose proof P as (P1 & P2 & P3 & P4 & P5 & P6). pose proof Q as (_ & _ & _ & _ & Q5 & Q6). pose proof (program_syntax _ _ P2) as Sy.
  destruct (C44_image _ _ a P1 P2 P3 P4 P5 P6) as (out1 & s1 & E1 & T1 & I1 & _). destruct (C44_image _ _ b P1 P2 P3 P4 Q5 Q6) as (out2 & s2 & E2 & T2 & I2 & _).
  exists out1, out2, s1, s2. repeat (split; [assumption|]). intros s. set (p := somes codes) in *.
  destruct (moved_image p a b (stored a (slot_values s1) (M s)) (stored b (slot_values s2) (M s)) p a _ _ ltac:(intros c Hc; destruct (P3 c Hc); auto) Nb I1 I2 (stored_holds _ _ _)) as (C1 & C2).
  { replace (a + (b - a)) with b by lia. apply stored_holds. }
  pose proof (image_total _ _ _ _ I1) as L1. pose proof (image_total _ _ _ _ I2) as L2.
  assert (Tp : 1 <= total p). { destruct p as [|c q]; [congruence|]. change (total (c :: q)) with (AsmSpec.size (ins c) + total q). pose proof (size_pos (ins c)). pose proof (total_pos q). lia. }
  constructor.
  - cbn. auto 10.
  - cbn [PC ready_at]. unfold goes_on. cbn [base Relocate.size shift from_to]. replace ((a <=? a) && (a <=? a + total p)) with true by lia. lia.
  - intros x (Ix & N1 & N2). cbn [M ready_at]. unfold inside in Ix. cbn [base Relocate.size shift refs from_to] in *. apply C1; assumption.
  - intros x Hx. cbn [M ready_at]. cbn [refs shift from_to] in *. apply C2. exact Hx.
  - intros x (A1 & A2) _. cbn [M ready_at]. unfold inside in *. cbn [base Relocate.size shift from_to] in *. unfold stored. rewrite L1, L2.
    replace ((a <=? x) && (x <? a + total p)) with false by lia. replace ((b <=? x) && (x <? b + total p)) with false by lia. reflexivity.
  - intros x K. discriminate K.
Qed.
Lemma obs_shows : forall l h k, live l h k -> exists c, obs h c.
Proof. intros l h k L. destruct (live_up l h k L) as (_ & z & U). destruct (up_obs h z U) as (O & _). eauto. Qed.
Lemma placed_shows : forall from bytes l h s, live l h true -> boundary h -> shows h s -> 0 <= from < 65535 -> from + Z.of_nat (List.length bytes) <= 65536 -> (forall v, In v bytes -> 0 <= v <= 255) ->
  exists h' l', placed from bytes h h' /\ live l' h' true /\ boundary h' /\ shows h' (ready_at from bytes s).
Proof.
  intros from bytes l h s L Bd Sh H0 H1 By. destruct (obs_shows l h true L) as (c & O). destruct (C42_save bytes l h from c L O ltac:(lia) H1 By) as (h0 & S1 & L0 & Rg & Mi & Mo & _ & Nx & Lg).
  assert (B0 : boundary h0) by (split; [exact Nx|]; rewrite !Rg; apply Bd).
  set (s0 := mkArch (AC s) (FC s) (FZ s) (B s) (C s) (D s) (E s) (PC s) (SP s) (stored from bytes (M s)) (log s)).
  assert (Sh0 : shows h0 s0).
  { destruct Sh as (X1 & X2 & X3 & X4 & X5 & X6 & X7 & X8 & X9 & X10 & X11). unfold shows, s0. cbn [AC FC FZ Isa.B C D Isa.E PC SP M log]. rewrite !Rg. repeat (split; [assumption|]). split; [|congruence].
    intros i Hi. unfold stored. destruct ((from <=? i) && (i <? from + Z.of_nat (List.length bytes))) eqn:In_; [|rewrite Mo by lia; apply X10; exact Hi].
    replace i with (from + Z.of_nat (Z.to_nat (i - from))) at 1 by lia. rewrite Mi by lia. apply nth_error_nth'. lia. }
  destruct (C35_redirects _ h0 s0 from L0 B0 Sh0 H0) as (h' & E' & L' & B' & Sh'). exists h'. eexists. split; [exists h0; auto|]. split; [exact L'|]. split; [exact B'|exact Sh'].
Qed.
(** The same source, saved at [a] with PC there and saved at [b] with PC there: if the run at [a]
    keeps to the rules of C107 and reaches FIN, both runs end, with the same registers,
    the same notices and the same memory apart from the program and return addresses. *)
Theorem C108_program : forall lines codes a b u l h s, program lines codes a -> program lines codes b -> by_labels (somes codes) a ->
  a + total (somes codes) <= 65535 -> b + total (somes codes) <= 65535 -> live l h true -> boundary h -> shows h s ->
  exists out1 out2 slots1 slots2 h1 h2, parse_input (text_of lines) a = Some out1 /\ parse_input (text_of lines) b = Some out2 /\ new_translation out1 = Some slots1 /\ new_translation out2 = Some slots2 /\
    placed a (slot_values slots1) h h1 /\ placed b (slot_values slots2) h h2 /\
    let s1 := ready_at a (slot_values slots1) s in let p := from_to (somes codes) a b in shows h1 s1 /\
    forall n, first_fin n s1 -> tames p ordinary (S n) s1 ->
      exists h1' h2' b1 b2, run_program u false h1 h1' /\ run_program u false h2 h2' /\ shows h1' b1 /\ shows h2' b2 /\ copied p (tagged ordinary (S n) s1) b1 b2 /\
        exists new, log b1 = new ++ log s /\ log b2 = new ++ log s.
Proof.
  intros lines codes a b u l h s P Q Nb Fa Fb L Bd Sh. destruct (C108_copied lines codes a b P Q Nb) as (out1 & out2 & x1 & x2 & E1 & E2 & T1 & T2 & Cp).
  pose proof P as (P1 & P2 & P3 & P4 & P5 & P6). pose proof Q as (_ & _ & _ & _ & Q5 & Q6).
  destruct (C44_image _ _ a P1 P2 P3 P4 P5 P6) as (o1 & y1 & A1 & A2 & I1 & _). assert (o1 = out1) by congruence. subst o1. assert (y1 = x1) by congruence. subst y1.
  destruct (C44_image _ _ b P1 P2 P3 P4 Q5 Q6) as (o2 & y2 & B1 & B2 & I2 & _). assert (o2 = out2) by congruence. subst o2. assert (y2 = x2) by congruence. subst y2.
  pose proof (image_total _ _ _ _ I1) as L1. pose proof (image_total _ _ _ _ I2) as L2. pose proof (image_bytes _ _ _ _ _ P3 P5 P6 I1) as By1. pose proof (image_bytes _ _ _ _ _ P3 Q5 Q6 I2) as By2.
  assert (Tp : 1 <= total (somes codes)). { destruct (somes codes) as [|c q]; [congruence|]. change (total (c :: q)) with (AsmSpec.size (ins c) + total q). pose proof (size_pos (ins c)). pose proof (total_pos q). lia. }
  destruct (placed_shows a (slot_values x1) l h s L Bd Sh ltac:(lia) ltac:(lia) By1) as (h1 & l1 & Pl1 & Lv1 & Bd1 & Sh1).
  destruct (placed_shows b (slot_values x2) l h s L Bd Sh ltac:(lia) ltac:(lia) By2) as (h2 & l2 & Pl2 & Lv2 & Bd2 & Sh2).
  exists out1, out2, x1, x2, h1, h2. do 6 (split; [assumption|]). cbv zeta. split; [exact Sh1|]. intros n Ff Tm.
  assert (Ft : fits (from_to (somes codes) a b)).
  { unfold fits, inside. cbn [base Relocate.size shift refs from_to]. repeat (split; [lia|]). intros x Hx. apply operand_cells_range in Hx. lia. }
  exact (C107_program n _ u l1 h1 true _ l2 h2 true _ Ft Lv1 Bd1 Sh1 Lv2 Bd2 Sh2 ltac:(auto) (Cp s) Ff Tm).
Qed.

(** ** A case: INISP 0200; CALL TS; FIN; TS INC AC; RET, assembled for 0 and for 0100. *)
Definition sub_lines : list str := [s2l "INISP 0200"; s2l "CALL TS"; s2l "FIN"; s2l "TS INC AC"; s2l "RET"].
Definition sub_codes : list (option code) :=
  [Some (mkCode [] INISP (s2l "0200")); Some (mkCode [] CALL (s2l "TS")); Some (mkCode [] FIN []); Some (mkCode (s2l "TS") INC_ac []); Some (mkCode [] RET [])].
Lemma sub_program : forall init, 0 <= init -> init + 9 <= 65535 -> program sub_lines sub_codes init.
Proof.
  intros init H0 H1. split; [split; [discriminate|]; intros l Hl; unfold sub_lines in Hl; cbn [In] in Hl; repeat (destruct Hl as [<-|Hl]; [no_newline|]); destruct Hl|].
  split; [unfold sub_lines, sub_codes; do 3 (constructor; [line_plain|]); constructor; [line_label "INC AC"%string|]; constructor; [line_plain|]; constructor|].
  split; [intros c Hin; unfold sub_codes in *; cbn [somes] in *; set (L := map lab _); cbn [In] in Hin; value_checks|].
  split; [discriminate|split; [auto|]]. unfold sub_codes. cbn [somes total fold_right ins]. cbv [AsmSpec.size value_kind syntax]. lia.
Qed.
Lemma sub_cells x : operand_cells (somes sub_codes) 0 x <-> x = 1 \/ x = 4.
Proof. unfold sub_codes. cbn [somes operand_cells ins]. cbv [AsmSpec.size value_kind syntax]. split; [intros [(_ & H)|[(_ & H)|[(X & _)|[(X & _)|[(X & _)|[]]]]]]; try discriminate X; lia|intros [->| ->]; [left; split; [reflexivity|lia]|right; left; split; [reflexivity|lia]]]. Qed.
Definition P_sub : place := from_to (somes sub_codes) 0 256.
Lemma sub_literal x : x = 0 \/ x = 3 \/ x = 6 \/ x = 7 \/ x = 8 -> literal P_sub x.
Proof. intros H. unfold literal, inside. cbn [base Relocate.size refs P_sub from_to]. change (total (somes sub_codes)) with 9. split; [lia|]. split; intros X; apply sub_cells in X; lia. Qed.
Lemma sub_aside x : ~ (0 <= x < 9) /\ ~ (256 <= x < 265) -> aside P_sub x.
Proof. unfold aside, inside. cbn [base Relocate.size shift P_sub from_to]. change (total (somes sub_codes)) with 9. lia. Qed.
Ltac tame_sub := unfold tame;
  match goal with |- context [decode ?e] => val (decode e) end; cbv iota zeta beta;
  match goal with |- literal P_sub ?e /\ _ => split; [val e; apply sub_literal; lia|] end.
Example C108_nonvacuous : program sub_lines sub_codes 0 /\ program sub_lines sub_codes 256 /\ by_labels (somes sub_codes) 0 /\
  (exists out slots, parse_input (text_of sub_lines) 0 = Some out /\ new_translation out = Some slots /\ slot_values slots = here_bytes) /\
  (exists out slots, parse_input (text_of sub_lines) 256 = Some out /\ new_translation out = Some slots /\ slot_values slots = there_bytes) /\
  exists l h s, live l h true /\ boundary h /\ shows h s /\ first_fin 4 (ready_at 0 here_bytes s) /\ tames P_sub ordinary 5 (ready_at 0 here_bytes s) /\ AC (steps 5 (ready_at 0 here_bytes s)) = 1.
Proof.
  split; [apply sub_program; lia|]. split; [apply sub_program; lia|].
  split. { intros c Hc K Nr. change (total (somes sub_codes)) with 9. unfold sub_codes in Hc. cbn [somes In] in Hc. destruct Hc as [<-|[<-|[<-|[<-|[<-|[]]]]]]; try discriminate K; [vm_compute; intros (_ & X); discriminate X|destruct Nr; reflexivity]. }
  split; [eexists; eexists; split; [vm_compute; reflexivity|split; vm_compute; reflexivity]|]. split; [eexists; eexists; split; [vm_compute; reflexivity|split; vm_compute; reflexivity]|].
  set (s := start 10 (fun _ => 0)). destruct (C14_nonvacuous s) as (l & h & L & Bd & Sh); [apply start_valid; intros; lia|reflexivity|]. exists l, h, s. do 3 (split; [assumption|]). unfold s. clear.
  set (a := ready_at 0 here_bytes (start 10 (fun _ => 0))). split; [|split; [|reflexivity]].
  - split; [reflexivity|]. intros m Hm. destruct m as [|[|[|[|m]]]]; [| | | |exfalso; lia]; intro X; vm_compute in X; discriminate X.
  - cbn [tames]. split; [tame_sub|].
    { val (operand a). change (PC a) with 0. split; [apply sub_cells; lia|]. unfold inside. cbn [base Relocate.size P_sub from_to]. change (total (somes sub_codes)) with 9. lia. }
    split; [tame_sub|].
    { cbn [base Relocate.size refs P_sub from_to]. change (total (somes sub_codes)) with 9. val (PC (step a)). val (operand (step a)). val (SP (step a)).
      split; [split; [apply sub_cells; lia|lia]|]. split; [lia|]. split; apply sub_aside; lia. }
    split; [tame_sub; exact I|]. split; [tame_sub; vm_compute; auto|]. split; [tame_sub; exact I|exact I].
Qed.
(** Naming a cell of the program by a number does not work: JMP 0004; FIN; INC AC; FIN written with a
    number, assembled for 0100, jumps to 0004 all the same. *)
Definition num_lines : list str := [s2l "JMP 0004"; s2l "FIN"; s2l "INC AC"; s2l "FIN"].
Theorem C108_numbers_refuted : ~ (forall lines codes a b n s, program lines codes a -> program lines codes b ->
  forall out1 out2 slots1 slots2, parse_input (text_of lines) a = Some out1 -> parse_input (text_of lines) b = Some out2 -> new_translation out1 = Some slots1 -> new_translation out2 = Some slots2 ->
    first_fin n (ready_at a (slot_values slots1) s) -> AC (steps n (ready_at a (slot_values slots1) s)) = AC (steps n (ready_at b (slot_values slots2) s))).
Proof.
  intros H. set (codes := [Some (mkCode [] JMP (s2l "0004")); Some (mkCode [] FIN []); Some (mkCode [] INC_ac []); Some (mkCode [] FIN [])]).
  assert (P : forall init, 0 <= init -> init + 6 <= 65535 -> program num_lines codes init).
  { intros init H0 H1. split; [split; [discriminate|]; intros l Hl; unfold num_lines in Hl; cbn [In] in Hl; repeat (destruct Hl as [<-|Hl]; [no_newline|]); destruct Hl|].
    split; [unfold num_lines, codes; do 4 (constructor; [line_plain|]); constructor|].
    split; [intros c Hin; unfold codes in *; cbn [somes] in *; set (L := map lab _); cbn [In] in Hin; value_checks|].
    split; [discriminate|split; [auto|]]. unfold codes. cbn [somes total fold_right ins]. cbv [AsmSpec.size value_kind syntax]. lia. }
  specialize (H num_lines codes 0 256 2%nat (start 0 (fun _ => 0)) (P 0 ltac:(lia) ltac:(lia)) (P 256 ltac:(lia) ltac:(lia))).
  assert (X1 : exists o s, parse_input (text_of num_lines) 0 = Some o /\ new_translation o = Some s /\ slot_values s = [116; 0; 4; 255; 75; 255]) by (eexists; eexists; split; [vm_compute; reflexivity|split; vm_compute; reflexivity]).
  assert (X2 : exists o s, parse_input (text_of num_lines) 256 = Some o /\ new_translation o = Some s /\ slot_values s = [116; 0; 4; 255; 75; 255]) by (eexists; eexists; split; [vm_compute; reflexivity|split; vm_compute; reflexivity]).
  destruct X1 as (o1 & t1 & A1 & A2 & A3). destruct X2 as (o2 & t2 & B1 & B2 & B3). specialize (H o1 o2 t1 t2 A1 B1 A2 B2). rewrite A3, B3 in H.
  assert (F : first_fin 2 (ready_at 0 [116; 0; 4; 255; 75; 255] (start 0 (fun _ => 0)))) by (split; [reflexivity|]; intros m Hm; destruct m as [|[|m]]; [| |exfalso; lia]; intro X; vm_compute in X; discriminate X).
  specialize (H F). vm_compute in H. discriminate H.
Qed.
Print Assumptions C108_copied.
Print Assumptions C108_program.
Print Assumptions C108_nonvacuous.
Print Assumptions C108_numbers_refuted.
