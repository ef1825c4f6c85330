(** * C108, programs that do the same wherever they are
    Programs of moves, arithmetic, flags, jumps to labels, and LDA, STA, INISP of fixed cells: the
    rules of C107 hold for all their runs, so nothing is asked of the run. *)
From Coq Require Import String ZArith NArith List Bool Lia ZifyBool ZifyN.
From Verif Require Import Prog Isa Access Api Usage Front ApiFacts IsaFacts Reach PropsApi PropsIsa PropsRun IsaRun PropsLife.
From Verif Require Import JsStr AsmTable Asm AsmSpec AsmRe AsmLine AsmFacts AsmExec AsmProg AsmErr PropsAsm PropsDisasm PropsLoad PropsExamples PropsSpelling.
From Verif Require Import PropsRepro PropsRelocate Relocate PropsMoved.
Import ListNotations.
Open Scope list_scope.
Open Scope Z_scope.

(** ** Specification *)
(** [x] is in neither of the places of [n] cells from [a] and from [b]. *)
Definition elsewhere (a b n x : Z) : Prop := ~ (a <= x < a + n) /\ ~ (b <= x < b + n).
(** The line [c] of a program of [n] cells, to be put at [a] or at [b]: jumps go to labels; LDA reads the cell of a
    label or a cell elsewhere; STA writes a cell elsewhere; no stack and no D:E addresses. *)
Definition simple (a b n : Z) (c : code) : Prop :=
  match ins c with
  | JMP | BEQ | BC_ => is_ref (val c)
  | LDA => is_ref (val c) \/ elsewhere a b n (numeral_value (val c))
  | STA | INISP => ~ is_ref (val c) /\ elsewhere a b n (numeral_value (val c))
  | LDAX | STAX | PUSH | POP | CALL | RET | IRET => False
  | _ => True
  end.
(** The last line is FIN or JMP: execution does not run past the end. *)
Definition closed_end (p : list code) : Prop := exists q c, p = q ++ [c] /\ (ins c = FIN \/ ins c = JMP).
(** The same results, PC being [d] cells further on the second. *)
Definition same_results (a b n : Z) (h1 h2 : hstate) : Prop :=
  (forall r, In r [R_AC; R_FC; R_FZ; R_B; R_C; R_D; R_E; R_SP] -> get_register_value r h1 = get_register_value r h2) /\
  (exists v, get_register_value R_PC h1 = Some v /\ get_register_value R_PC h2 = Some (v + (b - a))) /\
  (forall x, 0 <= x < 65536 -> elsewhere a b n x -> get_memory_value x h1 = get_memory_value x h2) /\ hl h1 = hl h2.

(** ** Proofs *)
Lemma total_app : forall p q, total (p ++ q) = total p + total q.
Proof. induction p as [|c p IH]; intros q; [reflexivity|]. change (total ((c :: p) ++ q)) with (AsmSpec.size (ins c) + total (p ++ q)). change (total (c :: p)) with (AsmSpec.size (ins c) + total p). rewrite IH. lia. Qed.
Lemma image_split : forall p a q r bytes, image p a (q ++ r) bytes -> exists x y, bytes = x ++ y /\ Z.of_nat (List.length x) = total q /\ image p a r y.
Proof.
  intros p a. induction q as [|c q IH]; intros r bytes H; [exists [], bytes; auto|]. cbn [app image] in H. destruct H as (b & bs & -> & E & H). destruct (IH r bs H) as (x & y & -> & L & I). exists (b ++ x), y.
  split; [apply app_assoc|]. split; [|exact I]. rewrite app_length. pose proof (encodes_size _ _ _ _ E). change (total (c :: q)) with (AsmSpec.size (ins c) + total q). lia.
Qed.
Lemma cells_app : forall q r a x, operand_cells (q ++ r) a x <-> operand_cells q a x \/ operand_cells r (a + total q) x.
Proof.
  induction q as [|c q IH]; intros r a x; [cbn; rewrite Z.add_0_r; tauto|]. cbn [app operand_cells]. change (total (c :: q)) with (AsmSpec.size (ins c) + total q). rewrite IH, <- Z.add_assoc. tauto.
Qed.
Lemma address_split : forall p a n, In n (map lab p) -> exists q c r, p = q ++ c :: r /\ address p a n = a + total q.
Proof.
  induction p as [|c p IH]; intros a n H; [destruct H|]. cbn [address]. destruct (str_eqb (lab c) n) eqn:X; [exists [], c, p; split; [reflexivity|cbn; lia]|].
  destruct H as [H|H]; [rewrite H, (proj2 (str_eqb_eq n n) eq_refl) in X; discriminate X|]. destruct (IH (a + AsmSpec.size (ins c)) n H) as (q & d & r & -> & E). exists (c :: q), d, r. split; [reflexivity|]. rewrite E. change (total (c :: q)) with (AsmSpec.size (ins c) + total q). lia.
Qed.
(** The first cell of a line is a literal, and so is the byte operand. *)
Lemma literal_first : forall q c r a b, literal (from_to (q ++ c :: r) a b) (a + total q).
Proof.
  intros q c r a b. pose proof (total_pos q). pose proof (total_pos r). pose proof (size_pos (ins c)). unfold literal, inside. cbn [base Relocate.size refs from_to]. rewrite total_app. change (total (c :: r)) with (AsmSpec.size (ins c) + total r).
  split; [lia|]. split; intros X; apply cells_app in X; destruct X as [X|X]; apply operand_cells_range in X; lia.
Qed.
Lemma literal_byte : forall q c r a b, value_kind (ins c) = Some Value8 -> literal (from_to (q ++ c :: r) a b) (a + total q + 1).
Proof.
  intros q c r a b K. pose proof (total_pos q). pose proof (total_pos r). unfold literal, inside. cbn [base Relocate.size refs from_to]. rewrite total_app. change (total (c :: r)) with (AsmSpec.size (ins c) + total r).
  assert (Sz : AsmSpec.size (ins c) = 2) by (unfold AsmSpec.size; rewrite K; reflexivity). rewrite Sz. split; [lia|].
  split; intros X; apply cells_app in X; destruct X as [X|X]; [apply operand_cells_range in X; lia| |apply operand_cells_range in X; lia|];
    (cbn [operand_cells] in X; destruct X as [(X & _)|X]; [congruence|]; apply operand_cells_range in X; lia).
Qed.

Section Anywhere.
Variables (p : list code) (a b : Z) (bytes : list Z).
Hypothesis (Im : image p a p bytes) (Ha : 0 <= a) (Fa : a + total p <= 65535).
Hypothesis (Vp : forall c, In c p -> value_ok (map lab p) c /\ ~ byte_ref c) (Sp : forall c, In c p -> simple a b (total p) c) (Cl : closed_end p).

(** The program is in memory and PC is at one of its lines. *)
Definition at_line (s : arch) : Prop := holds (M s) a bytes /\ exists q c r, p = q ++ c :: r /\ PC s = a + total q.
Lemma fetched : forall m q c r, p = q ++ c :: r -> holds m a bytes -> let z := a + total q in
  decode (m z) = ins c /\ (m z = 255 <-> ins c = FIN) /\ syntax (ins c) <> None /\ (value_kind (ins c) = Some Value16 -> 256 * m (z + 1) + m (z + 2) = value_of p a c).
Proof.
  intros m q c r Ep Ho z. pose proof Im as I0. rewrite Ep in I0 at 2. apply image_split in I0. destruct I0 as (x & y & Eb & Lx & Iy). cbn [image] in Iy. destruct Iy as (b1 & b2 & -> & (op & (Or & Od) & Eo) & _).
  rewrite Eb in Ho. apply holds_app in Ho. destruct Ho as (_ & Ho). rewrite Lx in Ho. apply holds_app in Ho. destruct Ho as (Ho & _). fold z in Ho. rewrite Eo in Ho.
  assert (M0 : m z = op). { specialize (Ho 0%nat ltac:(cbn; lia)). cbn [nth] in Ho. change (Z.of_nat 0) with 0 in Ho. rewrite Z.add_0_r in Ho. exact Ho. }
  assert (Sy : syntax (ins c) <> None) by (apply (documented_syntax op); exact Od).
  rewrite M0. split; [unfold decode; rewrite Od; reflexivity|]. split; [|split; [exact Sy|]].
  - split; [intros ->; change (decode_documented 255) with (Some FIN) in Od; congruence|]. intros F. rewrite F in Od, Sy.
    refine (C43_opcode_unique FIN op 255 Sy (conj Or Od) (conj _ eq_refl)). lia.
  - intros K. unfold value_of. rewrite K in *. pose proof (Ho 1%nat ltac:(cbn; lia)) as H1. pose proof (Ho 2%nat ltac:(cbn; lia)) as H2. cbn [nth] in H1, H2. change (Z.of_nat 1) with 1 in H1. change (Z.of_nat 2) with 2 in H2. rewrite H1, H2. apply div_mod_back.
Qed.
(** A two-byte operand: the number, or the place of a line. *)
Lemma operand_value : forall c, In c p -> value_kind (ins c) = Some Value16 ->
  (~ is_ref (val c) /\ value_of p a c = numeral_value (val c)) \/ (is_ref (val c) /\ exists q d r, p = q ++ d :: r /\ value_of p a c = a + total q).
Proof.
  intros c Hc K. destruct (Vp c Hc) as (V & _). unfold value_ok in V. unfold value_of. rewrite K in *. destruct V as [(Nm & _)|(Rf & Hi)].
  - left. assert (Nr : ~ is_ref (val c)) by (intros R; exact (ref_not_numeral _ R Nm)). split; [exact Nr|apply nonref_head; exact Nr].
  - right. split; [exact Rf|]. unfold is_ref in Rf. rewrite Rf. apply address_split. exact Hi.
Qed.
Lemma not_last : forall q c r, p = q ++ c :: r -> ins c <> FIN -> ins c <> JMP -> exists d r', p = (q ++ [c]) ++ d :: r'.
Proof.
  intros q c r Ep N1 N2. destruct r as [|d r']; [|exists d, r'; rewrite <- app_assoc; exact Ep]. exfalso. destruct Cl as (q' & c' & Eq & F). rewrite Ep in Eq. apply app_inj_tail in Eq. destruct Eq as (_ & ->). tauto.
Qed.
(** Where the next instruction is, and what happens to memory. *)
Lemma simple_step : forall s c, 0 <= PC s -> PC s + 2 < 65535 \/ PC s + AsmSpec.size (ins c) <= 65535 -> decode (M s (PC s)) = ins c -> syntax (ins c) <> None -> simple a b (total p) c ->
  (PC (step s) = PC s + AsmSpec.size (ins c) /\ ins c <> JMP \/ PC (step s) = 256 * M s (PC s + 1) + M s (PC s + 2) /\ (ins c = JMP \/ ins c = BEQ \/ ins c = BC_)) /\
  ((forall x, M (step s) x = M s x) \/ ins c = STA /\ forall x, x <> 256 * M s (PC s + 1) + M s (PC s + 2) -> M (step s) x = M s x).
Proof.
  intros [ac fc fz rb rc rd re pc sp m lg] c H0 H1 Dc Sy Si. unfold step. rewrite Dc. cbn [PC M] in *. unfold simple, AsmSpec.size in *. unfold pc_next. cbn [PC].
  destruct (ins c) as [? []|?|[]| |[]| |[] [?| |]|[]| | | | | | | | | | | | | | | | | | | |] eqn:Ei; try (destruct Si; fail); try congruence; cbn [value_kind syntax] in *;
    unfold exec_instr, with_dir, with_imm, imm, pc_next, alu_step, load_flags; cbn [put put_pc put_ac put_flags put_sp write get note PC M FZ FC];
    replace (pc =? 65535) with false by lia; cbn [put put_pc put_ac put_flags put_sp write get note PC M FZ FC];
    try (replace (pc + 1 =? 65535) with false by lia; cbn [put put_pc put_ac put_flags put_sp write get note PC M FZ FC]);
    try (replace (pc + 1 + 1 =? 65535) with false by lia; cbn [put put_pc put_ac put_flags put_sp write get note PC M FZ FC]);
    replace (pc + 1 + 1) with (pc + 2) by lia.
  all: try (split; [left; split; [lia|discriminate]|left; reflexivity]).
  - split; [left; split; [lia|discriminate]|right; split; [reflexivity|]]. intros x Hx. apply Z.eqb_neq in Hx. rewrite Hx. reflexivity.
  - destruct fz; cbn [PC M put_pc]; (split; [|left; reflexivity]); [right; auto|left; split; [lia|discriminate]].
  - destruct fc; cbn [PC M put_pc]; (split; [|left; reflexivity]); [right; auto|left; split; [lia|discriminate]].
  - split; [right; auto|left; reflexivity].
  - destruct Sy. reflexivity.
Qed.
Lemma line_room : forall q c r, p = q ++ c :: r -> 0 <= total q /\ a + total q + AsmSpec.size (ins c) <= 65535.
Proof. intros q c r Ep. pose proof (total_pos q). pose proof (total_pos r). rewrite Ep, total_app in Fa. change (total (c :: r)) with (AsmSpec.size (ins c) + total r) in Fa. lia. Qed.
Lemma lines_in : forall q c r, p = q ++ c :: r -> In c p.
Proof. intros q c r ->. apply in_or_app. right. left. reflexivity. Qed.
Lemma next_line : forall s, at_line s -> Usage.opcode s <> 255 -> at_line (step s).
Proof.
  intros s (Ho & q & c & r & Ep & Pc) Nf. destruct (fetched (M s) q c r Ep Ho) as (Dc & Fi & Sy & Op). destruct (line_room q c r Ep) as (Tq & Rm). pose proof (lines_in q c r Ep) as Ic. pose proof (Sp c Ic) as Si.
  unfold Usage.opcode in Nf. rewrite Pc in Nf. assert (Nfin : ins c <> FIN) by (intros X; apply Nf, Fi, X).
  rewrite <- Pc in Dc, Op. destruct (simple_step s c ltac:(lia) ltac:(lia) Dc Sy Si) as (Pn & Mn). split.
  - intros k Hk. pose proof (image_total _ _ _ _ Im) as Tl. destruct Mn as [Mn|(St & Mn)]; [rewrite Mn; apply Ho; exact Hk|].
    rewrite Mn; [apply Ho; exact Hk|]. assert (K : value_kind (ins c) = Some Value16) by (rewrite St; reflexivity). rewrite (Op K). unfold simple in Si. rewrite St in Si. destruct Si as (Nr & El & _).
    destruct (operand_value c Ic K) as [(_ & ->)|(R & _)]; [|destruct (Nr R)]. lia.
  - destruct Pn as [(Pn & Nj)|(Pn & Jm)].
    + destruct (not_last q c r Ep Nfin Nj) as (d & r' & Ep'). exists (q ++ [c]), d, r'. split; [exact Ep'|]. rewrite Pn, Pc, total_app. cbn [total fold_right]. lia.
    + assert (K : value_kind (ins c) = Some Value16) by (destruct Jm as [X|[X|X]]; rewrite X; reflexivity). rewrite (Op K) in Pn.
      assert (Rf : is_ref (val c)) by (unfold simple in Si; destruct Jm as [X|[X|X]]; rewrite X in Si; exact Si).
      destruct (operand_value c Ic K) as [(Nr & _)|(_ & q' & d & r' & Ep' & E')]; [destruct (Nr Rf)|]. exists q', d, r'. split; [exact Ep'|congruence].
Qed.
Lemma line_tame : forall T s, (forall x, T x = Plain) -> at_line s -> tame (from_to p a b) T s.
Proof.
  intros T s Ht (Ho & q & c & r & Ep & Pc). destruct (fetched (M s) q c r Ep Ho) as (Dc & Fi & Sy & Op). destruct (line_room q c r Ep) as (Tq & Rm). pose proof (lines_in q c r Ep) as Ic. pose proof (Sp c Ic) as Si.
  rewrite <- Pc in Dc, Op. unfold tame. cbv zeta. split; [rewrite Pc, Ep; apply literal_first|]. rewrite Dc.
  assert (L8 : value_kind (ins c) = Some Value8 -> literal (from_to p a b) (PC s + 1)) by (intros K; rewrite Pc, Ep; apply literal_byte; exact K).
  assert (R16 : value_kind (ins c) = Some Value16 -> refs (from_to p a b) (PC s + 1) /\ operand s = value_of p a c).
  { intros K. split; [cbn [refs from_to]; rewrite Ep; apply cells_app; right; cbn [operand_cells]; left; split; [exact K|lia]|].
    unfold operand, after. unfold AsmSpec.size in Rm. rewrite K in Rm. rewrite (Z.min_r 65535 (PC s + 1)) by lia. rewrite Z.min_r by lia. replace (PC s + 1 + 1) with (PC s + 2) by lia. apply Op. exact K. }
  assert (El : forall x, elsewhere a b (total p) x -> aside (from_to p a b) x) by (intros x (X1 & X2); unfold aside, inside; cbn [base Relocate.size shift from_to]; lia).
  assert (Jp : value_kind (ins c) = Some Value16 -> is_ref (val c) -> refs (from_to p a b) (PC s + 1) /\ operand s <> base (from_to p a b) + Relocate.size (from_to p a b)).
  { intros K Rf. destruct (R16 K) as (R1 & ->). split; [exact R1|]. destruct (operand_value c Ic K) as [(Nr & _)|(_ & q' & d & r' & Ep' & ->)]; [destruct (Nr Rf)|].
    cbn [base Relocate.size from_to]. pose proof (total_pos r'). pose proof (size_pos (ins d)). rewrite Ep' at 1. rewrite total_app. change (total (d :: r')) with (AsmSpec.size (ins d) + total r'). lia. }
  unfold simple in Si. destruct (ins c) as [? ?|?|?| |?| |? [?| |]|?| | | | | | | | | | | | | | | | | | | |] eqn:Ei; try exact I; try (destruct Si; fail); try (apply L8; reflexivity); try (apply Jp; [reflexivity|exact Si]); try (destruct Sy; reflexivity).
  - destruct (R16 eq_refl) as (R1 & ->). split; [exact R1|]. unfold data. assert (K : value_kind (ins c) = Some Value16) by (rewrite Ei; reflexivity). destruct (operand_value c Ic K) as [(Nr & ->)|(_ & q' & d & r' & Ep' & ->)].
    + right. destruct Si as [Si|Si]; [destruct (Nr Si)|]. split; [apply El; exact Si|apply Ht].
    + left. rewrite Ep'. apply literal_first.
  - destruct (R16 eq_refl) as (R1 & ->). split; [exact R1|]. right. assert (K : value_kind (ins c) = Some Value16) by (rewrite Ei; reflexivity). destruct Si as (Nr & Si). destruct (operand_value c Ic K) as [(_ & ->)|(R & _)]; [|destruct (Nr R)]. apply El. exact Si.
  - destruct (R16 eq_refl) as (R1 & ->). split; [exact R1|]. assert (K : value_kind (ins c) = Some Value16) by (rewrite Ei; reflexivity). destruct Si as (Nr & Si). destruct (operand_value c Ic K) as [(_ & ->)|(R & _)]; [|destruct (Nr R)]. apply El in Si. apply Si.
Qed.
Lemma tags_plain : forall T s, (forall x, T x = Plain) -> at_line s -> forall x, tags T s x = Plain.
Proof.
  intros T s Ht (Ho & q & c & r & Ep & Pc) x. destruct (fetched (M s) q c r Ep Ho) as (Dc & _). pose proof (Sp c (lines_in q c r Ep)) as Si. rewrite <- Pc in Dc. unfold tags. rewrite Dc. unfold simple in Si.
  destruct (ins c); try (destruct Si; fail); try apply Ht. destruct (x =? operand s); [reflexivity|apply Ht].
Qed.
Lemma run_tames : forall n T s, (forall x, T x = Plain) -> at_line s -> (forall m, (m < n)%nat -> Usage.opcode (steps m s) <> 255) ->
  tames (from_to p a b) T (S n) s /\ at_line (steps n s) /\ forall x, tagged T (S n) s x = Plain.
Proof.
  induction n as [|n IH]; intros T s Ht Al Nf.
  - cbn [tames tagged steps]. split; [split; [apply line_tame; assumption|exact I]|]. split; [exact Al|]. apply tags_plain; assumption.
  - pose proof (next_line s Al (Nf 0%nat ltac:(lia))) as Al'. destruct (IH (tags T s) (step s) (tags_plain T s Ht Al) Al' ltac:(intros m Hm; apply (Nf (S m)); lia)) as (I1 & I2 & I3).
    split; [split; [apply line_tame; assumption|exact I1]|]. split; [exact I2|exact I3].
Qed.
Lemma line_place : forall s, at_line s -> a <= PC s < a + total p.
Proof using.
  clear. intros s (_ & q & c & r & Ep & ->). pose proof (total_pos q). pose proof (total_pos r). pose proof (size_pos (ins c)). rewrite Ep at 1. rewrite total_app. change (total (c :: r)) with (AsmSpec.size (ins c) + total r). lia.
Qed.
End Anywhere.

Lemma shown_same : forall a b p T h1 h2 s1 s2, shows h1 s1 -> shows h2 s2 -> copied (from_to p a b) T s1 s2 -> (forall x, T x = Plain) -> a <= PC s1 <= a + total p -> log s1 = log s2 -> same_results a b (total p) h1 h2.
Proof.
  intros a b p T h1 h2 s1 s2 (X1 & X2 & X3 & X4 & X5 & X6 & X7 & X8 & X9 & X10 & X11) (Y1 & Y2 & Y3 & Y4 & Y5 & Y6 & Y7 & Y8 & Y9 & Y10 & Y11) [(A1 & A2 & A3 & A4 & A5 & A6 & A7 & A8) Cpc _ _ Cr _] Ht Hp Lg.
  split; [|split; [|split]].
  - intros r Hr. cbn [In] in Hr. destruct Hr as [<-|[<-|[<-|[<-|[<-|[<-|[<-|[<-|[]]]]]]]]]; congruence.
  - exists (PC s1). split; [exact X8|]. rewrite Y8, Cpc. unfold goes_on. cbn [base Relocate.size shift from_to]. replace ((a <=? PC s1) && (PC s1 <=? a + total p)) with true by lia. reflexivity.
  - intros x Hx (E1 & E2). rewrite X10, Y10 by exact Hx. f_equal. symmetry. apply Cr; [|apply Ht]. unfold aside, inside. cbn [base Relocate.size shift from_to]. lia.
  - congruence.
Qed.
(** Such a source, saved at [a] with PC there or saved at [b] with PC there, ends in both places or in neither, and
    with the same results. *)
Theorem C108_anywhere : forall lines codes a b u l h s, program lines codes a -> program lines codes b ->
  a + total (somes codes) <= 65535 -> b + total (somes codes) <= 65535 -> (forall c, In c (somes codes) -> simple a b (total (somes codes)) c) -> closed_end (somes codes) ->
  live l h true -> boundary h -> shows h s ->
  exists out1 out2 slots1 slots2 h1 h2, parse_input (text_of lines) a = Some out1 /\ parse_input (text_of lines) b = Some out2 /\ new_translation out1 = Some slots1 /\ new_translation out2 = Some slots2 /\
    placed a (slot_values slots1) h h1 /\ placed b (slot_values slots2) h h2 /\
    (forall h1', run_program u false h1 h1' -> exists h2', run_program u false h2 h2' /\ same_results a b (total (somes codes)) h1' h2') /\
    (forall h2', run_program u false h2 h2' -> exists h1', run_program u false h1 h1' /\ same_results a b (total (somes codes)) h1' h2').
Proof.
  intros lines codes a b u l h s P Q Fa Fb Sp Cl L Bd Sh.
  assert (Nb : by_labels (somes codes) a).
  { intros c Hc K Nr X. specialize (Sp c Hc). unfold simple in Sp. destruct (ins c) as [? ?|?|?| |?| |? [?| |]|?| | | | | | | | | | | | | | | | | | | |]; try discriminate K; try (exact (Nr Sp)); try (exact Sp); unfold elsewhere in Sp; tauto. }
  destruct (C108_copied lines codes a b P Q Nb) as (out1 & out2 & x1 & x2 & E1 & E2 & T1 & T2 & Cp).
  pose proof P as (P1 & P2 & P3 & P4 & P5 & P6). pose proof Q as (_ & _ & _ & _ & Q5 & Q6).
  destruct (C44_image _ _ a P1 P2 P3 P4 P5 P6) as (o1 & y1 & A1 & A2 & I1 & _). assert (o1 = out1) by congruence. subst o1. assert (y1 = x1) by congruence. subst y1.
  destruct (C44_image _ _ b P1 P2 P3 P4 Q5 Q6) as (o2 & y2 & B1 & B2 & I2 & _). assert (o2 = out2) by congruence. subst o2. assert (y2 = x2) by congruence. subst y2.
  set (p := somes codes) in *. pose proof (image_total _ _ _ _ I1) as L1. pose proof (image_total _ _ _ _ I2) as L2. pose proof (image_bytes _ _ _ _ _ P3 P5 P6 I1) as By1. pose proof (image_bytes _ _ _ _ _ P3 Q5 Q6 I2) as By2.
  destruct Cl as (q0 & c0 & Ep0 & Fc0). assert (Tp : 1 <= total p). { rewrite Ep0, total_app. pose proof (total_pos q0). cbn [total fold_right]. pose proof (size_pos (ins c0)). lia. }
  assert (Cl : closed_end p) by (exists q0, c0; auto).
  destruct (placed_shows a (slot_values x1) l h s L Bd Sh ltac:(lia) ltac:(lia) By1) as (h1 & l1 & Pl1 & Lv1 & Bd1 & Sh1).
  destruct (placed_shows b (slot_values x2) l h s L Bd Sh ltac:(lia) ltac:(lia) By2) as (h2 & l2 & Pl2 & Lv2 & Bd2 & Sh2).
  exists out1, out2, x1, x2, h1, h2. do 6 (split; [assumption|]). set (s1 := ready_at a (slot_values x1) s) in *. set (s2 := ready_at b (slot_values x2) s) in *.
  assert (Ft : fits (from_to p a b)).
  { unfold fits, inside. cbn [base Relocate.size shift refs from_to]. do 4 (split; [lia|]). intros x Hx. pose proof (operand_cells_range _ _ _ Hx). lia. }
  assert (Al : at_line p a (slot_values x1) s1).
  { split; [apply stored_holds|]. destruct p as [|c r]; [cbn in Tp; lia|]. exists [], c, r. split; [reflexivity|]. cbn. lia. }
  assert (R : forall n, (forall m, (m < n)%nat -> Usage.opcode (steps m s1) <> 255) ->
    at_line p a (slot_values x1) (steps n s1) /\ cop (from_to p a b) (tagged ordinary (S n) s1) (log s1) (log s2) (steps (S n) s1) (steps (S n) s2) /\ (forall x, tagged ordinary (S n) s1 x = Plain) /\
    forall m, (m <= n)%nat -> Usage.opcode (steps m s1) = Usage.opcode (steps m s2)).
  { intros n Nf. destruct (run_tames p a b (slot_values x1) I1 P5 Fa P3 Sp Cl n ordinary s1 (fun _ => eq_refl) Al Nf) as (Tm & Aln & Tg). split; [exact Aln|].
    destruct (run_cop (S n) _ ordinary (log s1) (log s2) s1 s2 Ft (fun m _ => live_steps_valid l1 h1 true s1 Lv1 Bd1 Sh1 m) (conj (Cp s) (ex_intro _ [] (conj eq_refl eq_refl))) Tm) as (Co & _ & Oc).
    split; [exact Co|]. split; [exact Tg|]. intros m Hm. apply Oc. lia. }
  assert (Fin : forall n h1' h2', first_fin n s1 -> shows h1' (steps (S n) s1) -> shows h2' (steps (S n) s2) -> same_results a b (total p) h1' h2').
  { intros n h1' h2' (F1 & F2) X1 X2. destruct (R n F2) as (Aln & (Co & w & W1 & W2) & Tg & _). eapply shown_same; [exact X1|exact X2|exact Co|exact Tg| |rewrite W1, W2; reflexivity].
    pose proof (line_place p a (slot_values x1) (steps n s1) Aln) as Pn. assert (En : steps (S n) s1 = step (steps n s1)) by (replace (S n) with (n + 1)%nat by lia; rewrite steps_add; reflexivity).
    rewrite En, (step_fin _ F1) by lia. cbn [PC put_pc]. lia. }
  split.
  - intros h1' R1. destruct (C41_stops_only_after_fin u l1 h1 true s1 h1' ltac:(auto) Lv1 Bd1 Sh1 R1) as (n & Ff & X1 & _).
    assert (F2 : first_fin n s2). { destruct Ff as (F1 & F2). destruct (R n F2) as (_ & _ & _ & Oc). split; [rewrite <- Oc by lia; exact F1|]. intros m Hm. rewrite <- Oc by lia. apply F2. exact Hm. }
    destruct (C41_stops_after_fin n u l2 h2 true s2 ltac:(auto) Lv2 Bd2 Sh2 F2) as (h2' & R2 & X2 & _). exists h2'. split; [exact R2|]. exact (Fin n h1' h2' Ff X1 X2).
  - intros h2' R2. destruct (C41_stops_only_after_fin u l2 h2 true s2 h2' ltac:(auto) Lv2 Bd2 Sh2 R2) as (n & (F1 & F2) & X2 & _).
    assert (Oc : forall k, (k <= n)%nat -> forall m, (m <= k)%nat -> Usage.opcode (steps m s1) = Usage.opcode (steps m s2)).
    { induction k as [|k IH]; intros Hk; [apply (R 0%nat); intros; lia|]. apply (R (S k)). intros m Hm. rewrite (IH ltac:(lia) m ltac:(lia)). apply F2. lia. }
    assert (Ff : first_fin n s1). { split; [rewrite (Oc n) by lia; exact F1|]. intros m Hm. rewrite (Oc n) by lia. apply F2. exact Hm. }
    destruct (C41_stops_after_fin n u l1 h1 true s1 ltac:(auto) Lv1 Bd1 Sh1 Ff) as (h1' & R1 & X1 & _). exists h1'. split; [exact R1|]. exact (Fin n h1' h2' Ff X1 X2).
Qed.
(** A case: a loop that adds until the carry, after storing a byte in 0300; for 0 and for 0100. *)
Definition any_lines : list str := [s2l "MOV FD, AC"; s2l "STA 0300"; s2l "TX ADD 01"; s2l "BC TF"; s2l "JMP TX"; s2l "TF LDA TX"; s2l "FIN"].
Definition any_codes : list (option code) :=
  [Some (mkCode [] MOV_i_ac (s2l "FD")); Some (mkCode [] STA (s2l "0300")); Some (mkCode (s2l "TX") (OP ADD Imm) (s2l "01")); Some (mkCode [] BC_ (s2l "TF"));
   Some (mkCode [] JMP (s2l "TX")); Some (mkCode (s2l "TF") LDA (s2l "TX")); Some (mkCode [] FIN [])].
Lemma any_program : forall init, 0 <= init -> init + 17 <= 65535 -> program any_lines any_codes init.
Proof.
  intros init H0 H1. split; [split; [discriminate|]; intros l Hl; unfold any_lines in Hl; cbn [In] in Hl; repeat (destruct Hl as [<-|Hl]; [no_newline|]); destruct Hl|].
  split; [unfold any_lines, any_codes; do 2 (constructor; [line_plain|]); constructor; [line_label "ADD 01"%string|]; do 2 (constructor; [line_plain|]); constructor; [line_label "LDA TX"%string|]; constructor; [line_plain|]; constructor|].
  split; [intros c Hin; unfold any_codes in *; cbn [somes] in *; set (L := map lab _); cbn [In] in Hin; value_checks|].
  split; [discriminate|split; [auto|]]. unfold any_codes. cbn [somes total fold_right ins]. cbv [AsmSpec.size value_kind syntax]. lia.
Qed.
Example C108_anywhere_nonvacuous : program any_lines any_codes 0 /\ program any_lines any_codes 256 /\ (forall c, In c (somes any_codes) -> simple 0 256 (total (somes any_codes)) c) /\ closed_end (somes any_codes) /\
  (exists l h s, live l h true /\ boundary h /\ shows h s) /\
  exists out slots, parse_input (text_of any_lines) 0 = Some out /\ new_translation out = Some slots /\ first_fin 11 (ready_at 0 (slot_values slots) (start 9 (fun _ => 0))).
Proof.
  split; [apply any_program; lia|]. split; [apply any_program; lia|].
  split. { intros c Hc. change (total (somes any_codes)) with 17. unfold any_codes in Hc. cbn [somes In] in Hc. destruct Hc as [<-|[<-|[<-|[<-|[<-|[<-|[<-|[]]]]]]]]; unfold simple; cbn [ins val]; try exact I; try reflexivity.
    - split; [discriminate|]. unfold elsewhere. change (numeral_value (s2l "0300")) with 768. lia.
    - left. reflexivity. }
  split; [exists (removelast (somes any_codes)), (mkCode [] FIN []); split; [reflexivity|left; reflexivity]|].
  split. { set (s := start 9 (fun _ => 0)). destruct (C14_nonvacuous s) as (l & h & L & Bd & Sh); [apply start_valid; intros; lia|reflexivity|]. exists l, h, s. auto. }
  assert (X : exists o s, parse_input (text_of any_lines) 0 = Some o /\ new_translation o = Some s /\ slot_values s = [100; 253; 113; 3; 0; 101; 1; 115; 0; 13; 116; 0; 5; 112; 0; 5; 255]) by (eexists; eexists; split; [vm_compute; reflexivity|split; vm_compute; reflexivity]).
  destruct X as (o & s & X1 & X2 & X3). exists o, s. do 2 (split; [assumption|]). rewrite X3. split; [vm_compute; reflexivity|]. intros m Hm. do 11 (destruct m as [|m]; [vm_compute; discriminate|]). lia.
Qed.
Print Assumptions C108_anywhere.
Print Assumptions C108_anywhere_nonvacuous.
