(** * C112: a program whose PUSH and POP lines balance keeps its stack
    The programs of C109 with PUSH and POP as well: a number of bytes on the stack is given for every line, and
    the lines agree with these numbers. *)
From Coq Require Import String ZArith NArith List Bool Lia ZifyBool ZifyN.
From Verif Require Import Prog Isa Access Api Usage Front ApiFacts IsaFacts Reach PropsApi PropsIsa PropsRun IsaRun PropsLife.
From Verif Require Import JsStr AsmTable Asm AsmSpec AsmRe AsmLine AsmFacts AsmExec AsmProg AsmErr PropsAsm PropsDisasm PropsLoad PropsExamples PropsSpelling.
From Verif Require Import PropsRepro PropsRelocate Relocate PropsMoved PropsAnywhere PropsOwnLines.
Import ListNotations.
Open Scope list_scope.
Open Scope Z_scope.

(** ** Specification *)
(** The line [c] of a program of [n] cells from [a]: jumps go to labels; STA writes a cell outside; no STAX, INISP,
    CALL, RET or IRET.  Any cell may be read. *)
Definition plain_line (a n : Z) (c : code) : Prop :=
  match ins c with
  | JMP | BEQ | BC_ => is_ref (val c)
  | STA => ~ is_ref (val c) /\ ~ (a <= numeral_value (val c) < a + n)
  | STAX | INISP | CALL | RET | IRET => False
  | _ => True
  end.
(** How a line changes the number of bytes on the stack. *)
Definition growth (i : instr) : Z := match i with PUSH => 1 | POP => -1 | _ => 0 end.
(** [dep i] bytes are on the stack before line number [i], at most [K]; PUSH finds room and POP finds a byte; the line below
    and the line jumped to have the right number. *)
Definition balanced (p : list code) (K : Z) (dep : nat -> Z) : Prop :=
  dep 0%nat = 0 /\ forall q c r, p = q ++ c :: r -> let d := dep (List.length q) in
    0 <= d <= K /\ 0 <= d + growth (ins c) <= K /\
    (ins c <> FIN -> ins c <> JMP -> dep (S (List.length q)) = d + growth (ins c)) /\
    (ins c = JMP \/ ins c = BEQ \/ ins c = BC_ -> forall q' c' r', p = q' ++ c' :: r' -> lab c' = val c -> ~ In (val c) (map lab q') -> dep (List.length q') = d).
(** Between two instructions PC is at line [c] of the program, after the lines [q], and the stack has the bytes said. *)
Definition at_depth (p : list code) (a top : Z) (dep : nat -> Z) (h : hstate) : Prop :=
  exists q c r, p = q ++ c :: r /\ get_register_value R_PC h = Some (a + total q) /\ get_register_value R_SP h = Some (top - dep (List.length q)).
(** The bytes of the program are intact, no notice has been added, and no cell has changed but those of the stack, from
    [top - K] to [top - 1], and those that STA lines name. *)
Definition keeps (p : list code) (a : Z) (bytes : list Z) (top K : Z) (h h' : hstate) : Prop :=
  (forall k, (k < List.length bytes)%nat -> get_memory_value (a + Z.of_nat k) h' = Some (nth k bytes 0)) /\
  (forall x, 0 <= x < 65536 -> ~ (a <= x < a + total p) -> ~ named_by_sta p x -> ~ (top - K <= x < top) -> get_memory_value x h' = get_memory_value x h) /\ hl h' = hl h.

(** ** Proofs *)
Lemma plain_fetched : forall p a bytes, image p a p bytes -> forall m q c r, p = q ++ c :: r -> holds m a bytes -> let z := a + total q in
  decode (m z) = ins c /\ (m z = 255 <-> ins c = FIN) /\ syntax (ins c) <> None /\ (value_kind (ins c) = Some Value16 -> 256 * m (z + 1) + m (z + 2) = value_of p a c).
Proof.
  intros p a bytes Im m q c r Ep Ho z. pose proof Im as I0. rewrite Ep in I0 at 2. apply image_split in I0. destruct I0 as (x & y & Eb & Lx & Iy). cbn [image] in Iy. destruct Iy as (b1 & b2 & -> & (op & (Or & Od) & Eo) & _).
  rewrite Eb in Ho. apply holds_app in Ho. destruct Ho as (_ & Ho). rewrite Lx in Ho. apply holds_app in Ho. destruct Ho as (Ho & _). fold z in Ho. rewrite Eo in Ho.
  assert (M0 : m z = op). { specialize (Ho 0%nat ltac:(cbn; lia)). cbn [nth] in Ho. change (Z.of_nat 0) with 0 in Ho. rewrite Z.add_0_r in Ho. exact Ho. }
  assert (Sy : syntax (ins c) <> None) by (apply (documented_syntax op); exact Od).
  rewrite M0. split; [unfold decode; rewrite Od; reflexivity|]. split; [|split; [exact Sy|]].
  - split; [intros ->; change (decode_documented 255) with (Some FIN) in Od; congruence|]. intros F. rewrite F in Od, Sy.
    refine (C43_opcode_unique FIN op 255 Sy (conj Or Od) (conj _ eq_refl)). lia.
  - intros K. unfold value_of. rewrite K in *. pose proof (Ho 1%nat ltac:(cbn; lia)) as H1. pose proof (Ho 2%nat ltac:(cbn; lia)) as H2. cbn [nth] in H1, H2. change (Z.of_nat 1) with 1 in H1. change (Z.of_nat 2) with 2 in H2. rewrite H1, H2. apply div_mod_back.
Qed.
Lemma plain_step : forall a n s c, 0 <= PC s -> PC s + AsmSpec.size (ins c) <= 65535 -> decode (M s (PC s)) = ins c -> syntax (ins c) <> None -> plain_line a n c -> 0 <= SP s - growth (ins c) <= 65535 ->
  (PC (step s) = PC s + AsmSpec.size (ins c) /\ ins c <> JMP \/ PC (step s) = 256 * M s (PC s + 1) + M s (PC s + 2) /\ (ins c = JMP \/ ins c = BEQ \/ ins c = BC_)) /\
  SP (step s) = SP s - growth (ins c) /\ log (step s) = log s /\
  forall x, M (step s) x = M s x \/ ins c = STA /\ x = 256 * M s (PC s + 1) + M s (PC s + 2) \/ ins c = PUSH /\ x = SP s - 1.
Proof.
  intros a n [ac fc fz rb rc rd re pc sp m lg] c H0 H1 Dc Sy Si Hs. unfold step. rewrite Dc. cbn [PC M SP log] in *. unfold plain_line, AsmSpec.size in *. unfold pc_next. cbn [PC].
  destruct (ins c) as [? []|?|[]| |[]| |[] [?| |]|[]| | | | | | | | | | | | | | | | | | | |] eqn:Ei; try (destruct Si; fail); try (destruct Sy; reflexivity); cbn [value_kind syntax growth] in *; rewrite ?Z.sub_0_r in *;
    unfold exec_instr, with_dir, with_imm, imm, pc_next, alu_step, load_flags, push, pop, sp_up, sp_down; cbn [put put_pc put_ac put_flags put_sp write get note PC SP M FZ FC AC log];
    replace (pc =? 65535) with false by lia; cbn [put put_pc put_ac put_flags put_sp write get note PC SP M FZ FC AC log];
    try (replace (pc + 1 =? 65535) with false by lia; cbn [put put_pc put_ac put_flags put_sp write get note PC SP M FZ FC AC log]);
    try (replace (pc + 1 + 1 =? 65535) with false by lia; cbn [put put_pc put_ac put_flags put_sp write get note PC SP M FZ FC AC log]);
    replace (pc + 1 + 1) with (pc + 2) by lia.
  all: try (split; [left; split; [lia|discriminate]|]; do 2 (split; [reflexivity|]); intros x; left; reflexivity).
  - split; [left; split; [lia|discriminate]|]. do 2 (split; [reflexivity|]). intros x. destruct (Z.eqb_spec x (256 * m (pc + 1) + m (pc + 2))); auto.
  - destruct fz; cbn [PC SP M put_pc log]; (split; [|do 2 (split; [reflexivity|]); intros x; left; reflexivity]); [right; auto|left; split; [lia|discriminate]].
  - destruct fc; cbn [PC SP M put_pc log]; (split; [|do 2 (split; [reflexivity|]); intros x; left; reflexivity]); [right; auto|left; split; [lia|discriminate]].
  - split; [right; auto|]. do 2 (split; [reflexivity|]). intros x; left; reflexivity.
  - replace (sp =? 0) with false by lia. cbn [put put_pc put_ac put_flags put_sp write get note PC SP M FZ FC AC log]. split; [left; split; [lia|discriminate]|]. do 2 (split; [reflexivity|]). intros x. destruct (Z.eqb_spec x (sp - 1)); auto.
  - replace (sp =? 65535) with false by lia. cbn [put put_pc put_ac put_flags put_sp write get note PC SP M FZ FC AC log]. split; [left; split; [lia|discriminate]|]. split; [lia|]. split; [reflexivity|]. intros x; left; reflexivity.
Qed.
Lemma address_first : forall p a n, In n (map lab p) -> exists q c r, p = q ++ c :: r /\ address p a n = a + total q /\ lab c = n /\ ~ In n (map lab q).
Proof.
  induction p as [|c p IH]; intros a n H; [destruct H|]. cbn [address]. destruct (str_eqb (lab c) n) eqn:X; [apply str_eqb_eq in X; exists [], c, p; split; [reflexivity|]; split; [cbn; lia|]; split; [exact X|intros []]|].
  destruct H as [H|H]; [rewrite H, (proj2 (str_eqb_eq n n) eq_refl) in X; discriminate X|]. destruct (IH (a + AsmSpec.size (ins c)) n H) as (q & d & r & -> & E & Ld & Nq). exists (c :: q), d, r. split; [reflexivity|].
  split; [rewrite E; change (total (c :: q)) with (AsmSpec.size (ins c) + total q); lia|]. split; [exact Ld|]. intros [Y|Y]; [rewrite Y, (proj2 (str_eqb_eq n n) eq_refl) in X; discriminate X|exact (Nq Y)].
Qed.

Section Balanced.
Variables (p : list code) (a top K : Z) (bytes : list Z) (dep : nat -> Z).
Hypothesis (Im : image p a p bytes) (Ha : 0 <= a) (Fa : a + total p <= 65535).
Hypothesis (Vp : forall c, In c p -> value_ok (map lab p) c /\ ~ byte_ref c) (Pp : forall c, In c p -> plain_line a (total p) c) (Cl : closed_end p) (Ba : balanced p K dep).
Hypothesis (Tp : K <= top <= 65535) (Di : a + total p <= top - K \/ top <= a).

Definition at_dep (s : arch) : Prop := holds (M s) a bytes /\ exists q c r, p = q ++ c :: r /\ PC s = a + total q /\ SP s = top - dep (List.length q).
(** One instruction of the program. *)
Lemma dep_step : forall s, at_dep s -> log (step s) = log s /\ holds (M (step s)) a bytes /\ (forall x, ~ named_by_sta p x -> ~ (top - K <= x < top) -> M (step s) x = M s x) /\ (Usage.opcode s <> 255 -> at_dep (step s)).
Proof.
  intros s (Ho & q & c & r & Ep & Pc & Ps). destruct (plain_fetched p a bytes Im (M s) q c r Ep Ho) as (Dc & Fi & Sy & Op). destruct Ba as (_ & Bq). destruct (Bq q c r Ep) as (D1 & D2 & Nx & Jx). cbv zeta in *.
  assert (Tq : 0 <= total q /\ a + total q + AsmSpec.size (ins c) <= 65535).
  { pose proof (total_pos q). pose proof (total_pos r). pose proof Fa as F. rewrite Ep, total_app in F. change (total (c :: r)) with (AsmSpec.size (ins c) + total r) in F. lia. }
  assert (Ic : In c p) by (rewrite Ep; apply in_or_app; right; left; reflexivity). pose proof (Pp c Ic) as Si. rewrite <- Pc in Dc, Op.
  destruct (plain_step a (total p) s c ltac:(lia) ltac:(lia) Dc Sy Si ltac:(lia)) as (Pn & Sn & Lg & Mn).
  assert (Ms : forall x, M (step s) x = M s x \/ (ins c = STA /\ x = numeral_value (val c)) \/ (ins c = PUSH /\ x = SP s - 1)).
  { intros x. destruct (Mn x) as [E|[(St & ->)|Pu]]; auto. right. left. split; [exact St|]. assert (K' : value_kind (ins c) = Some Value16) by (rewrite St; reflexivity). rewrite (Op K').
    unfold plain_line in Si. rewrite St in Si. destruct Si as (Nr & _). unfold value_of. rewrite K'. apply nonref_head. exact Nr. }
  assert (Gr : ins c = PUSH -> top - K <= SP s - 1 < top) by (intros X; rewrite X in D2; cbn [growth] in D2; lia).
  split; [exact Lg|]. assert (Ho' : holds (M (step s)) a bytes).
  { intros k Hk. pose proof (image_total _ _ _ _ Im) as Ln. rewrite <- (Ho k Hk). destruct (Ms (a + Z.of_nat k)) as [E|[(St & E)|(Pu & E)]]; [exact E| |].
    - unfold plain_line in Si. rewrite St in Si. destruct Si as (_ & Out). lia.
    - specialize (Gr Pu). lia. }
  split; [exact Ho'|]. split.
  { intros x Nx' Nst. destruct (Ms x) as [E|[(St & E)|(Pu & E)]]; [exact E| |]; exfalso.
    - apply Nx'. exists c. auto.
    - specialize (Gr Pu). lia. }
  intros Nf. assert (Nfin : ins c <> FIN) by (intros X; apply Nf; unfold Usage.opcode; rewrite Pc; apply Fi, X). split; [exact Ho'|]. destruct Pn as [(Pn & Nj)|(Pn & Jm)].
  - destruct r as [|d r'].
    + exfalso. destruct Cl as (q' & c' & Eq & F). rewrite Ep in Eq. apply app_inj_tail in Eq. destruct Eq as (_ & ->). tauto.
    + exists (q ++ [c]), d, r'. split; [rewrite <- app_assoc; exact Ep|]. split; [rewrite Pn, Pc, total_app; cbn [total fold_right]; lia|]. rewrite app_length. cbn [List.length]. rewrite Nat.add_1_r, (Nx Nfin Nj). lia.
  - assert (K' : value_kind (ins c) = Some Value16) by (destruct Jm as [X|[X|X]]; rewrite X; reflexivity). rewrite (Op K') in Pn.
    assert (Rf : is_ref (val c)) by (unfold plain_line in Si; destruct Jm as [X|[X|X]]; rewrite X in Si; exact Si).
    destruct (Vp c Ic) as (V & _). unfold value_ok in V. rewrite K' in V. destruct V as [(Nm & _)|(_ & Hi)]; [destruct (ref_not_numeral _ Rf Nm)|].
    destruct (address_first p a (val c) Hi) as (q' & d & r' & Ep' & Ad & Ld & Nq). exists q', d, r'. split; [exact Ep'|]. split.
    + rewrite Pn. unfold value_of. rewrite K'. unfold is_ref in Rf. rewrite Rf. exact Ad.
    + rewrite (Jx Jm q' d r' Ep' Ld Nq), Sn, Ps. replace (growth (ins c)) with 0 by (destruct Jm as [X|[X|X]]; rewrite X; reflexivity). lia.
Qed.
Lemma dep_steps : forall n s, at_dep s -> (forall m, (m < n)%nat -> Usage.opcode (steps m s) <> 255) ->
  at_dep (steps n s) /\ log (steps n s) = log s /\ forall x, ~ named_by_sta p x -> ~ (top - K <= x < top) -> M (steps n s) x = M s x.
Proof.
  induction n as [|n IH]; intros s Al Nf; [split; [exact Al|split; reflexivity]|]. destruct (dep_step s Al) as (Lg & _ & Mm & Nx). specialize (Nx (Nf 0%nat ltac:(lia))).
  destruct (IH (step s) Nx ltac:(intros m Hm; apply (Nf (S m)); lia)) as (I1 & I2 & I3). cbn [steps]. split; [exact I1|]. split; [congruence|]. intros x Hx Hy. rewrite I3, Mm by assumption. reflexivity.
Qed.
Lemma dep_shown : forall h s, shows h s -> at_dep s -> at_depth p a top dep h.
Proof using. clear. intros h s (_ & _ & _ & _ & _ & _ & _ & X8 & X9 & _) (_ & q & c & r & Ep & Pc & Ps). exists q, c, r. split; [exact Ep|]. rewrite X8, X9, Pc, Ps. auto. Qed.
End Balanced.

(** Such a source, saved at [a] with PC there and SP at [top], the [K] cells below [top] being outside the program.
    Before FIN: PC is at a line of the source and SP where the number of that line says.  If the run ends: it ends after a FIN
    line of the source, with SP where the number of that line says. *)
Theorem C112_balanced : forall lines codes a top K dep l h s, program lines codes a -> a + total (somes codes) <= 65535 ->
  (forall c, In c (somes codes) -> plain_line a (total (somes codes)) c) -> closed_end (somes codes) -> balanced (somes codes) K dep ->
  K <= top <= 65535 -> a + total (somes codes) <= top - K \/ top <= a -> live l h true -> boundary h -> shows h s -> get_register_value R_SP h = Some top ->
  exists out slots h1, parse_input (text_of lines) a = Some out /\ new_translation out = Some slots /\ placed a (slot_values slots) h h1 /\
    (forall n us h', instructions n h1 us h' -> before_fin (somes codes) a n h1 -> at_depth (somes codes) a top dep h' /\ keeps (somes codes) a (slot_values slots) top K h h') /\
    (forall u h', run_program u false h1 h' ->
      (exists q c r, somes codes = q ++ c :: r /\ ins c = FIN /\ get_register_value R_PC h' = Some (a + total q + 1) /\ get_register_value R_SP h' = Some (top - dep (List.length q))) /\
      keeps (somes codes) a (slot_values slots) top K h h').
Proof.
  intros lines codes a top K dep l h s P Fa Pp Cl Ba Tp Di L Bd Sh St. pose proof P as (P1 & P2 & P3 & P4 & P5 & P6).
  destruct (C44_image _ _ a P1 P2 P3 P4 P5 P6) as (out & x & A1 & A2 & Im & _). set (p := somes codes) in *. pose proof (image_total _ _ _ _ Im) as Ln. pose proof (image_bytes _ _ _ _ _ P3 P5 P6 Im) as By.
  pose proof Cl as (q0 & c0 & Ep0 & Fc0). assert (Np : 1 <= total p). { rewrite Ep0, total_app. pose proof (total_pos q0). cbn [total fold_right]. pose proof (size_pos (ins c0)). lia. }
  destruct (placed_shows a (slot_values x) l h s L Bd Sh ltac:(lia) ltac:(lia) By) as (h1 & l1 & Pl & Lv & Bd1 & Sh1).
  exists out, x, h1. do 3 (split; [assumption|]). set (s1 := ready_at a (slot_values x) s) in *. pose proof Sh as (_ & _ & _ & _ & _ & _ & _ & _ & Y9 & Y10 & Y11).
  assert (Al : at_dep p a top (slot_values x) dep s1).
  { split; [apply stored_holds|]. destruct p as [|c r]; [cbn in Np; lia|]. exists [], c, r. split; [reflexivity|]. split; [cbn; lia|]. cbn [List.length]. destruct Ba as (-> & _). cbn [SP s1 ready_at]. rewrite Y9 in St. injection St as ->. lia. }
  pose proof (dep_steps p a top K (slot_values x) dep Im P5 Fa P3 Pp Cl Ba Tp Di) as Own.
  assert (Mine : forall h' s', shows h' s' -> holds (M s') a (slot_values x) -> (forall y, ~ named_by_sta p y -> ~ (top - K <= y < top) -> M s' y = M s1 y) -> log s' = log s1 -> keeps p a (slot_values x) top K h h').
  { intros h' s' (_ & _ & _ & _ & _ & _ & _ & _ & _ & Z10 & Z11) Ho Mm Lg. split; [|split; [|rewrite Z11, Y11; exact Lg]].
    - intros k Hk. rewrite Z10 by lia. f_equal. apply Ho. exact Hk.
    - intros y Hy Nx Ns Nt. rewrite Y10, Z10 by exact Hy. f_equal. rewrite Mm by assumption. cbn [M s1 ready_at]. unfold stored. replace ((a <=? y) && (y <? a + Z.of_nat (List.length (slot_values x)))) with false by lia. reflexivity. }
  split.
  - intros n us h' In1 Bf. destruct (C14_programs n l1 h1 true s1 us h' Lv Bd1 Sh1 In1) as (S' & _).
    assert (Nf : forall k, (k <= n)%nat -> forall m, (m < k)%nat -> Usage.opcode (steps m s1) <> 255).
    { induction k as [|k IH]; intros Hk m Hm; [lia|]. destruct (Nat.eq_dec m k) as [->|Ne]; [|apply IH; lia].
      destruct (Own k s1 Al (IH ltac:(lia))) as ((Ho & q & c & r & Ep & Pc & _) & _). destruct (C14_programs_run k false l1 h1 true s1 Lv Bd1 Sh1 ltac:(discriminate)) as (hk & Ik).
      destruct (C14_programs k l1 h1 true s1 _ hk Lv Bd1 Sh1 Ik) as ((_ & _ & _ & _ & _ & _ & _ & X8 & _) & _).
      assert (F : ins c <> FIN). { apply (Bf k _ hk c ltac:(lia) Ik). exists q, r. split; [exact Ep|]. rewrite X8, Pc. reflexivity. }
      destruct (plain_fetched p a (slot_values x) Im (M (steps k s1)) q c r Ep Ho) as (_ & Fi & _). unfold Usage.opcode. rewrite Pc. intros X. apply F, Fi, X. }
    destruct (Own n s1 Al (Nf n ltac:(lia))) as (Aln & Lg & Mm). split; [exact (dep_shown p a top (slot_values x) dep h' _ S' Aln)|]. exact (Mine h' _ S' (proj1 Aln) Mm Lg).
  - intros u h' R. destruct (C41_stops_only_after_fin u l1 h1 true s1 h' ltac:(auto) Lv Bd1 Sh1 R) as (n & (F1 & F2) & S' & _).
    destruct (Own n s1 Al F2) as (Aln & Lg & Mm). destruct Aln as (Ho & q & c & r & Ep & Pc & Ps).
    assert (Rm : a + total q < 65535). { pose proof (total_pos r). pose proof (size_pos (ins c)). pose proof Fa as F. rewrite Ep, total_app in F. change (total (c :: r)) with (AsmSpec.size (ins c) + total r) in F. lia. }
    assert (En : steps (S n) s1 = put_pc (PC (steps n s1) + 1) (steps n s1)) by (replace (S n) with (n + 1)%nat by lia; rewrite steps_add; apply (step_fin _ F1); lia).
    rewrite En in S'. split.
    + destruct (plain_fetched p a (slot_values x) Im (M (steps n s1)) q c r Ep Ho) as (_ & Fi & _). exists q, c, r. split; [exact Ep|]. split; [apply Fi; rewrite <- Pc; exact F1|].
      destruct S' as (_ & _ & _ & _ & _ & _ & _ & X8 & X9 & _). rewrite X8, X9. cbn [PC SP put_pc]. rewrite Pc, Ps. auto.
    + exact (Mine h' _ S' Ho Mm Lg).
Qed.
(** A case: a loop that keeps AC on the stack while it counts in B. *)
Definition bal_lines : list str := [s2l "TX PUSH"; s2l "MOV RB, AC"; s2l "SUB 01"; s2l "MOV AC, RB"; s2l "POP"; s2l "ADD 01"; s2l "BC TF"; s2l "JMP TX"; s2l "TF FIN"].
Definition bal_codes : list (option code) :=
  [Some (mkCode (s2l "TX") PUSH []); Some (mkCode [] (MOV_r_ac RB) []); Some (mkCode [] (OP SUB Imm) (s2l "01")); Some (mkCode [] (MOV_ac_r RB) []); Some (mkCode [] POP []);
   Some (mkCode [] (OP ADD Imm) (s2l "01")); Some (mkCode [] BC_ (s2l "TF")); Some (mkCode [] JMP (s2l "TX")); Some (mkCode (s2l "TF") FIN [])].
Definition bal_dep (i : nat) : Z := nth i [0; 1; 1; 1; 1; 0; 0; 0; 0] 0.
Lemma bal_program : program bal_lines bal_codes 256.
Proof.
  split; [split; [discriminate|]; intros l Hl; unfold bal_lines in Hl; cbn [In] in Hl; repeat (destruct Hl as [<-|Hl]; [no_newline|]); destruct Hl|].
  split; [unfold bal_lines, bal_codes; constructor; [line_label "PUSH"%string|]; do 7 (constructor; [line_plain|]); constructor; [line_label "FIN"%string|]; constructor|].
  split; [intros c Hin; unfold bal_codes in *; cbn [somes] in *; set (L := map lab _); cbn [In] in Hin; value_checks|].
  split; [discriminate|split; [lia|]]. unfold bal_codes. cbn [somes total fold_right ins]. cbv [AsmSpec.size value_kind syntax]. lia.
Qed.
Ltac bal_lines_of q Ep := destruct q as [|? q]; [cbn [app] in Ep; injection Ep; intros; subst; clear Ep|cbn [app] in Ep; injection Ep as ? Ep; subst].
Example C112_nonvacuous : program bal_lines bal_codes 256 /\ 256 + total (somes bal_codes) <= 65535 /\ (forall c, In c (somes bal_codes) -> plain_line 256 (total (somes bal_codes)) c) /\ closed_end (somes bal_codes) /\
  balanced (somes bal_codes) 1 bal_dep /\ (exists l h s, live l h true /\ boundary h /\ shows h s /\ get_register_value R_SP h = Some 200 /\ 200 <= 256) /\
  exists out slots, parse_input (text_of bal_lines) 256 = Some out /\ new_translation out = Some slots /\ first_fin 15 (ready_at 256 (slot_values slots) (mkArch 254 false false 9 0 0 0 0 200 (fun _ => 0) [])).
Proof.
  split; [exact bal_program|]. change (total (somes bal_codes)) with 15. split; [lia|].
  split. { intros c Hc. unfold bal_codes in Hc. cbn [somes In] in Hc. destruct Hc as [<-|[<-|[<-|[<-|[<-|[<-|[<-|[<-|[<-|[]]]]]]]]]]; unfold plain_line; cbn [ins val]; try exact I; reflexivity. }
  split; [exists (removelast (somes bal_codes)), (mkCode (s2l "TF") FIN []); split; [reflexivity|left; reflexivity]|].
  split.
  { split; [reflexivity|]. intros q c r Ep. cbv zeta. unfold bal_codes in *. cbn [somes] in *.
    assert (Lb : forall q' c' r', [mkCode (s2l "TX") PUSH []; mkCode [] (MOV_r_ac RB) []; mkCode [] (OP SUB Imm) (s2l "01"); mkCode [] (MOV_ac_r RB) []; mkCode [] POP []; mkCode [] (OP ADD Imm) (s2l "01"); mkCode [] BC_ (s2l "TF"); mkCode [] JMP (s2l "TX"); mkCode (s2l "TF") FIN []] = q' ++ c' :: r' -> lab c' = s2l "TX" \/ lab c' = s2l "TF" -> bal_dep (List.length q') = 0).
    { clear. intros q' c' r' Ep' Lc. do 9 (bal_lines_of q' Ep'; [first [reflexivity|destruct Lc as [Lc|Lc]; discriminate Lc]|]). destruct q'; discriminate Ep'. }
    do 9 (bal_lines_of q Ep; [cbn [List.length ins growth val]; unfold bal_dep at 1 2 3 4 5; cbn [nth]; split; [lia|]; split; [lia|];
      (split; [first [reflexivity|intros _ X; destruct X; reflexivity|intros X; destruct X; reflexivity]|]; intros J;
       first [(destruct J as [J|[J|J]]; discriminate J)|(intros q' c' r' Ep' Lc _; exact (Lb q' c' r' Ep' ltac:(auto)))])|]).
    destruct q; discriminate Ep. }
  split. { set (s := mkArch 254 false false 9 0 0 0 0 200 (fun _ => 0) []). destruct (C14_nonvacuous s) as (l & h & L & Bd & Sh); [repeat split; cbn; lia|reflexivity|]. exists l, h, s. do 3 (split; [assumption|]). split; [apply Sh|lia]. }
  assert (X : exists o s, parse_input (text_of bal_lines) 256 = Some o /\ new_translation o = Some s /\ slot_values s = [193; 16; 102; 1; 64; 194; 101; 1; 115; 1; 14; 116; 1; 0; 255]) by (eexists; eexists; split; [vm_compute; reflexivity|split; vm_compute; reflexivity]).
  destruct X as (o & s & X1 & X2 & X3). exists o, s. do 2 (split; [assumption|]). rewrite X3. split; [vm_compute; reflexivity|]. intros m Hm. do 15 (destruct m as [|m]; [vm_compute; discriminate|]). lia.
Qed.
Print Assumptions C112_balanced.
Print Assumptions C112_nonvacuous.
