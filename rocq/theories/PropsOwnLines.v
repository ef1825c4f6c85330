(** * C109: a program without stack executes its own lines only *)
From Coq Require Import String ZArith NArith List Bool Lia ZifyBool ZifyN.
From Verif Require Import Prog Isa Access Api Usage Front ApiFacts IsaFacts Reach PropsApi PropsIsa PropsRun IsaRun PropsLife.
From Verif Require Import JsStr AsmTable Asm AsmSpec AsmRe AsmLine AsmFacts AsmExec AsmProg AsmErr PropsAsm PropsDisasm PropsLoad PropsExamples PropsSpelling.
From Verif Require Import PropsRepro PropsRelocate Relocate PropsMoved PropsAnywhere.
Import ListNotations.
Open Scope list_scope.
Open Scope Z_scope.

(** ** Specification *)
(** The cells written by the STA lines of a program. *)
Definition named_by_sta (p : list code) (x : Z) : Prop := exists c, In c p /\ ins c = STA /\ x = numeral_value (val c).
(** Between two instructions, PC is at the first cell of a line [c] of [p], which starts at [a]. *)
Definition at_source_line (p : list code) (a : Z) (h : hstate) (c : code) : Prop :=
  exists q r, p = q ++ c :: r /\ get_register_value R_PC h = Some (a + total q).

(** Such a program at work, its bytes being [bytes] and [h] the machine before: the bytes are intact, no cell outside
    the program and not named by an STA line has changed, and no notice has been added. *)
Definition minds_its_own (p : list code) (a : Z) (bytes : list Z) (h h' : hstate) : Prop :=
  (forall k, (k < List.length bytes)%nat -> get_memory_value (a + Z.of_nat k) h' = Some (nth k bytes 0)) /\
  (forall x, 0 <= x < 65536 -> ~ (a <= x < a + total p) -> ~ named_by_sta p x -> get_memory_value x h' = get_memory_value x h) /\ hl h' = hl h.
(** None of the first [n] instructions executed from [h] is a FIN line of the program. *)
Definition before_fin (p : list code) (a : Z) (n : nat) (h : hstate) : Prop :=
  forall m us h0 c, (m < n)%nat -> instructions m h us h0 -> at_source_line p a h0 c -> ins c <> FIN.

(** ** Proofs *)
Lemma simple_log : forall a n s c, 0 <= PC s -> PC s + AsmSpec.size (ins c) <= 65535 -> decode (M s (PC s)) = ins c -> syntax (ins c) <> None -> simple a a n c -> log (step s) = log s.
Proof.
  intros a n [ac fc fz rb rc rd re pc sp m lg] c H0 H1 Dc Sy Si. unfold step. rewrite Dc. cbn [PC M] in *. unfold simple, AsmSpec.size in *. unfold pc_next. cbn [PC].
  destruct (ins c) as [? []|?|[]| |[]| |[] [?| |]|[]| | | | | | | | | | | | | | | | | | | |] eqn:Ei; try (destruct Si; fail); try (destruct Sy; reflexivity); cbn [value_kind syntax] in *;
    unfold exec_instr, with_dir, with_imm, imm, pc_next, alu_step, load_flags; cbn [put put_pc put_ac put_flags put_sp write get note PC M FZ FC log];
    replace (pc =? 65535) with false by lia; cbn [put put_pc put_ac put_flags put_sp write get note PC M FZ FC log];
    try (replace (pc + 1 =? 65535) with false by lia; cbn [put put_pc put_ac put_flags put_sp write get note PC M FZ FC log]);
    try (replace (pc + 1 + 1 =? 65535) with false by lia; cbn [put put_pc put_ac put_flags put_sp write get note PC M FZ FC log]);
    try reflexivity.
  - destruct fz; reflexivity.
  - destruct fc; reflexivity.
Qed.
Lemma own_step : forall p a bytes s, image p a p bytes -> 0 <= a -> a + total p <= 65535 -> (forall c, In c p -> value_ok (map lab p) c /\ ~ byte_ref c) -> (forall c, In c p -> simple a a (total p) c) ->
  at_line p a bytes s -> log (step s) = log s /\ forall x, ~ named_by_sta p x -> M (step s) x = M s x.
Proof.
  intros p a bytes s Im Ha Fa Vp Sp (Ho & q & c & r & Ep & Pc). destruct (fetched p a a bytes Im Vp Sp (M s) q c r Ep Ho) as (Dc & Fi & Sy & Op). destruct (line_room p a a Fa Vp Sp q c r Ep) as (Tq & Rm). assert (Ic : In c p) by (rewrite Ep; apply in_or_app; right; left; reflexivity). pose proof (Sp c Ic) as Si.
  rewrite <- Pc in Dc, Op. split; [apply (simple_log a (total p) s c); auto; lia|]. intros x Nx.
  destruct (simple_step p a a Vp Sp s c ltac:(lia) ltac:(lia) Dc Sy Si) as (_ & [Mn|(St & Mn)]); [apply Mn|]. apply Mn. intros ->. apply Nx. exists c. split; [exact Ic|]. split; [exact St|].
  assert (K : value_kind (ins c) = Some Value16) by (rewrite St; reflexivity). rewrite (Op K). unfold simple in Si. rewrite St in Si. destruct Si as (Nr & _). destruct (operand_value p a Vp c Ic K) as [(_ & E)|(R & _)]; [exact E|destruct (Nr R)].
Qed.

Lemma own_steps : forall p a bytes, image p a p bytes -> 0 <= a -> a + total p <= 65535 -> (forall c, In c p -> value_ok (map lab p) c /\ ~ byte_ref c) -> (forall c, In c p -> simple a a (total p) c) -> closed_end p ->
  forall n s, at_line p a bytes s -> (forall m, (m < n)%nat -> Usage.opcode (steps m s) <> 255) ->
  at_line p a bytes (steps n s) /\ log (steps n s) = log s /\ forall x, ~ named_by_sta p x -> M (steps n s) x = M s x.
Proof.
  intros p a bytes Im Ha Fa Vp Sp Cl. induction n as [|n IH]; intros s Al Nf; [split; [exact Al|split; reflexivity]|].
  destruct (own_step p a bytes s Im Ha Fa Vp Sp Al) as (Lg & Mm). pose proof (next_line p a a bytes Im Ha Fa Vp Sp Cl s Al (Nf 0%nat ltac:(lia))) as Al'.
  destruct (IH (step s) Al' ltac:(intros m Hm; apply (Nf (S m)); lia)) as (I1 & I2 & I3). cbn [steps]. split; [exact I1|]. split; [congruence|]. intros x Hx. rewrite I3, Mm by exact Hx. reflexivity.
Qed.
Lemma own_shown : forall p a bytes h h' s s', Z.of_nat (List.length bytes) = total p -> 0 <= a -> a + total p <= 65535 -> shows h s -> shows h' s' -> holds (M s') a bytes ->
  (forall x, ~ named_by_sta p x -> M s' x = stored a bytes (M s) x) -> log s' = log s -> minds_its_own p a bytes h h'.
Proof.
  intros p a bytes h h' s s' Ln Ha Fa (_ & _ & _ & _ & _ & _ & _ & _ & _ & X10 & X11) (_ & _ & _ & _ & _ & _ & _ & _ & _ & Y10 & Y11) Ho Mm Lg. split; [|split; [|congruence]].
  - intros k Hk. rewrite Y10 by lia. f_equal. apply Ho. exact Hk.
  - intros x Hx Nx Ns. rewrite X10, Y10 by exact Hx. f_equal. rewrite Mm by exact Ns. unfold stored. replace ((a <=? x) && (x <? a + Z.of_nat (List.length bytes))) with false by lia. reflexivity.
Qed.
Lemma source_line : forall p a bytes h s, shows h s -> at_line p a bytes s -> exists c, at_source_line p a h c.
Proof. intros p a bytes h s (_ & _ & _ & _ & _ & _ & _ & X8 & _) (_ & q & c & r & Ep & Pc). exists c, q, r. split; [exact Ep|]. rewrite X8, Pc. reflexivity. Qed.

(** Such a source, saved at [a] with PC there.  Before FIN: between any two instructions PC is at a line of the source.
    If the run ends: it ends with PC after a FIN line of the source. *)
Theorem C109_own_lines : forall lines codes a l h s, program lines codes a -> a + total (somes codes) <= 65535 ->
  (forall c, In c (somes codes) -> simple a a (total (somes codes)) c) -> closed_end (somes codes) -> live l h true -> boundary h -> shows h s ->
  exists out slots h1, parse_input (text_of lines) a = Some out /\ new_translation out = Some slots /\ placed a (slot_values slots) h h1 /\
    (forall n us h', instructions n h1 us h' -> before_fin (somes codes) a n h1 ->
      (exists c, at_source_line (somes codes) a h' c) /\ minds_its_own (somes codes) a (slot_values slots) h h') /\
    (forall u h', run_program u false h1 h' ->
      (exists q c r, somes codes = q ++ c :: r /\ ins c = FIN /\ get_register_value R_PC h' = Some (a + total q + 1)) /\ minds_its_own (somes codes) a (slot_values slots) h h').
Proof.
  intros lines codes a l h s P Fa Sp Cl L Bd Sh. pose proof P as (P1 & P2 & P3 & P4 & P5 & P6).
  destruct (C44_image _ _ a P1 P2 P3 P4 P5 P6) as (out & x & A1 & A2 & Im & _). set (p := somes codes) in *. pose proof (image_total _ _ _ _ Im) as Ln. pose proof (image_bytes _ _ _ _ _ P3 P5 P6 Im) as By.
  pose proof Cl as (q0 & c0 & Ep0 & Fc0). assert (Tp : 1 <= total p). { rewrite Ep0, total_app. pose proof (total_pos q0). cbn [total fold_right]. pose proof (size_pos (ins c0)). lia. }
  destruct (placed_shows a (slot_values x) l h s L Bd Sh ltac:(lia) ltac:(lia) By) as (h1 & l1 & Pl & Lv & Bd1 & Sh1).
  exists out, x, h1. do 3 (split; [assumption|]). set (s1 := ready_at a (slot_values x) s) in *.
  assert (Al : at_line p a (slot_values x) s1).
  { split; [apply stored_holds|]. destruct p as [|c r]; [cbn in Tp; lia|]. exists [], c, r. split; [reflexivity|]. cbn. lia. }
  pose proof (own_steps p a (slot_values x) Im P5 Fa P3 Sp Cl) as Own.
  assert (Mine : forall h' s', shows h' s' -> holds (M s') a (slot_values x) -> (forall y, ~ named_by_sta p y -> M s' y = M s1 y) -> log s' = log s1 -> minds_its_own p a (slot_values x) h h').
  { intros h' s' S' Ho Mm Lg. exact (own_shown p a (slot_values x) h h' s s' Ln P5 Fa Sh S' Ho Mm Lg). }
  split.
  - intros n us h' In1 Bf. destruct (C14_programs n l1 h1 true s1 us h' Lv Bd1 Sh1 In1) as (S' & _).
    assert (Nf : forall k, (k <= n)%nat -> forall m, (m < k)%nat -> Usage.opcode (steps m s1) <> 255).
    { induction k as [|k IH]; intros Hk m Hm; [lia|]. destruct (Nat.eq_dec m k) as [->|Ne]; [|apply IH; lia].
      destruct (Own k s1 Al (IH ltac:(lia))) as ((Ho & q & c & r & Ep & Pc) & _). destruct (C14_programs_run k false l1 h1 true s1 Lv Bd1 Sh1 ltac:(discriminate)) as (hk & Ik).
      destruct (C14_programs k l1 h1 true s1 _ hk Lv Bd1 Sh1 Ik) as ((_ & _ & _ & _ & _ & _ & _ & X8 & _) & _).
      assert (F : ins c <> FIN). { apply (Bf k _ hk c ltac:(lia) Ik). exists q, r. split; [exact Ep|]. rewrite X8, Pc. reflexivity. }
      destruct (fetched p a a (slot_values x) Im P3 Sp (M (steps k s1)) q c r Ep Ho) as (_ & Fi & _). unfold Usage.opcode. rewrite Pc. intros X. apply F, Fi, X. }
    destruct (Own n s1 Al (Nf n ltac:(lia))) as (Aln & Lg & Mm). split; [exact (source_line p a _ h' _ S' Aln)|]. exact (Mine h' _ S' (proj1 Aln) Mm Lg).
  - intros u h' R. destruct (C41_stops_only_after_fin u l1 h1 true s1 h' ltac:(auto) Lv Bd1 Sh1 R) as (n & (F1 & F2) & S' & _).
    destruct (Own n s1 Al F2) as (Aln & Lg & Mm). pose proof (line_place p a (slot_values x) (steps n s1) Aln) as Pn.
    assert (En : steps (S n) s1 = put_pc (PC (steps n s1) + 1) (steps n s1)) by (replace (S n) with (n + 1)%nat by lia; rewrite steps_add; apply (step_fin _ F1); lia).
    rewrite En in S'. split.
    + destruct Aln as (Ho & q & c & r & Ep & Pc). destruct (fetched p a a (slot_values x) Im P3 Sp (M (steps n s1)) q c r Ep Ho) as (_ & Fi & _). exists q, c, r. split; [exact Ep|]. split; [apply Fi; rewrite <- Pc; exact F1|].
      destruct S' as (_ & _ & _ & _ & _ & _ & _ & X8 & _). rewrite X8. cbn [PC put_pc]. rewrite Pc. reflexivity.
    + exact (Mine h' _ S' (proj1 Aln) Mm Lg).
Qed.
(** The loop of C108 is such a program, also with its jump taken and its FIN reached (C108_anywhere_nonvacuous). *)
Example C109_nonvacuous : program any_lines any_codes 256 /\ 256 + total (somes any_codes) <= 65535 /\ (forall c, In c (somes any_codes) -> simple 256 256 (total (somes any_codes)) c) /\ closed_end (somes any_codes) /\
  (exists l h s, live l h true /\ boundary h /\ shows h s) /\ named_by_sta (somes any_codes) 768 /\ ~ named_by_sta (somes any_codes) 769.
Proof.
  destruct C108_anywhere_nonvacuous as (_ & P & _ & Cl & Ex & _). split; [exact P|]. change (total (somes any_codes)) with 17. split; [lia|].
  split. { intros c Hc. unfold any_codes in Hc. cbn [somes In] in Hc. destruct Hc as [<-|[<-|[<-|[<-|[<-|[<-|[<-|[]]]]]]]]; unfold simple; cbn [ins val]; try exact I; try reflexivity.
    - split; [discriminate|]. unfold elsewhere. change (numeral_value (s2l "0300")) with 768. lia.
    - left. reflexivity. }
  split; [exact Cl|]. split; [exact Ex|]. split.
  - exists (mkCode [] STA (s2l "0300")). split; [right; left; reflexivity|]. split; reflexivity.
  - intros (c & Hc & St & Ex'). unfold any_codes in Hc. cbn [somes In] in Hc. destruct Hc as [<-|[<-|[<-|[<-|[<-|[<-|[<-|[]]]]]]]]; try discriminate St. vm_compute in Ex'. discriminate Ex'.
Qed.
(** Without the last condition it is false: ADD 01 alone runs on into the cell after it, which no line of the source wrote. *)
Definition open_lines : list str := [s2l "ADD 01"].
Definition open_codes : list (option code) := [Some (mkCode [] (OP ADD Imm) (s2l "01"))].
Lemma open_program : program open_lines open_codes 256.
Proof.
  split; [split; [discriminate|]; intros l Hl; unfold open_lines in Hl; cbn [In] in Hl; destruct Hl as [<-|[]]; no_newline|].
  split; [unfold open_lines, open_codes; constructor; [line_plain|]; constructor|].
  split; [intros c Hin; unfold open_codes in *; cbn [somes] in *; set (L := map lab _); cbn [In] in Hin; value_checks|].
  split; [discriminate|split; [lia|]]. unfold open_codes. cbn [somes total fold_right ins]. cbv [AsmSpec.size value_kind syntax]. lia.
Qed.
Theorem C109_open_refuted : exists lines codes a, program lines codes a /\ a + total (somes codes) <= 65535 /\ (forall c, In c (somes codes) -> simple a a (total (somes codes)) c) /\
  forall l h s, live l h true -> boundary h -> shows h s -> exists out slots h1 us h', parse_input (text_of lines) a = Some out /\ new_translation out = Some slots /\ placed a (slot_values slots) h h1 /\
    instructions 1 h1 us h' /\ before_fin (somes codes) a 1 h1 /\ ~ exists c, at_source_line (somes codes) a h' c.
Proof.
  exists open_lines, open_codes, 256. pose proof open_program as P. split; [exact P|]. change (total (somes open_codes)) with 2. split; [lia|].
  split. { intros c Hc. cbn [open_codes somes In] in Hc. destruct Hc as [<-|[]]. exact I. }
  intros l h s L Bd Sh. pose proof P as (P1 & P2 & P3 & P4 & P5 & P6). destruct (C44_image _ _ 256 P1 P2 P3 P4 P5 P6) as (out & x & A1 & A2 & Im & _). set (p := somes open_codes) in *.
  pose proof (image_total _ _ _ _ Im) as Ln. change (total p) with 2 in Ln. pose proof (image_bytes _ _ _ _ _ P3 P5 P6 Im) as By.
  destruct (placed_shows 256 (slot_values x) l h s L Bd Sh ltac:(lia) ltac:(lia) By) as (h1 & l1 & Pl & Lv & Bd1 & Sh1). set (s1 := ready_at 256 (slot_values x) s) in *.
  destruct (C14_programs_run 1 false l1 h1 true s1 Lv Bd1 Sh1 ltac:(discriminate)) as (h' & I1). destruct (C14_programs 1 l1 h1 true s1 _ h' Lv Bd1 Sh1 I1) as ((_ & _ & _ & _ & _ & _ & _ & X8 & _) & _).
  exists out, x, h1. eexists. exists h'. do 3 (split; [assumption|]). split; [exact I1|].
  assert (One : forall q c r, p = q ++ c :: r -> q = [] /\ ins c = OP ADD Imm) by (intros [|d q] c r E; injection E; [intros; subst; auto|intros E' _; destruct q; discriminate E']).
  split; [intros m us h0 c _ _ (q & r & Ep & _) F; destruct (One q c r Ep) as (_ & X); congruence|].
  assert (Sp : forall c, In c p -> simple 256 256 (total p) c) by (intros c [<-|[]]; exact I).
  destruct (fetched p 256 256 (slot_values x) Im P3 Sp (M s1) [] (mkCode [] (OP ADD Imm) (s2l "01")) [] eq_refl (stored_holds _ _ _)) as (Dc & _ & Sy & _).
  destruct (simple_step p 256 256 P3 Sp s1 (mkCode [] (OP ADD Imm) (s2l "01")) ltac:(cbn; lia) ltac:(left; cbn; lia) Dc Sy I) as ([(Pn & _)|(_ & [X|[X|X]])] & _); try discriminate X.
  intros (c & q & r & Ep & Pc). destruct (One q c r Ep) as (-> & _). rewrite X8 in Pc. cbn [steps] in Pc. rewrite Pn in Pc. vm_compute in Pc. discriminate Pc.
Qed.
Print Assumptions C109_own_lines.
Print Assumptions C109_open_refuted.
Print Assumptions C109_nonvacuous.
