(** * Theorems about the disassembly view (C47, C48, C55)
    [deduct m from to] is the call [deductOperationOf(from, to)] when the exported
    function [get_memory_value] is [m]; [listing], [shows_at] and [partition] are
    specified in [DisasmFacts.v]. *)
From Coq Require Import String ZArith NArith List Bool Lia ZifyBool ZifyN.
From Verif Require Import Prog Isa Api Usage IsaFacts Reach PropsApi PropsIsa.
From Verif Require Import JsStr AsmTable Asm AsmSpec AsmRe AsmLine AsmFacts AsmExec AsmProg AsmErr PropsAsm Disasm DisasmFacts.
Import ListNotations.
Open Scope list_scope.
Open Scope Z_scope.

(** The memory as the front end sees it. *)
Definition seen (h : hstate) (o : Z) : Z := match get_memory_value o h with Some v => v | None => -1 end.
(** In every usable machine this is defined, with bytes inside and -1 outside. *)
Theorem C47_memory : forall l h k, live l h k ->
  (forall o, get_memory_value o h = Some (seen h o)) /\ reads_bytes (seen h).
Proof.
  intros l h k L. destruct (C18_ranges l h k L) as (_ & R).
  assert (K : forall o, get_memory_value o h = Some (seen h o) /\ ((0 <= o < 65536 -> 0 <= seen h o <= 255) /\ (o < 0 \/ 65536 <= o -> seen h o = -1))).
  { intros o. unfold seen. destruct (Z.leb_spec 0 o), (Z.ltb_spec o 65536).
    - destruct (R o ltac:(lia)) as (v & -> & Hv). split; auto. split; lia.
    - rewrite C33_out_of_range by lia. split; auto. split; lia.
    - rewrite C33_out_of_range by lia. split; auto. split; lia.
    - rewrite C33_out_of_range by lia. split; auto. split; lia. }
  split; [intros o; apply K|]. intros o. apply K.
Qed.

(** ** C47 *)
Theorem C47_partition : forall m from to, reads_bytes m -> from <= to ->
  exists l e, deduct m from to = Lists l /\ l <> [] /\ partition m (Z.max 0 from) l e /\ Z.min to 65536 <= e /\
    forall o, In o l -> l_from o = Z.max 0 from \/ l_from o < Z.min to 65536.
Proof.
  intros m from to R H. unfold deduct. destruct (Z.ltb_spec to from); [lia|].
  replace (if from <? 0 then 0 else from) with (Z.max 0 from) by (destruct (Z.ltb_spec from 0); lia).
  replace (if get_memory_size <? to then get_memory_size else to) with (Z.min to 65536) by (unfold get_memory_size; change (64 * 1024 * 8 / 8) with 65536; destruct (Z.ltb_spec 65536 to); lia).
  destruct (loop_partition (S (Z.to_nat (Z.min to 65536 - Z.max 0 from))) m (Z.max 0 from) (Z.min to 65536) R) as (l & e & E & N & P & Eb & Hs & _); [lia|lia|lia|].
  rewrite E. exists l, e. auto.
Qed.
Theorem C47_backwards : forall m from to, to < from -> deduct m from to = Throws.
Proof. intros m from to H. unfold deduct. destruct (Z.ltb_spec to from); [reflexivity|lia]. Qed.
(** Every address of the window lies in exactly one line. *)
Theorem C47_each_address_once : forall m from to l p, reads_bytes m -> deduct m from to = Lists l -> 0 <= p -> from <= p < to -> p < 65536 ->
  exists o, In o l /\ l_from o <= p <= l_to o /\ shows_at m (l_from o) (l_text o) (l_to o) /\
    forall o', In o' l -> l_from o' <= p <= l_to o' -> o' = o.
Proof.
  intros m from to l p R H Hp Hw Hm. destruct (C47_partition m from to R ltac:(lia)) as (l' & e & E & N & P & Eb & _). rewrite E in H. injection H as ->.
  destruct (partition_unique m l (Z.max 0 from) e p P ltac:(lia)) as (o & Ho & Hr & Hu). exists o. split; auto. split; auto. split; auto. exact (partition_shows _ _ _ _ _ P Ho).
Qed.
(** The lines are instructions: after the instruction of a line the processor is at
    the next line, unless it is a jump, call or return. *)
Lemma documented_syntax : forall op i, decode_documented op = Some i -> syntax i <> None.
Proof.
  intros op i H. unfold decode_documented in H. cbv zeta in H.
  repeat match type of H with (if ?b then _ else _) = _ => destruct b end; inversion H; subst; discriminate.
Qed.
Definition transfers (i : instr) : bool :=
  match i with JMP | BEQ | BC_ | CALL | RET | IRET => true | _ => false end.
Theorem C47_lines_are_instructions : forall l h k a us h' i text last, live l h k -> boundary h -> shows h a -> Usage.instruction h us h' ->
  decode_documented (M a (PC a)) = Some i -> transfers i = false -> PC a + size i <= 65535 ->
  shows_at (seen h) (PC a) text last -> get_register_value R_PC h' = Some (last + 1).
Proof.
  intros l h k a us h' i text last L Bd S I Ed Tr Hp Sh. destruct (instruction_spec l h k a us h' L Bd S I) as (_ & Sp & _).
  pose proof (size_pos i). unfold shows_at in Sh.
  assert (Ps : 0 <= PC a < 65536).
  { destruct (C18_ranges l h k L) as (Rr & _). destruct (Rr R_PC) as (v & Ev & Hv). destruct S as (_ & _ & _ & _ & _ & _ & _ & Epc & _). cbn in Hv. rewrite Ev in Epc. injection Epc as ->. lia. }
  assert (Em : seen h (PC a) = M a (PC a)) by (unfold seen; destruct S as (_ & _ & _ & _ & _ & _ & _ & _ & _ & Em & _); rewrite Em by lia; reflexivity).
  rewrite Em, Ed in Sh. destruct Sh as (-> & _). destruct Sp as (_ & _ & _ & _ & _ & _ & _ & Epc & _). rewrite Epc. f_equal.
  unfold step, decode. rewrite Ed.
  assert (N1 : PC (pc_next a) = PC a + 1) by (unfold pc_next; destruct (Z.eqb_spec (PC a) 65535); [lia|reflexivity]).
  assert (N2 : PC a + 1 < 65535 -> PC (pc_next (pc_next a)) = PC a + 2) by (intros; unfold pc_next at 1; rewrite N1; destruct (Z.eqb_spec (PC a + 1) 65535); [lia|cbn; lia]).
  assert (N3 : PC a + 2 < 65535 -> PC (pc_next (pc_next (pc_next a))) = PC a + 3) by (intros; unfold pc_next at 1; rewrite N2 by lia; destruct (Z.eqb_spec (PC a + 2) 65535); [lia|cbn; lia]).
  assert (PP : forall d v s, PC (put d v s) = PC s) by (intros [] ? ?; reflexivity).
  assert (PA : forall o v s, PC (alu_step o v s) = PC s) by (intros [] ? ?; reflexivity).
  destruct i as [| | | | | |o [r| |]| | | | | | | | | | | | | | | | | | | | |]; try discriminate; unfold exec_instr, with_dir, with_imm, size, value_kind, syntax in *;
    cbn [transfers] in *; rewrite ?PP, ?PA, ?N1, ?N2, ?N3 by lia; try lia.
  all: try (unfold put_flags, put_ac; cbn [PC]; rewrite ?PP, ?N1, ?N2 by lia; lia).
  all: try (cbn [PC put_ac write put_flags put_sp load_flags push sp_down]; rewrite ?N1, ?N2, ?N3 by lia; lia).
  - unfold push, sp_down. cbn. destruct (_ =? _); cbn; rewrite N1; lia.
  - unfold pop, sp_up. cbn. destruct (_ =? _); cbn; rewrite N1; lia.
  - destruct (documented_syntax _ _ Ed). reflexivity.
Qed.
Example C47_lines_nonvacuous : exists l h a us h' text last, live l h true /\ boundary h /\ shows h a /\ Usage.instruction h us h' /\
  decode_documented (M a (PC a)) = Some LDA /\ transfers LDA = false /\ PC a + size LDA <= 65535 /\ shows_at (seen h) (PC a) text last /\ text = s2l "LDA 1FA".
Proof.
  set (a := mkArch 0 false false 0 0 0 0 10 0 (fun i => if i =? 10 then 0x70 else if i =? 11 then 0x1F else 10) []).
  assert (V : valid a). { repeat split; cbn; try lia; repeat destruct (_ =? _); lia. }
  destruct (C14_nonvacuous a V eq_refl) as (l & h & L & Bd & S). destruct (C14_programs_run 1 false l h true a L Bd S) as (h' & I); [discriminate|].
  inversion I as [|n h0 us h1 vs h2 I1 I2]; subst. exists l, h, a, us, h1, (s2l "LDA 1FA"), 12. split; auto. split; auto. split; auto. split; auto.
  split; [reflexivity|]. split; [reflexivity|]. split; [vm_compute; discriminate|]. split; [|reflexivity].
  destruct S as (_ & _ & _ & _ & _ & _ & _ & _ & _ & Em & _). unfold shows_at, seen. rewrite !Em by (cbn; lia).
  change (M a (PC a)) with 0x70. change (decode_documented 0x70) with (Some LDA). split; [reflexivity|]. cbn [value_kind syntax].
  exists (s2l "1F"), (s2l "A"). unfold cell_text. change (PC a + 1 <? 65536) with true. change (PC a + 2 <? 65536) with true. cbv iota. rewrite !Em by (cbn; lia).
  split; [apply (byte_text_ok 0x1F); lia|]. split; [apply (byte_text_ok 10); lia|]. reflexivity.
Qed.
(** An opcode without documentation is listed as one byte; 0x6B takes two, so the
    next line is not the next instruction. *)
Theorem C47_undocumented_refuted : exists l h a us h' o1 o2 rest, live l h true /\ boundary h /\ shows h a /\ PC a = 10 /\ Usage.instruction h us h' /\
  deduct (seen h) 10 20 = Lists (o1 :: o2 :: rest) /\ o1 = mkListed (s2l "-") 10 10 /\ o2 = mkListed (s2l "FIN") 11 11 /\
  get_register_value R_PC h' = Some 12.
Proof.
  set (a := mkArch 0 false false 0 0 0 0 10 0 (fun i => if i =? 10 then 0x6B else 0xFF) []).
  assert (V : valid a). { repeat split; cbn; try lia; repeat destruct (_ =? _); lia. }
  destruct (C14_nonvacuous a V eq_refl) as (l & h & L & Bd & S). destruct (C14_programs_run 1 false l h true a L Bd S) as (h' & I); [discriminate|].
  inversion I as [|n h0 us h1 vs h2 I1 I2]; subst. destruct (instruction_spec l h true a us h1 L Bd S I1) as (_ & Sp & _).
  destruct (C47_memory l h true L) as (_ & R). destruct (C47_partition (seen h) 10 20 R ltac:(lia)) as (ls & e & E & N & P & Eb & _).
  destruct S as (S1 & S2 & S3 & S4 & S5 & S6 & S7 & S8 & S9 & Em & S11).
  assert (D10 : decode_documented (seen h 10) = None) by (unfold seen; rewrite Em by lia; reflexivity).
  assert (D11 : decode_documented (seen h 11) = Some FIN) by (unfold seen; rewrite Em by lia; reflexivity).
  change (Z.max 0 10) with 10 in P. change (Z.min 20 65536) with 20 in Eb.
  destruct ls as [|o1 ls]; [congruence|]. cbn [partition] in P. destruct P as (P1 & P2 & P3 & P4). unfold shows_at in P3. rewrite D10 in P3. destruct P3 as (P3 & P3').
  rewrite P3' in P4. change (10 + 1) with 11 in P4.
  destruct ls as [|o2 ls]; [cbn [partition] in P4; lia|]. cbn [partition] in P4. destruct P4 as (Q1 & Q2 & Q3 & Q4). unfold shows_at in Q3. rewrite D11 in Q3. destruct Q3 as (Q3' & Q3).
  exists l, h, a, us, h1, o1, o2, ls. split; auto. split; auto. split; [unfold shows; auto 12|]. split; [reflexivity|]. split; auto. split; auto.
  split; [destruct o1 as [x1 x2 x3]; cbn [l_from l_to l_text] in *; congruence|]. split; [destruct o2 as [y1 y2 y3]; cbn [l_from l_to l_text] in *; rewrite Q1, Q3, Q3'; reflexivity|].
  destruct Sp as (_ & _ & _ & _ & _ & _ & _ & Epc & _). rewrite Epc. reflexivity.
Qed.
Print Assumptions C47_memory.
Print Assumptions C47_partition.
Print Assumptions C47_backwards.
Print Assumptions C47_each_address_once.
Print Assumptions C47_lines_are_instructions.
Print Assumptions C47_undocumented_refuted.

(** ** C55: the highlighted line *)
(** With the window around the program counter, one line is highlighted: the only
    one containing the program counter; if a line starts there, that one. *)
Theorem C55_highlight : forall m pc pad, reads_bytes m -> 0 <= pc < 65536 -> 0 <= pad ->
  exists l o, deduct m (pc - pad) (pc + pad) = Lists l /\ pointed pc l = Some o /\ In o l /\ l_from o <= pc <= l_to o /\
    (forall o', In o' l -> l_from o' <= pc <= l_to o' -> o' = o) /\
    shows_at m (l_from o) (l_text o) (l_to o) /\
    ((exists o', In o' l /\ l_from o' = pc) <-> l_from o = pc).
Proof.
  intros m pc pad R Hpc Hpad. destruct (C47_partition m (pc - pad) (pc + pad) R ltac:(lia)) as (l & e & E & N & P & Eb & _).
  assert (In_window : Z.max 0 (pc - pad) <= pc < e).
  { split; [lia|]. destruct (Z.eq_dec pad 0) as [->|]; [|lia]. destruct l as [|x l]; [congruence|]. cbn [partition] in P. destruct P as (P1 & P2 & P3 & P4). apply partition_le in P4. lia. }
  destruct (partition_unique m l _ _ pc P In_window) as (o & Ho & Hr & Hu). exists l, o. split; auto. split.
  - unfold pointed. destruct (find (fun o0 => (l_from o0 <=? pc) && (pc <=? l_to o0)) l) as [x|] eqn:F.
    + apply find_some in F. destruct F as (Fi & Fr). f_equal. apply Hu; auto. lia.
    + pose proof (find_none _ _ F o Ho) as X. cbn in X. lia.
  - split; auto. split; auto. split; auto. split; [exact (partition_shows _ _ _ _ _ P Ho)|]. split.
    + intros (o' & Ho' & Hf). assert (o' = o); [|congruence]. apply Hu; auto.
      assert (l_from o' <= l_to o') by (clear - Ho' P; revert P; generalize (Z.max 0 (pc - pad)); induction l as [|x l IH]; intros z P; [destruct Ho'|]; cbn [partition] in P; destruct P as (P1 & P2 & _ & P4); destruct Ho' as [->|Ho']; [lia|eauto]).
      lia.
    + intros X. exists o. auto.
Qed.
(** The lines starting from the window start reach the program counter. *)
Inductive reaches (m : Z -> Z) : Z -> Z -> Prop :=
| reach_here : forall a, reaches m a a
| reach_next : forall a b, reaches m (a + match decode_documented (m a) with Some i => size i | None => 1 end) b -> reaches m a b.
Lemma reaches_start : forall m l a e p, partition m a l e -> reaches m a p -> a <= p < e -> exists o, In o l /\ l_from o = p.
Proof.
  intros m. induction l as [|x l IH]; intros a e p P Rc H; cbn [partition] in P; [lia|]. destruct P as (P1 & P2 & P3 & P4).
  inversion Rc as [|a' b Rc']; subst; [exists x; cbn; auto|].
  assert (En : l_to x + 1 = l_from x + match decode_documented (m (l_from x)) with Some i => size i | None => 1 end).
  { unfold shows_at in P3. destruct (decode_documented (m (l_from x))); lia. }
  rewrite <- En in Rc'. assert (M : l_to x + 1 <= p).
  { clear - Rc'. induction Rc' as [|a b R IH]; [lia|]. destruct (decode_documented (m a)) as [i|]; [pose proof (size_pos i)|]; lia. }
  destruct (IH _ _ p P4 Rc' ltac:(lia)) as (o & Ho & Ef). exists o. cbn. auto.
Qed.
Theorem C55_aligned : forall m pc pad l o, reads_bytes m -> 0 <= pc < 65536 -> 0 <= pad -> deduct m (pc - pad) (pc + pad) = Lists l -> pointed pc l = Some o ->
  reaches m (Z.max 0 (pc - pad)) pc -> l_from o = pc /\ shows_at m pc (l_text o) (l_to o).
Proof.
  intros m pc pad l o R Hpc Hpad D Po Rc. destruct (C55_highlight m pc pad R Hpc Hpad) as (l' & o' & E & Po' & Ho & Hr & Hu & Hs & Hi).
  rewrite D in E. injection E as <-. rewrite Po in Po'. injection Po' as <-.
  destruct (C47_partition m (pc - pad) (pc + pad) R ltac:(lia)) as (l' & e & E & N & P & Eb & _). rewrite D in E. injection E as <-.
  assert (X : l_from o = pc); [|rewrite X in Hs; auto]. apply Hi. eapply reaches_start; eauto. pose proof (partition_ge _ _ _ _ _ P Ho). lia.
Qed.
(** A program of four LDA 7070 and FIN, window of 10 addresses on both sides, the
    program counter at FIN: the highlighted line is another instruction, starting
    one address before, because the window starts inside an instruction. *)
Definition misaligned (o : Z) : Z := if (o <? 0) || (65536 <=? o) then -1 else if o =? 12 then 0xFF else if o <? 12 then 0x70 else 0.
Theorem C55_misaligned_refuted : reads_bytes misaligned /\ decode_documented (misaligned 12) = Some FIN /\ reaches misaligned 0 12 /\
  exists l, deduct misaligned (12 - 10) (12 + 10) = Lists l /\ pointed 12 l = Some (mkListed (s2l "LDA FF0") 11 13).
Proof.
  split. { intros o. unfold misaligned. destruct (Z.ltb_spec o 0), (Z.leb_spec 65536 o); cbn [orb]; split; intros; try lia; destruct (o =? 12); [lia|]; destruct (o <? 12); lia. }
  split; [reflexivity|]. split; [do 4 apply reach_next; apply reach_here|].
  eexists. split; vm_compute; reflexivity.
Qed.
Print Assumptions C55_highlight.
Print Assumptions C55_aligned.
Print Assumptions C55_misaligned_refuted.

(** ** C48: the text of a line assembles to the bytes of the line *)
Lemma digit_word : forall c, digit c <> None -> is_word c = true.
Proof.
  intros c Hh. unfold digit in Hh. unfold is_word. destruct ((48 <=? c) && (c <=? 57))%N eqn:E1; [lia|]. destruct ((65 <=? c) && (c <=? 70))%N eqn:E2; [lia|].
  destruct ((97 <=? c) && (c <=? 102))%N eqn:E3; [lia|congruence].
Qed.
Lemma numeral_word : forall t, numeral t -> word t.
Proof. intros t (N & H). split; auto. intros c Hc. apply digit_word. auto. Qed.
Lemma numeral_name : forall t, numeral t -> numeral_value t <> 172 -> ~ is_name t.
Proof.
  intros t (_ & H) V X. unfold is_name, caseless in X.
  assert (K : forall a b, map up t = [a; b] -> exists x y, t = [x; y] /\ up x = a /\ up y = b).
  { intros a b E. destruct t as [|x [|y [|]]]; try discriminate. injection E as E1 E2. eauto. }
  destruct X as [X|[X|[X|[X|X]]]]; apply K in X; destruct X as (x & y & -> & Ex & Ey).
  1-4: apply (H x); [cbn; auto|]; rewrite <- digit_up, Ex; reflexivity.
  apply V. cbn [numeral_value List.length]. rewrite <- (digit_up x), <- (digit_up y), Ex, Ey. reflexivity.
Qed.
Lemma listing_written : forall i t, syntax i <> None ->
  match value_kind i with None => t = [] | Some Value8 => word t /\ ~ is_name t | Some _ => word t end ->
  written (listing i t) (Some (mkCode [] i t)) /\ ~ In 10%N (listing i t).
Proof.
  intros i t Sy V. pose proof (form_ok_all i) as K. unfold form_ok in K.
  assert (A : forall a, arg_ok a = true -> match a with Name _ => t = [] | Value8 => word t /\ ~ is_name t | Value16 => word t end ->
    arg_text a t (match a with Name s => s2l s | _ => t end) /\ word (match a with Name s => s2l s | _ => t end)).
  { intros a Ka Va. destruct a as [s| |]; cbn [arg_text arg_ok] in *; [split; [split; auto; reflexivity|exact (lit_words _ _ Ka)]|tauto|tauto]. }
  assert (P : parts i t (listing i t) /\ (forall c, In c (listing i t) -> is_word c = true \/ c = 32%N \/ c = 44%N) /\
              (forall c, hd_error (listing i t) = Some c \/ hd_error (rev (listing i t)) = Some c -> is_word c = true)).
  { assert (Hd : forall w r c, word w -> hd_error (w ++ r) = Some c -> is_word c = true).
    { intros w r c (Nw & Hw) E. destruct w as [|x w]; [congruence|]. cbn in E. injection E as <-. apply Hw. cbn; auto. }
    assert (Tl : forall w r c, word w -> hd_error (rev (r ++ w)) = Some c -> is_word c = true).
    { intros w r c (Nw & Hw) E. rewrite rev_app_distr in E. destruct (rev w) as [|x w'] eqn:Er; [apply (f_equal (@rev N)) in Er; rewrite rev_involutive in Er; cbn in Er; congruence|].
      cbn in E. injection E as <-. apply Hw. apply in_rev. rewrite Er. cbn; auto. }
    unfold parts, listing, value_kind in *. destruct (syntax i) as [[n|n a|n a d]|]; [| | |congruence].
    - pose proof (lit_words _ _ K) as W. split; [split; [exact V|apply lit_caseless]|]. split; [intros c Hc; left; apply W; exact Hc|].
      intros c [E|E]; [apply (Hd (s2l n) [] c W); rewrite app_nil_r; exact E|apply (Tl (s2l n) [] c W); exact E].
    - apply andb_true_iff in K. destruct K as (Km & Ka). pose proof (lit_words _ _ Km) as W. destruct (A a Ka) as (A1 & A2); [destruct a; auto|].
      set (x := match a with Name s => s2l s | _ => t end) in *. split; [|split].
      + exists (s2l n), 32%N, x. split; [reflexivity|]. split; [apply lit_caseless|]. split; [reflexivity|]. exact A1.
      + intros c Hc. apply in_app_or in Hc. destruct Hc as [Hc|[Hc|Hc]]; [left; apply W; exact Hc|auto|left; apply A2; exact Hc].
      + intros c [E|E]; [exact (Hd _ _ _ W E)|]. assert (E' : hd_error (rev ((s2l n ++ [32%N]) ++ x)) = Some c) by (rewrite <- app_assoc; exact E). exact (Tl _ _ _ A2 E').
    - rewrite !andb_true_iff in K. destruct K as ((Km & (Ka & K16)) & Kd). pose proof (lit_words _ _ Km) as W. pose proof (lit_words _ _ Kd) as Wd.
      destruct (A a Ka) as (A1 & A2); [destruct a; auto; discriminate|]. set (x := match a with Name s => s2l s | _ => t end) in *. split; [|split].
      + exists (s2l n), 32%N, x, [32%N], (s2l d). split; [reflexivity|]. split; [apply lit_caseless|]. split; [reflexivity|].
        split; [exact A1|]. split; [right; exists 32%N; auto|apply lit_caseless].
      + intros c Hc. rewrite !in_app_iff in Hc. cbn [In] in Hc. rewrite in_app_iff in Hc. cbn [In] in Hc.
        destruct Hc as [Hc|[Hc|[Hc|[Hc|[Hc|Hc]]]]]; [left; apply W; exact Hc|auto|left; apply A2; exact Hc|auto|auto|left; apply Wd; exact Hc].
      + intros c [E|E]; [exact (Hd _ _ _ W E)|]. assert (E' : hd_error (rev ((s2l n ++ 32%N :: x ++ [44%N; 32%N]) ++ s2l d)) = Some c) by (rewrite <- !app_assoc; cbn [app]; rewrite <- app_assoc; exact E).
        exact (Tl _ _ _ Wd E'). }
  destruct P as (P & Ch & Ends). split.
  - exists (listing i t). split; [|split].
    + exists [], [], []. rewrite !app_nil_r. split; auto. split; [intros c [[]|[]]|]. split; auto. split.
      * intros X. apply Ch in X. destruct X as [X|[X|X]]; discriminate.
      * intros c Hc. apply word_not_ws. auto.
    + intros c Hc. apply Ch in Hc. destruct Hc as [Hc|[->| ->]]; [apply word_not_lt; exact Hc|reflexivity|reflexivity].
    + left. auto.
  - intros X. apply Ch in X. destruct X as [X|[X|X]]; discriminate.
Qed.
(** The bytes of the line at [a]. *)
Definition bytes_at (m : Z -> Z) (a last : Z) : list Z := map (fun k => m (a + Z.of_nat k)) (seq 0 (Z.to_nat (last - a + 1))).
(** Copying a line of the listing into the editor gives the same bytes back,
    except for a byte 0xAC and for an address with a high byte and a low byte
    below 0x10. *)
Theorem C48_reassembles : forall m a text last i init, reads_bytes m -> 0 <= a -> shows_at m a text last -> decode_documented (m a) = Some i -> last < 65536 ->
  (value_kind i = Some Value8 -> m (a + 1) <> 0xAC) -> (value_kind i = Some Value16 -> m (a + 1) = 0 \/ 16 <= m (a + 2)) -> 0 <= init <= 65533 ->
  exists out r, parse_input text init = Some out /\ errors out = [] /\ results out = [r] /\ slot_values (r_result r) = bytes_at m a last.
Proof.
  intros m a text last i init R Ha Sh Ed La H8 H16 Hi. unfold shows_at in Sh. rewrite Ed in Sh. destruct Sh as (El & Sh).
  pose proof (size_pos i) as Sz. pose proof (documented_syntax _ _ Ed) as Sy.
  destruct (R a) as (Ra & _). specialize (Ra ltac:(lia)).
  assert (Bt : forall k t, 0 <= k -> a + k <= last -> cell_text m (a + k) t -> numeral t /\ numeral_value t = m (a + k) /\ 0 <= m (a + k) <= 255).
  { intros k t Hk Hl Ct. unfold cell_text in Ct. destruct (Z.ltb_spec (a + k) 65536); [|lia]. destruct (R (a + k)) as (Rk & _). specialize (Rk ltac:(lia)). destruct Ct as (Ct1 & Ct2 & _). auto. }
  assert (Main : forall t, match value_kind i with None => t = [] | Some Value8 => word t /\ ~ is_name t | Some _ => word t end ->
    (value_kind i = None \/ (numeral t /\ numeral_value t <= max_value i)) -> value_bytes i (numeral_value t) = map (fun k => m (a + Z.of_nat k)) (seq 1 (Z.to_nat (size i - 1))) ->
    text = listing i t -> exists out r, parse_input text init = Some out /\ errors out = [] /\ results out = [r] /\ slot_values (r_result r) = bytes_at m a last).
  { intros t V V' Vb ->. destruct (listing_written i t Sy V) as (W & NL). destruct (C43_instruction _ i t init W NL V' Hi) as (out & r & op & E & Er & Rs & _ & Op & Sv).
    exists out, r. split; auto. split; auto. split; auto. rewrite Sv, Vb. assert (op = m a) as -> by (apply (C43_opcode_unique i); auto; split; auto).
    unfold bytes_at. replace (Z.to_nat (last - a + 1)) with (S (Z.to_nat (size i - 1))) by lia. cbn [seq map]. f_equal. f_equal. lia. }
  unfold size in *. destruct (value_kind i) as [[s| |]|] eqn:Vk.
  - destruct (kind_not_name _ _ Vk).
  - destruct Sh as (t1 & C1 & E). destruct (Bt 1 t1 ltac:(lia) ltac:(lia) C1) as (N1 & V1 & B1). apply (Main t1); auto.
    + split; [apply numeral_word; auto|]. apply numeral_name; auto. rewrite V1. apply H8. reflexivity.
    + right. split; auto. unfold max_value. rewrite Vk. lia.
    + unfold value_bytes. rewrite Vk, V1. reflexivity.
  - destruct Sh as (t1 & t2 & C1 & C2 & E). destruct (Bt 1 t1 ltac:(lia) ltac:(lia) C1) as (N1 & V1 & B1). destruct (Bt 2 t2 ltac:(lia) ltac:(lia) C2) as (N2 & V2 & B2).
    assert (Nn : numeral (t1 ++ t2)). { destruct N1 as (Na & N1), N2 as (Nb & N2). split; [destruct t1; [congruence|discriminate]|]. intros c Hc. apply in_app_or in Hc. destruct Hc; auto. }
    assert (Vv : numeral_value (t1 ++ t2) = 256 * m (a + 1) + m (a + 2)).
    { rewrite value_app, V1, V2. destruct (H16 eq_refl) as [Z0|L16]; [rewrite Z0; lia|].
      assert (Lt2 : List.length t2 = 2%nat); [|rewrite Lt2; change (16 ^ Z.of_nat 2) with 256; lia].
      unfold cell_text in C2. destruct (Z.ltb_spec (a + 2) 65536); [|lia]. destruct C2 as (C2 & C2v & _ & Hz).
      destruct t2 as [|c1 [|c2 [|c3 t2]]]; [destruct C2; congruence| | reflexivity|].
      - cbn [numeral_value List.length Z.of_nat] in V2. destruct (digit c1) as [d|] eqn:Dg; [apply digit_range in Dg|]; lia.
      - exfalso. destruct (digit c1) as [d|] eqn:Dg; [|destruct C2 as (_ & C2); apply (C2 c1); cbn; auto]. pose proof (digit_range _ _ Dg) as Dr.
        change (c1 :: c2 :: c3 :: t2) with ([c1] ++ (c2 :: c3 :: t2)) in V2. rewrite value_app in V2. replace (numeral_value [c1]) with d in V2 by (cbn [numeral_value List.length]; rewrite Dg; change (16 ^ Z.of_nat 0) with 1; lia). pose proof (numeral_nonneg (c2 :: c3 :: t2)) as Nv.
        assert (256 <= 16 ^ Z.of_nat (List.length (c2 :: c3 :: t2))). { change 256 with (16 ^ 2). apply Z.pow_le_mono_r; [lia|]. cbn [List.length]. lia. }
        assert (d <> 0); [|nia]. intros ->. assert (c1 = 48%N). { clear - Dg. unfold digit in Dg. repeat match type of Dg with context [if ?b then _ else _] => destruct b eqn:?E end; try discriminate; injection Dg as Dg; lia. }
        subst c1. specialize (Hz eq_refl). discriminate. }
    apply (Main (t1 ++ t2)); auto.
    + apply numeral_word. exact Nn.
    + right. split; auto. unfold max_value. rewrite Vk. lia.
    + unfold value_bytes. rewrite Vk, Vv. change (Z.to_nat (3 - 1)) with 2%nat. cbn [seq map].
      replace ((256 * m (a + 1) + m (a + 2)) / 256) with (m (a + 1)) by (apply Z.div_unique with (r := m (a + 2)); lia).
      replace ((256 * m (a + 1) + m (a + 2)) mod 256) with (m (a + 2)) by (apply Z.mod_unique with (q := m (a + 1)); lia).
      f_equal.
  - apply (Main []); auto. unfold value_bytes. rewrite Vk. reflexivity.
Qed.
(** The two exceptions. *)
Definition cells (l : list Z) (o : Z) : Z := if (o <? 0) || (65536 <=? o) then -1 else nth (Z.to_nat o) l 0.
Lemma cells_bytes : forall l, Forall (fun v => 0 <= v <= 255) l -> reads_bytes (cells l).
Proof.
  intros l F o. unfold cells. destruct (Z.ltb_spec o 0), (Z.leb_spec 65536 o); cbn [orb]; split; intros; try lia.
  rewrite Forall_forall in F. destruct (Nat.lt_ge_cases (Z.to_nat o) (List.length l)) as [L|L]; [apply F, nth_In; exact L|rewrite nth_overflow by exact L; lia].
Qed.
Example C48_nonvacuous : reads_bytes (cells [0x71; 0x12; 0x34]) /\ decode_documented (cells [0x71; 0x12; 0x34] 0) = Some STA /\
  shows_at (cells [0x71; 0x12; 0x34]) 0 (s2l "STA 1234") 2 /\ (cells [0x71; 0x12; 0x34] 1 = 0 \/ 16 <= cells [0x71; 0x12; 0x34] 2).
Proof.
  split; [apply cells_bytes; repeat constructor; lia|]. split; [reflexivity|]. split; [|right; vm_compute; discriminate].
  split; [reflexivity|]. exists (s2l "12"), (s2l "34"). split; [apply (byte_text_ok 0x12); lia|]. split; [apply (byte_text_ok 0x34); lia|]. reflexivity.
Qed.
(** Different addresses are listed alike: LDA 1203 and LDA 0123; and LDA 1200
    assembles from its line to LDA 0120. *)
Theorem C48_padding_refuted :
  deduct (cells [0x70; 0x12; 0x03]) 0 1 = Lists [mkListed (s2l "LDA 123") 0 2] /\
  deduct (cells [0x70; 0x01; 0x23]) 0 1 = Lists [mkListed (s2l "LDA 123") 0 2] /\
  deduct (cells [0x70; 0x12; 0x00]) 0 1 = Lists [mkListed (s2l "LDA 120") 0 2] /\
  shown [s2l "LDA 120"] 0 = Some ([], [(0%nat, [0x70; 0x01; 0x20])]).
Proof. split; [|split; [|split]]; vm_compute; reflexivity. Qed.
(** The byte 0xAC is listed like the accumulator. *)
Theorem C48_AC_refuted :
  deduct (cells [0x65; 0xAC]) 0 1 = Lists [mkListed (s2l "ADD AC") 0 1] /\
  deduct (cells [0x45]) 0 1 = Lists [mkListed (s2l "ADD AC") 0 0] /\
  shown [s2l "ADD AC"] 0 = Some ([], [(0%nat, [0x45])]).
Proof. split; [|split]; vm_compute; reflexivity. Qed.
Print Assumptions C48_reassembles.
Print Assumptions C48_padding_refuted.
Print Assumptions C48_AC_refuted.
