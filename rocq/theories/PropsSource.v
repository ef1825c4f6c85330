(** * Theorems: a program typed, saved and run does what its text says (C71) *)
From Coq Require Import String ZArith NArith List Bool Lia ZifyBool ZifyN.
From Verif Require Import Prog Isa Api ApiFacts Usage Front IsaFacts Reach PropsApi PropsIsa PropsLife PropsRun Shown IsaRun Buttons PropsButtons.
From Verif Require Import JsStr AsmTable Asm AsmSpec AsmRe AsmLine AsmFacts AsmExec AsmProg AsmErr PropsAsm Disasm DisasmFacts PropsDisasm PropsLoad Editor PropsEditor PropsExamples Source.
Import ListNotations.
Open Scope list_scope.
Open Scope Z_scope.

(** ** One line *)
Lemma line_image : forall p init q a x c bytes, line_at q a x = Some c -> image p init q bytes -> In c q /\ a <= x /\ x + size (ins c) <= a + total q /\
  exists pre post b, bytes = pre ++ b ++ post /\ x = a + Z.of_nat (List.length pre) /\ encodes p init c b.
Proof.
  intros p init. induction q as [|d q IH]; intros a x c bytes H Im; [discriminate H|]. cbn [image] in Im. destruct Im as (b & bs & -> & En & Im).
  change (total (d :: q)) with (size (ins d) + total q). pose proof (size_pos (ins d)) as Sp.
  assert (Tq : 0 <= total q). { clear. induction q as [|c q IH]; cbn [total fold_right]; [lia|]. pose proof (size_pos (ins c)). unfold total in IH. lia. }
  cbn [line_at] in H. destruct (Z.eqb_spec x a) as [->|N].
  - injection H as <-. split; [left; reflexivity|]. split; [lia|]. split; [lia|]. exists [], bs, b. cbn [app List.length]. split; auto. split; [lia|exact En].
  - destruct (IH _ _ _ _ H Im) as (H1 & H2 & H3 & pre & post & b' & -> & E & En'). split; [right; exact H1|]. split; [lia|]. split; [lia|].
    exists (b ++ pre), post, b'. rewrite <- app_assoc. split; auto. split; [|exact En']. apply encodes_size in En. rewrite app_length. lia.
Qed.
Lemma pc_next_lt : forall s, PC s < 65535 -> pc_next s = put_pc (PC s + 1) s.
Proof. intros s H. unfold pc_next. destruct (Z.eqb_spec (PC s) 65535); [lia|reflexivity]. Qed.
Lemma worth_byte : forall L p a c, value_kind (ins c) = Some Value8 -> value_ok L c -> ~ byte_ref c -> worth p a (val c) = numeral_value (val c).
Proof.
  intros L p a c K V B. unfold value_ok in V. rewrite K in V. unfold worth. destruct V as [(V & _)|(V & _)]; [|destruct B; split; auto].
  assert (NR : ~ is_ref (val c)) by (intros X; exact (ref_not_numeral _ X V)). unfold is_ref in NR.
  destruct (hd_error (val c)) as [ch|]; [|reflexivity]. destruct (N.eq_dec ch 84) as [->|Nc]; [tauto|].
  clear -Nc. destruct ch as [|q]; auto. repeat (destruct q as [q|q|]; auto). congruence.
Qed.
Lemma do_step : forall L p a c s b, value_ok L c -> ~ byte_ref c -> encodes p a c b -> code_at (M s) (PC s) b -> PC s + size (ins c) <= 65535 -> step s = do_line p a c s.
Proof.
  intros L p a c s b V Br (op & (R & Dc) & Eb) H Hp. pose proof (size_pos (ins c)) as Sp. unfold step.
  assert (M0 : M s (PC s) = op). { specialize (H 0%nat). rewrite Eb in H. cbn [List.length nth] in H. rewrite <- H by lia. f_equal. lia. }
  rewrite M0. unfold decode. rewrite Dc. rewrite pc_next_lt by lia. unfold do_line.
  destruct (value_kind (ins c)) as [[nm| |]|] eqn:K.
  - destruct (kind_not_name _ _ K).
  - rewrite (worth_byte L p a c K V Br). unfold size in *. rewrite K in *.
    assert (M1 : M s (PC s + 1) = numeral_value (val c)). { specialize (H 1%nat). rewrite Eb in H. cbn [List.length nth] in H. rewrite <- H by lia. f_equal. }
    clear V Br Eb H M0 R. destruct (ins c) as [| | | | | |o [r| |]| | | | | | | | | | | | | | | | | | | | |]; try discriminate K;
      cbn [exec_instr perform]; unfold with_imm, imm; rewrite pc_next_lt by (cbn [put_pc PC]; lia); cbn [put_pc PC M]; rewrite M1;
      replace (PC s + 1 + 1) with (PC s + 2) by lia; destruct s; reflexivity.
  - unfold size in *. rewrite K in *. cbv zeta in Eb. assert (Ew : worth p a (val c) = 256 * M s (PC s + 1) + M s (PC s + 1 + 1)).
    { pose proof (H 1%nat) as H1. pose proof (H 2%nat) as H2. rewrite Eb in H1, H2. cbn [List.length nth] in H1, H2. change (Z.of_nat 1) with 1 in H1. change (Z.of_nat 2) with 2 in H2.
      replace (PC s + 1 + 1) with (PC s + 2) by lia. rewrite H1, H2 by lia. rewrite high_low. reflexivity. }
    clear V Br Eb H M0 R. destruct (ins c) as [| | | | | |o [r| |]| | | | | | | | | | | | | | | | | | | | |]; try discriminate K;
      cbn [exec_instr perform]; unfold with_dir, with_imm, imm; rewrite (pc_next_lt (put_pc (PC s + 1) s)) by (cbn [put_pc PC]; lia); cbn [put_pc PC M];
      rewrite pc_next_lt by (cbn [put_pc PC]; lia); cbn [put_pc PC M]; rewrite <- Ew;
      replace (PC s + 1 + 1 + 1) with (PC s + 3) by lia; destruct s; reflexivity.
  - unfold size in *. rewrite K in *. clear V Br Eb H M0 R. destruct (ins c) as [| | | | | |o [r| |]| | | | | | | | | | | | | | | | | | | | |]; try discriminate K; reflexivity.
Qed.
Lemma code_at_part : forall m o pre b post, code_at m o (pre ++ b ++ post) -> code_at m (o + Z.of_nat (List.length pre)) b.
Proof.
  intros m o pre b post H k Hk. specialize (H (List.length pre + k)%nat). rewrite !app_length in H. specialize (H ltac:(lia)).
  rewrite app_nth2_plus, app_nth1 in H by exact Hk. rewrite <- H. f_equal. lia.
Qed.
Lemma not_fin : forall i op, i <> FIN -> opcode i op -> op <> 255.
Proof. intros i op N (_ & D) ->. apply N. injection D as <-. reflexivity. Qed.
(** ** Many lines *)
Lemma performs_goes : forall L p a bytes, (forall c, In c p -> value_ok L c /\ ~ byte_ref c) -> image p a p bytes -> forall n s u, performs p a n s u -> code_at (M s) a bytes ->
  steps n s = u /\ (forall m, (m < n)%nat -> Usage.opcode (steps m s) <> 255) /\ code_at (M u) a bytes.
Proof.
  intros L p a bytes G Im n s u P. induction P as [s|n s c u Hl Nf Hp Keep P IH]; intros Ca.
  { split; [reflexivity|]. split; [intros m Hm; lia|exact Ca]. }
  destruct (line_image p a p a (PC s) c bytes Hl Im) as (Hin & Hx & Hy & pre & post & b & Eb & Ex & En). destruct (G c Hin) as (V & Br).
  assert (Cb : code_at (M s) (PC s) b) by (rewrite Ex; rewrite Eb in Ca; exact (code_at_part _ _ _ _ _ Ca)).
  pose proof (do_step L p a c s b V Br En Cb Hp) as St.
  assert (Ca' : code_at (M (do_line p a c s)) a bytes).
  { intros k Hk. rewrite Keep; [exact (Ca k Hk)|]. pose proof (image_total _ _ _ _ Im). lia. }
  destruct (IH Ca') as (E1 & E2 & E3). split; [cbn [steps]; rewrite St; exact E1|]. split; [|exact E3].
  intros m Hm. destruct m as [|m]; [|cbn [steps]; rewrite St; apply E2; lia]. cbn [steps]. unfold Usage.opcode.
  destruct En as (op & O & ->). specialize (Cb 0%nat). cbn [List.length nth] in Cb. rewrite Z.add_0_r in Cb. rewrite Cb by lia. exact (not_fin _ _ Nf O).
Qed.

(** ** C71 *)
(** The instruction button pressed [n] times, each press followed by [w] wakes. *)
Fixpoint instruction_presses (n w : nat) : list uevent :=
  match n with O => [] | S n' => PressInstruction :: repeat Wake w ++ instruction_presses n' w end.
Lemma acts_app : forall x y s, acts (x ++ y) s = match acts x s with Some s' => acts y s' | None => None end.
Proof. induction x as [|e x IH]; intros y s; [reflexivity|]. cbn [app acts]. destruct (act e s); auto. Qed.
Lemma presses_run : forall n l h s, live l h true -> boundary h -> shows h s -> exists h' l', shows h' (steps n s) /\ boundary h' /\ live l' h' true /\
  exists k, forall w, (k <= w)%nat -> acts (instruction_presses n w) (h, None) = Some (h', None).
Proof.
  induction n as [|n IH]; intros l h s L Bd Sh.
  { exists h, l. split; [exact Sh|]. split; [exact Bd|]. split; [exact L|]. exists 0%nat. reflexivity. }
  destruct (PropsRun.C40_ends l h L) as (h1 & R). destruct (PropsRun.C40_one_instruction l h s h1 L Bd Sh R) as (_ & Sh1 & Bd1).
  destruct (PropsRun.C40_completes l h h1 L R) as (_ & m & _ & (Hm & _)).
  destruct (instruction_loop h h1 R) as (k1 & K1).
  assert (L1 : exists l1, live l1 h1 true).
  { assert (A : acts (PressInstruction :: repeat Wake k1) (h, None) = Some (h1, None)). { cbn [acts act]. exact (K1 k1 ltac:(lia)). }
    destruct (C62_safe (PressInstruction :: repeat Wake k1) l h None L) as (h2 & lo & l2 & A2 & L2).
    { constructor; [constructor|]. apply Forall_forall. intros x Hx. apply repeat_spec in Hx. subst x. constructor. }
    rewrite A in A2. injection A2 as <- <-. eauto. }
  destruct L1 as (l1 & L1). destruct (IH l1 h1 (step s) L1 Bd1 Sh1) as (h' & l' & S' & B' & L' & k & K).
  exists h', l'. cbn [steps]. split; [exact S'|]. split; [exact B'|]. split; [exact L'|]. exists (k1 + k)%nat. intros w Hw.
  cbn [instruction_presses]. rewrite app_comm_cons, acts_app. cbn [acts act]. rewrite (K1 w) by lia. apply K. lia.
Qed.
(** Type a program in the editor, after any other texts; press Save; set PC to its
    start.  Then, in whatever state the machine was: pressing "run instruction" [n]
    times does what the first [n] lines say; "run program", in either mode, does
    what the lines say up to the first FIN, and stops. *)
Theorem C71_as_written : forall t l lines codes c k h, program lines codes 0 -> last l t = text_of lines ->
  (match opened_later t with Some c0 => edits l c0 | None => None end) = Some c -> live k h true ->
  exists h1 h2 s0, press_save c h = Some h1 /\ acts [SetPcTo 0] (h1, None) = Some (h2, None) /\ shows h2 s0 /\ valid s0 /\ PC s0 = 0 /\
    (forall r, r <> R_PC -> get_register_value r h2 = get_register_value r h) /\
    (forall x, total (somes codes) <= x < 65536 -> get_memory_value x h2 = get_memory_value x h) /\
    (forall n s, performs (somes codes) 0 n s0 s ->
       exists h', shows h' s /\ exists w0, forall w, (w0 <= w)%nat -> acts (instruction_presses n w) (h2, None) = Some (h', None)) /\
    (forall n s f, performs (somes codes) 0 n s0 s -> line_at (somes codes) 0 (PC s) = Some f -> ins f = FIN -> PC s < 65535 ->
       exists h', shows h' (put_pc (PC s + 1) s) /\ exists w0, forall w im, (w0 <= w)%nat -> acts (PressProgram im :: repeat Wake w) (h2, None) = Some (h', None)).
Proof.
  intros t l lines codes c k h P Hl E L. destruct (live_up k h true L) as (_ & z & U). destruct (up_obs h z U) as (O & _).
  destruct (C64_program t l lines codes c k h _ P Hl E L O) as (Can & h1 & bytes & Sv & Im & Ho & Tl & Rest).
  assert (E0 : exists c0, opened_later t = Some c0 /\ edits l c0 = Some c) by (destruct (opened_later t); [eauto|discriminate E]). destruct E0 as (c0 & Eo & Ee).
  destruct (C64_save t l c0 c k h _ (or_introl Eo) Ee L O) as (h1' & Sv' & (k1 & L1) & _ & X). assert (h1' = h1) by congruence. subst h1'. destruct (X Can) as (_ & Y & Rg & Nx).
  destruct (C35_only_pc k1 h1 0 L1 ltac:(lia)) as (h2 & Ep & Q1 & Q2 & Q3 & _ & Q5 & _).
  assert (L2 : live (k1 ++ [SetPc 0]) h2 true). { destruct L1 as (Pr & R). split; [econstructor; [exact Pr|constructor; lia]|]. rewrite run_calls_app, R. cbn [run_calls]. rewrite Ep. reflexivity. }
  assert (Bd : boundary h2). { split; [congruence|]. rewrite Q1. intros Z0. discriminate Z0. }
  destruct (live_shows _ _ _ L2) as (s0 & Sh & V).
  assert (Pc : PC s0 = 0). { destruct Sh as (_ & _ & _ & _ & _ & _ & _ & Sp & _). congruence. }
  assert (Tb : total (somes codes) <= 65536) by (destruct P as (_ & _ & _ & _ & _ & P); lia).
  assert (Ca : code_at (M s0) 0 bytes).
  { intros i Hi. rewrite <- (Ho i Hi). unfold seen. destruct Sh as (_ & _ & _ & _ & _ & _ & _ & _ & _ & Sm & _). rewrite <- Q3, Sm by lia. reflexivity. }
  assert (G : forall d, In d (somes codes) -> value_ok (map lab (somes codes)) d /\ ~ byte_ref d) by apply P.
  exists h1, h2, s0. split; [exact Sv|]. split. { cbn [acts act]. rewrite Ep. reflexivity. }
  split; [exact Sh|]. split; [exact V|]. split; [exact Pc|]. split. { intros r Hr. rewrite Q2 by exact Hr. apply Rg. }
  split. { intros x Hx. rewrite Q3. destruct P as (_ & _ & _ & P4 & _). assert (0 <= total (somes codes)) by (clear; induction (somes codes) as [|d q IH]; cbn [total fold_right]; [lia|]; pose proof (size_pos (ins d)); unfold total in IH; lia).
           destruct (live_up k1 h1 true L1) as (_ & z1 & U1). destruct (up_obs h1 z1 U1) as ((_ & O1 & _) & _). destruct O as (_ & O2 & _). specialize (Rest x ltac:(lia)). unfold seen in Rest. rewrite O1, O2 in * by lia. congruence. }
  split.
  - intros n s Pf. destruct (performs_goes _ _ 0 bytes G Im n s0 s Pf Ca) as (En & _). destruct (presses_run n _ h2 s0 L2 Bd Sh) as (h' & l' & S' & _ & _ & K). rewrite En in S'. eauto.
  - intros n s f Pf Hf Ff Hlt. destruct (performs_goes _ _ 0 bytes G Im n s0 s Pf Ca) as (En & Nf & Ca').
    destruct (line_image _ 0 _ 0 (PC s) f bytes Hf Im) as (_ & _ & _ & pre & post & b & Eb & Ex & (op & Op & Eb')). rewrite Ff in Op. apply fin_opcode in Op. subst op.
    assert (F : first_fin n s0).
    { split; [|exact Nf]. rewrite En. unfold Usage.opcode. rewrite Eb in Ca'. apply code_at_part in Ca'. rewrite Z.add_0_l in *. rewrite <- Ex in Ca'. rewrite Eb' in Ca'. specialize (Ca' 0%nat). cbn [List.length nth] in Ca'.
      rewrite Z.add_0_r in Ca'. apply Ca'. lia. }
    destruct (C62_modes n _ h2 s0 L2 Bd Sh F) as (h' & (w0 & K) & S' & _). exists h'. split; [|exists w0; intros w im Hw; apply K; exact Hw].
    replace (S n) with (n + 1)%nat in S' by lia. rewrite steps_add, En in S'. cbn [steps] in S'. rewrite step_fin in S'; auto. destruct F as (F & _). rewrite En in F. exact F.
Qed.
(** The address a label stands for is that of the first line with the label: a
    jump or call to it performs that line next. *)
Theorem C71_labels : forall p a n, In n (map lab p) -> exists before c after, p = before ++ c :: after /\ lab c = n /\ ~ In n (map lab before) /\
  address p a n = a + total before /\ line_at p a (address p a n) = Some c.
Proof.
  induction p as [|d p IH]; intros a n Hn; [destruct Hn|]. cbn [address line_at]. destruct (str_eqb (lab d) n) eqn:Es; [apply str_eqb_eq in Es; subst n|assert (N : lab d <> n) by (intros X; apply str_eqb_eq in X; congruence)].
  - exists [], d, p. rewrite Z.eqb_refl. repeat split; auto. cbn. lia.
  - destruct Hn as [Hn|Hn]; [contradiction|]. destruct (IH (a + size (ins d)) n Hn) as (before & c & after & -> & H1 & H2 & H3 & H4).
    exists (d :: before), c, after. split; [reflexivity|]. split; [exact H1|]. split; [intros [X|X]; contradiction|].
    split; [change (total (d :: before)) with (size (ins d) + total before); lia|].
    pose proof (address_bounds (before ++ c :: after) (a + size (ins d)) n Hn). pose proof (size_pos (ins d)).
    destruct (Z.eqb_spec (address (before ++ c :: after) (a + size (ins d)) n) a); [lia|]. exact H4.
Qed.
(** A loop with labels, a store beside the program and a FIN. *)
Definition loop_lines : list str := [s2l "MOV 02, AC # twice"; s2l "TLOOP SUB 01"; s2l "BEQ TEND"; []; s2l "JMP TLOOP"; s2l "TEND STA 0200"; s2l "FIN"].
Definition loop_codes : list (option code) :=
  [Some (mkCode [] MOV_i_ac (s2l "02")); Some (mkCode (s2l "TLOOP") (OP SUB Imm) (s2l "01")); Some (mkCode [] BEQ (s2l "TEND")); None;
   Some (mkCode [] JMP (s2l "TLOOP")); Some (mkCode (s2l "TEND") STA (s2l "0200")); Some (mkCode [] FIN [])].
Example C71_nonvacuous : program loop_lines loop_codes 0 /\
  forall s0, valid s0 -> PC s0 = 0 -> exists s f, performs (somes loop_codes) 0 7 s0 s /\ line_at (somes loop_codes) 0 (PC s) = Some f /\ ins f = FIN /\ PC s = 13 /\ AC s = 0 /\ FZ s = true /\ M s 512 = 0.
Proof.
  split.
  - split; [|split]. 
    { split; [discriminate|]. intros l Hl. unfold loop_lines in Hl. cbn [In] in Hl. repeat (destruct Hl as [<-|Hl]; [no_newline|]). destruct Hl. }
    { unfold loop_lines, loop_codes. constructor; [line_plain|]. constructor; [line_label "SUB 01"%string|]. constructor; [line_plain|]. constructor; [line_blank|].
      constructor; [line_plain|]. constructor; [line_label "STA 0200"%string|]. constructor; [line_plain|]. constructor. }
    split; [|split; [discriminate|split; [lia|cbv; discriminate]]].
    intros c Hin. unfold loop_codes in *. cbn [somes] in *. set (L := map lab _). cbn [In] in Hin.
    repeat (destruct Hin as [<-|Hin]; [split; [|intros (X & Y); try discriminate X; discriminate Y]; first [exact I|literal_value|label_value]|]). destruct Hin.
  - intros s0 V Pc. destruct s0 as [ac fc fz b c d e pc sp m lg]. cbn [PC] in Pc. subst pc.
    eexists _, _. split.
    { Ltac perform_line := eapply P_line; [vm_compute; reflexivity|discriminate|vm_compute; discriminate|intros x _; vm_compute; reflexivity|
        match goal with |- performs ?p ?a ?n ?x ?y => let x' := eval vm_compute in x in change (performs p a n x' y) end].
      do 6 perform_line. eapply P_line; [vm_compute; reflexivity|discriminate|vm_compute; discriminate| |apply P_none].
      intros x Hx. change (total (somes loop_codes)) with 14 in Hx. unfold do_line. cbn [ins val]. change (worth (somes loop_codes) 0 [48%N; 50%N; 48%N; 48%N]) with 512.
      cbn [perform write M put_pc]. destruct (Z.eqb_spec x 512); [lia|reflexivity]. }
    unfold do_line. cbn [ins val]. change (worth (somes loop_codes) 0 [48%N; 50%N; 48%N; 48%N]) with 512. cbn [perform write M PC AC FZ put_pc]. repeat split; vm_compute; reflexivity.
Qed.
Print Assumptions C71_as_written.
Print Assumptions C71_labels.
