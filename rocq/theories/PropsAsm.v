(** * Theorems about the assembler (C43-C46)
    [parse_input text init] is the call [parseInput(text, initDir)].  A text is
    given as its lines joined by newlines; [written], [code_line], [encodes] and
    [address] are from [AsmSpec.v]. *)
From Coq Require Import String ZArith NArith List Bool Lia ZifyBool ZifyN Sorting.Sorted.
From Verif Require Import JsStr AsmTable Asm Isa AsmSpec AsmRe AsmLine AsmFacts AsmExec AsmProg AsmErr.
Import ListNotations.
Open Scope Z_scope.

Definition lines_ok (lines : list str) : Prop := lines <> [] /\ forall l, In l lines -> ~ In 10%N l.
Definition text_of (lines : list str) : str := join 10%N lines.

Lemma written_core : forall raw o, written raw o -> core_code (core_of raw) o.
Proof. intros raw o (core & S & SL & H). unfold core_of. rewrite (stripped_core _ _ S). split; auto. Qed.
Lemma written_cores : forall lines codes, Forall2 written lines codes -> Forall2 core_code (map core_of lines) codes.
Proof. intros lines codes F. induction F; cbn [map]; constructor; auto using written_core. Qed.

(** ** C44: whole programs *)
(** Every program made of well-formed lines, blank lines and comments assembles
    without error, line by line, to the bytes of its instructions; label operands
    are the address of the line with that label: start address plus the sizes of
    the instructions before it. *)
Theorem C44_program : forall lines codes init, lines_ok lines -> Forall2 written lines codes ->
  (forall c, In c (somes codes) -> value_ok (map lab (somes codes)) c /\ ~ byte_ref c) ->
  0 <= init -> init + total (somes codes) <= 65536 ->
  exists out, parse_input (text_of lines) init = Some out /\ errors out = [] /\
    Forall2 (fun kc r => r_off r = fst kc /\ r_eti r = lab (snd kc) /\ encodes (somes codes) init (snd kc) (slot_values (r_result r)))
            (numbered 0 codes) (results out) /\
    positions out = labelled (somes codes) init.
Proof.
  intros lines codes init (N & NL) F G I0 I1. unfold text_of. rewrite parse_of_cores by auto.
  destruct (assemble_good _ _ init (written_cores _ _ F) G I0 I1) as (rows & rows' & E1 & E2 & H & EL). unfold of_cores. rewrite E1, E2.
  eexists. split; [reflexivity|]. cbn [errors results positions]. split; auto. split; auto.
  eapply Forall2_imp; [|exact H]. intros kc r (H1 & H2 & H3 & _). auto.
Qed.
(** What the editor hands over to be stored: the encodings one after the other. *)
Fixpoint image (p : list code) (a : Z) (q : list code) (bytes : list Z) : Prop :=
  match q with
  | [] => bytes = []
  | c :: q' => exists b bs, bytes = b ++ bs /\ encodes p a c b /\ image p a q' bs
  end.
Theorem C44_image : forall lines codes init, lines_ok lines -> Forall2 written lines codes ->
  (forall c, In c (somes codes) -> value_ok (map lab (somes codes)) c /\ ~ byte_ref c) -> somes codes <> [] ->
  0 <= init -> init + total (somes codes) <= 65536 ->
  exists out slots, parse_input (text_of lines) init = Some out /\ new_translation out = Some slots /\
    image (somes codes) init (somes codes) (slot_values slots) /\
    Forall (fun s => List.length s = 2%nat /\ numeral s) slots.
Proof.
  intros lines codes init (N & NL) F G Ne I0 I1. unfold text_of. rewrite parse_of_cores by auto.
  destruct (assemble_good _ _ init (written_cores _ _ F) G I0 I1) as (rows & rows' & E1 & E2 & H & EL). unfold of_cores. rewrite E1, E2.
  exists (mkOut [] rows' (eti_positions rows init)), (concat (map r_result rows')). split; [reflexivity|]. unfold new_translation. cbn [errors results].
  assert (Gi : forall p kcs rs, Forall2 (final_row p init) kcs rs -> image p init (map snd kcs) (slot_values (concat (map r_result rs)))).
  { clear. intros p kcs rs H. induction H as [|kc r kcs rs (_ & _ & H & _) Hs IH]; cbn [map concat image]; [reflexivity|].
    exists (slot_values (r_result r)), (slot_values (concat (map r_result rs))). unfold slot_values at 1. rewrite map_app. auto. }
  assert (Gf : forall p kcs rs, Forall2 (final_row p init) kcs rs -> Forall (fun s => List.length s = 2%nat /\ numeral s) (concat (map r_result rs))).
  { clear. intros p kcs rs H. induction H as [|kc r kcs rs (_ & _ & _ & H) Hs IH]; cbn [map concat]; [constructor|]. apply Forall_app. split; auto.
    eapply Forall_impl; [|exact H]. intros s (L & Hx). split; auto. apply numeral_check. split; auto. destruct s; [discriminate|discriminate]. }
  pose proof (Gi _ _ _ H) as Im. rewrite numbered_somes in Im. split; [|split; [exact Im|exact (Gf _ _ _ H)]].
  destruct (concat (map r_result rows')) as [|x l] eqn:Ec; auto. exfalso. destruct (somes codes) as [|c p]; [congruence|].
  cbn [image slot_values map] in Im. destruct Im as (b & bs & Eb & (op & _ & Eo) & _). subst b. discriminate.
Qed.

Definition ex_src : list str := map s2l
  ["  mov 5, rb # counter"; ""; "Tloop sub rc"; "BEQ Tend"; "jmp Tloop # back"; "# only a comment"; "Tend FIN  "]%string.
Definition ex_codes : list (option code) :=
  [Some (mkCode [] (MOV_i_r RB) (s2l "5")); None; Some (mkCode (s2l "Tloop") (OP SUB (Reg RC)) []); Some (mkCode [] BEQ (s2l "Tend"));
   Some (mkCode [] JMP (s2l "Tloop")); None; Some (mkCode (s2l "Tend") FIN [])].
Lemma core_written : forall raw core o, core_of raw = core -> forallb (fun c => negb (is_lt c)) core = true ->
  match o with None => core = [] | Some c => code_line core c end -> written raw o.
Proof.
  intros raw core o E SL H. exists core. split; [subst core; apply stripped_ex|]. split; auto. intros c Hc. rewrite forallb_forall in SL. apply negb_true_iff. auto.
Qed.
Lemma plain_code : forall core i t, smatch i (cshape (shape core)) = true -> t = opnd i (shape core) -> code_line core (mkCode [] i t).
Proof. intros core i t H1 H2. left. split; auto. apply parts_iff. auto. Qed.
Lemma labelled_code : forall core l body i t, core = l ++ 32%N :: body -> hd_error l = Some 84%N -> forallb (fun c => negb (N.eqb c 32)) l = true ->
  smatch i (cshape (shape body)) = true -> t = opnd i (shape body) -> code_line core (mkCode l i t).
Proof.
  intros core l body i t E H Hs H1 H2. right. cbn [lab ins val]. split; [split; auto|].
  - intros X. rewrite forallb_forall in Hs. specialize (Hs _ X). discriminate.
  - exists body. split; auto. apply parts_iff. auto.
Qed.
Lemma ex_written : Forall2 written ex_src ex_codes.
Proof.
  unfold ex_src, ex_codes. cbn [map]. repeat constructor.
  - eapply core_written; [reflexivity|reflexivity|]. apply plain_code; vm_compute; reflexivity.
  - eapply core_written; reflexivity.
  - eapply core_written; [reflexivity|reflexivity|]. eapply (labelled_code _ _ (s2l "sub rc")); vm_compute; reflexivity.
  - eapply core_written; [reflexivity|reflexivity|]. apply plain_code; vm_compute; reflexivity.
  - eapply core_written; [reflexivity|reflexivity|]. apply plain_code; vm_compute; reflexivity.
  - eapply core_written; reflexivity.
  - eapply core_written; [reflexivity|reflexivity|]. eapply (labelled_code _ _ (s2l "FIN")); vm_compute; reflexivity.
Qed.
(** The errors and the bytes by line of a text given by its lines. *)
Definition shown (lines : list str) (init : Z) : option (list nat * list (nat * list Z)) :=
  option_map (fun o => (errors o, map (fun r => (r_off r, slot_values (r_result r))) (results o))) (parse_input (text_of lines) init).
Ltac no_newline := let X := fresh in vm_compute; intros X; repeat (destruct X as [X|X]; try discriminate X); exact X.
Ltac lines_literal := split; [discriminate|]; let l := fresh in let Hl := fresh in
  intros l Hl; cbn [map In] in Hl; repeat (destruct Hl as [<-|Hl]; [no_newline|]); destruct Hl.
(** A program with comments, blank lines, a forward and a backward reference. *)
Example C44_nonvacuous : lines_ok ex_src /\ Forall2 written ex_src ex_codes /\
  (forall c, In c (somes ex_codes) -> value_ok (map lab (somes ex_codes)) c /\ ~ byte_ref c) /\ 256 + total (somes ex_codes) <= 65536 /\
  shown ex_src 256 = Some ([], [(0%nat, [96; 5]); (2%nat, [25]); (3%nat, [114; 1; 9]); (4%nat, [116; 1; 2]); (6%nat, [255])]).
Proof.
  split. { unfold ex_src. lines_literal. }
  split; [exact ex_written|]. split.
  { intros c Hc. unfold ex_codes in Hc. cbn [somes In] in Hc. repeat destruct Hc as [<-|Hc]; try destruct Hc; split; try (intros (X & Y); discriminate).
    - left. split; [|vm_compute; discriminate]. split; [discriminate|]. intros x [<-|[]]. discriminate.
    - exact I.
    - right. split; [reflexivity|]. cbn. tauto.
    - right. split; [reflexivity|]. cbn. tauto.
    - exact I. }
  split; [vm_compute; discriminate|]. vm_compute. reflexivity.
Qed.
(** Two lines with the same label: the first one counts, and no error is reported. *)
Example C44_duplicate_labels : shown (map s2l ["T1 CMA"; "T1 FIN"; "JMP T1"]%string) 0 = Some ([], [(0%nat, [128]); (1%nat, [255]); (2%nat, [116; 0; 0])]).
Proof. vm_compute. reflexivity. Qed.
Print Assumptions C44_program.
Print Assumptions C44_image.

(** ** C43: one instruction *)
Definition value_bytes (i : instr) (v : Z) : list Z :=
  match value_kind i with Some Value16 => [v / 256; v mod 256] | Some _ => [v] | None => [] end.
Definition max_value (i : instr) : Z := match value_kind i with Some Value16 => 65535 | _ => 255 end.
Theorem C43_instruction : forall raw i t init, written raw (Some (mkCode [] i t)) -> ~ In 10%N raw ->
  (value_kind i = None \/ (numeral t /\ numeral_value t <= max_value i)) -> 0 <= init <= 65533 ->
  exists out r op, parse_input raw init = Some out /\ errors out = [] /\ results out = [r] /\ r_off r = 0%nat /\
    opcode i op /\ slot_values (r_result r) = op :: value_bytes i (numeral_value t).
Proof.
  intros raw i t init W NL V I.
  destruct (C44_program [raw] [Some (mkCode [] i t)] init) as (out & E & Er & F & _).
  - split; [discriminate|]. intros l [<-|[]]. exact NL.
  - constructor; auto.
  - intros c [<-|[]]. split.
    + apply value_ok_iff. destruct V as [V|V]; [auto|]. right. right. exact V.
    + intros (K & R). cbn [ins val] in *. destruct V as [V|(V & _)]; [congruence|]. exact (ref_not_numeral _ R V).
  - lia.
  - cbn [somes total fold_right ins]. unfold size. destruct (value_kind i) as [[]|]; lia.
  - cbn [numbered] in F. inversion F as [|? r ? rs (H1 & _ & (op & Op & Eb)) F' Ea Eo]; subst. inversion F'; subst. cbn [fst snd ins val lab] in *.
    exists out, r, op. split; auto. split; auto. split; auto. split; auto. split; auto. rewrite Eb. f_equal. unfold value_bytes.
    destruct (value_kind i) as [k|] eqn:K; [|reflexivity]. destruct V as [V|(V & _)]; [discriminate|]. destruct k; auto; [destruct (kind_not_name _ _ K)|].
    assert (NR : ~ is_ref t) by (intros R; exact (ref_not_numeral _ R V)). unfold is_ref in NR. destruct (hd_error t) as [ch|]; auto.
    destruct (N.eq_dec ch 84) as [->|Nc]; [tauto|].
    assert (M : forall (x y : Z), match ch with 84%N => x | _ => y end = y).
    { intros x y. clear -Nc. destruct ch as [|q]; auto. repeat (destruct q as [q|q|]; auto). congruence. }
    rewrite M. reflexivity.
Qed.
(** Every instruction with a name and every value can be written so. *)
Definition arg_string (a : arg) (t : str) : str := match a with Name s => s2l s | _ => t end.
Definition plain (i : instr) (t : str) : str :=
  match syntax i with
  | Some (F0 m) => s2l m
  | Some (F1 m a) => s2l m ++ [32%N] ++ arg_string a t
  | Some (F2 m a d) => s2l m ++ [32%N] ++ arg_string a t ++ [44%N] ++ s2l d
  | None => []
  end.
Definition value_string (v : Z) : str := 48%N :: to_hex v.
Lemma value_string_ok : forall v, 0 <= v -> numeral (value_string v) /\ numeral_value (value_string v) = v /\ word (value_string v) /\ ~ is_name (value_string v).
Proof.
  intros v H. unfold value_string. assert (Hh : check_is_hex (48%N :: to_hex v) = true) by (cbn; apply to_hex_hex; exact H).
  split; [apply numeral_check; split; [discriminate|exact Hh]|]. split; [|split].
  - change (48%N :: to_hex v) with (repeat 48%N 1 ++ to_hex v). rewrite value_zeros. apply to_hex_value. exact H.
  - split; [discriminate|]. intros c Hc. rewrite check_is_hex_iff in Hh. specialize (Hh c Hc). unfold digit in Hh. unfold is_word.
    destruct ((48 <=? c) && (c <=? 57))%N eqn:E1; [lia|]. destruct ((65 <=? c) && (c <=? 70))%N eqn:E2; [lia|]. destruct ((97 <=? c) && (c <=? 102))%N eqn:E3; [lia|congruence].
  - unfold is_name, caseless. cbn. intros [X|[X|[X|[X|X]]]]; discriminate.
Qed.
Lemma lit_words : forall l m, lit_ok l m = true -> word (s2l m).
Proof.
  intros l m H. unfold lit_ok, good_lit in H. rewrite !andb_true_iff in H. destruct H as ((H1 & H2) & _). split; [intros X; rewrite X in H1; discriminate|].
  intros c Hc. rewrite forallb_forall in H2. specialize (H2 c Hc). unfold is_upper in H2. unfold is_word. lia.
Qed.
Lemma lit_caseless : forall m, caseless m (s2l m). Proof. reflexivity. Qed.
Theorem C43_every_instruction : forall i v, syntax i <> None -> 0 <= v <= max_value i ->
  exists raw t, written raw (Some (mkCode [] i t)) /\ ~ In 10%N raw /\ (value_kind i = None \/ (numeral t /\ numeral_value t = v)).
Proof.
  intros i v Sy V. pose proof (form_ok_all i) as K. unfold form_ok in K.
  destruct (value_string_ok v ltac:(lia)) as (T1 & T2 & T3 & T4).
  set (t := match value_kind i with None => [] | Some _ => value_string v end).
  exists (plain i (value_string v)), t.
  assert (A : forall a, arg_ok a = true -> arg_text a (val_text a (value_string v)) (arg_string a (value_string v)) /\ word (arg_string a (value_string v))).
  { intros a Ka. destruct a as [s| |]; cbn [arg_text val_text arg_string arg_ok] in *; [split; [split; auto; reflexivity|exact (lit_words _ _ Ka)]|auto|auto]. }
  assert (P : parts i t (plain i (value_string v)) /\ (forall c, In c (plain i (value_string v)) -> is_word c = true \/ c = 32%N \/ c = 44%N) /\
              (forall c, hd_error (plain i (value_string v)) = Some c \/ hd_error (rev (plain i (value_string v))) = Some c -> is_word c = true)).
  { assert (Hd : forall w r c, word w -> hd_error (w ++ r) = Some c -> is_word c = true).
    { intros w r c (Nw & Hw) E. destruct w as [|x w]; [congruence|]. cbn in E. injection E as <-. apply Hw. cbn; auto. }
    assert (Tl : forall w r c, word w -> hd_error (rev (r ++ w)) = Some c -> is_word c = true).
    { intros w r c (Nw & Hw) E. rewrite rev_app_distr in E. destruct (rev w) as [|x w'] eqn:Er; [apply (f_equal (@rev N)) in Er; rewrite rev_involutive in Er; cbn in Er; congruence|].
      cbn in E. injection E as <-. apply Hw. apply in_rev. rewrite Er. cbn; auto. }
    unfold parts, plain. unfold t, value_kind. destruct (syntax i) as [[m|m a|m a d]|]; [| | |congruence].
    - pose proof (lit_words _ _ K) as W. split; [split; [reflexivity|apply lit_caseless]|]. split; [intros c Hc; left; apply W; exact Hc|].
      intros c [E|E]; [apply (Hd (s2l m) [] c W); rewrite app_nil_r; exact E|apply (Tl (s2l m) [] c W); exact E].
    - apply andb_true_iff in K. destruct K as (Km & Ka). pose proof (lit_words _ _ Km) as W. destruct (A a Ka) as (A1 & A2). split; [|split].
      + exists (s2l m), 32%N, (arg_string a (value_string v)). split; [reflexivity|]. split; [apply lit_caseless|]. split; [reflexivity|]. destruct a; exact A1.
      + intros c Hc. apply in_app_or in Hc. destruct Hc as [Hc|[Hc|Hc]]; [left; apply W; exact Hc|auto|left; apply A2; exact Hc].
      + intros c [E|E]; [exact (Hd _ _ _ W E)|]. rewrite app_assoc in E. exact (Tl _ _ _ A2 E).
    - rewrite !andb_true_iff in K. destruct K as ((Km & (Ka & K16)) & Kd). pose proof (lit_words _ _ Km) as W. pose proof (lit_words _ _ Kd) as Wd. destruct (A a Ka) as (A1 & A2). split; [|split].
      + exists (s2l m), 32%N, (arg_string a (value_string v)), [], (s2l d). split; [reflexivity|]. split; [apply lit_caseless|]. split; [reflexivity|].
        split; [destruct a; try exact A1; discriminate|]. split; [auto|apply lit_caseless].
      + intros c Hc. rewrite !in_app_iff in Hc. cbn [In] in Hc. destruct Hc as [Hc|[[Hc|[]]|[Hc|[[Hc|[]]|Hc]]]]; [left; apply W; exact Hc|auto|left; apply A2; exact Hc|auto|left; apply Wd; exact Hc].
      + intros c [E|E]; [exact (Hd _ _ _ W E)|]. replace (s2l m ++ [32%N] ++ arg_string a (value_string v) ++ [44%N] ++ s2l d) with ((s2l m ++ [32%N] ++ arg_string a (value_string v) ++ [44%N]) ++ s2l d) in E by (rewrite <- !app_assoc; reflexivity).
        exact (Tl _ _ _ Wd E). }
  destruct P as (P & Ch & Ends). split; [|split].
  - exists (plain i (value_string v)). split; [|split].
    + exists [], [], []. rewrite !app_nil_r. split; auto. split; [intros c [[]|[]]|]. split; auto. split.
      * intros X. apply Ch in X. destruct X as [X|[X|X]]; discriminate.
      * intros c Hc. apply word_not_ws. auto.
    + intros c Hc. apply Ch in Hc. destruct Hc as [Hc|[->| ->]]; [apply word_not_lt; exact Hc|reflexivity|reflexivity].
    + left. auto.
  - intros X. apply Ch in X. destruct X as [X|[X|X]]; discriminate.
  - unfold t. destruct (value_kind i); auto.
Qed.
(** The opcode of an instruction with a name is determined. *)
Theorem C43_opcode_unique : forall i op op', syntax i <> None -> opcode i op -> opcode i op' -> op = op'.
Proof.
  intros i op op' Sy (R & E) (R' & E').
  assert (K : forallb (fun a => forallb (fun b => match decode_documented (Z.of_nat a), decode_documented (Z.of_nat b) with
     | Some i, Some j => (if instr_eq_dec i j then match syntax i with None => true | Some _ => Nat.eqb a b end else true) | _, _ => true end) (seq 0 256)) (seq 0 256) = true) by (vm_compute; reflexivity).
  rewrite forallb_forall in K. specialize (K (Z.to_nat op) ltac:(apply in_seq; lia)). rewrite forallb_forall in K. specialize (K (Z.to_nat op') ltac:(apply in_seq; lia)).
  rewrite !Z2Nat.id, E, E' in K by lia. destruct (instr_eq_dec i i); [|congruence]. destruct (syntax i); [|congruence]. apply Nat.eqb_eq in K. lia.
Qed.
Example C43_nonvacuous : written (s2l "  sta 00aB1  # keep") (Some (mkCode [] STA (s2l "00aB1"))) /\ ~ In 10%N (s2l "  sta 00aB1  # keep") /\
  numeral (s2l "00aB1") /\ numeral_value (s2l "00aB1") = 2737 /\ shown [s2l "  sta 00aB1  # keep"] 0 = Some ([], [(0%nat, [113; 10; 177])]).
Proof.
  split; [eapply core_written; [reflexivity|reflexivity|]; apply plain_code; vm_compute; reflexivity|]. split; [no_newline|]. split; [apply numeral_check; split; [discriminate|reflexivity]|].
  split; vm_compute; reflexivity.
Qed.
(** One byte cannot be written like the others: AC is the accumulator, not 0xAC. *)
Theorem C43_byte_AC_refuted : numeral (s2l "AC") /\ numeral_value (s2l "AC") = 172 /\
  shown [s2l "ADD AC"] 0 = Some ([], [(0%nat, [69])]) /\ opcode (OP ADD Acc) 69 /\
  shown [s2l "ADD AB"] 0 = Some ([], [(0%nat, [101; 171])]) /\ opcode (OP ADD Imm) 101 /\
  shown [s2l "ADD 0AC"] 0 = Some ([], [(0%nat, [101; 172])]).
Proof.
  split; [apply numeral_check; split; [discriminate|reflexivity]|]. repeat split; try lia; vm_compute; reflexivity.
Qed.
Print Assumptions C43_instruction.
Print Assumptions C43_every_instruction.
Print Assumptions C43_opcode_unique.

(** ** C45: sizes *)
(** The size of every entry of the table is the length of its encoding. *)
Theorem C45_table : forall e, In e operations -> exists i, opcode i (parse_hex (s2l (HEX e))) /\ ALLOC e = size i.
Proof.
  intros e H. pose proof (entry_ok_in e H) as K. unfold entry_ok in K. destruct (entry_instr e) as [i|] eqn:E; [|discriminate]. exists i.
  destruct (entry_facts e i H E) as (_ & _ & _ & A & O). auto.
Qed.
Lemma encodes_length : forall p a c bytes, encodes p a c bytes -> Z.of_nat (List.length bytes) = size (ins c).
Proof.
  intros p a c bytes (op & _ & ->). unfold size. destruct (value_kind (ins c)) as [[]|] eqn:K; cbn [List.length]; try lia.
Qed.
(** Every line without a label in the place of a byte has the bytes its size says,
    so the bytes of the first line labelled [n] start where the references to [n]
    point: at [init] plus the number of bytes before them. *)
Lemma layout_rows : forall p a n kcs rs b,
  Forall2 (fun kc r => r_off r = fst kc /\ r_eti r = lab (snd kc) /\ encodes p a (snd kc) (slot_values (r_result r))) kcs rs ->
  In n (map lab (map snd kcs)) ->
  exists ra r rb, rs = ra ++ r :: rb /\ r_eti r = n /\ (forall r', In r' ra -> r_eti r' <> n) /\
    address (map snd kcs) b n = b + Z.of_nat (List.length (concat (map r_result ra))).
Proof.
  intros p a n kcs rs b H. revert b. induction H as [|[k c] r kcs rs (_ & Hl & He) H IH]; intros b Hn; [destruct Hn|]. cbn [map snd address] in *.
  destruct (str_eqb (lab c) n) eqn:E.
  - apply str_eqb_eq in E. exists [], r, rs. split; auto. split; [congruence|]. split; [intros r' []|]. cbn. lia.
  - destruct Hn as [Hn|Hn]; [rewrite Hn, str_eqb_refl in E; discriminate|]. destruct (IH (b + size (ins c)) Hn) as (ra & r' & rb & -> & El & Hb & Ha).
    exists (r :: ra), r', rb. split; auto. split; auto. split.
    + intros x [<-|Hx]; auto. rewrite Hl. intros X. rewrite X, str_eqb_refl in E. discriminate.
    + rewrite Ha. cbn [map concat]. rewrite app_length, Nat2Z.inj_add. apply encodes_length in He. unfold slot_values in He. rewrite map_length in He. lia.
Qed.
Theorem C45_layout : forall lines codes init, lines_ok lines -> Forall2 written lines codes ->
  (forall c, In c (somes codes) -> value_ok (map lab (somes codes)) c /\ ~ byte_ref c) ->
  0 <= init -> init + total (somes codes) <= 65536 ->
  exists out, parse_input (text_of lines) init = Some out /\ errors out = [] /\
    Forall2 (fun c r => Z.of_nat (List.length (r_result r)) = size (ins c)) (somes codes) (results out) /\
    forall n, In n (map lab (somes codes)) -> n <> [] ->
    exists ra r rb, results out = ra ++ r :: rb /\ r_eti r = n /\ (forall r', In r' ra -> r_eti r' <> n) /\
      address (somes codes) init n = init + Z.of_nat (List.length (concat (map r_result ra))).
Proof.
  intros lines codes init LO F G I0 I1. destruct (C44_program lines codes init LO F G I0 I1) as (out & E & Er & H & _). exists out. split; auto. split; auto. split.
  - rewrite <- (numbered_somes codes 0). revert H. generalize (numbered 0 codes). intros l H. induction H as [|kc r l rs (_ & _ & He) H IH]; cbn [map]; constructor; auto.
    apply encodes_length in He. unfold slot_values in He. rewrite map_length in He. exact He.
  - intros n Hn _. rewrite <- (numbered_somes codes 0) in Hn. destruct (layout_rows _ _ n _ _ init H Hn) as (ra & r & rb & H1 & H2 & H3 & H4).
    rewrite numbered_somes in H4. eauto 8.
Qed.
(** False for a label in the place of a byte: three bytes are produced where two are
    counted, without an error; the reference to T2 points into the instruction
    before it. *)
Definition bad_src : list str := map s2l ["T1 MOV T1, AC"; "JMP T2"; "T2 FIN"]%string.
Definition bad_codes : list (option code) :=
  [Some (mkCode (s2l "T1") MOV_i_ac (s2l "T1")); Some (mkCode [] JMP (s2l "T2")); Some (mkCode (s2l "T2") FIN [])].
Theorem C45_refuted : lines_ok bad_src /\ Forall2 written bad_src bad_codes /\
  (forall c, In c (somes bad_codes) -> value_ok (map lab (somes bad_codes)) c) /\ 0 + total (somes bad_codes) <= 65536 /\
  exists out r1 r2 r3, parse_input (text_of bad_src) 0 = Some out /\ errors out = [] /\ results out = [r1; r2; r3] /\
    List.length (r_result r1) = 3%nat /\ size MOV_i_ac = 2 /\ ALLOC (r_ins r1) = 2 /\
    r_eti r3 = s2l "T2" /\ slot_values (r_result r2) = [116; 0; 5] /\ List.length (r_result r1 ++ r_result r2) = 6%nat.
Proof.
  split. { unfold bad_src. lines_literal. } split.
  { unfold bad_src, bad_codes. cbn [map]. repeat constructor.
    - eapply core_written; [reflexivity|reflexivity|]. eapply (labelled_code _ _ (s2l "MOV T1, AC")); vm_compute; reflexivity.
    - eapply core_written; [reflexivity|reflexivity|]. apply plain_code; vm_compute; reflexivity.
    - eapply core_written; [reflexivity|reflexivity|]. eapply (labelled_code _ _ (s2l "FIN")); vm_compute; reflexivity. }
  split. { intros c Hc. unfold bad_codes in Hc. cbn [somes In] in Hc. repeat destruct Hc as [<-|Hc]; try destruct Hc.
    - right. split; [reflexivity|]. cbn. tauto.
    - right. split; [reflexivity|]. cbn. tauto.
    - exact I. }
  split; [vm_compute; discriminate|].
  remember (parse_input (text_of bad_src) 0) as o eqn:E. vm_compute in E. rewrite E. eexists _, _, _, _. split; [reflexivity|]. vm_compute. repeat split; reflexivity.
Qed.
Print Assumptions C45_layout.
Print Assumptions C45_refuted.

(** ** C46: ill-formed lines *)
(** Assembling never fails to return, whatever the text. *)
Theorem C46_total : forall text init, 0 <= init -> exists out, parse_input text init = Some out.
Proof. exact parse_total. Qed.

(** [L] are the labels of the lines that are instructions. *)
Definition labels_of (lines : list str) (L : list str) : Prop :=
  forall n, is_ref n -> (In n L <-> exists raw core c, In raw lines /\ stripped raw core /\ code_line core c /\ lab c = n).
Definition good_line (L : list str) (raw : str) : Prop := exists core c, stripped raw core /\ code_line core c /\ value_ok L c.
Definition blank_line (raw : str) : Prop := stripped raw [].
Definition one_line (raw : str) : Prop := forall core, stripped raw core -> single_line core.
Lemma core_stripped : forall raw core, stripped raw core <-> core = core_of raw.
Proof. intros raw core. split; [intros H; symmetry; exact (stripped_core _ _ H)|intros ->; apply stripped_ex]. Qed.
Lemma labels_refs : forall lines L, (forall raw, In raw lines -> one_line raw) -> labels_of lines L -> same_refs (pre (map core_of lines)) L.
Proof.
  intros lines L OL HL n R. rewrite pre_labels; auto.
  2: { intros s Hs. apply in_map_iff in Hs. destruct Hs as (raw & <- & Hr). apply (OL raw Hr). apply stripped_ex. }
  rewrite (HL n R). split.
  - intros (s & c & Hs & Hc & E). apply in_map_iff in Hs. destruct Hs as (raw & <- & Hr). exists raw, (core_of raw), c. split; auto. split; auto. apply stripped_ex.
  - intros (raw & core & c & Hr & S & Hc & E). apply core_stripped in S. subst core. exists (core_of raw), c. split; auto. apply in_map. exact Hr.
Qed.
Lemma C46_labels_exist : forall lines, (forall raw, In raw lines -> one_line raw) -> exists L, labels_of lines L.
Proof.
  intros lines OL. exists (pre (map core_of lines)). intros n R. rewrite pre_labels; auto.
  2: { intros s Hs. apply in_map_iff in Hs. destruct Hs as (raw & <- & Hr). apply (OL raw Hr). apply stripped_ex. }
  split.
  - intros (s & c & Hs & Hc & E). apply in_map_iff in Hs. destruct Hs as (raw & <- & Hr). exists raw, (core_of raw), c. split; auto. split; auto. apply stripped_ex.
  - intros (raw & core & c & Hr & S & Hc & E). apply core_stripped in S. subst core. exists (core_of raw), c. split; auto. apply in_map. exact Hr.
Qed.
Lemma good_accepted : forall lines L raw, (forall raw, In raw lines -> one_line raw) -> labels_of lines L -> In raw lines ->
  (accepted (pre (map core_of lines)) (core_of raw) = true <-> good_line L raw).
Proof.
  intros lines L raw OL HL Hr. pose proof (labels_refs lines L OL HL) as SR.
  rewrite accepted_iff by (apply (OL raw Hr); apply stripped_ex). split.
  - intros (c & Hc & V). exists (core_of raw), c. split; [apply stripped_ex|]. split; auto. apply (value_ok_refs _ _ _ SR). exact V.
  - intros (core & c & S & Hc & V). apply core_stripped in S. subst core. exists c. split; auto. apply (value_ok_refs _ _ _ (same_refs_sym _ _ SR)). exact V.
Qed.
Lemma nonblank_iff : forall raw, nonblank (core_of raw) = true <-> ~ blank_line raw.
Proof. intros raw. unfold blank_line. rewrite core_stripped. destruct (core_of raw); cbn; split; congruence. Qed.
(** For texts without stray line ends: the errors are exactly the lines that are
    neither blank (or a comment) nor an instruction with a good value, each reported
    once, in order; the rows of the translation come from good lines only; if there is
    no error, there is one for each of them. *)
Theorem C46_errors : forall lines L init, lines_ok lines -> (forall raw, In raw lines -> one_line raw) -> labels_of lines L -> 0 <= init ->
  exists out, parse_input (text_of lines) init = Some out /\ StronglySorted lt (errors out) /\
    (forall k, In k (errors out) <-> exists raw, nth_error lines k = Some raw /\ ~ blank_line raw /\ ~ good_line L raw) /\
    StronglySorted lt (map r_off (results out)) /\
    (forall r, In r (results out) -> exists raw, nth_error lines (r_off r) = Some raw /\ ~ blank_line raw /\ good_line L raw) /\
    (errors out = [] -> forall k raw, nth_error lines k = Some raw -> ~ blank_line raw -> In k (map r_off (results out))).
Proof.
  intros lines L init (N & NL) OL HL I0. destruct (parse_total (text_of lines) init I0) as (out & E). exists out. split; auto.
  unfold text_of in E. change 10%N with NEWLINE in E. rewrite parse_of_cores in E by auto. unfold of_cores in E.
  pose proof (parse_indices (pre (map core_of lines)) (map core_of lines) 0) as (P1 & P2).
  destruct (parse_lines (pre (map core_of lines)) 0 (map core_of lines)) as [errs rows] eqn:Epl. cbn [fst snd] in P1, P2. cbv zeta in E.
  destruct (post_rows (S (List.length rows)) (eti_positions rows init) rows) as [rs|] eqn:Ep; [|discriminate]. cbn in E. injection E as <-. cbn [errors results].
  pose proof (post_sub _ _ _ _ Ep) as Sb. split; [rewrite P1; apply indices_sorted|]. split; [|split; [|split]].
  - intros k. rewrite P1, indices_in, Nat.sub_0_r. split.
    + intros (_ & s & Hs & Hf). rewrite nth_error_map in Hs. destruct (nth_error lines k) as [raw|] eqn:Er; [|discriminate]. cbn in Hs. injection Hs as <-.
      apply andb_true_iff in Hf. destruct Hf as (H1 & H2). exists raw. split; auto. split; [apply nonblank_iff; exact H1|]. intros Hg.
      apply (good_accepted lines L raw OL HL (nth_error_In _ _ Er)) in Hg. rewrite Hg in H2. discriminate.
    + intros (raw & Er & H1 & H2). split; [lia|]. exists (core_of raw). rewrite nth_error_map, Er. split; auto. apply nonblank_iff in H1. rewrite H1. cbn [andb].
      destruct (accepted (pre (map core_of lines)) (core_of raw)) eqn:A; auto. exfalso. apply H2. apply (good_accepted lines L raw OL HL (nth_error_In _ _ Er)). exact A.
  - apply (sub_sorted _ _ Sb). rewrite P2. apply indices_sorted.
  - intros r Hr. assert (Hi : In (r_off r) (map r_off rows)) by (apply (sub_in _ _ _ Sb); apply in_map; exact Hr).
    rewrite P2, indices_in, Nat.sub_0_r in Hi. destruct Hi as (_ & s & Hs & Hf). rewrite nth_error_map in Hs. destruct (nth_error lines (r_off r)) as [raw|] eqn:Er; [|discriminate].
    cbn in Hs. injection Hs as <-. apply andb_true_iff in Hf. destruct Hf as (H1 & H2). exists raw. split; auto. split; [apply nonblank_iff; exact H1|].
    apply (good_accepted lines L raw OL HL (nth_error_In _ _ Er)). exact H2.
  - intros Ee k raw Hk Nb. rewrite (no_errors_rows (map core_of lines) init errs rows rs); auto.
    + apply indices_in. split; [lia|]. exists (core_of raw). rewrite Nat.sub_0_r, nth_error_map, Hk. split; auto. apply nonblank_iff. exact Nb.
    + intros s Hs. apply in_map_iff in Hs. destruct Hs as (x & <- & Hx). apply (OL x Hx). apply stripped_ex.
Qed.
(** Nothing is handed over to be stored unless every line is good or blank. *)
Theorem C46_saved : forall lines L init out slots, lines_ok lines -> (forall raw, In raw lines -> one_line raw) -> labels_of lines L -> 0 <= init ->
  parse_input (text_of lines) init = Some out -> new_translation out = Some slots -> forall raw, In raw lines -> blank_line raw \/ good_line L raw.
Proof.
  intros lines L init out slots LO OL HL I0 E T raw Hr. destruct (C46_errors lines L init LO OL HL I0) as (out' & E' & _ & H & _).
  assert (out' = out) by congruence. subst out'. unfold new_translation in T. destruct (errors out) as [|e es] eqn:Ee; [|discriminate].
  apply In_nth_error in Hr. destruct Hr as (k & Hk).
  destruct (nonblank (core_of raw)) eqn:Nb; [right|left; apply core_stripped; destruct (core_of raw); [auto|discriminate]].
  destruct (accepted (pre (map core_of lines)) (core_of raw)) eqn:A; [apply (good_accepted lines L raw OL HL (nth_error_In _ _ Hk)); exact A|].
  exfalso. apply (proj2 (H k)). exists raw. split; auto. split; [apply nonblank_iff; exact Nb|]. intros Hg. apply (good_accepted lines L raw OL HL (nth_error_In _ _ Hk)) in Hg. congruence.
Qed.
(** White space and comments do not matter: the text without them has the same
    translation. *)
Theorem C46_comments : forall lines cores init, lines_ok lines -> Forall2 stripped lines cores ->
  parse_input (text_of lines) init = parse_input (text_of cores) init.
Proof.
  intros lines cores init (N & NL) F. unfold text_of. change 10%N with NEWLINE.
  assert (Ec : cores = map core_of lines). { clear -F. induction F as [|r c rs cs H F IH]; cbn [map]; auto. apply core_stripped in H. congruence. }
  rewrite !parse_of_cores; auto.
  - f_equal. subst cores. rewrite map_map. apply map_ext. intros raw. apply core_stripped.
    destruct (stripped_ex raw) as (w1 & w2 & rest & E & W & R & H & Nn). unfold core_of. exists [], [], []. rewrite !app_nil_r. cbn [app]. split; auto. split; [intros c [[]|[]]|]. auto.
  - subst cores. destruct lines; [congruence|discriminate].
  - intros l Hl X. subst cores. apply in_map_iff in Hl. destruct Hl as (raw & <- & Hr). apply (NL raw Hr).
    destruct (stripped_ex raw) as (w1 & w2 & rest & E & _). fold (core_of raw) in E. rewrite E. rewrite !in_app_iff. auto.
Qed.
(** A blank line or a comment line put anywhere changes nothing but the line numbers
    after it. *)
Definition after_line (j n : nat) : nat := if (n <? j)%nat then n else S n.
Theorem C46_blank : forall l1 l2 blank init, (forall l, In l (l1 ++ blank :: l2) -> ~ In 10%N l) -> l1 ++ l2 <> [] -> blank_line blank -> 0 <= init ->
  exists out out', parse_input (text_of (l1 ++ l2)) init = Some out /\ parse_input (text_of (l1 ++ blank :: l2)) init = Some out' /\
    errors out' = map (after_line (List.length l1)) (errors out) /\ positions out' = positions out /\
    map r_off (results out') = map (after_line (List.length l1)) (map r_off (results out)) /\
    map r_result (results out') = map r_result (results out) /\ new_translation out' = new_translation out.
Proof.
  intros l1 l2 blank init NL N B I0. destruct (parse_total (text_of (l1 ++ l2)) init I0) as (out & E). exists out, (ren_out (List.length l1) out). split; auto. split.
  - unfold text_of in *. change 10%N with NEWLINE in *. rewrite (insert_blank l1 l2 blank init NL N B). rewrite E. reflexivity.
  - assert (R : map r_result (results (ren_out (List.length l1) out)) = map r_result (results out)) by (cbn [ren_out results]; rewrite map_map; reflexivity).
    split; [reflexivity|]. split; [reflexivity|]. split; [cbn [ren_out results]; rewrite !map_map; reflexivity|]. split; [exact R|].
    unfold new_translation. rewrite R. cbn [ren_out errors]. destruct (errors out); reflexivity.
Qed.
Example C46_nonvacuous : lines_ok (map s2l ["CMA"; "bogus"; " # note"; "ADD 100"; "FIN"]%string) /\
  shown (map s2l ["CMA"; "bogus"; " # note"; "ADD 100"; "FIN"]%string) 0 = Some ([1%nat; 3%nat], [(0%nat, [128]); (4%nat, [255])]).
Proof. split; [lines_literal|vm_compute; reflexivity]. Qed.
(** Findings: where a line that is no instruction is not reported. *)
(** A carriage return inside a line: the rest of the line is not looked at. *)
Theorem C46_stray_cr_refuted : forall text, text = s2l "garbage" ++ [13%N] ++ s2l "CMA" ->
  option_map (fun o => (errors o, map (fun r => slot_values (r_result r)) (results o))) (parse_input text 0) = Some ([], [[128]]) /\
  ~ exists c, code_line text c.
Proof.
  intros text ->. split; [vm_compute; reflexivity|]. intros (c & [(_ & P)|((Lb & _) & b & E & _)]).
  - apply parts_iff in P. destruct P as (M & _). revert M. apply not_true_iff_false.
    assert (K : forallb (fun j => negb (smatch j (cshape (shape (s2l "garbage" ++ [13%N] ++ s2l "CMA"))))) all_instr = true) by (vm_compute; reflexivity).
    rewrite forallb_forall in K. apply negb_true_iff. apply K, all_instr_in.
  - destruct (lab c) as [|x l]; [discriminate|]. cbn in Lb. injection Lb as ->. discriminate.
Qed.
(** A label of an ill-formed line can be referred to: the reference is not reported,
    its line has no bytes, and the reference on the next line is left unresolved. *)
Theorem C46_lost_reference_refuted :
  shown (map s2l ["JMP TA"; "JMP TB"; "TA ADD 100"; "TB FIN"; "STA 7"]%string) 0 =
  Some ([2%nat], [(1%nat, [116; 11]); (3%nat, [255]); (4%nat, [113; 0; 7])]).
Proof. vm_compute. reflexivity. Qed.
Print Assumptions C46_total.
Print Assumptions C46_errors.
Print Assumptions C46_saved.
Print Assumptions C46_comments.
Print Assumptions C46_blank.
Print Assumptions C46_stray_cr_refuted.
