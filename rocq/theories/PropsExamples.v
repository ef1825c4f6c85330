(** * Theorems about the shipped examples (C49, C56)
    pages/Coder/constants/examples.json: each example is assembled, saved to memory
    and run with the run button; [run_program u false] is the loop of that button. *)
From Coq Require Import String ZArith NArith List Bool Lia ZifyBool ZifyN.
From Verif Require Import Prog Isa Api ApiFacts Usage Front IsaFacts Reach PropsApi PropsIsa PropsLife PropsRun Shown IsaRun IsaExamples.
From Verif Require Import JsStr AsmTable Asm AsmSpec AsmRe AsmLine AsmFacts AsmExec AsmProg AsmErr PropsAsm Disasm DisasmFacts PropsDisasm PropsLoad.
Import ListNotations.
Open Scope list_scope.
Open Scope Z_scope.

(** ** Running a source text *)
Theorem run_source : forall lines codes init l h u (Q : arch -> Prop), program lines codes init -> live l h true -> get_register_value R_PC h = Some init -> init < 65535 ->
  (forall s bytes, image (somes codes) init (somes codes) bytes -> valid s -> PC s = init -> code_at (M s) init bytes ->
    reach s (fun t => Q t /\ PC t < 65535 /\ Usage.opcode t = 255)) ->
  exists out slots h', parse_input (text_of lines) init = Some out /\ new_translation out = Some slots /\ save_to_memory init (slot_values slots) h = Some h' /\
    (exists h'', run_program u false h' h'') /\ forall h'', run_program u false h' h'' -> exists t, Q t /\ shows h'' (put_pc (PC t + 1) t).
Proof.
  intros lines codes init l h u Q P L Hpc Hi K. destruct (live_up l h true L) as (_ & z & U). destruct (up_obs h z U) as (O & _).
  destruct (C42_source lines codes init l h _ P L O) as (out & slots & h' & bytes & E1 & E2 & -> & Im & Tl & Sv & L' & Ho & _ & Hr & Nx & _).
  destruct (live_shows _ _ _ L') as (s & Sh & V). destruct P as (_ & _ & _ & _ & P5 & P6).
  assert (Ps : PC s = init). { destruct Sh as (_ & _ & _ & _ & _ & _ & _ & Sp & _). rewrite Hr, Hpc in Sp. congruence. }
  assert (Bd : boundary h'). { split; auto. intros X. rewrite Hr, Hpc in X. injection X as X. lia. }
  assert (Ca : code_at (M s) init (slot_values slots)).
  { intros k Hk. rewrite <- (Ho k Hk). unfold seen. destruct Sh as (_ & _ & _ & _ & _ & _ & _ & _ & _ & Sm & _). rewrite Sm by lia. reflexivity. }
  destruct (K s (slot_values slots) Im V Ps Ca) as (t & G & Qt & Pt & Ot). destruct (goes_end s t G Ot Pt) as (n & Fn & En).
  exists out, slots, h'. split; auto. split; auto. split; auto. split.
  - destruct (C41_stops_after_fin n u _ h' true s (fun _ => eq_refl) L' Bd Sh Fn) as (h'' & R & _). eauto.
  - intros h'' R. destruct (C41_stops_only_after_fin u _ h' true s h'' (fun _ => eq_refl) L' Bd Sh R) as (n' & Fn' & Sh' & _).
    rewrite (first_fin_unique _ _ _ Fn' Fn), En in Sh'. exists t. auto.
Qed.

(** ** From an image to its bytes *)
Definition opnum (i : instr) : Z :=
  match find (fun n => match decode_documented (Z.of_nat n) with Some j => if instr_eq_dec i j then true else false | None => false end) (seq 0 256) with
  | Some n => Z.of_nat n | None => 0 end.
Lemma opcode_num : forall i op, syntax i <> None -> opcode i op -> op = opnum i.
Proof.
  intros i op Sy O. apply (C43_opcode_unique i); auto. unfold opnum.
  destruct (find _ (seq 0 256)) as [n|] eqn:F.
  - apply find_some in F. destruct F as (Hn & F). apply in_seq in Hn. destruct (decode_documented (Z.of_nat n)) as [j|] eqn:D; [|discriminate]. destruct (instr_eq_dec i j) as [->|]; [|discriminate].
    split; [lia|exact D].
  - exfalso. destruct O as (R & D). pose proof (find_none _ _ F (Z.to_nat op) ltac:(apply in_seq; lia)) as X. cbn beta in X. rewrite Z2Nat.id, D in X by lia. destruct (instr_eq_dec i i); congruence.
Qed.
Definition enc (p : list code) (a : Z) (c : code) : list Z :=
  opnum (ins c) :: match value_kind (ins c) with
                   | Some Value8 => [numeral_value (val c)]
                   | Some Value16 => let v := match hd_error (val c) with Some 84%N => address p a (val c) | _ => numeral_value (val c) end in [v / 256; v mod 256]
                   | _ => [] end.
Lemma image_enc : forall p a q bytes, (forall c, In c q -> syntax (ins c) <> None) -> image p a q bytes -> bytes = concat (map (enc p a) q).
Proof.
  intros p a. induction q as [|c q IH]; intros bytes Sy H; cbn [image map concat] in *; auto. destruct H as (b & bs & -> & (op & O & Eb) & H).
  f_equal; [|apply IH; auto; intros x Hx; apply Sy; right; exact Hx]. rewrite Eb. unfold enc. f_equal. apply opcode_num; auto. apply Sy. left. reflexivity.
Qed.
Lemma image_is : forall p a q bytes bytes', (forall c, In c q -> syntax (ins c) <> None) -> concat (map (enc p a) q) = bytes' -> image p a q bytes -> bytes = bytes'.
Proof. intros p a q bytes bytes' Sy <- Im. exact (image_enc _ _ _ _ Sy Im). Qed.

(** A comment after a line does not change its code. *)
Lemma written_comment : forall raw c ws cs, (forall x, In x ws -> is_ws x = true) -> written raw c -> written (raw ++ ws ++ 35%N :: cs) c.
Proof.
  intros raw c ws cs Hw (core & (w1 & w2 & rest & E & W & R & Nc & Ends) & SL & H). exists core. split; [|split; auto]. destruct R as [->|(cs' & ->)].
  - exists w1, (w2 ++ ws), (35%N :: cs). subst raw. rewrite app_nil_r, <- !app_assoc. split; auto. split; [|split; [right; eauto|auto]].
    intros x [Hx|Hx]; [apply W; auto|]. apply in_app_or in Hx. destruct Hx; [apply W; auto|auto].
  - exists w1, w2, (35%N :: cs' ++ ws ++ 35%N :: cs). subst raw. rewrite <- !app_assoc. split; auto. split; auto. split; [right; eauto|auto].
Qed.

(** ** Multiplication *)
(** The example with the texts [tb] and [tc] in the places to modify. *)
Definition mult_lines (tb tc : str) : list str :=
  [s2l "# 5x3"; s2l "MOV " ++ tb ++ s2l ", RB # <== modify this"; s2l "MOV " ++ tc ++ s2l ", RC # <== modify this"; s2l "";
   s2l "INISP 1234"; s2l "MOV RB, AC"; s2l "PUSH"; s2l ""; s2l "TSTART MOV RC, AC"; s2l "CMP 01"; s2l "BEQ TFIN"; s2l "POP"; s2l "ADD RB"; s2l "PUSH";
   s2l "MOV RC, AC"; s2l "SUB 01"; s2l "MOV AC, RC"; s2l "JMP TSTART"; s2l "TFIN POP"; s2l "FIN"].
Definition mult_text : string :=
"# 5x3
MOV 05, RB # <== modify this
MOV 03, RC # <== modify this

INISP 1234
MOV RB, AC
PUSH

TSTART MOV RC, AC
CMP 01
BEQ TFIN
POP
ADD RB
PUSH
MOV RC, AC
SUB 01
MOV AC, RC
JMP TSTART
TFIN POP
FIN".
Example mult_verbatim : text_of (mult_lines (s2l "05") (s2l "03")) = s2l mult_text.
Proof. vm_compute. reflexivity. Qed.
Definition mult_codes (tb tc : str) : list (option code) :=
  [None; Some (mkCode [] (MOV_i_r RB) tb); Some (mkCode [] (MOV_i_r RC) tc); None; Some (mkCode [] INISP (s2l "1234")); Some (mkCode [] (MOV_r_ac RB) []);
   Some (mkCode [] PUSH []); None; Some (mkCode (s2l "TSTART") (MOV_r_ac RC) []); Some (mkCode [] (OP CMP Imm) (s2l "01")); Some (mkCode [] BEQ (s2l "TFIN"));
   Some (mkCode [] POP []); Some (mkCode [] (OP ADD (Reg RB)) []); Some (mkCode [] PUSH []); Some (mkCode [] (MOV_r_ac RC) []); Some (mkCode [] (OP SUB Imm) (s2l "01"));
   Some (mkCode [] (MOV_ac_r RC) []); Some (mkCode [] JMP (s2l "TSTART")); Some (mkCode (s2l "TFIN") POP []); Some (mkCode [] FIN [])].
(** A text for a byte. *)
Definition byte_numeral (t : str) : Prop := numeral t /\ numeral_value t <= 255 /\ ~ is_name t.
Ltac line_plain := eapply core_written; [reflexivity|reflexivity|]; apply plain_code; vm_compute; reflexivity.
Ltac line_label body := eapply core_written; [reflexivity|reflexivity|]; eapply (labelled_code _ _ (s2l body)); vm_compute; reflexivity.
Ltac line_blank := eapply core_written; reflexivity.
Lemma operand_line : forall t r cs, byte_numeral t -> (r = RB \/ r = RC) ->
  written (listing (MOV_i_r r) t ++ [32%N] ++ 35%N :: cs) (Some (mkCode [] (MOV_i_r r) t)).
Proof.
  intros t r cs (N & V & Nn) Hr. apply written_comment; [intros x [<-|[]]; reflexivity|]. apply listing_written; [destruct Hr; subst; discriminate|].
  destruct Hr; subst; cbn [value_kind syntax]; split; auto; apply numeral_word; auto.
Qed.
Lemma mult_written : forall tb tc, byte_numeral tb -> byte_numeral tc -> Forall2 written (mult_lines tb tc) (mult_codes tb tc).
Proof.
  intros tb tc Hb Hc. unfold mult_lines, mult_codes.
  assert (Eb : s2l "MOV " ++ tb ++ s2l ", RB # <== modify this" = listing (MOV_i_r RB) tb ++ [32%N] ++ 35%N :: s2l " <== modify this").
  { unfold listing. cbn [syntax]. rewrite <- !app_assoc. cbn [app]. change (s2l "MOV ") with (s2l "MOV" ++ [32%N]). rewrite <- app_assoc. cbn [app]. do 2 f_equal. rewrite <- app_assoc. reflexivity. }
  assert (Ec : s2l "MOV " ++ tc ++ s2l ", RC # <== modify this" = listing (MOV_i_r RC) tc ++ [32%N] ++ 35%N :: s2l " <== modify this").
  { unfold listing. cbn [syntax]. rewrite <- !app_assoc. cbn [app]. change (s2l "MOV ") with (s2l "MOV" ++ [32%N]). rewrite <- app_assoc. cbn [app]. do 2 f_equal. rewrite <- app_assoc. reflexivity. }
  rewrite Eb, Ec. constructor; [line_blank|]. constructor; [apply operand_line; auto|]. constructor; [apply operand_line; auto|]. constructor; [line_blank|].
  constructor; [line_plain|]. constructor; [line_plain|]. constructor; [line_plain|]. constructor; [line_blank|]. constructor; [line_label "MOV RC, AC"%string|].
  do 9 (constructor; [line_plain|]). constructor; [line_label "POP"%string|]. constructor; [line_plain|]. constructor.
Qed.
Ltac literal_value := left; split; [apply numeral_check; split; [discriminate|reflexivity]|vm_compute; discriminate].
Ltac label_value := right; split; [reflexivity|cbn; tauto].
Lemma byte_value : forall L i t, byte_numeral t -> (i = MOV_i_r RB \/ i = MOV_i_r RC) -> value_ok L (mkCode [] i t) /\ ~ byte_ref (mkCode [] i t).
Proof.
  intros L i t (N & V & _) Hi. split.
  - unfold value_ok. cbn [ins val]. destruct Hi; subst; cbn [value_kind syntax]; left; auto.
  - intros (_ & X). exact (ref_not_numeral _ X N).
Qed.
Lemma newline_free : forall t, numeral t -> ~ In 10%N t.
Proof. intros t (_ & H) X. apply (H _ X). reflexivity. Qed.
Lemma mult_program : forall tb tc init, byte_numeral tb -> byte_numeral tc -> 0 <= init -> init + 27 <= 65535 -> program (mult_lines tb tc) (mult_codes tb tc) init.
Proof.
  intros tb tc init Hb Hc H0 H1. split; [|split; [apply mult_written; auto|]].
  { split; [discriminate|]. intros l Hl. unfold mult_lines in Hl. cbn [In] in Hl.
    assert (G : forall t a b, numeral t -> ~ In 10%N a -> ~ In 10%N b -> ~ In 10%N (a ++ t ++ b)) by (intros t a b N A B X; rewrite !in_app_iff in X; destruct X as [X|[X|X]]; [auto|exact (newline_free t N X)|auto]).
    repeat (destruct Hl as [<-|Hl]; [first [apply G; [first [apply Hb|apply Hc]| |]; no_newline|no_newline]|]). destruct Hl. }
  split; [|split; [discriminate|split; [auto|]]].
  - intros c Hin. unfold mult_codes in *. cbn [somes] in *. destruct Hin as [<-|[<-|Hin]]; [apply byte_value; auto|apply byte_value; auto|]. set (L := map lab _). cbn [In] in Hin.
    repeat (destruct Hin as [<-|Hin]; [split; [|intros (X & Y); try discriminate X; discriminate Y]; first [exact I|literal_value|label_value]|]). destruct Hin.
  - unfold mult_codes. cbn [somes total fold_right ins]. cbv [size value_kind syntax]. lia.
Qed.
Ltac bytes_eq := repeat match goal with |- _ :: _ = _ :: _ => f_equal end; try reflexivity; try lia; try (f_equal; lia).
Lemma mult_image : forall tb tc init bytes, image (somes (mult_codes tb tc)) init (somes (mult_codes tb tc)) bytes -> bytes = mult_bytes init (numeral_value tb) (numeral_value tc).
Proof.
  intros tb tc init bytes. apply image_is.
  - intros c Hin. unfold mult_codes in Hin. cbn [somes In] in Hin. repeat (destruct Hin as [<-|Hin]; [discriminate|]). destruct Hin.
  - assert (A1 : address (somes (mult_codes tb tc)) init (s2l "TFIN") = init + 25) by (cbv [mult_codes somes address lab str_eqb s2l Ascii.N_of_ascii Ascii.N_of_digits N.eqb Pos.eqb andb N.mul N.add Pos.mul Pos.add Pos.succ ins size value_kind syntax]; lia).
    assert (A2 : address (somes (mult_codes tb tc)) init (s2l "TSTART") = init + 9) by (cbv [mult_codes somes address lab str_eqb s2l Ascii.N_of_ascii Ascii.N_of_digits N.eqb Pos.eqb andb N.mul N.add Pos.mul Pos.add Pos.succ ins size value_kind syntax]; lia).
    set (p := somes (mult_codes tb tc)) in *. unfold p at 2. unfold mult_codes. cbn [somes map concat app]. unfold enc. cbn [ins val value_kind syntax app hd_error s2l].
    unfold mult_bytes. clearbody p.
    repeat match goal with |- _ :: _ = _ :: _ => apply f_equal2 end; try reflexivity;
    match goal with |- _ / _ = _ => apply (f_equal (fun z => z / 256)) | |- _ => apply (f_equal (fun z => z mod 256)) end; first [exact A1|exact A2].
Qed.
Theorem C49_multiplication : forall tb tc init l h u, byte_numeral tb -> byte_numeral tc -> live l h true ->
  get_register_value R_PC h = Some init -> 0 <= init -> init + 27 <= 65535 -> apart init 27 0x1233 ->
  exists out slots h', parse_input (text_of (mult_lines tb tc)) init = Some out /\ new_translation out = Some slots /\ save_to_memory init (slot_values slots) h = Some h' /\
    (exists h'', run_program u false h' h'') /\
    forall h'', run_program u false h' h'' -> get_register_value R_AC h'' = Some ((numeral_value tb * numeral_value tc) mod 256).
Proof.
  intros tb tc init l h u Hb Hc L Hp H0 H1 Ap.
  destruct (run_source _ _ init l h u (fun t => AC t = (numeral_value tb * numeral_value tc) mod 256) (mult_program tb tc init Hb Hc H0 H1) L Hp ltac:(lia)) as (out & slots & h' & A1 & A2 & A3 & A4 & A5).
  - intros s bytes Im V Ps Ca. apply mult_image in Im. subst bytes.
    destruct (mult_runs init (numeral_value tb) (numeral_value tc) s) as (t & G & Q & Pt & Ot); auto; try (split; [apply numeral_nonneg|apply Hb || apply Hc]).
    exists t. repeat split; auto. lia.
  - exists out, slots, h'. repeat (split; auto). intros h'' R. destruct (A5 h'' R) as (t & Q & Sh). destruct Sh as (Sa & _). rewrite Sa. f_equal. exact Q.
Qed.
Example C49_nonvacuous : byte_numeral (s2l "05") /\ byte_numeral (s2l "03") /\ apart 0 27 0x1233 /\ exists l h, live l h true /\ get_register_value R_PC h = Some 0.
Proof.
  split; [split; [apply numeral_check; split; [discriminate|reflexivity]|split; [vm_compute; discriminate|]]|].
  { intros X. cbv in X. intuition congruence. }
  split; [split; [apply numeral_check; split; [discriminate|reflexivity]|split; [vm_compute; discriminate|]]|].
  { intros X. cbv in X. intuition congruence. }
  split; [right; lia|].
  destruct (C14_nonvacuous (mkArch 0 false false 0 0 0 0 0 0 (fun i => 0) [])) as (l & h & L & _ & Sh); [repeat split; cbn; lia|reflexivity|]. exists l, h. split; auto.
  apply Sh.
Qed.
Print Assumptions C49_multiplication.

(** ** Counting to five *)
Definition count_text : string :=
"MOV 00, AC
T2 INC AC
CMP 05
BEQ T1
JMP T2
T1 FIN".
Definition count_lines : list str := [s2l "MOV 00, AC"; s2l "T2 INC AC"; s2l "CMP 05"; s2l "BEQ T1"; s2l "JMP T2"; s2l "T1 FIN"].
Example count_verbatim : text_of count_lines = s2l count_text.
Proof. vm_compute. reflexivity. Qed.
Definition count_codes : list (option code) :=
  [Some (mkCode [] MOV_i_ac (s2l "00")); Some (mkCode (s2l "T2") INC_ac []); Some (mkCode [] (OP CMP Imm) (s2l "05")); Some (mkCode [] BEQ (s2l "T1"));
   Some (mkCode [] JMP (s2l "T2")); Some (mkCode (s2l "T1") FIN [])].
Ltac value_checks := repeat match goal with H : _ \/ _ |- _ => destruct H | H : False |- _ => destruct H | H : _ = ?c |- _ => is_var c; subst c end;
  (split; [|intros (X & Y); try discriminate X; discriminate Y]); first [exact I|literal_value|label_value].
Ltac address_eq := cbv [somes address lab str_eqb s2l Ascii.N_of_ascii Ascii.N_of_digits N.eqb Pos.eqb andb N.mul N.add Pos.mul Pos.add Pos.succ ins size value_kind syntax]; lia.
Lemma count_program : forall init, 0 <= init -> init + 12 <= 65535 -> program count_lines count_codes init.
Proof.
  intros init H0 H1. split; [split; [discriminate|]; intros l Hl; unfold count_lines in Hl; cbn [In] in Hl; repeat (destruct Hl as [<-|Hl]; [no_newline|]); destruct Hl|].
  split; [unfold count_lines, count_codes; constructor; [line_plain|]; constructor; [line_label "INC AC"%string|]; do 3 (constructor; [line_plain|]); constructor; [line_label "FIN"%string|]; constructor|].
  split; [intros c Hin; unfold count_codes in *; cbn [somes] in *; set (L := map lab _); cbn [In] in Hin; value_checks|].
  split; [discriminate|split; [auto|]]. unfold count_codes. cbn [somes total fold_right ins]. cbv [size value_kind syntax]. lia.
Qed.
Ltac image_cases A1 A2 :=
  repeat match goal with |- _ :: _ = _ :: _ => apply f_equal2 end; try reflexivity;
  match goal with |- _ / _ = _ => apply (f_equal (fun z => z / 256)) | |- _ => apply (f_equal (fun z => z mod 256)) end; first [exact A1|exact A2].
Lemma count_image : forall init bytes, image (somes count_codes) init (somes count_codes) bytes -> bytes = count_bytes init.
Proof.
  intros init bytes. apply image_is.
  - intros c Hin. unfold count_codes in Hin. cbn [somes In] in Hin. repeat (destruct Hin as [<-|Hin]; [discriminate|]). destruct Hin.
  - assert (A1 : address (somes count_codes) init (s2l "T1") = init + 11) by (unfold count_codes; address_eq).
    assert (A2 : address (somes count_codes) init (s2l "T2") = init + 2) by (unfold count_codes; address_eq).
    set (p := somes count_codes) in *. unfold p at 2. unfold count_codes. cbn [somes map concat app]. unfold enc. cbn [ins val value_kind syntax app hd_error s2l].
    unfold count_bytes. clearbody p. image_cases A1 A2.
Qed.
Theorem C56_count : forall init l h u, live l h true -> get_register_value R_PC h = Some init -> 0 <= init -> init + 12 <= 65535 ->
  exists out slots h', parse_input (text_of count_lines) init = Some out /\ new_translation out = Some slots /\ save_to_memory init (slot_values slots) h = Some h' /\
    (exists h'', run_program u false h' h'') /\
    forall h'', run_program u false h' h'' -> get_register_value R_AC h'' = Some 5.
Proof.
  intros init l h u L Hp H0 H1.
  destruct (run_source _ _ init l h u (fun t => AC t = 5) (count_program init H0 H1) L Hp ltac:(lia)) as (out & slots & h' & A1 & A2 & A3 & A4 & A5).
  - intros s bytes Im V Ps Ca. apply count_image in Im. subst bytes.
    destruct (count_runs init s) as (t & G & Q & Ot); auto. exists t. split; auto. rewrite Q at 1 2. cbn [AC PC]. repeat split; auto. lia.
  - exists out, slots, h'. repeat (split; auto). intros h'' R. destruct (A5 h'' R) as (t & Q & Sh). destruct Sh as (Sa & _). rewrite Sa. f_equal. exact Q.
Qed.

(** ** Searching a buffer *)
Definition search_text : string :=
"MOV 01, RD
MOV 02, RE
MOV 05, AC
STAX

MOV 00, RD
MOV FE, RE
TS LDAX

CMP 05
BEQ TF

MOV RE, AC
CMP FF
BEQ TD
JMP TE

TD INC RD
TE INC RE

JMP TS
TF FIN".
Definition search_lines : list str :=
  [s2l "MOV 01, RD"; s2l "MOV 02, RE"; s2l "MOV 05, AC"; s2l "STAX"; s2l ""; s2l "MOV 00, RD"; s2l "MOV FE, RE"; s2l "TS LDAX"; s2l ""; s2l "CMP 05"; s2l "BEQ TF"; s2l "";
   s2l "MOV RE, AC"; s2l "CMP FF"; s2l "BEQ TD"; s2l "JMP TE"; s2l ""; s2l "TD INC RD"; s2l "TE INC RE"; s2l ""; s2l "JMP TS"; s2l "TF FIN"].
Example search_verbatim : text_of search_lines = s2l search_text.
Proof. vm_compute. reflexivity. Qed.
Definition search_codes : list (option code) :=
  [Some (mkCode [] (MOV_i_r RD) (s2l "01")); Some (mkCode [] (MOV_i_r RE) (s2l "02")); Some (mkCode [] MOV_i_ac (s2l "05")); Some (mkCode [] STAX []); None;
   Some (mkCode [] (MOV_i_r RD) (s2l "00")); Some (mkCode [] (MOV_i_r RE) (s2l "FE")); Some (mkCode (s2l "TS") LDAX []); None;
   Some (mkCode [] (OP CMP Imm) (s2l "05")); Some (mkCode [] BEQ (s2l "TF")); None;
   Some (mkCode [] (MOV_r_ac RE) []); Some (mkCode [] (OP CMP Imm) (s2l "FF")); Some (mkCode [] BEQ (s2l "TD")); Some (mkCode [] JMP (s2l "TE")); None;
   Some (mkCode (s2l "TD") (INC_r RD) []); Some (mkCode (s2l "TE") (INC_r RE) []); None; Some (mkCode [] JMP (s2l "TS")); Some (mkCode (s2l "TF") FIN [])].
Lemma search_program : forall init, 0 <= init -> init + 32 <= 65535 -> program search_lines search_codes init.
Proof.
  intros init H0 H1. split; [split; [discriminate|]; intros l Hl; unfold search_lines in Hl; cbn [In] in Hl; repeat (destruct Hl as [<-|Hl]; [no_newline|]); destruct Hl|].
  split; [unfold search_lines, search_codes; do 4 (constructor; [line_plain|]); constructor; [line_blank|]; do 2 (constructor; [line_plain|]);
    constructor; [line_label "LDAX"%string|]; constructor; [line_blank|]; do 2 (constructor; [line_plain|]); constructor; [line_blank|]; do 4 (constructor; [line_plain|]); constructor; [line_blank|];
    constructor; [line_label "INC RD"%string|]; constructor; [line_label "INC RE"%string|]; constructor; [line_blank|]; constructor; [line_plain|]; constructor; [line_label "FIN"%string|]; constructor|].
  split; [intros c Hin; unfold search_codes in *; cbn [somes] in *; set (L := map lab _); cbn [In] in Hin; value_checks|].
  split; [discriminate|split; [auto|]]. unfold search_codes. cbn [somes total fold_right ins]. cbv [size value_kind syntax]. lia.
Qed.
Lemma search_image : forall init bytes, image (somes search_codes) init (somes search_codes) bytes -> bytes = search_bytes init.
Proof.
  intros init bytes. apply image_is.
  - intros c Hin. unfold search_codes in Hin. cbn [somes In] in Hin. repeat (destruct Hin as [<-|Hin]; [discriminate|]). destruct Hin.
  - assert (A1 : address (somes search_codes) init (s2l "TF") = init + 31) by (unfold search_codes; address_eq).
    assert (A2 : address (somes search_codes) init (s2l "TD") = init + 26) by (unfold search_codes; address_eq).
    assert (A3 : address (somes search_codes) init (s2l "TE") = init + 27) by (unfold search_codes; address_eq).
    assert (A4 : address (somes search_codes) init (s2l "TS") = init + 11) by (unfold search_codes; address_eq).
    set (p := somes search_codes) in *. unfold p at 2. unfold search_codes. cbn [somes map concat app]. unfold enc. cbn [ins val value_kind syntax app hd_error s2l].
    unfold search_bytes. clearbody p.
    repeat match goal with |- _ :: _ = _ :: _ => apply f_equal2 end; try reflexivity;
    match goal with |- _ / _ = _ => apply (f_equal (fun z => z / 256)) | |- _ => apply (f_equal (fun z => z mod 256)) end; first [exact A1|exact A2|exact A3|exact A4].
Qed.
(** The run ends with D and E holding the first address from 00FE on whose cell is 5. *)
Theorem C56_search : forall init l h u, live l h true -> get_register_value R_PC h = Some init -> 0 <= init -> init + 32 <= 65535 -> apart init 32 0x102 ->
  exists out slots h', parse_input (text_of search_lines) init = Some out /\ new_translation out = Some slots /\ save_to_memory init (slot_values slots) h = Some h' /\
    (exists h'', run_program u false h' h'') /\
    forall h'', run_program u false h' h'' -> exists a, 0xFE <= a <= 0x102 /\ get_register_value R_D h'' = Some (a / 256) /\ get_register_value R_E h'' = Some (a mod 256) /\
      get_memory_value a h'' = Some 5 /\ forall x, 0xFE <= x < a -> get_memory_value x h'' <> Some 5.
Proof.
  intros init l h u L Hp H0 H1 Ap.
  destruct (run_source _ _ init l h u (fun t => exists a, first_five (M t) a /\ a <= 0x102 /\ D t = a / 256 /\ E t = a mod 256) (search_program init H0 H1) L Hp ltac:(lia)) as (out & slots & h' & A1 & A2 & A3 & A4 & A5).
  - intros s bytes Im V Ps Ca. apply search_image in Im. subst bytes.
    destruct (search_runs init s) as (t & G & Q & _ & Pt & Ot); auto; [apply V|]. exists t. split; auto. split; auto. split; [lia|auto].
  - exists out, slots, h'. repeat (split; auto). intros h'' R. destruct (A5 h'' R) as (t & (a & (Q1 & Q2 & Q3) & Q4 & Q5 & Q6) & Sh).
    destruct Sh as (_ & _ & _ & _ & _ & Sd & Se & _ & _ & Sm & _). exists a. split; [lia|]. rewrite Sd, Se. cbn [put_pc D E M] in *. split; [f_equal; exact Q5|]. split; [f_equal; exact Q6|].
    split; [rewrite Sm by lia; f_equal; exact Q2|]. intros x Hx. rewrite Sm by lia. intros X. injection X as X. exact (Q3 x Hx X).
Qed.

(** ** Calling a function *)
Definition call_lines (tb tc : str) : list str :=
  [s2l "INISP 0123"; s2l ""; s2l "MOV FF, RD"; s2l "MOV FA, RE"; s2l ""; s2l "MOV 10, AC"; s2l "STAX"; s2l ""; s2l "INC RE"; s2l "MOV 31, AC"; s2l "STAX"; s2l "";
   s2l "INC RE"; s2l "MOV 42, AC"; s2l "STAX"; s2l ""; s2l "INC RE"; s2l "MOV C5, AC"; s2l "STAX"; s2l ""; s2l "";
   s2l "MOV " ++ tb ++ s2l ", RB"; s2l "MOV " ++ tc ++ s2l ", RC"; s2l "CALL FFFA"; s2l "FIN"].
Definition call_text : string :=
"INISP 0123

MOV FF, RD
MOV FA, RE

MOV 10, AC
STAX

INC RE
MOV 31, AC
STAX

INC RE
MOV 42, AC
STAX

INC RE
MOV C5, AC
STAX


MOV 02, RB
MOV 02, RC
CALL FFFA
FIN".
Example call_verbatim : text_of (call_lines (s2l "02") (s2l "02")) = s2l call_text.
Proof. vm_compute. reflexivity. Qed.
Definition call_codes (tb tc : str) : list (option code) :=
  [Some (mkCode [] INISP (s2l "0123")); None; Some (mkCode [] (MOV_i_r RD) (s2l "FF")); Some (mkCode [] (MOV_i_r RE) (s2l "FA")); None;
   Some (mkCode [] MOV_i_ac (s2l "10")); Some (mkCode [] STAX []); None; Some (mkCode [] (INC_r RE) []); Some (mkCode [] MOV_i_ac (s2l "31")); Some (mkCode [] STAX []); None;
   Some (mkCode [] (INC_r RE) []); Some (mkCode [] MOV_i_ac (s2l "42")); Some (mkCode [] STAX []); None;
   Some (mkCode [] (INC_r RE) []); Some (mkCode [] MOV_i_ac (s2l "C5")); Some (mkCode [] STAX []); None; None;
   Some (mkCode [] (MOV_i_r RB) tb); Some (mkCode [] (MOV_i_r RC) tc); Some (mkCode [] CALL (s2l "FFFA")); Some (mkCode [] FIN [])].
Lemma call_program : forall tb tc init, byte_numeral tb -> byte_numeral tc -> 0 <= init -> init + 30 <= 65535 -> program (call_lines tb tc) (call_codes tb tc) init.
Proof.
  intros tb tc init Hb Hc H0 H1.
  assert (W : forall t r, byte_numeral t -> (r = RB \/ r = RC) -> written (listing (MOV_i_r r) t) (Some (mkCode [] (MOV_i_r r) t))).
  { intros t r (N & V & Nn) Hr. apply listing_written; [destruct Hr; subst; discriminate|]. destruct Hr; subst; cbn [value_kind syntax]; split; auto; apply numeral_word; auto. }
  split; [split; [discriminate|]|].
  { intros l Hl. unfold call_lines in Hl. cbn [In] in Hl.
    assert (G : forall t a b, numeral t -> ~ In 10%N a -> ~ In 10%N b -> ~ In 10%N (a ++ t ++ b)) by (intros t a b N A B X; rewrite !in_app_iff in X; destruct X as [X|[X|X]]; [auto|exact (newline_free t N X)|auto]).
    repeat (destruct Hl as [<-|Hl]; [first [apply G; [first [apply Hb|apply Hc]| |]; no_newline|no_newline]|]). destruct Hl. }
  split.
  { unfold call_lines, call_codes.
    assert (Eb : s2l "MOV " ++ tb ++ s2l ", RB" = listing (MOV_i_r RB) tb).
    { unfold listing. cbn [syntax]. change (s2l "MOV ") with (s2l "MOV" ++ [32%N]). rewrite <- app_assoc. reflexivity. }
    assert (Ec : s2l "MOV " ++ tc ++ s2l ", RC" = listing (MOV_i_r RC) tc).
    { unfold listing. cbn [syntax]. change (s2l "MOV ") with (s2l "MOV" ++ [32%N]). rewrite <- app_assoc. reflexivity. }
    rewrite Eb, Ec. constructor; [line_plain|]. constructor; [line_blank|]. do 2 (constructor; [line_plain|]). constructor; [line_blank|]. do 2 (constructor; [line_plain|]). constructor; [line_blank|].
    do 3 (constructor; [line_plain|]). constructor; [line_blank|]. do 3 (constructor; [line_plain|]). constructor; [line_blank|]. do 3 (constructor; [line_plain|]). do 2 (constructor; [line_blank|]).
    constructor; [apply W; auto|]. constructor; [apply W; auto|]. do 2 (constructor; [line_plain|]). constructor. }
  split; [|split; [discriminate|split; [auto|]]].
  - intros c Hin. unfold call_codes in *. cbn [somes] in *. set (L := map lab _). cbn [In] in Hin.
    repeat (destruct Hin as [<-|Hin]; [first [apply byte_value; solve [auto]|split; [|intros (X & Y); try discriminate X; discriminate Y]; first [exact I|literal_value|label_value]]|]). destruct Hin.
  - unfold call_codes. cbn [somes total fold_right ins]. cbv [size value_kind syntax]. lia.
Qed.
Lemma call_image : forall tb tc init bytes, image (somes (call_codes tb tc)) init (somes (call_codes tb tc)) bytes -> bytes = call_bytes init (numeral_value tb) (numeral_value tc).
Proof.
  intros tb tc init bytes. apply image_is.
  - intros c Hin. unfold call_codes in Hin. cbn [somes In] in Hin. repeat (destruct Hin as [<-|Hin]; [discriminate|]). destruct Hin.
  - set (p := somes (call_codes tb tc)) at 1. unfold call_codes. cbn [somes map concat app]. unfold enc. cbn [ins val value_kind syntax app hd_error s2l].
    unfold call_bytes. clearbody p. repeat match goal with |- _ :: _ = _ :: _ => apply f_equal2 end; reflexivity.
Qed.
(** D = B + C, and the stack pointer is back at its first value. *)
Theorem C56_call : forall tb tc init l h u, byte_numeral tb -> byte_numeral tc -> live l h true ->
  get_register_value R_PC h = Some init -> 0 <= init -> init + 30 <= 0xFFFA -> apart init 30 0x121 -> apart init 30 0x122 ->
  exists out slots h', parse_input (text_of (call_lines tb tc)) init = Some out /\ new_translation out = Some slots /\ save_to_memory init (slot_values slots) h = Some h' /\
    (exists h'', run_program u false h' h'') /\
    forall h'', run_program u false h' h'' -> get_register_value R_D h'' = Some ((numeral_value tb + numeral_value tc) mod 256) /\ get_register_value R_SP h'' = Some 0x123.
Proof.
  intros tb tc init l h u Hb Hc L Hp H0 H1 Ap1 Ap2.
  destruct (run_source _ _ init l h u (fun t => D t = (numeral_value tb + numeral_value tc) mod 256 /\ SP t = 0x123) (call_program tb tc init Hb Hc H0 ltac:(lia)) L Hp ltac:(lia)) as (out & slots & h' & A1 & A2 & A3 & A4 & A5).
  - intros s bytes Im V Ps Ca. apply call_image in Im. subst bytes.
    destruct (call_runs init (numeral_value tb) (numeral_value tc) s) as (t & G & Q & _ & _ & Qs & Pt & Ot); auto; try (split; [apply numeral_nonneg|apply Hb || apply Hc]).
    exists t. split; auto. split; auto. split; [lia|auto].
  - exists out, slots, h'. repeat (split; auto); destruct (A5 h'' H) as (t & (Q & Qs) & Sh); destruct Sh as (_ & _ & _ & _ & _ & Sd & _ & _ & Ss & _).
    + rewrite Sd. f_equal. exact Q.
    + rewrite Ss. f_equal. exact Qs.
Qed.
(** All the hypotheses on the placement are met at address 0. *)
Example C56_nonvacuous : byte_numeral (s2l "02") /\ apart 0 32 0x102 /\ apart 0 30 0x121 /\ apart 0 30 0x122 /\ exists l h, live l h true /\ get_register_value R_PC h = Some 0.
Proof.
  split; [split; [apply numeral_check; split; [discriminate|reflexivity]|split; [vm_compute; discriminate|intros X; cbv in X; intuition congruence]]|].
  split; [right; lia|]. split; [right; lia|]. split; [right; lia|]. destruct C49_nonvacuous as (_ & _ & _ & X). exact X.
Qed.
Print Assumptions C56_count.
Print Assumptions C56_search.
Print Assumptions C56_call.
