(** * The programs of the documentation (C67, C68, C69)
    docs/src/pages/es/examples/*.mdx: each is opened from its URL (a last line FIN is
    appended), assembled, saved and run with the run button. *)
From Coq Require Import String ZArith NArith List Bool Lia ZifyBool ZifyN Factorial.
From Verif Require Import Prog Isa Api ApiFacts Usage Front IsaFacts Reach PropsApi PropsIsa PropsLife PropsRun Shown IsaRun IsaExamples DocRuns.
From Verif Require Import JsStr AsmTable Asm AsmSpec AsmRe AsmLine AsmFacts AsmExec AsmProg AsmErr PropsAsm Disasm DisasmFacts PropsDisasm PropsLoad PropsExamples Editor PropsEditor.
Import ListNotations.
Open Scope list_scope.
Open Scope Z_scope.

(** ** Factorial: examples/factorial.mdx, with the text [t] for the number *)
Definition fact_lines (t : str) : list str :=
  [s2l "INISP EEEE"; s2l ""; s2l "MOV " ++ t ++ s2l ", AC # 3!"; s2l "CALL TFFACTORIAL"; s2l "FIN"; s2l ""; s2l "# define fact(AC)";
   s2l "TFFACTORIAL CMP 1"; s2l "BEQ T_BASE"; s2l "PUSH # X"; s2l "SUB 01 # AC = X-1"; s2l "CALL TFFACTORIAL # fact(X-1)"; s2l "MOV AC, RC"; s2l "POP";
   s2l "MOV AC, RB # X"; s2l "CALL TFMULT # X * fact(X-1)"; s2l "JMP TFFACTORIAL_RET"; s2l ""; s2l "T_BASE MOV 1, AC # base case"; s2l ""; s2l "TFFACTORIAL_RET RET"; s2l "";
   s2l "# define multiply(RB, RC)"; s2l "TFMULT MOV RB, AC"; s2l "PUSH"; s2l ""; s2l "TSTART MOV RC, AC"; s2l "CMP 01"; s2l "BEQ TFIN"; s2l "POP"; s2l "ADD RB"; s2l "PUSH";
   s2l "MOV RC, AC"; s2l "SUB 01"; s2l "MOV AC, RC"; s2l "JMP TSTART"; s2l "TFIN POP"; s2l "RET"].
Definition fact_text : string :=
"INISP EEEE

MOV 3, AC # 3!
CALL TFFACTORIAL
FIN

# define fact(AC)
TFFACTORIAL CMP 1
BEQ T_BASE
PUSH # X
SUB 01 # AC = X-1
CALL TFFACTORIAL # fact(X-1)
MOV AC, RC
POP
MOV AC, RB # X
CALL TFMULT # X * fact(X-1)
JMP TFFACTORIAL_RET

T_BASE MOV 1, AC # base case

TFFACTORIAL_RET RET

# define multiply(RB, RC)
TFMULT MOV RB, AC
PUSH

TSTART MOV RC, AC
CMP 01
BEQ TFIN
POP
ADD RB
PUSH
MOV RC, AC
SUB 01
MOV AC, RC
JMP TSTART
TFIN POP
RET".
Example fact_verbatim : text_of (fact_lines (s2l "3")) = s2l fact_text.
Proof. vm_compute. reflexivity. Qed.
Definition fact_codes (t : str) : list (option code) :=
  [Some (mkCode [] INISP (s2l "EEEE")); None; Some (mkCode [] MOV_i_ac t); Some (mkCode [] CALL (s2l "TFFACTORIAL")); Some (mkCode [] FIN []); None; None;
   Some (mkCode (s2l "TFFACTORIAL") (OP CMP Imm) (s2l "1")); Some (mkCode [] BEQ (s2l "T_BASE")); Some (mkCode [] PUSH []); Some (mkCode [] (OP SUB Imm) (s2l "01"));
   Some (mkCode [] CALL (s2l "TFFACTORIAL")); Some (mkCode [] (MOV_ac_r RC) []); Some (mkCode [] POP []); Some (mkCode [] (MOV_ac_r RB) []); Some (mkCode [] CALL (s2l "TFMULT"));
   Some (mkCode [] JMP (s2l "TFFACTORIAL_RET")); None; Some (mkCode (s2l "T_BASE") MOV_i_ac (s2l "1")); None; Some (mkCode (s2l "TFFACTORIAL_RET") RET []); None; None;
   Some (mkCode (s2l "TFMULT") (MOV_r_ac RB) []); Some (mkCode [] PUSH []); None; Some (mkCode (s2l "TSTART") (MOV_r_ac RC) []); Some (mkCode [] (OP CMP Imm) (s2l "01"));
   Some (mkCode [] BEQ (s2l "TFIN")); Some (mkCode [] POP []); Some (mkCode [] (OP ADD (Reg RB)) []); Some (mkCode [] PUSH []); Some (mkCode [] (MOV_r_ac RC) []);
   Some (mkCode [] (OP SUB Imm) (s2l "01")); Some (mkCode [] (MOV_ac_r RC) []); Some (mkCode [] JMP (s2l "TSTART")); Some (mkCode (s2l "TFIN") POP []); Some (mkCode [] RET []);
   Some (mkCode [] FIN [])].
Lemma ends_ret : forall lines, lines <> [] -> ends_with_fin (text_of (lines ++ [s2l "RET"])) = false.
Proof. intros lines N. unfold text_of. rewrite join_snoc by exact N. unfold ends_with_fin. rewrite rev_app_distr. reflexivity. Qed.
Lemma url_fin : forall lines, lines <> [] -> ends_with_fin (text_of lines) = false -> from_url (text_of lines) = text_of (lines ++ [fin_line]).
Proof. intros lines N E. unfold from_url. rewrite E. unfold text_of. rewrite join_snoc by exact N. reflexivity. Qed.
Lemma ac_line : forall t cs, byte_numeral t -> written (listing MOV_i_ac t ++ [32%N] ++ 35%N :: cs) (Some (mkCode [] MOV_i_ac t)).
Proof.
  intros t cs (N & V & Nn). apply written_comment; [intros x [<-|[]]; reflexivity|]. apply listing_written; [discriminate|].
  cbn [value_kind syntax]. split; auto; apply numeral_word; auto.
Qed.
Lemma fact_written : forall t, byte_numeral t -> Forall2 written (fact_lines t ++ [fin_line]) (fact_codes t).
Proof.
  intros t Ht. unfold fact_lines, fact_codes. cbn [app].
  assert (Eb : s2l "MOV " ++ t ++ s2l ", AC # 3!" = listing MOV_i_ac t ++ [32%N] ++ 35%N :: s2l " 3!").
  { unfold listing. cbn [syntax]. rewrite <- !app_assoc. cbn [app]. change (s2l "MOV ") with (s2l "MOV" ++ [32%N]). rewrite <- app_assoc. cbn [app]. do 2 f_equal. rewrite <- app_assoc. reflexivity. }
  rewrite Eb. constructor; [line_plain|]. constructor; [line_blank|]. constructor; [apply ac_line; auto|]. constructor; [line_plain|]. constructor; [line_plain|]. constructor; [line_blank|]. constructor; [line_blank|].
  constructor; [line_label "CMP 1"%string|]. do 9 (constructor; [line_plain|]). constructor; [line_blank|]. constructor; [line_label "MOV 1, AC"%string|]. constructor; [line_blank|].
  constructor; [line_label "RET"%string|]. constructor; [line_blank|]. constructor; [line_blank|]. constructor; [line_label "MOV RB, AC"%string|]. constructor; [line_plain|]. constructor; [line_blank|].
  constructor; [line_label "MOV RC, AC"%string|]. do 9 (constructor; [line_plain|]). constructor; [line_label "POP"%string|]. constructor; [line_plain|]. constructor; [line_plain|]. constructor.
Qed.
Lemma ac_value : forall L t, byte_numeral t -> value_ok L (mkCode [] MOV_i_ac t) /\ ~ byte_ref (mkCode [] MOV_i_ac t).
Proof.
  intros L t (N & V & _). split.
  - unfold value_ok. cbn [ins val]. cbn [value_kind syntax]. left; auto.
  - intros (_ & X). exact (ref_not_numeral _ X N).
Qed.
Lemma fact_program : forall t init, byte_numeral t -> 0 <= init -> init + 53 <= 65535 -> program (fact_lines t ++ [fin_line]) (fact_codes t) init.
Proof.
  intros t init Ht H0 H1. split; [|split; [apply fact_written; auto|]].
  { split; [discriminate|]. intros l Hl. unfold fact_lines in Hl. cbn [In app] in Hl.
    assert (G : forall t a b, numeral t -> ~ In 10%N a -> ~ In 10%N b -> ~ In 10%N (a ++ t ++ b)) by (intros x a b N A B X; rewrite !in_app_iff in X; destruct X as [X|[X|X]]; [auto|exact (newline_free x N X)|auto]).
    repeat (destruct Hl as [<-|Hl]; [first [apply G; [apply Ht| |]; no_newline|no_newline]|]). destruct Hl. }
  split; [|split; [discriminate|split; [auto|]]].
  - intros c Hin. unfold fact_codes in *. cbn [somes] in *. destruct Hin as [<-|[<-|Hin]]; [split; [literal_value|intros (X & Y); discriminate X]|apply ac_value; auto|]. set (L := map lab _). cbn [In] in Hin.
    repeat (destruct Hin as [<-|Hin]; [split; [|intros (X & Y); try discriminate X; discriminate Y]; first [exact I|literal_value|label_value]|]). destruct Hin.
  - unfold fact_codes. cbn [somes total fold_right ins]. cbv [size value_kind syntax]. lia.
Qed.
Lemma fact_image : forall t init bytes, image (somes (fact_codes t)) init (somes (fact_codes t)) bytes -> bytes = fact_bytes init (numeral_value t).
Proof.
  intros t init bytes. apply image_is.
  - intros c Hin. unfold fact_codes in Hin. cbn [somes In] in Hin. repeat (destruct Hin as [<-|Hin]; [discriminate|]). destruct Hin.
  - assert (A1 : address (somes (fact_codes t)) init (s2l "TFFACTORIAL") = init + 9) by (unfold fact_codes; address_eq).
    assert (A2 : address (somes (fact_codes t)) init (s2l "T_BASE") = init + 29) by (unfold fact_codes; address_eq).
    assert (A3 : address (somes (fact_codes t)) init (s2l "TFFACTORIAL_RET") = init + 31) by (unfold fact_codes; address_eq).
    assert (A4 : address (somes (fact_codes t)) init (s2l "TFMULT") = init + 32) by (unfold fact_codes; address_eq).
    assert (A5 : address (somes (fact_codes t)) init (s2l "TSTART") = init + 34) by (unfold fact_codes; address_eq).
    assert (A6 : address (somes (fact_codes t)) init (s2l "TFIN") = init + 50) by (unfold fact_codes; address_eq).
    set (p := somes (fact_codes t)) in *. unfold p at 2. unfold fact_codes. cbn [somes map concat app]. unfold enc. cbn [ins val value_kind syntax app hd_error s2l].
    unfold fact_bytes. clearbody p.
    repeat match goal with |- _ :: _ = _ :: _ => apply f_equal2 end; try reflexivity;
    match goal with |- _ / _ = _ => apply (f_equal (fun z => z / 256)) | |- _ => apply (f_equal (fun z => z mod 256)) end; first [exact A1|exact A2|exact A3|exact A4|exact A5|exact A6].
Qed.
(** The address where the program is loaded leaves the stack apart from the code:
    the deepest recursion takes 767 bytes under EEEE. *)
Definition stack_apart (init : Z) : Prop := init + 53 <= 0xEEEE - 767 \/ 0xEEEE <= init /\ init + 53 <= 65535.
Lemma factorial_of : forall N t init l h u, byte_numeral t -> live l h true -> get_register_value R_PC h = Some init -> 0 <= init -> stack_apart init ->
  (1 <= N <= 256)%nat -> numeral_value t = Z.of_nat N mod 256 ->
  exists out slots h', parse_input (from_url (text_of (fact_lines t))) init = Some out /\ new_translation out = Some slots /\ save_to_memory init (slot_values slots) h = Some h' /\
    (exists h'', run_program u false h' h'') /\
    forall h'', run_program u false h' h'' -> get_register_value R_AC h'' = Some (Z.of_nat (fact N) mod 256) /\ get_register_value R_SP h'' = Some 0xEEEE.
Proof.
  intros N t init l h u Ht L Hp H0 Ap HN Et. rewrite url_fin; [|discriminate|exact (ends_ret (removelast (fact_lines t)) ltac:(discriminate))].
  assert (H1 : init + 53 <= 65535) by (unfold stack_apart in Ap; lia).
  destruct (run_source _ _ init l h u (fun t => AC t = Z.of_nat (fact N) mod 256 /\ SP t = 0xEEEE) (fact_program t init Ht H0 H1) L Hp ltac:(lia)) as (out & slots & h' & A1 & A2 & A3 & A4 & A5).
  - intros s bytes Im V Ps Ca. apply fact_image in Im. subst bytes.
    destruct (fact_runs init (numeral_value t) N s) as (t' & G & Q1 & Q2 & Pt & Ot); auto. exists t'. split; auto. split; auto. split; [lia|exact Ot].
  - exists out, slots, h'. repeat (split; auto). 1: destruct (A5 h'' H) as (t' & (Q1 & Q2) & Sh); destruct Sh as (Sa & _); rewrite Sa; f_equal; exact Q1.
    destruct (A5 h'' H) as (t' & (Q1 & Q2) & Sh). destruct Sh as (_ & _ & _ & _ & _ & _ & _ & _ & Ss & _). rewrite Ss. f_equal. exact Q2.
Qed.
Theorem C67_factorial : forall t init l h u, byte_numeral t -> live l h true -> get_register_value R_PC h = Some init -> 0 <= init -> stack_apart init -> 1 <= numeral_value t ->
  exists out slots h', parse_input (from_url (text_of (fact_lines t))) init = Some out /\ new_translation out = Some slots /\ save_to_memory init (slot_values slots) h = Some h' /\
    (exists h'', run_program u false h' h'') /\
    forall h'', run_program u false h' h'' -> get_register_value R_AC h'' = Some (Z.of_nat (fact (Z.to_nat (numeral_value t))) mod 256) /\ get_register_value R_SP h'' = Some 0xEEEE.
Proof.
  intros t init l h u Ht L Hp H0 Ap Hn. pose proof Ht as (_ & Hv & _). apply factorial_of with (l := l); auto; [lia|]. rewrite Z2Nat.id by lia. rewrite Z.mod_small by lia. reflexivity.
Qed.
Lemma fact_256 : forall k, Z.of_nat (S k) = 256 -> Z.of_nat (fact (S k)) mod 256 = 0.
Proof. intros k Kz. change (fact (S k)) with (S k * fact k)%nat. rewrite Nat2Z.inj_mul, Kz, Z.mul_comm. apply Z.mod_mul. lia. Qed.
(** The documented function answers 1 for 0; the program answers 0. *)
Theorem C67_zero_refuted : forall t init l h u, byte_numeral t -> live l h true -> get_register_value R_PC h = Some init -> 0 <= init -> stack_apart init -> numeral_value t = 0 ->
  exists out slots h', parse_input (from_url (text_of (fact_lines t))) init = Some out /\ new_translation out = Some slots /\ save_to_memory init (slot_values slots) h = Some h' /\
    (exists h'', run_program u false h' h'') /\
    forall h'', run_program u false h' h'' -> get_register_value R_AC h'' = Some 0.
Proof.
  intros t init l h u Ht L Hp H0 Ap Hn. assert (exists k, Z.of_nat (S k) = 256) as (k & Kz) by (exists (Z.to_nat 255); reflexivity).
  destruct (factorial_of (S k) t init l h u) as (out & slots & h' & A1 & A2 & A3 & A4 & A5); auto; try lia.
  exists out, slots, h'. repeat (split; auto). intros h'' R. destruct (A5 h'' R) as (E & _). rewrite E. f_equal.
  exact (fact_256 k Kz).
Qed.
Example C67_nonvacuous : byte_numeral (s2l "3") /\ numeral_value (s2l "3") = 3 /\ byte_numeral (s2l "00") /\ numeral_value (s2l "00") = 0 /\ stack_apart 0 /\ exists l h, live l h true /\ get_register_value R_PC h = Some 0.
Proof.
  split; [split; [apply numeral_check; split; [discriminate|reflexivity]|split; [vm_compute; discriminate|]]|]. { intros X. cbv in X. intuition congruence. }
  split; [reflexivity|]. split; [split; [apply numeral_check; split; [discriminate|reflexivity]|split; [vm_compute; discriminate|]]|]. { intros X. cbv in X. intuition congruence. }
  split; [reflexivity|]. split; [left; lia|]. destruct C49_nonvacuous as (_ & _ & _ & X). exact X.
Qed.
Print Assumptions C67_factorial.
Print Assumptions C67_zero_refuted.

(** ** Loading a source text *)
Lemma load_source : forall lines codes init l h, program lines codes init -> live l h true -> get_register_value R_PC h = Some init -> init < 65535 ->
  exists out slots h' l' s, parse_input (text_of lines) init = Some out /\ new_translation out = Some slots /\ save_to_memory init (slot_values slots) h = Some h' /\
    live l' h' true /\ boundary h' /\ shows h' s /\ valid s /\ PC s = init /\ (forall r, get_register_value r h' = get_register_value r h) /\
    image (somes codes) init (somes codes) (slot_values slots) /\ code_at (M s) init (slot_values slots).
Proof.
  intros lines codes init l h P L Hpc Hi. destruct (live_up l h true L) as (_ & z & U). destruct (up_obs h z U) as (O & _).
  destruct (C42_source lines codes init l h _ P L O) as (out & slots & h' & bytes & E1 & E2 & -> & Im & Tl & Sv & L' & Ho & _ & Hr & Nx & _).
  destruct (live_shows _ _ _ L') as (s & Sh & V). destruct P as (_ & _ & _ & _ & P5 & P6).
  assert (Ps : PC s = init). { pose proof Sh as (_ & _ & _ & _ & _ & _ & _ & Sp & _). rewrite Hr, Hpc in Sp. congruence. }
  assert (Bd : boundary h'). { split; auto. intros X. rewrite Hr, Hpc in X. injection X as X. lia. }
  exists out, slots, h', (l ++ ResetControl :: store_from init (slot_values slots)), s.
  do 10 (split; [assumption|]). intros k Hk. rewrite <- (Ho k Hk). unfold seen. destruct Sh as (_ & _ & _ & _ & _ & _ & _ & _ & _ & Sm & _). rewrite Sm by lia. reflexivity.
Qed.

(** ** The function that returns to its own call: examples/malicious-function.mdx *)
Definition mal_lines : list str :=
  [s2l "INISP EEEE # random far address"; s2l "CALL TFAUTORECURSIVE"; s2l "FIN"; s2l ""; s2l ""; s2l "TFAUTORECURSIVE POP # extract return address"; s2l "MOV AC, RE"; s2l "POP"; s2l "MOV AC, RD";
   s2l "# --"; s2l ""; s2l "# find caller address"; s2l "CALL TFSUB"; s2l "CALL TFSUB"; s2l "CALL TFSUB"; s2l "# --"; s2l ""; s2l "# faking return address"; s2l "# - creating recursive call";
   s2l "MOV RD, AC"; s2l "PUSH"; s2l "MOV RE, AC"; s2l "PUSH"; s2l "# --"; s2l ""; s2l "RET"; s2l ""; s2l "# util functions"; s2l "TFSUB CALL TFSUB_RE"; s2l "BC TFSUBRD"; s2l "JMP TFSUBRET"; s2l "";
   s2l "TFSUBRD CALL TFSUB_RD"; s2l ""; s2l "TFSUBRET RET"; s2l ""; s2l "TFSUB_RD MOV RD, AC"; s2l "SUB 01"; s2l "MOV AC, RD"; s2l "RET"; s2l ""; s2l "TFSUB_RE MOV RE, AC"; s2l "SUB 01"; s2l "MOV AC, RE"; s2l "RET"].
Definition mal_text : string :=
"INISP EEEE # random far address
CALL TFAUTORECURSIVE
FIN


TFAUTORECURSIVE POP # extract return address
MOV AC, RE
POP
MOV AC, RD
# --

# find caller address
CALL TFSUB
CALL TFSUB
CALL TFSUB
# --

# faking return address
# - creating recursive call
MOV RD, AC
PUSH
MOV RE, AC
PUSH
# --

RET

# util functions
TFSUB CALL TFSUB_RE
BC TFSUBRD
JMP TFSUBRET

TFSUBRD CALL TFSUB_RD

TFSUBRET RET

TFSUB_RD MOV RD, AC
SUB 01
MOV AC, RD
RET

TFSUB_RE MOV RE, AC
SUB 01
MOV AC, RE
RET".
Example mal_verbatim : text_of mal_lines = s2l mal_text.
Proof. vm_compute. reflexivity. Qed.
Definition mal_codes : list (option code) :=
  [Some (mkCode [] INISP (s2l "EEEE")); Some (mkCode [] CALL (s2l "TFAUTORECURSIVE")); Some (mkCode [] FIN []); None; None; Some (mkCode (s2l "TFAUTORECURSIVE") POP []); Some (mkCode [] (MOV_ac_r RE) []);
   Some (mkCode [] POP []); Some (mkCode [] (MOV_ac_r RD) []); None; None; None; Some (mkCode [] CALL (s2l "TFSUB")); Some (mkCode [] CALL (s2l "TFSUB")); Some (mkCode [] CALL (s2l "TFSUB")); None; None; None; None;
   Some (mkCode [] (MOV_r_ac RD) []); Some (mkCode [] PUSH []); Some (mkCode [] (MOV_r_ac RE) []); Some (mkCode [] PUSH []); None; None; Some (mkCode [] RET []); None; None;
   Some (mkCode (s2l "TFSUB") CALL (s2l "TFSUB_RE")); Some (mkCode [] BC_ (s2l "TFSUBRD")); Some (mkCode [] JMP (s2l "TFSUBRET")); None; Some (mkCode (s2l "TFSUBRD") CALL (s2l "TFSUB_RD")); None;
   Some (mkCode (s2l "TFSUBRET") RET []); None;
   Some (mkCode (s2l "TFSUB_RD") (MOV_r_ac RD) []); Some (mkCode [] (OP SUB Imm) (s2l "01")); Some (mkCode [] (MOV_ac_r RD) []); Some (mkCode [] RET []); None;
   Some (mkCode (s2l "TFSUB_RE") (MOV_r_ac RE) []); Some (mkCode [] (OP SUB Imm) (s2l "01")); Some (mkCode [] (MOV_ac_r RE) []); Some (mkCode [] RET []); Some (mkCode [] FIN [])].
Lemma mal_program : forall init, 0 <= init -> init + 49 <= 65535 -> program (mal_lines ++ [fin_line]) mal_codes init.
Proof.
  intros init H0 H1. split; [split; [discriminate|]; intros l Hl; unfold mal_lines in Hl; cbn [In app] in Hl; repeat (destruct Hl as [<-|Hl]; [no_newline|]); destruct Hl|].
  split; [unfold mal_lines, mal_codes; cbn [app];
    do 3 (constructor; [line_plain|]); do 2 (constructor; [line_blank|]); constructor; [line_label "POP"%string|]; do 3 (constructor; [line_plain|]); do 3 (constructor; [line_blank|]);
    do 3 (constructor; [line_plain|]); do 4 (constructor; [line_blank|]); do 4 (constructor; [line_plain|]); do 2 (constructor; [line_blank|]); constructor; [line_plain|]; do 2 (constructor; [line_blank|]);
    constructor; [line_label "CALL TFSUB_RE"%string|]; do 2 (constructor; [line_plain|]); constructor; [line_blank|]; constructor; [line_label "CALL TFSUB_RD"%string|]; constructor; [line_blank|];
    constructor; [line_label "RET"%string|]; constructor; [line_blank|]; constructor; [line_label "MOV RD, AC"%string|]; do 3 (constructor; [line_plain|]); constructor; [line_blank|];
    constructor; [line_label "MOV RE, AC"%string|]; do 4 (constructor; [line_plain|]); constructor|].
  split; [intros c Hin; unfold mal_codes in *; cbn [somes] in *; set (L := map lab _); cbn [In] in Hin; value_checks|].
  split; [discriminate|split; [auto|]]. unfold mal_codes. cbn [somes total fold_right ins]. cbv [size value_kind syntax]. lia.
Qed.
Lemma mal_image : forall init bytes, image (somes mal_codes) init (somes mal_codes) bytes -> bytes = mal_bytes init.
Proof.
  intros init bytes. apply image_is.
  - intros c Hin. unfold mal_codes in Hin. cbn [somes In] in Hin. repeat (destruct Hin as [<-|Hin]; [discriminate|]). destruct Hin.
  - assert (A1 : address (somes mal_codes) init (s2l "TFAUTORECURSIVE") = init + 7) by (unfold mal_codes; address_eq).
    assert (A2 : address (somes mal_codes) init (s2l "TFSUB") = init + 25) by (unfold mal_codes; address_eq).
    assert (A3 : address (somes mal_codes) init (s2l "TFSUB_RE") = init + 25 + 18) by (unfold mal_codes; address_eq).
    assert (A4 : address (somes mal_codes) init (s2l "TFSUBRD") = init + 25 + 9) by (unfold mal_codes; address_eq).
    assert (A5 : address (somes mal_codes) init (s2l "TFSUBRET") = init + 25 + 12) by (unfold mal_codes; address_eq).
    assert (A6 : address (somes mal_codes) init (s2l "TFSUB_RD") = init + 25 + 13) by (unfold mal_codes; address_eq).
    set (p := somes mal_codes) in *. unfold p at 2. unfold mal_codes. cbn [somes map concat app]. unfold enc. cbn [ins val value_kind syntax app hd_error s2l].
    unfold mal_bytes, mal_code, util_bytes. cbn [app]. clearbody p.
    repeat match goal with |- _ :: _ = _ :: _ => apply f_equal2 end; try reflexivity;
    match goal with |- _ / _ = _ => apply (f_equal (fun z => z / 256)) | |- _ => apply (f_equal (fun z => z mod 256)) end; first [exact A1|exact A2|exact A3|exact A4|exact A5|exact A6].
Qed.
(** The run never ends; it comes back to the call again and again with the stack
    pointer at EEEE, and no byte but the four under EEEE has then changed. *)
Theorem C68_malicious : forall init l h u, live l h true -> get_register_value R_PC h = Some init -> 0 <= init -> init + 49 <= 0xEEEE - 4 \/ 0xEEEE <= init /\ init + 49 <= 65535 ->
  exists out slots h', parse_input (from_url (text_of mal_lines)) init = Some out /\ new_translation out = Some slots /\ save_to_memory init (slot_values slots) h = Some h' /\
    (forall h'', ~ run_program u false h' h'') /\
    forall k, exists n c hn, (k <= n)%nat /\ instructions n h' (repeat u c) hn /\ get_register_value R_PC hn = Some (init + 3) /\ get_register_value R_SP hn = Some 0xEEEE /\
      forall x, 0 <= x < 0xEEEE - 4 \/ 0xEEEE <= x < 65536 -> get_memory_value x hn = get_memory_value x h'.
Proof.
  intros init l h u L Hp H0 Ap. rewrite url_fin; [|discriminate|exact (ends_ret (removelast mal_lines) ltac:(discriminate))].
  destruct (load_source _ _ init l h (mal_program init H0 ltac:(lia)) L Hp ltac:(lia)) as (out & slots & h' & l' & s & A1 & A2 & A3 & L' & Bd & Sh & V & Ps & _ & Im & Ca).
  apply mal_image in Im. rewrite Im in Ca. destruct (mal_runs init s H0 Ap Ps Ca) as (Nf & Inf).
  exists out, slots, h'. do 3 (split; [assumption|]). split.
  - intros h'' R. destruct (C41_stops_only_after_fin u _ h' true s h'' (fun _ => eq_refl) L' Bd Sh R) as (n & Fn & _). exact (Nf n Fn).
  - intros k. destruct (Inf k) as (n & Hn & I1 & I2 & I3). destruct (C14_programs_run n u l' h' true s L' Bd Sh (fun _ => eq_refl)) as (hn & Is).
    destruct (C14_programs n l' h' true s _ hn L' Bd Sh Is) as (Sn & _). exists n, (Z.to_nat (total_cycles n s)), hn. split; [exact Hn|]. split; [exact Is|].
    destruct Sn as (_ & _ & _ & _ & _ & _ & _ & Np & Ns & Nm & _). destruct Sh as (_ & _ & _ & _ & _ & _ & _ & _ & _ & Sm & _).
    split; [rewrite Np; f_equal; exact I1|]. split; [rewrite Ns; f_equal; exact I2|]. intros x Hx. rewrite Nm, Sm by lia. f_equal. apply I3. lia.
Qed.

(** The helper alone: examples/malicious-function.mdx, first program. *)
Definition util_lines : list str :=
  [s2l "# util functions"; s2l "TFSUB CALL TFSUB_RE"; s2l "BC TFSUBRD # (*)"; s2l "JMP TFSUBRET"; s2l ""; s2l "TFSUBRD CALL TFSUB_RD"; s2l ""; s2l "TFSUBRET RET"; s2l "";
   s2l "# RD = RD - 1"; s2l "TFSUB_RD MOV RD, AC"; s2l "SUB 01"; s2l "MOV AC, RD"; s2l "RET"; s2l ""; s2l "# RE = RE - 1"; s2l "TFSUB_RE MOV RE, AC"; s2l "SUB 01"; s2l "MOV AC, RE"; s2l "RET"].
Definition util_text : string :=
"# util functions
TFSUB CALL TFSUB_RE
BC TFSUBRD # (*)
JMP TFSUBRET

TFSUBRD CALL TFSUB_RD

TFSUBRET RET

# RD = RD - 1
TFSUB_RD MOV RD, AC
SUB 01
MOV AC, RD
RET

# RE = RE - 1
TFSUB_RE MOV RE, AC
SUB 01
MOV AC, RE
RET".
Example util_verbatim : text_of util_lines = s2l util_text.
Proof. vm_compute. reflexivity. Qed.
Definition util_all : list (option code) :=
  [None; Some (mkCode (s2l "TFSUB") CALL (s2l "TFSUB_RE")); Some (mkCode [] BC_ (s2l "TFSUBRD")); Some (mkCode [] JMP (s2l "TFSUBRET")); None; Some (mkCode (s2l "TFSUBRD") CALL (s2l "TFSUB_RD")); None;
   Some (mkCode (s2l "TFSUBRET") RET []); None; None;
   Some (mkCode (s2l "TFSUB_RD") (MOV_r_ac RD) []); Some (mkCode [] (OP SUB Imm) (s2l "01")); Some (mkCode [] (MOV_ac_r RD) []); Some (mkCode [] RET []); None; None;
   Some (mkCode (s2l "TFSUB_RE") (MOV_r_ac RE) []); Some (mkCode [] (OP SUB Imm) (s2l "01")); Some (mkCode [] (MOV_ac_r RE) []); Some (mkCode [] RET []); Some (mkCode [] FIN [])].
Lemma util_program : forall init, 0 <= init -> init + 24 <= 65535 -> program (util_lines ++ [fin_line]) util_all init.
Proof.
  intros init H0 H1. split; [split; [discriminate|]; intros l Hl; unfold util_lines in Hl; cbn [In app] in Hl; repeat (destruct Hl as [<-|Hl]; [no_newline|]); destruct Hl|].
  split; [unfold util_lines, util_all; cbn [app]; constructor; [line_blank|];
    constructor; [line_label "CALL TFSUB_RE"%string|]; do 2 (constructor; [line_plain|]); constructor; [line_blank|]; constructor; [line_label "CALL TFSUB_RD"%string|]; constructor; [line_blank|];
    constructor; [line_label "RET"%string|]; do 2 (constructor; [line_blank|]); constructor; [line_label "MOV RD, AC"%string|]; do 3 (constructor; [line_plain|]); do 2 (constructor; [line_blank|]);
    constructor; [line_label "MOV RE, AC"%string|]; do 4 (constructor; [line_plain|]); constructor|].
  split; [intros c Hin; unfold util_all in *; cbn [somes] in *; set (L := map lab _); cbn [In] in Hin; value_checks|].
  split; [discriminate|split; [auto|]]. unfold util_all. cbn [somes total fold_right ins]. cbv [size value_kind syntax]. lia.
Qed.
Lemma util_image : forall init bytes, image (somes util_all) init (somes util_all) bytes -> bytes = util_bytes init ++ [255].
Proof.
  intros init bytes. apply image_is.
  - intros c Hin. unfold util_all in Hin. cbn [somes In] in Hin. repeat (destruct Hin as [<-|Hin]; [discriminate|]). destruct Hin.
  - assert (A3 : address (somes util_all) init (s2l "TFSUB_RE") = init + 18) by (unfold util_all; address_eq).
    assert (A4 : address (somes util_all) init (s2l "TFSUBRD") = init + 9) by (unfold util_all; address_eq).
    assert (A5 : address (somes util_all) init (s2l "TFSUBRET") = init + 12) by (unfold util_all; address_eq).
    assert (A6 : address (somes util_all) init (s2l "TFSUB_RD") = init + 13) by (unfold util_all; address_eq).
    set (p := somes util_all) in *. unfold p at 2. unfold util_all. cbn [somes map concat app]. unfold enc. cbn [ins val value_kind syntax app hd_error s2l].
    unfold util_bytes. cbn [app]. clearbody p.
    repeat match goal with |- _ :: _ = _ :: _ => apply f_equal2 end; try reflexivity;
    match goal with |- _ / _ = _ => apply (f_equal (fun z => z / 256)) | |- _ => apply (f_equal (fun z => z mod 256)) end; first [exact A3|exact A4|exact A5|exact A6].
Qed.
(** Called with a return address [r] on the stack, it subtracts 1 from the pair D,E
    taken as a 16-bit number, and comes back to [r]. *)
Theorem C68_decrement : forall init l h (u : bool) d e sp, live l h true -> get_register_value R_PC h = Some init -> 0 <= init -> init + 24 <= 65535 ->
  get_register_value R_D h = Some d -> get_register_value R_E h = Some e -> get_register_value R_SP h = Some sp -> 2 <= sp -> sp + 2 <= 65535 -> init + 24 <= sp - 2 \/ sp + 2 <= init ->
  exists out slots h', parse_input (from_url (text_of util_lines)) init = Some out /\ new_translation out = Some slots /\ save_to_memory init (slot_values slots) h = Some h' /\
    exists n c hn low high, instructions n h' (repeat u c) hn /\ get_memory_value sp h' = Some low /\ get_memory_value (sp + 1) h' = Some high /\
      get_register_value R_PC hn = Some (256 * high + low) /\ get_register_value R_SP hn = Some (sp + 2) /\
      get_register_value R_D hn = Some (((256 * d + e - 1) mod 65536) / 256) /\ get_register_value R_E hn = Some (((256 * d + e - 1) mod 65536) mod 256) /\
      get_register_value R_B hn = get_register_value R_B h /\ get_register_value R_C hn = get_register_value R_C h /\
      forall x, 0 <= x < sp - 2 \/ sp <= x < 65536 -> get_memory_value x hn = get_memory_value x h'.
Proof.
  intros init l h u d e sp L Hp H0 H1 Hd He Hs S1 S2 Ap. rewrite url_fin; [|discriminate|exact (ends_ret (removelast util_lines) ltac:(discriminate))].
  destruct (load_source _ _ init l h (util_program init H0 ltac:(lia)) L Hp ltac:(lia)) as (out & slots & h' & l' & s & A1 & A2 & A3 & L' & Bd & Sh & V & Ps & Hr & Im & Ca).
  apply util_image in Im. rewrite Im in Ca. destruct (code_app _ _ _ _ Ca) as (Cu & _).
  pose proof Sh as (_ & _ & _ & Sb & Sc & Sd & Se & _ & Ss & Sm & _). rewrite Hr in *.
  assert (d = D s) by congruence. assert (e = E s) by congruence. assert (sp = SP s) by congruence. subst d e sp.
  assert (Rg : 0 <= D s <= 255 /\ 0 <= E s <= 255) by (destruct V as (? & ? & ? & ? & ? & ? & ?); lia). 
  destruct (tfsub_runs init (B s) (C s) (AC s) (FC s) (FZ s) (D s) (E s) (SP s) (M s) (log s) (256 * M s (SP s + 1) + M s (SP s)) H0 ltac:(lia) ltac:(lia) S1 S2 Cu ltac:(lia) ltac:(lia) eq_refl)
    as (t & (n & En & _) & F1 & F2 & F3 & F4 & F5 & F6 & F7 & F8).
  assert (Es : steps n s = t). { rewrite <- En. f_equal. destruct s. cbn in Ps |- *. subst. reflexivity. }
  destruct (C14_programs_run n u l' h' true s L' Bd Sh (fun _ => eq_refl)) as (hn & Is).
  destruct (C14_programs n l' h' true s _ hn L' Bd Sh Is) as (Sn & _). rewrite Es in Sn.
  exists out, slots, h'. do 3 (split; [assumption|]). exists n, (Z.to_nat (total_cycles n s)), hn, (M s (SP s)), (M s (SP s + 1)). split; [exact Is|].
  split; [apply Sm; lia|]. split; [apply Sm; lia|]. destruct Sn as (_ & _ & _ & Nb & Nc & Nd & Ne & Np & Ns & Nm & _).
  split; [rewrite Np; f_equal; exact F6|]. split; [rewrite Ns; f_equal; exact F7|].
  assert (Dt : D t = ((256 * D s + E s - 1) mod 65536) / 256). { rewrite <- F1. rewrite Z.mul_comm, Z.div_add_l, Z.div_small by lia. lia. }
  assert (Et : E t = ((256 * D s + E s - 1) mod 65536) mod 256). { rewrite <- F1. rewrite Z.add_comm, Z.mul_comm, Z.mod_add, Z.mod_small by lia. lia. }
  split; [rewrite Nd; f_equal; exact Dt|]. split; [rewrite Ne; f_equal; exact Et|]. split; [rewrite Nb, Sb; f_equal; exact F4|]. split; [rewrite Nc, Sc; f_equal; exact F5|].
  intros x Hx. rewrite Nm, Sm by lia. f_equal. apply F8. lia.
Qed.
Example C68_nonvacuous : exists l h, live l h true /\ get_register_value R_PC h = Some 0 /\ get_register_value R_D h = Some 1 /\ get_register_value R_E h = Some 0 /\ get_register_value R_SP h = Some 0x100.
Proof.
  destruct (C14_nonvacuous (mkArch 0 false false 0 0 1 0 0 0x100 (fun i => 0) [])) as (l & h & L & _ & Sh); [repeat split; cbn; lia|reflexivity|]. exists l, h. split; auto. repeat split; apply Sh.
Qed.
Print Assumptions C68_malicious.
Print Assumptions C68_decrement.

(** ** The multiplication that starts from 0: examples/multiplication.mdx, last program *)
Definition mult0_lines (tb tc : str) : list str :=
  [s2l "MOV " ++ tb ++ s2l ", RB"; s2l "MOV " ++ tc ++ s2l ", RC"; s2l "";
   s2l "INISP 1234"; s2l "MOV 0, AC # <===="; s2l "PUSH"; s2l ""; s2l "TSTART MOV RC, AC"; s2l "CMP 00 # <===="; s2l "BEQ TFIN"; s2l "POP"; s2l "ADD RB"; s2l "PUSH";
   s2l "MOV RC, AC"; s2l "SUB 01"; s2l "MOV AC, RC"; s2l "JMP TSTART"; s2l "TFIN POP"; s2l "FIN"].
Definition mult0_text : string :=
"MOV 05, RB
MOV 03, RC

INISP 1234
MOV 0, AC # <====
PUSH

TSTART MOV RC, AC
CMP 00 # <====
BEQ TFIN
POP
ADD RB
PUSH
MOV RC, AC
SUB 01
MOV AC, RC
JMP TSTART
TFIN POP
FIN".
Example mult0_verbatim : text_of (mult0_lines (s2l "05") (s2l "03")) = s2l mult0_text.
Proof. vm_compute. reflexivity. Qed.
Definition mult0_codes (tb tc : str) : list (option code) :=
  [Some (mkCode [] (MOV_i_r RB) tb); Some (mkCode [] (MOV_i_r RC) tc); None; Some (mkCode [] INISP (s2l "1234")); Some (mkCode [] MOV_i_ac (s2l "0"));
   Some (mkCode [] PUSH []); None; Some (mkCode (s2l "TSTART") (MOV_r_ac RC) []); Some (mkCode [] (OP CMP Imm) (s2l "00")); Some (mkCode [] BEQ (s2l "TFIN"));
   Some (mkCode [] POP []); Some (mkCode [] (OP ADD (Reg RB)) []); Some (mkCode [] PUSH []); Some (mkCode [] (MOV_r_ac RC) []); Some (mkCode [] (OP SUB Imm) (s2l "01"));
   Some (mkCode [] (MOV_ac_r RC) []); Some (mkCode [] JMP (s2l "TSTART")); Some (mkCode (s2l "TFIN") POP []); Some (mkCode [] FIN []); Some (mkCode [] FIN [])].
Lemma operand_line_only : forall t r, byte_numeral t -> (r = RB \/ r = RC) -> written (listing (MOV_i_r r) t) (Some (mkCode [] (MOV_i_r r) t)).
Proof.
  intros t r (N & V & Nn) Hr. apply listing_written; [destruct Hr; subst; discriminate|].
  destruct Hr; subst; cbn [value_kind syntax]; split; auto; apply numeral_word; auto.
Qed.
Lemma mult0_written : forall tb tc, byte_numeral tb -> byte_numeral tc -> Forall2 written (mult0_lines tb tc ++ [fin_line]) (mult0_codes tb tc).
Proof.
  intros tb tc Hb Hc. unfold mult0_lines, mult0_codes. cbn [app].
  assert (Eb : s2l "MOV " ++ tb ++ s2l ", RB" = listing (MOV_i_r RB) tb) by (unfold listing; cbn [syntax]; change (s2l "MOV ") with (s2l "MOV" ++ [32%N]); rewrite <- !app_assoc; reflexivity).
  assert (Ec : s2l "MOV " ++ tc ++ s2l ", RC" = listing (MOV_i_r RC) tc) by (unfold listing; cbn [syntax]; change (s2l "MOV ") with (s2l "MOV" ++ [32%N]); rewrite <- !app_assoc; reflexivity).
  rewrite Eb, Ec. constructor; [apply operand_line_only; auto|]. constructor; [apply operand_line_only; auto|]. constructor; [line_blank|].
  constructor; [line_plain|]. constructor; [line_plain|]. constructor; [line_plain|]. constructor; [line_blank|]. constructor; [line_label "MOV RC, AC"%string|].
  do 9 (constructor; [line_plain|]). constructor; [line_label "POP"%string|]. constructor; [line_plain|]. constructor; [line_plain|]. constructor.
Qed.
Lemma mult0_program : forall tb tc init, byte_numeral tb -> byte_numeral tc -> 0 <= init -> init + 29 <= 65535 -> program (mult0_lines tb tc ++ [fin_line]) (mult0_codes tb tc) init.
Proof.
  intros tb tc init Hb Hc H0 H1. split; [|split; [apply mult0_written; auto|]].
  { split; [discriminate|]. intros l Hl. unfold mult0_lines in Hl. cbn [In app] in Hl.
    assert (G : forall t a b, numeral t -> ~ In 10%N a -> ~ In 10%N b -> ~ In 10%N (a ++ t ++ b)) by (intros t a b N A B X; rewrite !in_app_iff in X; destruct X as [X|[X|X]]; [auto|exact (newline_free t N X)|auto]).
    repeat (destruct Hl as [<-|Hl]; [first [apply G; [first [apply Hb|apply Hc]| |]; no_newline|no_newline]|]). destruct Hl. }
  split; [|split; [discriminate|split; [auto|]]].
  - intros c Hin. unfold mult0_codes in *. cbn [somes] in *. destruct Hin as [<-|[<-|Hin]]; [apply byte_value; auto|apply byte_value; auto|]. set (L := map lab _). cbn [In] in Hin.
    repeat (destruct Hin as [<-|Hin]; [split; [|intros (X & Y); try discriminate X; discriminate Y]; first [exact I|literal_value|label_value]|]). destruct Hin.
  - unfold mult0_codes. cbn [somes total fold_right ins]. cbv [size value_kind syntax]. lia.
Qed.
Lemma mult0_image : forall tb tc init bytes, image (somes (mult0_codes tb tc)) init (somes (mult0_codes tb tc)) bytes -> bytes = mult0_bytes init (numeral_value tb) (numeral_value tc) ++ [255].
Proof.
  intros tb tc init bytes. apply image_is.
  - intros c Hin. unfold mult0_codes in Hin. cbn [somes In] in Hin. repeat (destruct Hin as [<-|Hin]; [discriminate|]). destruct Hin.
  - assert (A1 : address (somes (mult0_codes tb tc)) init (s2l "TFIN") = init + 26) by (unfold mult0_codes; address_eq).
    assert (A2 : address (somes (mult0_codes tb tc)) init (s2l "TSTART") = init + 10) by (unfold mult0_codes; address_eq).
    set (p := somes (mult0_codes tb tc)) in *. unfold p at 2. unfold mult0_codes. cbn [somes map concat app]. unfold enc. cbn [ins val value_kind syntax app hd_error s2l].
    unfold mult0_bytes. cbn [app]. clearbody p. image_cases A1 A2.
Qed.
Lemma ends_plain_fin : forall lines, lines <> [] -> ends_with_fin (text_of (lines ++ [s2l "FIN"])) = false.
Proof. intros lines N. unfold text_of. rewrite join_snoc by exact N. unfold ends_with_fin. rewrite rev_app_distr. reflexivity. Qed.
Theorem C69_multiplication : forall tb tc init l h u, byte_numeral tb -> byte_numeral tc -> live l h true ->
  get_register_value R_PC h = Some init -> 0 <= init -> init + 29 <= 65535 -> apart init 28 0x1233 ->
  exists out slots h', parse_input (from_url (text_of (mult0_lines tb tc))) init = Some out /\ new_translation out = Some slots /\ save_to_memory init (slot_values slots) h = Some h' /\
    (exists h'', run_program u false h' h'') /\
    forall h'', run_program u false h' h'' -> get_register_value R_AC h'' = Some ((numeral_value tb * numeral_value tc) mod 256).
Proof.
  intros tb tc init l h u Hb Hc L Hp H0 H1 Ap. rewrite url_fin; [|discriminate|exact (ends_plain_fin (removelast (mult0_lines tb tc)) ltac:(discriminate))].
  destruct (run_source _ _ init l h u (fun t => AC t = (numeral_value tb * numeral_value tc) mod 256) (mult0_program tb tc init Hb Hc H0 H1) L Hp ltac:(lia)) as (out & slots & h' & A1 & A2 & A3 & A4 & A5).
  - intros s bytes Im V Ps Ca. apply mult0_image in Im. subst bytes. destruct (code_app _ _ _ _ Ca) as (Cb & _).
    destruct (mult0_runs init (numeral_value tb) (numeral_value tc) s) as (t & G & Q & Pt & Ot); auto; try lia; try (split; [apply numeral_nonneg|apply Hb || apply Hc]).
    exists t. repeat split; auto. lia.
  - exists out, slots, h'. repeat (split; auto). intros h'' R. destruct (A5 h'' R) as (t & Q & Sh). destruct Sh as (Sa & _). rewrite Sa. f_equal. exact Q.
Qed.
Example C69_nonvacuous : byte_numeral (s2l "05") /\ byte_numeral (s2l "03") /\ apart 0 28 0x1233 /\ exists l h, live l h true /\ get_register_value R_PC h = Some 0.
Proof. destruct C49_nonvacuous as (A & B & _ & D). split; [exact A|]. split; [exact B|]. split; [right; lia|exact D]. Qed.
Print Assumptions C69_multiplication.
