(** * Theorems: how a program is spelled does not matter (C90)
    Letter case, white space, leading zeros and the names of labels; and where it is assembled to. *)
From Coq Require Import String ZArith NArith List Bool Lia ZifyBool ZifyN.
From Verif Require Import Prog Isa Api Usage Front Reach PropsApi.
From Verif Require Import JsStr AsmTable Asm AsmSpec AsmRe AsmLine AsmFacts AsmExec AsmProg AsmErr PropsAsm PropsLoad Editor PropsEditor PropsExamples.
Import ListNotations.
Open Scope list_scope.
Open Scope Z_scope.

(** [respelled f c d]: the same instruction with the label renamed by [f]; the value is the
    same label renamed, or a number of the same value. *)
Definition respelled (f : str -> str) (c d : code) : Prop :=
  ins d = ins c /\ lab d = f (lab c) /\
  (is_ref (val c) /\ val d = f (val c) /\ is_ref (val d) \/ ~ is_ref (val c) /\ ~ is_ref (val d) /\ numeral_value (val d) = numeral_value (val c)).
Definition one_to_one (f : str -> str) (l : list str) : Prop := forall x y, In x l -> In y l -> f x = f y -> x = y.

Lemma address_respelled : forall f p q a n, Forall2 (respelled f) p q -> (forall x, In x (map lab p) -> f x = f n -> x = n) -> address q a (f n) = address p a n.
Proof.
  intros f p q a n F. revert a. induction F as [|c d p q (Ei & El & _) F IH]; intros a O; [reflexivity|]. cbn [address]. rewrite El, Ei.
  destruct (str_eqb (lab c) n) eqn:X.
  - apply str_eqb_eq in X. subst n. replace (str_eqb (f (lab c)) (f (lab c))) with true; [reflexivity|]. symmetry. apply str_eqb_eq. reflexivity.
  - destruct (str_eqb (f (lab c)) (f n)) eqn:Y; [|apply IH; intros x Hx; apply O; cbn; auto]. apply str_eqb_eq in Y. apply O in Y; [|cbn; auto]. rewrite Y in X. rewrite (proj2 (str_eqb_eq n n) eq_refl) in X. discriminate X.
Qed.
Lemma ref_head : forall t, is_ref t -> match hd_error t with Some 84%N => True | _ => False end.
Proof. intros t H. unfold is_ref in H. rewrite H. exact I. Qed.
Lemma nonref_head : forall t (A B : Z), ~ is_ref t -> (match hd_error t with Some 84%N => A | _ => B end) = B.
Proof. intros t A B H. unfold is_ref in H. destruct (hd_error t) as [n|]; [|reflexivity]. destruct (N.eq_dec n 84) as [->|X]; [congruence|]. destruct n as [|p]; [reflexivity|]. do 7 (try (destruct p as [p|p|]; try reflexivity)); congruence. Qed.
Lemma encodes_respelled : forall f p q a c d b, Forall2 (respelled f) p q -> one_to_one f (map lab p) -> respelled f c d -> value_ok (map lab p) c -> ~ byte_ref c -> encodes p a c b -> encodes q a d b.
Proof.
  intros f p q a c d b F O (Ei & El & V) Ok Nb (op & Op & E). exists op. rewrite Ei. split; [exact Op|]. rewrite E. f_equal. unfold value_ok in Ok. destruct (value_kind (ins c)) as [[s| |]|] eqn:K; [reflexivity| | |reflexivity].
  - destruct V as [(R & _)|(_ & _ & Ev)]; [destruct (Nb (conj K R))|rewrite Ev; reflexivity].
  - destruct V as [(R & Ev & R')|(R & R' & Ev)].
    + unfold is_ref in R, R'. rewrite R, R', Ev. rewrite (address_respelled f p q a (val c) F); [reflexivity|]. intros x Hx Ef. apply O; auto. destruct Ok as [(Nm & _)|(_ & Hi)]; [|exact Hi].
      exfalso. destruct (val c) as [|y t]; [discriminate R|]. cbn in R. injection R as ->. destruct Nm as (_ & Nm). exact (Nm _ (or_introl eq_refl) eq_refl).
    + rewrite !nonref_head by assumption. rewrite Ev. reflexivity.
Qed.
Lemma image_respelled : forall f p q a cs ds b, Forall2 (respelled f) p q -> one_to_one f (map lab p) -> Forall2 (respelled f) cs ds -> (forall c, In c cs -> value_ok (map lab p) c /\ ~ byte_ref c) -> image p a cs b -> image q a ds b.
Proof.
  intros f p q a cs ds b F O G. revert b. induction G as [|c d cs ds R G IH]; intros b V H; cbn [image] in *; [exact H|]. destruct H as (b1 & b2 & E & E1 & E2). exists b1, b2. split; [exact E|].
  destruct (V c (or_introl eq_refl)). split; [eapply encodes_respelled; eauto|apply IH; auto]. intros x Hx. apply V. right. exact Hx.
Qed.
Lemma program_syntax : forall lines codes, Forall2 written lines codes -> forall c, In c (somes codes) -> syntax (ins c) <> None.
Proof.
  intros lines codes F. induction F as [|raw o lines codes H F IH]; intros c Hc; [destruct Hc|]. destruct o as [d|]; [destruct Hc as [->|Hc]; [|auto]|auto].
  destruct H as (core & _ & _ & C). assert (P : exists b, parts (ins c) (val c) b) by (destruct C as [(_ & P)|(_ & b & _ & P)]; eauto). destruct P as (b & P). unfold parts in P. destruct (syntax (ins c)); [discriminate|destruct P].
Qed.
Lemma slot_numerals : forall s, Forall (fun s => List.length s = 2%nat /\ numeral s) s -> map slot_int s = slot_values s.
Proof.
  intros s Hx. unfold slot_values. apply map_ext_in. intros a Ha. rewrite Forall_forall in Hx. destruct (Hx a Ha) as (_ & X). apply numeral_check in X. unfold slot_int. rewrite leading_hex_all by apply X. reflexivity.
Qed.
(** Two texts that differ only in spelling are assembled to the same bytes. *)
Theorem C90_spelling : forall f lines codes lines' codes' init, program lines codes init -> program lines' codes' init ->
  Forall2 (respelled f) (somes codes) (somes codes') -> one_to_one f (map lab (somes codes)) ->
  exists out out' slots slots', parse_input (text_of lines) init = Some out /\ parse_input (text_of lines') init = Some out' /\ new_translation out = Some slots /\ new_translation out' = Some slots' /\
    map slot_int slots = map slot_int slots'.
Proof.
  intros f lines codes lines' codes' init P P' F O. pose proof P as (P1 & P2 & P3 & P4 & P5 & P6). pose proof P' as (Q1 & Q2 & Q3 & Q4 & Q5 & Q6).
  destruct (C44_image _ _ init P1 P2 P3 P4 P5 P6) as (out & s & E1 & T1 & I1 & H1). destruct (C44_image _ _ init Q1 Q2 Q3 Q4 Q5 Q6) as (out' & s' & E2 & T2 & I2 & H2).
  exists out, out', s, s'. repeat (split; [assumption|]). rewrite !slot_numerals by assumption. pose proof (image_respelled f _ _ _ _ _ _ F O F P3 I1) as I1'.
  pose proof (program_syntax _ _ Q2) as Sy. rewrite (image_enc _ _ _ _ Sy I1'), (image_enc _ _ _ _ Sy I2). reflexivity.
Qed.
(** So typing either and pressing Save leaves the machine in the same state. *)
Theorem C90_same_machine : forall f lines codes lines' codes' t l t' l' c c' h, program lines codes 0 -> program lines' codes' 0 ->
  Forall2 (respelled f) (somes codes) (somes codes') -> one_to_one f (map lab (somes codes)) ->
  last l t = text_of lines -> last l' t' = text_of lines' ->
  (match opened_later t with Some c0 => edits l c0 | None => None end) = Some c -> (match opened_later t' with Some c0 => edits l' c0 | None => None end) = Some c' ->
  press_save c h = press_save c' h.
Proof.
  intros f lines codes lines' codes' t l t' l' c c' h P P' F O Hl Hl' E E'. destruct (C90_spelling f _ _ _ _ 0 P P' F O) as (out & out' & s & s' & E1 & E2 & T1 & T2 & Eq).
  assert (G : forall lines codes out s t l c, program lines codes 0 -> parse_input (text_of lines) 0 = Some out -> new_translation out = Some s -> last l t = text_of lines -> (match opened_later t with Some c0 => edits l c0 | None => None end) = Some c -> can c = true /\ slots c = s).
  { clear. intros lines codes out s t l c (P1 & P2 & P3 & P4 & P5 & P6) E T Hl Ee. destruct (C64_enabled t l) as (c' & E' & Tx & C1 & C2). rewrite Ee in E'. injection E' as <-. rewrite Hl in *.
    destruct (C44_image _ _ 0 P1 P2 P3 P4 P5 P6) as (o2 & s2 & A1 & A2 & Im & Hx). assert (o2 = out) by congruence. subst o2. assert (s2 = s) by congruence. subst s2.
    pose proof (image_total _ _ _ _ Im) as Tl. unfold slot_values in Tl. rewrite map_length in Tl.
    assert (Cc : can c = true). { apply C1. exists s. apply savable_iff. exists out. split; [exact E|]. split; [exact T|]. unfold fits. lia. }
    split; [exact Cc|]. specialize (C2 Cc). apply savable_iff in C2. destruct C2 as (o1 & B1 & B2 & _). congruence. }
  destruct (G _ _ _ _ _ _ _ P E1 T1 Hl E) as (C1 & S1). destruct (G _ _ _ _ _ _ _ P' E2 T2 Hl' E') as (C2 & S2). unfold press_save. rewrite C1, C2, S1, S2, Eq. reflexivity.
Qed.
(** Assembled for another address, only the label operands change, by the difference. *)
Lemma address_moved : forall p a b n, In n (map lab p) -> address p (a + b) n = address p a n + b.
Proof.
  induction p as [|c p IH]; intros a b n H; [destruct H|]. cbn [address]. destruct (str_eqb (lab c) n) eqn:X; [reflexivity|]. replace (a + b + size (ins c)) with (a + size (ins c) + b) by lia. apply IH.
  destruct H as [H|H]; [|exact H]. rewrite H, (proj2 (str_eqb_eq n n) eq_refl) in X. discriminate X.
Qed.
Definition moved (a b : Z) (c : code) (bs bs' : list Z) : Prop :=
  if (match value_kind (ins c) with Some Value16 => true | _ => false end) && (match hd_error (val c) with Some ch => N.eqb ch 84 | None => false end)
  then exists op v, bs = [op; v / 256; v mod 256] /\ bs' = [op; (v + (b - a)) / 256; (v + (b - a)) mod 256] else bs' = bs.
Theorem C90_moved : forall lines codes a b, program lines codes a -> program lines codes b ->
  exists out out', parse_input (text_of lines) a = Some out /\ parse_input (text_of lines) b = Some out' /\ map r_off (results out) = map r_off (results out') /\
    Forall2 (fun c rr => moved a b c (slot_values (r_result (fst rr))) (slot_values (r_result (snd rr)))) (somes codes) (combine (results out) (results out')).
Proof.
  intros lines codes a b P Q. pose proof P as (P1 & P2 & P3 & P4 & P5 & P6). pose proof Q as (_ & _ & _ & _ & Q5 & Q6). pose proof (program_syntax _ _ P2) as Sy.
  destruct (C44_program _ _ a P1 P2 P3 P5 P6) as (out & E & _ & R & _). destruct (C44_program _ _ b P1 P2 P3 Q5 Q6) as (out' & E' & _ & R' & _). exists out, out'. split; [exact E|]. split; [exact E'|].
  rewrite <- (numbered_somes codes 0). assert (Vk : forall kc, In kc (numbered 0 codes) -> value_ok (map lab (somes codes)) (snd kc) /\ syntax (ins (snd kc)) <> None) by (intros kc Hk; apply numbered_in in Hk; split; [apply P3; exact Hk|apply Sy; exact Hk]).
  revert R R' Vk. generalize (results out) (results out') (numbered 0 codes). intros rs rs' kcs R. revert rs'. induction R as [|kc r kcs rs (H1 & _ & H3) R IH]; intros rs' R' Vk; inversion R' as [|? r' ? rs2 (G1 & _ & G3) R2]; subst; [split; [reflexivity|constructor]|].
  destruct (IH rs2 R2 (fun k H => Vk k (or_intror H))) as (I1 & I2). cbn [map combine]. split; [congruence|]. constructor; [|exact I2]. cbn [fst snd]. clear -H3 G3 Vk. destruct (Vk kc (or_introl eq_refl)) as (V & Sy). destruct H3 as (op & O1 & ->), G3 as (op' & O2 & ->).
  pose proof (C43_opcode_unique _ _ _ Sy O1 O2). subst op'. unfold moved, value_ok in *. destruct (value_kind (ins (snd kc))) as [[s| |]|]; cbn [andb]; try reflexivity.
  destruct (hd_error (val (snd kc))) as [ch|] eqn:Hd; [|reflexivity]. destruct (N.eqb_spec ch 84) as [->|Nc].
  - exists op. eexists. split; [reflexivity|]. assert (Hi : In (val (snd kc)) (map lab (somes codes))). { destruct V as [((_ & Nm) & _)|(_ & Hi)]; [|exact Hi]. exfalso. destruct (val (snd kc)) as [|y t]; [discriminate Hd|]. cbn in Hd. injection Hd as ->. exact (Nm _ (or_introl eq_refl) eq_refl). }
    replace b with (a + (b - a)) at 1 2 by lia. rewrite address_moved by exact Hi. reflexivity.
  - assert (X : forall A B : Z, match ch with 84%N => A | _ => B end = B). { intros A B. pose proof (nonref_head (val (snd kc)) A B) as X. rewrite Hd in X. apply X. unfold is_ref. rewrite Hd. congruence. } rewrite !X. reflexivity.
Qed.
(** Findings: a name with a character that is no letter, digit or underscore can be given
    to a line but not referred to; and unlike everything else, labels depend on the case of
    their letters. *)
Definition outcome (lines : list string) : option (list nat * list Z) :=
  option_map (fun o => (errors o, slot_values (concat (map r_result (results o))))) (parse_input (text_of (map s2l lines)) 0).
Theorem C90_names_refuted :
  outcome ["Ta CMA"; "JMP Ta"]%string = Some ([], [128; 116; 0; 0]) /\
  outcome ["T-a CMA"]%string = Some ([], [128]) /\ outcome ["T-a CMA"; "JMP T-a"]%string = Some ([1%nat], [128]) /\
  outcome ["ta CMA"]%string = Some ([0%nat], []) /\ outcome ["Ta CMA"; "JMP TA"]%string = Some ([1%nat], [128]) /\
  outcome ["Ta cma"; "jmp Ta"]%string = Some ([], [128; 116; 0; 0]).
Proof. repeat split; vm_compute; reflexivity. Qed.
(** The example of C44 with other names, other case, other spaces and no comments. *)
Definition other_src : list str := map s2l ["MOV 05, RB"; "TX1 SUB RC"; "   beq TX2"; "Jmp TX1"; "TX2 fin"]%string.
Definition other_codes : list (option code) :=
  [Some (mkCode [] (MOV_i_r RB) (s2l "05")); Some (mkCode (s2l "TX1") (OP SUB (Reg RC)) []); Some (mkCode [] BEQ (s2l "TX2"));
   Some (mkCode [] JMP (s2l "TX1")); Some (mkCode (s2l "TX2") FIN [])].
Definition ex_names (n : str) : str := if str_eqb n (s2l "Tloop") then s2l "TX1" else if str_eqb n (s2l "Tend") then s2l "TX2" else n.
Example C90_nonvacuous : program ex_src ex_codes 0 /\ program other_src other_codes 0 /\ Forall2 (respelled ex_names) (somes ex_codes) (somes other_codes) /\ one_to_one ex_names (map lab (somes ex_codes)).
Proof.
  assert (Vn : forall L c, value_kind (ins c) = None -> value_ok L c /\ ~ byte_ref c) by (intros L c K; unfold value_ok, byte_ref; rewrite K; split; [exact I|intros (X & _); discriminate X]).
  destruct C44_nonvacuous as (N1 & N2 & N3 & _). split; [|split; [|split]].
  - split; [exact N1|]. split; [exact N2|]. split; [exact N3|]. split; [discriminate|]. split; [lia|]. vm_compute. discriminate.
  - split; [lines_literal|]. split.
    { unfold other_src, other_codes. cbn [map]. repeat (constructor; [eapply core_written; [reflexivity|reflexivity|]|]); [apply plain_code; vm_compute; reflexivity| |apply plain_code; vm_compute; reflexivity|apply plain_code; vm_compute; reflexivity| |constructor];
      (right; split; [split; [reflexivity|cbn; intuition congruence]|eexists; split; [reflexivity|apply parts_iff; vm_compute; auto]]). }
    split; [|split; [discriminate|split; [lia|vm_compute; discriminate]]].
    intros c Hc. cbn in Hc. destruct Hc as [<-|[<-|[<-|[<-|[<-|[]]]]]]; [|apply Vn; reflexivity| | |apply Vn; reflexivity].
    + split; [left; split; [apply numeral_check; split; [discriminate|reflexivity]|vm_compute; discriminate]|intros (_ & X); discriminate X].
    + split; [right; split; [reflexivity|cbn; tauto]|intros (X & _); discriminate X].
    + split; [right; split; [reflexivity|cbn; tauto]|intros (X & _); discriminate X].
  - unfold ex_codes, other_codes. cbn [somes]. repeat (apply Forall2_cons; [split; [reflexivity|split; [reflexivity|cbn [val]; first [left; split; [reflexivity|split; reflexivity]|right; split; [discriminate|split; [discriminate|vm_compute; reflexivity]]]]]|]). apply Forall2_nil.
  - intros x y Hx Hy. cbn in Hx, Hy. destruct Hx as [<-|[<-|[<-|[<-|[<-|[]]]]]], Hy as [<-|[<-|[<-|[<-|[<-|[]]]]]]; vm_compute; congruence.
Qed.
Print Assumptions C90_spelling.
Print Assumptions C90_same_machine.
Print Assumptions C90_moved.
Print Assumptions C90_names_refuted.
Print Assumptions C90_nonvacuous.
