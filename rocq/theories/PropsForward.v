(** * C110: programs that jump forwards only end
    The programs of C109 whose jumps go to lines below: no line is executed twice. *)
From Coq Require Import String ZArith NArith List Bool Lia ZifyBool ZifyN.
From Verif Require Import Prog Isa Access Api Usage Front ApiFacts IsaFacts Reach PropsApi PropsIsa PropsRun IsaRun PropsLife.
From Verif Require Import JsStr AsmTable Asm AsmSpec AsmRe AsmLine AsmFacts AsmExec AsmProg AsmErr PropsAsm PropsDisasm PropsLoad PropsExamples PropsSpelling.
From Verif Require Import PropsRepro PropsRelocate Relocate PropsMoved PropsAnywhere PropsOwnLines.
Import ListNotations.
Open Scope list_scope.
Open Scope Z_scope.

(** ** Specification *)
(** The label named by a jump is not that of the jump itself nor of a line above it. *)
Definition forwards (p : list code) : Prop :=
  forall q c r, p = q ++ c :: r -> ins c = JMP \/ ins c = BEQ \/ ins c = BC_ -> ~ In (val c) (map lab (q ++ [c])).

(** ** Proofs *)
Lemma address_below : forall q r a n, ~ In n (map lab q) -> address (q ++ r) a n = address r (a + total q) n.
Proof.
  induction q as [|c q IH]; intros r a n N; [cbn; rewrite Z.add_0_r; reflexivity|]. cbn [map In] in N. cbn [app address]. destruct (str_eqb (lab c) n) eqn:X; [apply str_eqb_eq in X; tauto|].
  rewrite IH by tauto. change (total (c :: q)) with (AsmSpec.size (ins c) + total q). rewrite Z.add_assoc. reflexivity.
Qed.
Lemma forward_line : forall p a bytes s, image p a p bytes -> 0 <= a -> a + total p <= 65535 -> (forall c, In c p -> value_ok (map lab p) c /\ ~ byte_ref c) -> (forall c, In c p -> simple a a (total p) c) -> closed_end p -> forwards p ->
  at_line p a bytes s -> Usage.opcode s <> 255 -> PC s < PC (step s).
Proof.
  intros p a bytes s Im Ha Fa Vp Sp Cl Fw (Ho & q & c & r & Ep & Pc) Nf. destruct (fetched p a a bytes Im Vp Sp (M s) q c r Ep Ho) as (Dc & Fi & Sy & Op). destruct (line_room p a a Fa Vp Sp q c r Ep) as (Tq & Rm).
  assert (Ic : In c p) by (rewrite Ep; apply in_or_app; right; left; reflexivity). pose proof (Sp c Ic) as Si. pose proof (size_pos (ins c)) as Sz.
  rewrite <- Pc in Dc, Op. destruct (simple_step p a a Vp Sp s c ltac:(lia) ltac:(lia) Dc Sy Si) as ([(Pn & _)|(Pn & Jm)] & _); [lia|].
  assert (K : value_kind (ins c) = Some Value16) by (destruct Jm as [X|[X|X]]; rewrite X; reflexivity). rewrite (Op K) in Pn.
  assert (Rf : is_ref (val c)) by (unfold simple in Si; destruct Jm as [X|[X|X]]; rewrite X in Si; exact Si).
  pose proof (Fw q c r Ep Jm) as Nl. destruct (Vp c Ic) as (V & _). unfold value_ok in V. rewrite K in V. destruct V as [(Nm & _)|(_ & Hi)]; [destruct (ref_not_numeral _ Rf Nm)|].
  assert (Ep' : p = (q ++ [c]) ++ r) by (rewrite <- app_assoc; exact Ep).
  rewrite Ep', map_app in Hi. apply in_app_or in Hi. destruct Hi as [Hi|Hi]; [destruct (Nl Hi)|].
  unfold value_of in Pn. rewrite K in Pn. unfold is_ref in Rf. rewrite Rf in Pn. rewrite Ep', (address_below _ _ _ _ Nl) in Pn. pose proof (address_inside r (a + total (q ++ [c])) (val c) Hi).
  rewrite total_app in *. cbn [total fold_right] in *. lia.
Qed.
(** The number of lines from the one at [x] on bounds what is left to execute. *)
Lemma lines_apart : forall q c r q' c' r', q ++ c :: r = q' ++ c' :: r' -> total q < total q' -> (List.length r' < List.length r)%nat.
Proof.
  induction q as [|d q IH]; intros c r q' c' r' E H.
  - destruct q' as [|d' q']; [cbn in H; lia|]. cbn [app] in E. injection E as -> ->. rewrite app_length. cbn [List.length]. lia.
  - destruct q' as [|d' q']; [pose proof (total_pos (d :: q)); cbn [total fold_right] in *; lia|]. cbn [app] in E. injection E as <- E. apply (IH c r q' c' r' E).
    change (total (d :: q)) with (AsmSpec.size (ins d) + total q) in H. change (total (d :: q')) with (AsmSpec.size (ins d) + total q') in H. lia.
Qed.
Lemma forward_ends : forall p a bytes, image p a p bytes -> 0 <= a -> a + total p <= 65535 -> (forall c, In c p -> value_ok (map lab p) c /\ ~ byte_ref c) -> (forall c, In c p -> simple a a (total p) c) -> closed_end p -> forwards p ->
  forall k s q c r, holds (M s) a bytes -> p = q ++ c :: r -> PC s = a + total q -> (List.length r <= k)%nat -> exists n, (n <= k)%nat /\ first_fin n s.
Proof.
  intros p a bytes Im Ha Fa Vp Sp Cl Fw. induction k as [|k IH]; intros s q c r Ho Ep Pc Lk.
  - assert (Al : at_line p a bytes s) by (split; [exact Ho|exists q, c, r; auto]).
    destruct (Z.eq_dec (Usage.opcode s) 255) as [F|Nf]; [exists 0%nat; split; [lia|split; [exact F|intros; lia]]|]. exfalso.
    destruct (next_line p a a bytes Im Ha Fa Vp Sp Cl s Al Nf) as (_ & q' & c' & r' & Ep' & Pc'). pose proof (forward_line p a bytes s Im Ha Fa Vp Sp Cl Fw Al Nf) as G. rewrite Ep in Ep'. pose proof (lines_apart q c r q' c' r' Ep' ltac:(lia)). lia.
  - assert (Al : at_line p a bytes s) by (split; [exact Ho|exists q, c, r; auto]).
    destruct (Z.eq_dec (Usage.opcode s) 255) as [F|Nf]; [exists 0%nat; split; [lia|split; [exact F|intros; lia]]|].
    destruct (next_line p a a bytes Im Ha Fa Vp Sp Cl s Al Nf) as (Ho' & q' & c' & r' & Ep' & Pc'). pose proof (forward_line p a bytes s Im Ha Fa Vp Sp Cl Fw Al Nf) as G.
    assert (Lr : (List.length r' < List.length r)%nat) by (apply (lines_apart q c r q' c' r'); [congruence|lia]).
    destruct (IH (step s) q' c' r' Ho' Ep' Pc' ltac:(lia)) as (n & Hn & F1 & F2). exists (S n). split; [lia|]. split; [exact F1|]. intros [|m] Hm; [exact Nf|]. apply F2. lia.
Qed.
Lemma cycles_most : forall n s, total_cycles n s <= 9 * Z.of_nat n.
Proof. induction n as [|n IH]; intros s; [cbn; lia|]. cbn [total_cycles]. pose proof (cycles_bound (M s (PC s)) (FC s) (FZ s)). specialize (IH (step s)). lia. Qed.

(** Such a source, saved at [a] with PC there: 'run program' ends, whatever the registers, flags and the rest of memory
    hold, after at most as many instructions as the source has lines, and nine clock cycles for each. *)
Theorem C110_ends : forall lines codes a u l h s, program lines codes a -> a + total (somes codes) <= 65535 ->
  (forall c, In c (somes codes) -> simple a a (total (somes codes)) c) -> closed_end (somes codes) -> forwards (somes codes) -> live l h true -> boundary h -> shows h s ->
  exists out slots h1 h', parse_input (text_of lines) a = Some out /\ new_translation out = Some slots /\ placed a (slot_values slots) h h1 /\ run_program u false h1 h' /\
    exists n us hn b, instructions n h1 us hn /\ (n <= List.length (somes codes))%nat /\ (List.length us <= 9 * n)%nat /\ shows hn b /\ shows h' b.
Proof.
  intros lines codes a u l h s P Fa Sp Cl Fw L Bd Sh. pose proof P as (P1 & P2 & P3 & P4 & P5 & P6).
  destruct (C44_image _ _ a P1 P2 P3 P4 P5 P6) as (out & x & A1 & A2 & Im & _). set (p := somes codes) in *. pose proof (image_total _ _ _ _ Im) as Ln. pose proof (image_bytes _ _ _ _ _ P3 P5 P6 Im) as By.
  pose proof Cl as (q0 & c0 & Ep0 & Fc0). assert (Tp : 1 <= total p). { rewrite Ep0, total_app. pose proof (total_pos q0). cbn [total fold_right]. pose proof (size_pos (ins c0)). lia. }
  destruct (placed_shows a (slot_values x) l h s L Bd Sh ltac:(lia) ltac:(lia) By) as (h1 & l1 & Pl & Lv & Bd1 & Sh1). set (s1 := ready_at a (slot_values x) s) in *.
  assert (F : exists n, (n < List.length p)%nat /\ first_fin n s1).
  { assert (X : exists c r, p = c :: r) by (destruct p as [|c r]; [cbn in Tp; lia|eauto]). destruct X as (c & r & Ep).
    destruct (forward_ends p a (slot_values x) Im P5 Fa P3 Sp Cl Fw (List.length r) s1 [] c r (stored_holds _ _ _) Ep ltac:(cbn; lia) (le_n _)) as (n & Hn & Ff). exists n. split; [rewrite Ep; cbn [List.length]; lia|exact Ff]. }
  destruct F as (n & Hn & Ff). destruct (C41_stops_after_fin n u l1 h1 true s1 ltac:(auto) Lv Bd1 Sh1 Ff) as (h' & R & S' & _).
  destruct (C14_programs_run (S n) u l1 h1 true s1 Lv Bd1 Sh1 ltac:(auto)) as (hn & In1). destruct (C14_programs (S n) l1 h1 true s1 _ hn Lv Bd1 Sh1 In1) as (Sn & _).
  exists out, x, h1, h'. do 4 (split; [assumption|]). exists (S n). eexists. exists hn, (steps (S n) s1). split; [exact In1|]. split; [lia|]. split; [|split; assumption].
  rewrite repeat_length. pose proof (cycles_most (S n) s1). lia.
Qed.
(** A case: the larger of two bytes, with two jumps over lines. *)
Definition fwd_lines : list str := [s2l "MOV 05, AC"; s2l "CMP RB"; s2l "BC TX"; s2l "JMP TY"; s2l "TX MOV RB, AC"; s2l "TY STA 0300"; s2l "FIN"].
Definition fwd_codes : list (option code) :=
  [Some (mkCode [] MOV_i_ac (s2l "05")); Some (mkCode [] (OP CMP (Reg RB)) []); Some (mkCode [] BC_ (s2l "TX")); Some (mkCode [] JMP (s2l "TY"));
   Some (mkCode (s2l "TX") (MOV_r_ac RB) []); Some (mkCode (s2l "TY") STA (s2l "0300")); Some (mkCode [] FIN [])].
Lemma fwd_program : forall init, 0 <= init -> init + 14 <= 65535 -> program fwd_lines fwd_codes init.
Proof.
  intros init H0 H1. split; [split; [discriminate|]; intros l Hl; unfold fwd_lines in Hl; cbn [In] in Hl; repeat (destruct Hl as [<-|Hl]; [no_newline|]); destruct Hl|].
  split; [unfold fwd_lines, fwd_codes; do 4 (constructor; [line_plain|]); constructor; [line_label "MOV RB, AC"%string|]; constructor; [line_label "STA 0300"%string|]; constructor; [line_plain|]; constructor|].
  split; [intros c Hin; unfold fwd_codes in *; cbn [somes] in *; set (L := map lab _); cbn [In] in Hin; value_checks|].
  split; [discriminate|split; [auto|]]. unfold fwd_codes. cbn [somes total fold_right ins]. cbv [AsmSpec.size value_kind syntax]. lia.
Qed.
Example C110_nonvacuous : program fwd_lines fwd_codes 256 /\ 256 + total (somes fwd_codes) <= 65535 /\ (forall c, In c (somes fwd_codes) -> simple 256 256 (total (somes fwd_codes)) c) /\ closed_end (somes fwd_codes) /\
  forwards (somes fwd_codes) /\ exists l h s, live l h true /\ boundary h /\ shows h s.
Proof.
  split; [apply fwd_program; lia|]. change (total (somes fwd_codes)) with 14. split; [lia|].
  split. { intros c Hc. unfold fwd_codes in Hc. cbn [somes In] in Hc. destruct Hc as [<-|[<-|[<-|[<-|[<-|[<-|[<-|[]]]]]]]]; unfold simple; cbn [ins val]; try exact I; try reflexivity.
    split; [discriminate|]. unfold elsewhere. change (numeral_value (s2l "0300")) with 768. lia. }
  split; [exists (removelast (somes fwd_codes)), (mkCode [] FIN []); split; [reflexivity|left; reflexivity]|].
  split; [|apply C108_anywhere_nonvacuous].
  intros q c r Ep J. unfold fwd_codes in Ep. cbn [somes] in Ep.
  do 7 (destruct q as [|? q]; [cbn [app] in Ep; injection Ep; intros; subst; cbn [ins] in J; first [(destruct J as [J|[J|J]]; discriminate J)|(cbn [app map lab val In]; intros X; repeat (destruct X as [X|X]; [discriminate X|]); exact X)]|cbn [app] in Ep; injection Ep as ? Ep; subst]).
  destruct q; discriminate Ep.
Qed.
(** Without the condition on jumps it is false: TX JMP TX never ends. *)
Definition own_lines : list str := [s2l "TX JMP TX"].
Definition own_codes : list (option code) := [Some (mkCode (s2l "TX") JMP (s2l "TX"))].
Lemma own_program : program own_lines own_codes 256.
Proof.
  split; [split; [discriminate|]; intros l Hl; unfold own_lines in Hl; cbn [In] in Hl; destruct Hl as [<-|[]]; no_newline|].
  split; [unfold own_lines, own_codes; constructor; [line_label "JMP TX"%string|]; constructor|].
  split; [intros c Hin; unfold own_codes in *; cbn [somes] in *; set (L := map lab _); cbn [In] in Hin; value_checks|].
  split; [discriminate|split; [lia|]]. unfold own_codes. cbn [somes total fold_right ins]. cbv [AsmSpec.size value_kind syntax]. lia.
Qed.
Theorem C110_backwards_refuted : exists lines codes a, program lines codes a /\ a + total (somes codes) <= 65535 /\ (forall c, In c (somes codes) -> simple a a (total (somes codes)) c) /\ closed_end (somes codes) /\
  forall u l h s, live l h true -> boundary h -> shows h s -> exists out slots h1, parse_input (text_of lines) a = Some out /\ new_translation out = Some slots /\ placed a (slot_values slots) h h1 /\
    forall h', ~ run_program u false h1 h'.
Proof.
  exists own_lines, own_codes, 256. pose proof own_program as P. split; [exact P|]. assert (Fa : 256 + total (somes own_codes) <= 65535) by (change (total (somes own_codes)) with 3; lia). split; [exact Fa|].
  assert (Sp : forall c, In c (somes own_codes) -> simple 256 256 (total (somes own_codes)) c) by (intros c [<-|[]]; reflexivity). split; [exact Sp|].
  assert (Cl : closed_end (somes own_codes)) by (exists [], (mkCode (s2l "TX") JMP (s2l "TX")); split; [reflexivity|right; reflexivity]). split; [exact Cl|].
  intros u l h s L Bd Sh. destruct (C109_own_lines own_lines own_codes 256 l h s P Fa Sp Cl L Bd Sh) as (out & x & h1 & A1 & A2 & Pl & _ & R). exists out, x, h1. do 3 (split; [assumption|]).
  intros h' R'. destruct (R u h' R') as ((q & c & r & Ep & F & _) & _). destruct q as [|d q]; [injection Ep; intros; subst; discriminate F|]. injection Ep; intros E _. destruct q; discriminate E.
Qed.
Print Assumptions C110_ends.
Print Assumptions C110_nonvacuous.
Print Assumptions C110_backwards_refuted.
