(** * Theorems: texts through links and files, and the draft kept by the editor (C77, C78) *)
From Coq Require Import String ZArith NArith List Bool Lia ZifyBool ZifyN.
From Verif Require Import Isa.
From Verif Require Import JsStr AsmTable Asm AsmSpec AsmRe AsmLine AsmFacts AsmExec AsmProg PropsAsm PropsLoad Editor PropsEditor Settings TextIo.
Import ListNotations.
Open Scope list_scope.
Open Scope N_scope.
Local Opaque operations.
Ltac Zify.zify_post_hook ::= Z.div_mod_to_equations.

(** ** Specification *)
(** Unicode scalar values, and texts that are sequences of them: no surrogate stands alone. *)
Definition scalar (c : N) : Prop := c < 0xD800 \/ 0xE000 <= c < 0x110000.
Definition proper_text (s : str) : Prop := exists cs, Forall scalar cs /\ s = flat_map units cs.
(** A text after its lone surrogates have been replaced. *)
Inductive repaired : str -> str -> Prop :=
| R_nil : repaired [] []
| R_plain : forall u r r', (u < 0xD800 \/ 0xE000 <= u) -> repaired r r' -> repaired (u :: r) (u :: r')
| R_pair : forall u v r r', 0xD800 <= u <= 0xDBFF -> 0xDC00 <= v <= 0xDFFF -> repaired r r' -> repaired (u :: v :: r) (u :: v :: r')
| R_low : forall u r r', 0xDC00 <= u <= 0xDFFF -> repaired r r' -> repaired (u :: r) (0xFFFD :: r')
| R_high : forall u r r', 0xD800 <= u <= 0xDBFF -> (forall v w, r = v :: w -> ~ 0xDC00 <= v <= 0xDFFF) -> repaired r r' -> repaired (u :: r) (0xFFFD :: r').

(** ** Codecs *)
Lemma scalars_units : forall c r, scalar c -> scalars (units c ++ r) = c :: scalars r.
Proof.
  intros c r H. unfold units. destruct (c <? 0x10000) eqn:E; cbn [app scalars].
  - replace (is_high c) with false by (unfold is_high, scalar in *; lia). replace (is_low c) with false by (unfold is_low, scalar in *; lia). reflexivity.
  - match goal with |- context [is_high ?x] => replace (is_high x) with true by (unfold is_high, scalar in *; lia) end.
    match goal with |- context [is_low ?x] => replace (is_low x) with true by (unfold is_low, scalar in *; lia) end.
    f_equal. unfold scalar in H. lia.
Qed.
Lemma scalars_all : forall cs, Forall scalar cs -> scalars (flat_map units cs) = cs.
Proof. induction 1 as [|c cs H _ IH]; [reflexivity|]. cbn [flat_map]. rewrite scalars_units by exact H. rewrite IH. reflexivity. Qed.
Lemma feed_next : forall b n c lo hi, lo <= b <= hi -> feed b (mkDec (S n) c lo hi) =
  match n with O => ([c * 64 + (b - 0x80)], start) | S _ => ([], mkDec n (c * 64 + (b - 0x80)) 0x80 0xBF) end.
Proof. intros b n c lo hi H. unfold feed. cbn [needed lower upper point]. replace ((lo <=? b) && (b <=? hi)) with true by lia. reflexivity. Qed.
Lemma decode_utf8 : forall c r, scalar c -> decode start (utf8 c ++ r) = c :: decode start r.
Proof.
  intros c r H. unfold utf8. destruct (c <? 0x80) eqn:E1; [|destruct (c <? 0x800) eqn:E2; [|destruct (c <? 0x10000) eqn:E3]]; cbn [app decode].
  - unfold feed, start. cbn [needed]. unfold lead. replace (c <=? 0x7F) with true by lia. reflexivity.
  - replace (feed (0xC0 + c / 64) start) with (@nil N, mkDec 1 (c / 64) 0x80 0xBF); cbn [fst snd app].
    2:{ unfold feed, start. cbn [needed]. unfold lead. replace (0xC0 + c / 64 <=? 0x7F) with false by lia.
        replace ((0xC2 <=? 0xC0 + c / 64) && (0xC0 + c / 64 <=? 0xDF)) with true by lia. f_equal. f_equal. lia. }
    rewrite feed_next by lia. cbn [fst snd app]. f_equal. lia.
  - replace (feed (0xE0 + c / 4096) start) with (@nil N, mkDec 2 (c / 4096) (if c / 4096 =? 0 then 0xA0 else 0x80) (if c / 4096 =? 13 then 0x9F else 0xBF)); cbn [fst snd app].
    2:{ unfold feed, start. cbn [needed]. unfold lead. replace (0xE0 + c / 4096 <=? 0x7F) with false by lia.
        replace ((0xC2 <=? 0xE0 + c / 4096) && (0xE0 + c / 4096 <=? 0xDF)) with false by lia.
        replace ((0xE0 <=? 0xE0 + c / 4096) && (0xE0 + c / 4096 <=? 0xEF)) with true by lia.
        replace (0xE0 + c / 4096 =? 0xE0) with (c / 4096 =? 0) by lia. replace (0xE0 + c / 4096 =? 0xED) with (c / 4096 =? 13) by lia.
        f_equal. f_equal. lia. }
    rewrite feed_next. 2:{ unfold scalar in H. destruct (c / 4096 =? 0) eqn:A; destruct (c / 4096 =? 13) eqn:B; lia. }
    cbn [fst snd app]. rewrite feed_next by lia. cbn [fst snd app]. f_equal. lia.
  - replace (feed (0xF0 + c / 262144) start) with (@nil N, mkDec 3 (c / 262144) (if c / 262144 =? 0 then 0x90 else 0x80) (if c / 262144 =? 4 then 0x8F else 0xBF)); cbn [fst snd app].
    2:{ unfold scalar in H. unfold feed, start. cbn [needed]. unfold lead. replace (0xF0 + c / 262144 <=? 0x7F) with false by lia.
        replace ((0xC2 <=? 0xF0 + c / 262144) && (0xF0 + c / 262144 <=? 0xDF)) with false by lia.
        replace ((0xE0 <=? 0xF0 + c / 262144) && (0xF0 + c / 262144 <=? 0xEF)) with false by lia.
        replace ((0xF0 <=? 0xF0 + c / 262144) && (0xF0 + c / 262144 <=? 0xF4)) with true by lia.
        replace (0xF0 + c / 262144 =? 0xF0) with (c / 262144 =? 0) by lia. replace (0xF0 + c / 262144 =? 0xF4) with (c / 262144 =? 4) by lia.
        f_equal. f_equal. lia. }
    rewrite feed_next. 2:{ unfold scalar in H. destruct (c / 262144 =? 0) eqn:A; destruct (c / 262144 =? 4) eqn:B; lia. }
    cbn [fst snd app]. rewrite feed_next by lia. cbn [fst snd app]. rewrite feed_next by lia. cbn [fst snd app]. f_equal. unfold scalar in H. lia.
Qed.
Lemma decode_all : forall cs, Forall scalar cs -> decode start (flat_map utf8 cs) = cs.
Proof. induction 1 as [|c cs H _ IH]; [reflexivity|]. cbn [flat_map]. rewrite decode_utf8 by exact H. rewrite IH. reflexivity. Qed.
Lemma scalars_spec : forall n s, (List.length s <= n)%nat -> Forall (fun u => u < 0x10000) s -> Forall scalar (scalars s) /\ repaired s (flat_map units (scalars s)).
Proof.
  induction n as [|n IH]; intros s Hn Hs.
  { destruct s; [|cbn in Hn; lia]. split; constructor. }
  destruct s as [|u r]; [split; constructor|]. cbn [List.length] in Hn. inversion Hs as [|? ? Hu Hr]; subst.
  assert (IHr : Forall scalar (scalars r) /\ repaired r (flat_map units (scalars r))) by (apply IH; [lia|exact Hr]).
  cbn [scalars]. destruct (is_high u) eqn:Eh.
  - assert (Bh : 0xD800 <= u <= 0xDBFF) by (unfold is_high in Eh; lia). destruct r as [|v r'].
    { split; [repeat constructor; unfold scalar, REPLACEMENT; lia|]. cbn. apply R_high; [exact Bh|discriminate|constructor]. }
    destruct (is_low v) eqn:El.
    + assert (Bl : 0xDC00 <= v <= 0xDFFF) by (unfold is_low in El; lia). inversion Hr as [|? ? Hv Hr']; subst.
      destruct (IH r' ltac:(cbn [List.length] in Hn; lia) Hr') as (F & R). split; [constructor; [unfold scalar; lia|exact F]|].
      cbn [flat_map]. unfold units at 1. match goal with |- context [?a <? 0x10000] => replace (a <? 0x10000) with false by lia end. cbn [app].
      match goal with |- repaired _ (?a :: ?b :: _) => replace a with u by lia; replace b with v by lia end.
      apply R_pair; assumption.
    + split; [constructor; [unfold scalar, REPLACEMENT; lia|apply IHr]|]. change (flat_map units (REPLACEMENT :: scalars (v :: r'))) with (0xFFFD :: flat_map units (scalars (v :: r'))).
      apply R_high; [exact Bh| |apply IHr]. intros v0 w Ev. injection Ev as <- <-. unfold is_low in El. lia.
  - destruct (is_low u) eqn:El.
    + split; [constructor; [unfold scalar, REPLACEMENT; lia|apply IHr]|]. cbn [flat_map]. change (units REPLACEMENT) with [0xFFFD]. cbn [app]. apply R_low; [unfold is_low in El; lia|apply IHr].
    + assert (Sc : u < 0xD800 \/ 0xE000 <= u) by (unfold is_high, is_low in *; lia). split; [constructor; [unfold scalar; lia|apply IHr]|].
      cbn [flat_map]. unfold units at 1. replace (u <? 0x10000) with true by lia. cbn [app]. apply R_plain; [exact Sc|apply IHr].
Qed.
Lemma codec : forall s, Forall (fun u => u < 0x10000) s -> repaired s (decode_text (encode_text s)).
Proof.
  intros s H. destruct (scalars_spec _ s (le_n _) H) as (F & R). unfold decode_text, encode_text. rewrite decode_all by exact F. exact R.
Qed.
Lemma codec_proper : forall s, proper_text s -> decode_text (encode_text s) = s.
Proof. intros s (cs & F & ->). unfold decode_text, encode_text. rewrite scalars_all by exact F. rewrite decode_all by exact F. reflexivity. Qed.

(** ** Percent-encoding *)
Lemma utf8_bytes : forall c, scalar c -> Forall (fun b => b < 256) (utf8 c).
Proof.
  intros c H. unfold scalar in H. unfold utf8. destruct (c <? 0x80) eqn:E1; [|destruct (c <? 0x800) eqn:E2; [|destruct (c <? 0x10000) eqn:E3]]; repeat constructor; lia.
Qed.
Lemma encode_bytes : forall s, Forall (fun u => u < 0x10000) s -> Forall (fun b => b < 256) (encode_text s).
Proof.
  intros s H. destruct (scalars_spec _ s (le_n _) H) as (F & _). unfold encode_text. induction F as [|c cs Hc _ IH]; [constructor|]. cbn [flat_map]. apply Forall_app. split; [apply utf8_bytes; exact Hc|exact IH].
Qed.
Lemma hex_back : forall n, n < 16 -> hex_value (hex_digit n) = Some n.
Proof.
  intros n H. unfold hex_value, hex_digit. destruct (n <? 10) eqn:E.
  - replace ((48 <=? 48 + n) && (48 + n <=? 57)) with true by lia. f_equal. lia.
  - replace ((48 <=? 55 + n) && (55 + n <=? 57)) with false by lia. replace ((65 <=? 55 + n) && (55 + n <=? 70)) with true by lia. f_equal. lia.
Qed.
Lemma unpercent_percent : forall b r, b < 256 -> unpercent (percent b ++ r) = b :: unpercent r.
Proof.
  intros b r H. unfold percent. destruct (unreserved b) eqn:U; [|destruct (b =? 32) eqn:E]; cbn [app unpercent].
  - replace (b =? 43) with false by (unfold unreserved in U; lia). replace (b =? 37) with false by (unfold unreserved in U; lia). reflexivity.
  - change (43 =? 43) with true. cbn iota. change (32 =? 37) with false. cbn iota. f_equal. lia.
  - change (37 =? 43) with false. cbn iota. change (37 =? 37) with true. cbn iota. rewrite !hex_back by lia. f_equal. lia.
Qed.
Lemma unpercent_all : forall bs, Forall (fun b => b < 256) bs -> unpercent (flat_map percent bs) = bs.
Proof. induction 1 as [|b bs H _ IH]; [reflexivity|]. cbn [flat_map]. rewrite unpercent_percent by exact H. rewrite IH. reflexivity. Qed.
(** The characters written: ASCII, neither [&] nor [=]. *)
Definition safe (u : N) : Prop := u < 128 /\ u <> 38 /\ u <> 61.
Lemma percent_safe : forall b, b < 256 -> Forall safe (percent b).
Proof.
  intros b H. unfold percent. destruct (unreserved b) eqn:U; [|destruct (b =? 32) eqn:E].
  - constructor; [|constructor]. unfold safe, unreserved in *. lia.
  - constructor; [|constructor]. unfold safe. lia.
  - unfold hex_digit. constructor; [unfold safe; lia|]. constructor; [destruct (b / 16 <? 10) eqn:A; unfold safe; lia|]. constructor; [destruct (b mod 16 <? 10) eqn:B; unfold safe; lia|constructor].
Qed.
Lemma form_safe : forall s, Forall (fun u => u < 0x10000) s -> Forall safe (form_encode s).
Proof.
  intros s H. unfold form_encode. induction (encode_bytes s H) as [|b bs Hb _ IH]; [constructor|]. cbn [flat_map]. apply Forall_app. split; [apply percent_safe; exact Hb|exact IH].
Qed.
Lemma ascii_same : forall s, Forall (fun u => u < 128) s -> encode_text s = s.
Proof.
  unfold encode_text. induction 1 as [|u s H _ IH]; [reflexivity|]. cbn [scalars]. replace (is_high u) with false by (unfold is_high; lia). replace (is_low u) with false by (unfold is_low; lia).
  cbn [flat_map]. unfold utf8 at 1. replace (u <? 0x80) with true by lia. cbn [app]. rewrite IH. reflexivity.
Qed.
Lemma link_code : forall code, Forall (fun u => u < 0x10000) code -> initial_code (docs_query code) = decode_text (encode_text code).
Proof.
  intros code H. pose proof (form_safe code H) as S. set (f := form_encode code) in *.
  assert (E : search_params (docs_query code) = [(s2l "code", form_decode f)]).
  { unfold search_params, docs_query. fold f. change (s2l "?code=" ++ f) with (63 :: s2l "code" ++ 61 :: f). cbn iota.
    rewrite ascii_same.
    2:{ apply Forall_app. split; [repeat constructor; lia|]. constructor; [lia|]. eapply Forall_impl; [|exact S]. intros u (A & _). exact A. }
    rewrite split_nosep.
    2:{ intros X. apply in_app_or in X. destruct X as [X|[X|X]]; [cbn in X; lia|lia|]. rewrite Forall_forall in S. destruct (S _ X) as (_ & A & _). lia. }
    change (filter _ [s2l "code" ++ 61 :: f]) with [s2l "code" ++ 61 :: f]. reflexivity. }
  unfold initial_code. rewrite E. cbn [find fst]. change (str_eqb (s2l "code") (s2l "code")) with true. cbn iota. cbn [snd].
  unfold form_decode. f_equal. unfold f, form_encode. apply unpercent_all. apply encode_bytes. exact H.
Qed.
Lemma proper_units : forall s, proper_text s -> Forall (fun u => u < 0x10000) s.
Proof.
  intros s (cs & F & ->). induction F as [|c cs H _ IH]; [constructor|]. cbn [flat_map]. apply Forall_app. split; [|exact IH].
  unfold units, scalar in *. destruct (c <? 0x10000) eqn:E; repeat constructor; lia.
Qed.

(** ** C77: the text arrives as it was sent *)
Theorem C77_link : forall code, proper_text code -> initial_code (docs_query code) = code.
Proof. intros code P. rewrite link_code by (apply proper_units; exact P). apply codec_proper. exact P. Qed.
Theorem C77_link_any : forall code, Forall (fun u => u < 0x10000) code -> repaired code (initial_code (docs_query code)).
Proof. intros code H. rewrite link_code by exact H. apply codec. exact H. Qed.
Theorem C77_link_refuted : exists code, initial_code (docs_query code) <> code.
Proof. exists [0xD83D]. vm_compute. discriminate. Qed.
(** The documentation's button brings exactly the program shown there, ready to save. *)
Theorem C77_opened : forall lines codes st, text_of lines <> [] -> proper_text (text_of lines) -> ends_with_fin (text_of lines) = false -> program (lines ++ [fin_line]) (codes ++ [Some fin_code]) 0 ->
  fst (editor_start (docs_query (text_of lines)) st) = text_of (lines ++ [fin_line]) /\
  exists c, opened_later (fst (editor_start (docs_query (text_of lines)) st)) = Some c /\ can c = true /\ exists bytes, map slot_int (slots c) = (bytes ++ [255])%Z /\
    image (somes codes ++ [fin_code]) 0 (somes codes ++ [fin_code]) (bytes ++ [255])%Z.
Proof.
  intros lines codes st Ne Pt Ef P. assert (N : lines <> []) by (intros ->; apply Ne; reflexivity). destruct (C65_appended lines codes N Ef P) as (Eu & X).
  assert (Es : fst (editor_start (docs_query (text_of lines)) st) = from_url (text_of lines)).
  { unfold editor_start. rewrite (C77_link _ Pt). destruct (get_stored K_code (V_str []) st) as [old st']. cbn [fst]. destruct (text_of lines); [congruence|reflexivity]. }
  rewrite Es. split; [exact Eu|exact X].
Qed.
(** A query without a program, or with other fields first, is read as such. *)
Theorem C77_no_code : initial_code [] = [] /\ initial_code (s2l "?") = [] /\ initial_code (s2l "?lang=es") = [] /\ initial_code (s2l "?lang=es&code=CMA%0AFIN+") = s2l "CMA
FIN ".
Proof. repeat split; vm_compute; reflexivity. Qed.
(** A program saved to a file and opened again is the same. *)
Lemma no_mark_bytes : forall bs, (forall r, bs <> 0xEF :: 0xBB :: 0xBF :: r) -> open_file bs = decode_text bs.
Proof.
  intros bs N. destruct bs as [|a [|b [|c r]]]; try reflexivity. cbn [open_file]. destruct ((a =? 0xEF) && (b =? 0xBB) && (c =? 0xBF)) eqn:E; [|reflexivity].
  exfalso. apply (N r). replace a with 0xEF by lia. replace b with 0xBB by lia. replace c with 0xBF by lia. reflexivity.
Qed.
Lemma no_mark : forall t, proper_text t -> (forall r, t <> 0xFEFF :: r) -> open_file (download t) = decode_text (encode_text t).
Proof.
  intros t (cs & F & ->) N. apply no_mark_bytes. unfold download, encode_text. rewrite scalars_all by exact F. inversion F as [|c cs' Hc F']; subst; [discriminate|].
  assert (Nc : c <> 0xFEFF) by (intros ->; apply (N (flat_map units cs')); reflexivity). intros r E. cbn [flat_map] in E. unfold scalar in Hc. unfold utf8 at 1 in E.
  destruct (c <? 0x80) eqn:E1; [|destruct (c <? 0x800) eqn:E2; [|destruct (c <? 0x10000) eqn:E3]]; cbn [app] in E.
  - apply (f_equal (hd 0)) in E. cbn [hd] in E. lia.
  - apply (f_equal (hd 0)) in E. cbn [hd] in E. lia.
  - pose proof (f_equal (hd 0) E) as A. pose proof (f_equal (fun l => hd 0 (tl l)) E) as B. pose proof (f_equal (fun l => hd 0 (tl (tl l))) E) as C. cbn [hd tl] in A, B, C. lia.
  - apply (f_equal (hd 0)) in E. cbn [hd] in E. lia.
Qed.
Theorem C77_file : forall t, proper_text t -> (forall r, t <> 0xFEFF :: r) -> open_file (download t) = t.
Proof. intros t P N. rewrite no_mark by assumption. apply codec_proper. exact P. Qed.
(** A file cut inside its last character, as by a broken download: the text before it is
    whole and one replacement character stands for the rest. *)
Lemma decode_cut : forall c k, scalar c -> (0 < k < List.length (utf8 c))%nat -> decode start (firstn k (utf8 c)) = [0xFFFD].
Proof.
  intros c k H Hk. unfold utf8 in *. unfold scalar in H. destruct (c <? 0x80) eqn:E1; [|destruct (c <? 0x800) eqn:E2; [|destruct (c <? 0x10000) eqn:E3]]; cbn [List.length] in Hk.
  - lia.
  - destruct k as [|[|k]]; [lia| |lia]. cbn [firstn decode].
    replace (feed (0xC0 + c / 64) start) with (@nil N, mkDec 1 (c / 64) 0x80 0xBF); [reflexivity|].
    unfold feed, start. cbn [needed]. unfold lead. replace (0xC0 + c / 64 <=? 0x7F) with false by lia. replace ((0xC2 <=? 0xC0 + c / 64) && (0xC0 + c / 64 <=? 0xDF)) with true by lia. f_equal. f_equal. lia.
  - assert (F : feed (0xE0 + c / 4096) start = (@nil N, mkDec 2 (c / 4096) (if c / 4096 =? 0 then 0xA0 else 0x80) (if c / 4096 =? 13 then 0x9F else 0xBF))).
    { unfold feed, start. cbn [needed]. unfold lead. replace (0xE0 + c / 4096 <=? 0x7F) with false by lia.
      replace ((0xC2 <=? 0xE0 + c / 4096) && (0xE0 + c / 4096 <=? 0xDF)) with false by lia. replace ((0xE0 <=? 0xE0 + c / 4096) && (0xE0 + c / 4096 <=? 0xEF)) with true by lia.
      replace (0xE0 + c / 4096 =? 0xE0) with (c / 4096 =? 0) by lia. replace (0xE0 + c / 4096 =? 0xED) with (c / 4096 =? 13) by lia. f_equal. f_equal. lia. }
    destruct k as [|[|[|k]]]; [lia| | |lia]; cbn [firstn decode]; rewrite F; cbn [fst snd app]; [reflexivity|].
    rewrite feed_next; [reflexivity|]. destruct (c / 4096 =? 0) eqn:A; destruct (c / 4096 =? 13) eqn:B; lia.
  - assert (F : feed (0xF0 + c / 262144) start = (@nil N, mkDec 3 (c / 262144) (if c / 262144 =? 0 then 0x90 else 0x80) (if c / 262144 =? 4 then 0x8F else 0xBF))).
    { unfold feed, start. cbn [needed]. unfold lead. replace (0xF0 + c / 262144 <=? 0x7F) with false by lia.
      replace ((0xC2 <=? 0xF0 + c / 262144) && (0xF0 + c / 262144 <=? 0xDF)) with false by lia. replace ((0xE0 <=? 0xF0 + c / 262144) && (0xF0 + c / 262144 <=? 0xEF)) with false by lia.
      replace ((0xF0 <=? 0xF0 + c / 262144) && (0xF0 + c / 262144 <=? 0xF4)) with true by lia.
      replace (0xF0 + c / 262144 =? 0xF0) with (c / 262144 =? 0) by lia. replace (0xF0 + c / 262144 =? 0xF4) with (c / 262144 =? 4) by lia. f_equal. f_equal. lia. }
    destruct k as [|[|[|[|k]]]]; [lia| | | |lia]; cbn [firstn decode]; rewrite F; cbn [fst snd app]; [reflexivity| |].
    + rewrite feed_next; [reflexivity|]. destruct (c / 262144 =? 0) eqn:A; destruct (c / 262144 =? 4) eqn:B; lia.
    + rewrite feed_next; [|destruct (c / 262144 =? 0) eqn:A; destruct (c / 262144 =? 4) eqn:B; lia]. cbn [fst snd app]. rewrite feed_next by lia. reflexivity.
Qed.
Lemma decode_then : forall cs r, Forall scalar cs -> decode start (flat_map utf8 cs ++ r) = cs ++ decode start r.
Proof. intros cs r H. induction H as [|c cs H _ IH]; [reflexivity|]. cbn [flat_map]. rewrite <- app_assoc, decode_utf8 by exact H. rewrite IH. reflexivity. Qed.
Theorem C77_cut : forall t c k, proper_text t -> (forall r, t <> 0xFEFF :: r) -> scalar c -> (0 < k < List.length (utf8 c))%nat -> open_file (download t ++ firstn k (utf8 c)) = t ++ [0xFFFD].
Proof.
  intros t c k (cs & F & ->) N Hc Hk. rewrite no_mark_bytes.
  - unfold download, encode_text, decode_text. rewrite scalars_all, decode_then, decode_cut by assumption. rewrite flat_map_app. reflexivity.
  - unfold download, encode_text. rewrite scalars_all by exact F. intros r E. destruct F as [|d cs' Hd F'].
    + cbn [flat_map app] in E. unfold utf8 in Hk, E. unfold scalar in Hc.
      destruct (c <? 0x80) eqn:E1; [|destruct (c <? 0x800) eqn:E2; [|destruct (c <? 0x10000) eqn:E3]]; cbn [List.length] in Hk; destruct k as [|[|[|[|k]]]]; try lia; cbn [firstn] in E; try discriminate E.
      all: apply (f_equal (hd 0)) in E; cbn [hd] in E; lia.
    + assert (Nc : d <> 0xFEFF) by (intros ->; apply (N (flat_map units cs')); reflexivity). cbn [flat_map] in E. rewrite <- app_assoc in E. unfold scalar in Hd. unfold utf8 at 1 in E.
      destruct (d <? 0x80) eqn:E1; [|destruct (d <? 0x800) eqn:E2; [|destruct (d <? 0x10000) eqn:E3]]; cbn [app] in E.
      * apply (f_equal (hd 0)) in E. cbn [hd] in E. lia.
      * apply (f_equal (hd 0)) in E. cbn [hd] in E. lia.
      * pose proof (f_equal (hd 0) E) as A. pose proof (f_equal (fun l => hd 0 (tl l)) E) as B. pose proof (f_equal (fun l => hd 0 (tl (tl l))) E) as C. cbn [hd tl] in A, B, C. lia.
      * apply (f_equal (hd 0)) in E. cbn [hd] in E. lia.
Qed.
Example C77_cut_nonvacuous : proper_text (s2l "FIN #") /\ scalar 0x20AC /\ (0 < 2 < List.length (utf8 0x20AC))%nat /\ open_file (download (s2l "FIN #") ++ [0xE2; 0x82]) = s2l "FIN #" ++ [0xFFFD].
Proof. split; [exists (s2l "FIN #"); split; [repeat constructor; unfold scalar; lia|reflexivity]|]. split; [unfold scalar; lia|]. split; [cbn; lia|]. vm_compute. reflexivity. Qed.
(** A text that starts with a byte-order mark loses it. *)
Theorem C77_file_refuted : forall t, proper_text t -> open_file (download (0xFEFF :: t)) = t.
Proof.
  intros t P. assert (E : download (0xFEFF :: t) = 0xEF :: 0xBB :: 0xBF :: encode_text t) by reflexivity.
  rewrite E. cbn [open_file]. change ((0xEF =? 0xEF) && (0xBB =? 0xBB) && (0xBF =? 0xBF)) with true. cbn iota. apply codec_proper. exact P.
Qed.
(** Accents, an emoji and reserved characters in a comment. *)
Definition sample : str := s2l "CMA # 100% a+b=c&d " ++ [0xF1; 0x20AC; 0xD83D; 0xDE00].
Lemma proper_app : forall a b, proper_text a -> proper_text b -> proper_text (a ++ b).
Proof. intros a b (x & F & ->) (y & G & ->). exists (x ++ y). split; [apply Forall_app; auto|]. symmetry. apply flat_map_app. Qed.
Lemma proper_ascii : forall s, forallb (fun u => u <? 128) s = true -> proper_text s.
Proof.
  intros s H. exists s. rewrite forallb_forall in H. split; [apply Forall_forall; intros u Hu; left; specialize (H u Hu); lia|].
  induction s as [|u s IH]; [reflexivity|]. cbn [flat_map]. rewrite <- IH by (intros x Hx; apply H; right; exact Hx).
  unfold units. specialize (H u (or_introl eq_refl)). replace (u <? 0x10000) with true by lia. reflexivity.
Qed.
Example C77_nonvacuous : proper_text sample /\ initial_code (docs_query sample) = sample /\ open_file (download sample) = sample /\
  docs_query sample = s2l "?code=CMA+%23+100%25+a%2Bb%3Dc%26d+%C3%B1%E2%82%AC%F0%9F%98%80" /\
  (let lines := [s2l "CMA"] in text_of lines <> [] /\ proper_text (text_of lines) /\ ends_with_fin (text_of lines) = false /\ program (lines ++ [fin_line]) ([Some (mkCode [] CMA [])] ++ [Some fin_code]) 0).
Proof.
  split; [apply proper_app; [apply proper_ascii; reflexivity|]; exists [0xF1; 0x20AC; 0x1F600]; split; [repeat constructor; unfold scalar; lia|reflexivity]|].
  split; [vm_compute; reflexivity|]. split; [vm_compute; reflexivity|]. split; [vm_compute; reflexivity|].
  cbv zeta. split; [discriminate|]. split; [apply proper_ascii; reflexivity|]. exact C65_nonvacuous.
Qed.

(** ** C78: the draft *)
(** What can happen to the editor in one browser: a page is loaded with some query and the
    editor is opened; the text changes; other settings are stored. *)
Inductive devent := Visit (search : str) | Change (t : str) | Store (k : key) (v : value).
Definition dstep (x : devent) (e : str * storage) : str * storage :=
  match x with
  | Visit s => editor_start s (snd e)
  | Change t => editor_change t e
  | Store k v => (fst e, if key_eqb k K_code then snd e else set_stored k v (snd e))
  end.
(** [Store] stands for the other controls, which never write the editor's key. *)
Definition dsteps (l : list devent) (e : str * storage) : str * storage := fold_left (fun e x => dstep x e) l e.
Lemma stored_other : forall k v st, key_eqb k K_code = false -> set_stored k v st K_code = st K_code.
Proof. intros k v st H. unfold set_stored. rewrite H. reflexivity. Qed.
Lemma start_stored : forall s st, snd (editor_start s st) K_code = Some (V_str (fst (editor_start s st))).
Proof. intros s st. unfold editor_start. destruct (get_stored K_code (V_str []) st). reflexivity. Qed.
Lemma dstep_stored : forall x e, snd e K_code = Some (V_str (fst e)) -> snd (dstep x e) K_code = Some (V_str (fst (dstep x e))).
Proof.
  intros [s|t|k v] e H; cbn [dstep].
  - apply start_stored.
  - unfold editor_change. match goal with |- context [if ?b then _ else _] => destruct b end; [exact H|reflexivity].
  - cbn [fst snd]. destruct (key_eqb k K_code) eqn:E; [exact H|]. rewrite stored_other by exact E. exact H.
Qed.
Lemma dsteps_stored : forall l e, snd e K_code = Some (V_str (fst e)) -> snd (dsteps l e) K_code = Some (V_str (fst (dsteps l e))).
Proof. induction l as [|x l IH]; intros e H; [exact H|]. apply IH. apply dstep_stored. exact H. Qed.
Lemma start_plain : forall s st t, initial_code s = [] -> st K_code = Some (V_str t) -> fst (editor_start s st) = t.
Proof. intros s st t Hs H. unfold editor_start, get_stored. rewrite H, Hs. reflexivity. Qed.
Lemma start_link : forall s st, initial_code s <> [] -> fst (editor_start s st) = from_url (initial_code s).
Proof. intros s st H. unfold editor_start. destruct (get_stored K_code (V_str []) st). cbn [fst]. destruct (initial_code s); [congruence|reflexivity]. Qed.
(** Whatever happened before, a page opened without a program in its address shows the
    last text that was in the editor. *)
Theorem C78_kept : forall s0 st0 l s, initial_code s = [] ->
  let e := dsteps l (editor_start s0 st0) in fst (dstep (Visit s) e) = fst e.
Proof. intros s0 st0 l s Hs e. cbn [dstep]. apply start_plain; [exact Hs|]. apply dsteps_stored. apply start_stored. Qed.
Theorem C78_last_change : forall t e, fst (dstep (Change t) e) = t.
Proof.
  intros t e. cbn [dstep]. unfold editor_change. match goal with |- context [if ?b then _ else _] => destruct b eqn:E end; [|reflexivity]. apply str_eqb_eq in E. congruence.
Qed.
(** A first visit shows an empty editor; an address with a program shows that program. *)
Theorem C78_first : forall s, initial_code s = [] -> fst (editor_start s empty_storage) = [].
Proof. intros s H. unfold editor_start, get_stored. rewrite H. reflexivity. Qed.
Theorem C78_link : forall code e, proper_text code -> code <> [] -> fst (dstep (Visit (docs_query code)) e) = from_url code.
Proof. intros code e P N. cbn [dstep]. rewrite start_link by (rewrite C77_link by exact P; exact N). rewrite C77_link by exact P. reflexivity. Qed.
(** Following a link replaces the user's draft for good: the next ordinary visit shows the
    link's program, whatever the draft was. *)
Theorem C78_link_refuted : forall code s draft e, proper_text code -> code <> [] -> initial_code s = [] -> draft <> from_url code ->
  fst (dsteps [Change draft; Visit (docs_query code); Visit s] e) = from_url code /\ from_url code <> draft.
Proof.
  intros code s draft e P N Hs D. split; [|congruence]. unfold dsteps. cbn [fold_left].
  set (e1 := dstep (Change draft) e). rewrite <- (C78_link code e1 P N). cbn [dstep]. apply start_plain; [exact Hs|]. apply start_stored.
Qed.
(** Changes made to a program opened from a link are lost when its page is reloaded, both
    on the screen and in the storage. *)
Theorem C78_reload_refuted : forall code t e, proper_text code -> code <> [] -> t <> from_url code ->
  let e' := dsteps [Visit (docs_query code); Change t; Visit (docs_query code)] e in
  fst e' <> t /\ snd e' K_code <> Some (V_str t).
Proof.
  intros code t e P N D e'. assert (E : fst e' = from_url code) by (unfold e', dsteps; cbn [fold_left]; apply C78_link; assumption).
  assert (S : snd e' K_code = Some (V_str (fst e'))) by (unfold e', dsteps; cbn [fold_left]; apply start_stored).
  split; [congruence|]. rewrite S, E. congruence.
Qed.
(** Reloading does not add a second FIN. *)
Theorem C78_reload_same : forall s e, fst (dsteps [Visit s; Visit s] e) = fst (dstep (Visit s) e).
Proof.
  intros s e. unfold dsteps. cbn [fold_left]. set (e1 := dstep (Visit s) e). destruct (initial_code s) eqn:E.
  - cbn [dstep]. apply start_plain; [exact E|]. unfold e1. apply start_stored.
  - unfold e1. cbn [dstep]. rewrite !start_link by congruence. reflexivity.
Qed.
Example C78_nonvacuous : let code := s2l "CMA" in proper_text code /\ code <> [] /\ initial_code (s2l "?x=1") = [] /\ s2l "INC" <> from_url code /\
  fst (dsteps [Change (s2l "INC"); Store K_base (V_str s_HEX)] (editor_start [] empty_storage)) = s2l "INC".
Proof. cbv zeta. split; [apply proper_ascii; reflexivity|]. repeat split; try discriminate; vm_compute; reflexivity. Qed.
Print Assumptions C77_link.
Print Assumptions C77_link_any.
Print Assumptions C77_link_refuted.
Print Assumptions C77_opened.
Print Assumptions C77_no_code.
Print Assumptions C77_file.
Print Assumptions C77_cut.
Print Assumptions C77_file_refuted.
Print Assumptions C78_kept.
Print Assumptions C78_last_change.
Print Assumptions C78_first.
Print Assumptions C78_link.
Print Assumptions C78_link_refuted.
Print Assumptions C78_reload_refuted.
Print Assumptions C78_reload_same.
