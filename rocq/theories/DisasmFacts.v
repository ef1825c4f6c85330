(** * Specification of the disassembly view and facts about its model *)
From Coq Require Import String ZArith NArith List Bool Lia ZifyBool ZifyN.
From Verif Require Import JsStr AsmTable Asm Isa AsmSpec AsmRe AsmLine AsmFacts AsmExec AsmProg AsmErr PropsAsm Api Disasm.
Import ListNotations.
Open Scope list_scope.
Open Scope Z_scope.

(** ** Specification *)
(** How an instruction is listed: name and arguments, a comma and a space between
    two arguments; [value] is the text of its value, if it has one. *)
Definition listing (i : instr) (value : str) : str :=
  match syntax i with
  | Some (F0 n) => s2l n
  | Some (F1 n a) => s2l n ++ 32%N :: match a with Name s => s2l s | _ => value end
  | Some (F2 n a d) => s2l n ++ 32%N :: match a with Name s => s2l s | _ => value end ++ 44%N :: 32%N :: s2l d
  | None => []
  end.
(** The text of a byte: upper-case hexadecimal without leading zeros. *)
Definition byte_text (v : Z) (t : str) : Prop :=
  numeral t /\ numeral_value t = v /\ (forall c, In c t -> up c = c) /\ (hd_error t = Some 48%N -> t = [48%N]).
(** The text of the byte at an address; beyond the end of the memory it is "-1". *)
Definition cell_text (m : Z -> Z) (a : Z) (t : str) : Prop :=
  if a <? 65536 then byte_text (m a) t else t = s2l "-1".
(** What is listed at address [a]: the text and the last address. *)
Definition shows_at (m : Z -> Z) (a : Z) (text : str) (last : Z) : Prop :=
  match decode_documented (m a) with
  | None => text = s2l "-" /\ last = a
  | Some i => last = a + size i - 1 /\
      match value_kind i with
      | None => text = listing i []
      | Some Value16 => exists t1 t2, cell_text m (a + 1) t1 /\ cell_text m (a + 2) t2 /\ text = listing i (t1 ++ t2)
      | Some _ => exists t1, cell_text m (a + 1) t1 /\ text = listing i t1
      end
  end.
(** [l] lists the memory from [a] up to [b], excluded, without gap or overlap. *)
Fixpoint partition (m : Z -> Z) (a : Z) (l : list listed) (b : Z) : Prop :=
  match l with
  | [] => a = b
  | o :: l' => l_from o = a /\ a <= l_to o /\ shows_at m a (l_text o) (l_to o) /\ partition m (l_to o + 1) l' b
  end.
(** Memory as the front end reads it: bytes, -1 outside. *)
Definition reads_bytes (m : Z -> Z) : Prop := forall o, (0 <= o < 65536 -> 0 <= m o <= 255) /\ (o < 0 \/ 65536 <= o -> m o = -1).

(** ** Lookup *)
Definition names_ok (op : Z) : bool :=
  match decode_documented op, find (fun o => parse_hex (s2l (HEX o)) =? op) operations with
  | Some i, Some e =>
      (ALLOC e =? size i) &&
      match value_kind i with
      | None => str_eqb (s2l (NEMO e)) (listing i [])
      | Some Value16 => str_eqb (s2l (NEMO e)) (listing i (s2l "dir"))
      | Some _ => str_eqb (s2l (NEMO e)) (listing i (s2l "inm"))
      end
  | None, None => true
  | _, _ => false
  end.
Lemma names_all : forall op, 0 <= op <= 255 -> names_ok op = true.
Proof.
  assert (K : forallb (fun n => names_ok (Z.of_nat n)) (seq 0 256) = true) by (vm_compute; reflexivity). rewrite forallb_forall in K.
  intros op H. specialize (K (Z.to_nat op) ltac:(apply in_seq; lia)). rewrite Z2Nat.id in K by lia. exact K.
Qed.
Definition low (p : str) : bool := forallb (fun c => (97 <=? c) && (c <=? 122))%N p.
Definition no_low (s : str) : bool := forallb (fun c => negb ((97 <=? c) && (c <=? 122))%N) s.
Lemma replace_no_low : forall p by_ s, p <> [] -> low p = true -> no_low s = true -> replace_first p by_ s = s.
Proof.
  intros p by_ s N L. destruct p as [|c p]; [congruence|]. cbn [low forallb] in L. apply andb_true_iff in L. destruct L as (L & _).
  induction s as [|x s IH]; intros H; cbn [replace_first starts_with]; [reflexivity|]. cbn [no_low forallb] in H. apply andb_true_iff in H. destruct H as (Hx & Hs).
  destruct (N.eqb_spec c x) as [->|]; [rewrite L in Hx; discriminate|]. cbn [andb]. f_equal. apply IH. exact Hs.
Qed.
Lemma starts_self : forall p s, starts_with p (p ++ s) = true.
Proof. induction p as [|c p IH]; intros s; cbn; auto. rewrite N.eqb_refl. apply IH. Qed.
Lemma replace_at : forall p by_ a s, p <> [] -> low p = true -> no_low a = true -> replace_first p by_ (a ++ p ++ s) = a ++ by_ ++ s.
Proof.
  intros p by_ a s N L H. induction a as [|x a IH].
  - cbn [app]. pose proof (starts_self p s) as E. destruct p as [|y r]; [congruence|]. cbn [app] in E |- *. cbn [replace_first]. rewrite E. f_equal.
    cbn [List.length skipn]. rewrite skipn_app, skipn_all, Nat.sub_diag. reflexivity.
  - cbn [app replace_first]. destruct p as [|c p]; [congruence|]. cbn [low forallb] in L. apply andb_true_iff in L. destruct L as (L & L2).
    cbn [no_low forallb] in H. apply andb_true_iff in H. destruct H as (Hx & Ha). cbn [starts_with].
    destruct (N.eqb_spec c x) as [->|]; [rewrite L in Hx; discriminate|]. cbn [andb]. f_equal. apply IH. exact Ha.
Qed.
Definition head_of (i : instr) : str := match syntax i with Some (F0 n) => s2l n | Some (F1 n _) | Some (F2 n _ _) => s2l n ++ [32%N] | None => [] end.
Definition tail_of (i : instr) : str := match syntax i with Some (F2 _ _ d) => 44%N :: 32%N :: s2l d | _ => [] end.
Definition pieces_ok (i : instr) : bool := no_low (head_of i) && no_low (tail_of i) && no_low (listing i []).
Lemma pieces_all : forall i, pieces_ok i = true.
Proof. assert (K : forallb pieces_ok all_instr = true) by (vm_compute; reflexivity). rewrite forallb_forall in K. intros i. apply K, all_instr_in. Qed.
Lemma listing_value : forall i v, value_kind i <> None -> listing i v = head_of i ++ v ++ tail_of i.
Proof.
  intros i v H. unfold listing, head_of, tail_of, value_kind in *. destruct (syntax i) as [[n|n a|n a d]|]; try congruence.
  - destruct a; [congruence| |]; rewrite <- app_assoc, app_nil_r; reflexivity.
  - destruct a; try congruence. rewrite <- app_assoc. reflexivity.
Qed.
Lemma upper_no_low : forall s, no_low (upper s) = true.
Proof. intros s. apply forallb_forall. intros c Hc. apply in_map_iff in Hc. destruct Hc as (x & <- & _). unfold up. destruct ((97 <=? x) && (x <=? 122))%N eqn:E; lia. Qed.
Lemma no_low_app : forall a b, no_low (a ++ b) = no_low a && no_low b.
Proof. intros. apply forallb_app. Qed.
Lemma replacements_none : forall m a i, value_kind i = None -> do_replacements m a (listing i []) = listing i [].
Proof.
  intros m a i _. pose proof (pieces_all i) as K. unfold pieces_ok in K. rewrite !andb_true_iff in K. destruct K as (_ & K). unfold do_replacements, replace_inm, replace_dir.
  rewrite (replace_no_low (s2l "inm")) by (auto; try discriminate; reflexivity). apply replace_no_low; try discriminate; try reflexivity; auto.
Qed.
Lemma replacements_inm : forall m a i, value_kind i = Some Value8 -> do_replacements m a (listing i (s2l "inm")) = listing i (hex_upper_text (m (a + 1))).
Proof.
  intros m a i V. pose proof (pieces_all i) as K. unfold pieces_ok in K. rewrite !andb_true_iff in K. destruct K as ((K1 & K2) & _).
  rewrite !listing_value by congruence. unfold do_replacements, replace_inm, replace_dir.
  rewrite (replace_at (s2l "inm")) by (auto; try discriminate; reflexivity). apply replace_no_low; [discriminate|reflexivity|].
  rewrite !no_low_app, K1, K2. unfold hex_upper_text. rewrite upper_no_low. reflexivity.
Qed.
Lemma replace_other : forall a s by_, no_low a = true -> no_low s = true -> replace_first (s2l "inm") by_ (a ++ s2l "dir" ++ s) = a ++ s2l "dir" ++ s.
Proof.
  intros a s by_ H Hs. induction a as [|x a IH].
  - cbn [app]. change (s2l "dir" ++ s) with ([100; 105; 114]%N ++ s). change (s2l "inm") with [105; 110; 109]%N. cbn [app replace_first starts_with N.eqb Pos.eqb andb]. do 3 f_equal.
    apply (replace_no_low [105; 110; 109]%N); auto; discriminate.
  - cbn [app replace_first]. cbn [no_low forallb] in H. apply andb_true_iff in H. destruct H as (Hx & Ha). change (s2l "inm") with [105; 110; 109]%N in *. cbn [starts_with].
    destruct (N.eqb_spec 105 x) as [<-|]; [discriminate|]. cbn [andb]. f_equal. apply IH. exact Ha.
Qed.
Lemma replacements_dir : forall m a i, value_kind i = Some Value16 ->
  do_replacements m a (listing i (s2l "dir")) = listing i (hex_upper_text (m (a + 1)) ++ hex_upper_text (m (a + 2))).
Proof.
  intros m a i V. pose proof (pieces_all i) as K. unfold pieces_ok in K. rewrite !andb_true_iff in K. destruct K as ((K1 & K2) & _).
  rewrite !listing_value by congruence. unfold do_replacements, replace_inm, replace_dir. rewrite replace_other by auto.
  apply replace_at; try discriminate; try reflexivity; auto.
Qed.

(** ** The text of a byte *)
Lemma hex_digits_head : forall f v acc, 0 < v -> v < 16 ^ Z.of_nat f -> hd_error (hex_digits f v acc) <> Some 48%N.
Proof.
  induction f as [|f IH]; intros v acc Hv Hf; [cbn in Hf; lia|]. cbn [hex_digits]. destruct (v / 16 =? 0) eqn:E.
  - cbn [hd_error]. pose proof (Z.div_mod v 16 ltac:(lia)). apply Z.eqb_eq in E. pose proof (Z.mod_pos_bound v 16 ltac:(lia)). intros X. injection X as X.
    pose proof (digit_hex_digit (v mod 16) ltac:(lia)) as D. rewrite X in D. injection D as D. lia.
  - apply IH; [|rewrite Nat2Z.inj_succ, Z.pow_succ_r in Hf by lia; apply Z.div_lt_upper_bound; lia].
    pose proof (Z.div_pos v 16 ltac:(lia) ltac:(lia)). lia.
Qed.
Lemma hex_digits_nonnil : forall f v acc, acc <> [] -> hex_digits f v acc <> [].
Proof. induction f as [|f IH]; intros v acc H; cbn [hex_digits]; auto. destruct (v / 16 =? 0); [discriminate|]. apply IH. discriminate. Qed.
Lemma hex_nonnil : forall v, 0 <= v -> to_hex v <> [].
Proof.
  intros v H. unfold to_hex. destruct (v <? 0) eqn:E; [lia|]. cbn [hex_digits]. destruct (v / 16 =? 0); [discriminate|]. apply hex_digits_nonnil. discriminate.
Qed.
Lemma up_48 : forall c, up c = 48%N -> c = 48%N.
Proof. intros c H. unfold up in H. destruct ((97 <=? c) && (c <=? 122))%N eqn:E; lia. Qed.
Lemma up_up : forall c, up (up c) = up c.
Proof. intros c. unfold up. destruct ((97 <=? c) && (c <=? 122))%N eqn:E; [|rewrite E; reflexivity]. replace ((97 <=? c - 32) && (c - 32 <=? 122))%N with false by lia. reflexivity. Qed.
Lemma byte_text_ok : forall v, 0 <= v -> byte_text v (hex_upper_text v).
Proof.
  intros v H. unfold hex_upper_text. split; [|split; [|split]].
  - apply numeral_check. rewrite hex_upper. split; [|apply to_hex_hex; exact H]. pose proof (hex_nonnil v H) as N. destruct (to_hex v); [congruence|discriminate].
  - rewrite value_upper. apply to_hex_value. exact H.
  - intros c Hc. apply in_map_iff in Hc. destruct Hc as (x & <- & _). apply up_up.
  - intros Hh. destruct (Z.eq_dec v 0) as [->|Nz]; [reflexivity|]. exfalso. unfold to_hex in Hh. destruct (v <? 0) eqn:E; [lia|].
    pose proof (hex_digits_head (S (Z.to_nat (Z.log2 v))) v [] ltac:(lia) (log_bound v H)) as N.
    destruct (hex_digits (S (Z.to_nat (Z.log2 v))) v []) as [|c s]; [discriminate|]. cbn in Hh. injection Hh as Hh. apply up_48 in Hh. apply N. cbn. congruence.
Qed.
Lemma cell_text_ok : forall m a, reads_bytes m -> 0 <= a -> cell_text m a (hex_upper_text (m a)).
Proof.
  intros m a R Ha. unfold cell_text. destruct (Z.ltb_spec a 65536).
  - apply byte_text_ok. destruct (R a) as (R1 & _). specialize (R1 ltac:(lia)). lia.
  - destruct (R a) as (_ & R2). rewrite R2 by lia. reflexivity.
Qed.
Lemma undocumented_lookup : forall v, v < 0 -> find (fun o => parse_hex (s2l (HEX o)) =? v) operations = None.
Proof.
  intros v H. destruct (find (fun o => parse_hex (s2l (HEX o)) =? v) operations) as [e|] eqn:F; auto. exfalso. apply find_some in F. destruct F as (Hi & E).
  rewrite parse_hex_value in E. pose proof (numeral_nonneg (s2l (HEX e))). lia.
Qed.
Lemma lookup_shows : forall m a, reads_bytes m -> 0 <= a ->
  let o := find_operation m a (m a) in l_from o = a /\ a <= l_to o /\ shows_at m a (l_text o) (l_to o).
Proof.
  intros m a R Ha. unfold find_operation, shows_at. destruct (Z.ltb_spec a 65536) as [L|L].
  - destruct (R a) as (R1 & _). specialize (R1 ltac:(lia)). pose proof (names_all (m a) R1) as K. unfold names_ok in K.
    destruct (decode_documented (m a)) as [i|], (find (fun o => parse_hex (s2l (HEX o)) =? m a) operations) as [e|]; try discriminate; cbn [l_from l_to l_text].
    + apply andb_true_iff in K. destruct K as (Ka & K). apply Z.eqb_eq in Ka. rewrite Ka. pose proof (size_pos i). split; auto. split; [lia|]. split; auto.
      destruct (value_kind i) as [[s| |]|] eqn:V.
      * destruct (kind_not_name _ _ V).
      * apply str_eqb_eq in K. rewrite K, replacements_inm by auto. exists (hex_upper_text (m (a + 1))). split; auto. apply cell_text_ok; auto; lia.
      * apply str_eqb_eq in K. rewrite K, replacements_dir by auto. exists (hex_upper_text (m (a + 1))), (hex_upper_text (m (a + 2))).
        split; [apply cell_text_ok; auto; lia|]. split; [apply cell_text_ok; auto; lia|]. reflexivity.
      * apply str_eqb_eq in K. rewrite K, (replacements_none m a i) by auto. reflexivity.
    + split; auto. split; [lia|]. auto.
  - destruct (R a) as (_ & R2). rewrite R2 by lia. rewrite undocumented_lookup by lia. split; auto. split; [cbn; lia|]. split; reflexivity.
Qed.

(** ** The loop *)
Lemma loop_partition : forall f m a b, reads_bytes m -> 0 <= a -> b - a < Z.of_nat f -> (0 < f)%nat ->
  exists l e, deduct_loop f m a b = Some l /\ l <> [] /\ partition m a l e /\ b <= e /\
    (forall o, In o l -> l_from o = a \/ l_from o < b) /\ forall o, In o l -> a <= l_from o.
Proof.
  induction f as [|f IH]; intros m a b R Ha Hf Pf; [lia|]. cbn [deduct_loop]. pose proof (lookup_shows m a R Ha) as (L1 & L2 & L3).
  set (o := find_operation m a (m a)) in *. destruct (Z.ltb_spec (l_to o + 1) b) as [Lt|Ge].
  - destruct (IH m (l_to o + 1) b R ltac:(lia) ltac:(lia) ltac:(lia)) as (l & e & E & N & P & Eb & Hs & Hg). exists (o :: l), e. rewrite E. split; [reflexivity|]. split; [discriminate|].
    split; [cbn [partition]; auto|]. split; auto. split.
    + intros x [<-|Hx]; auto. destruct (Hs x Hx); lia.
    + intros x [<-|Hx]; [lia|]. specialize (Hg x Hx). lia.
  - exists [o], (l_to o + 1). split; [reflexivity|]. split; [discriminate|]. split; [cbn [partition]; auto|]. split; [lia|]. split; intros x [<-|[]]; [auto|lia].
Qed.
(** Every address of a partition is in exactly one line. *)
Lemma partition_le : forall m l a b, partition m a l b -> a <= b.
Proof. intros m. induction l as [|o l IH]; intros a b P; cbn [partition] in P; [lia|]. destruct P as (_ & L & _ & P). apply IH in P. lia. Qed.
Lemma partition_ge : forall m l a b o, partition m a l b -> In o l -> a <= l_from o /\ l_to o < b.
Proof.
  intros m. induction l as [|x l IH]; intros a b o P []; cbn [partition] in P; destruct P as (P1 & P2 & P3 & P4).
  - subst x. apply partition_le in P4. lia.
  - specialize (IH _ _ _ P4 H). lia.
Qed.
Lemma partition_unique : forall m l a b p, partition m a l b -> a <= p < b ->
  exists o, In o l /\ l_from o <= p <= l_to o /\ forall o', In o' l -> l_from o' <= p <= l_to o' -> o' = o.
Proof.
  intros m. induction l as [|x l IH]; intros a b p P H; cbn [partition] in P; [lia|]. destruct P as (P1 & P2 & P3 & P4).
  destruct (Z.leb_spec p (l_to x)).
  - exists x. split; [left; auto|]. split; [lia|]. intros o' [<-|Ho]; auto. intros X. destruct (partition_ge _ _ _ _ _ P4 Ho). lia.
  - destruct (IH _ _ p P4 ltac:(lia)) as (o & Ho & Hr & Hu). exists o. split; [right; auto|]. split; auto. intros o' [<-|Ho']; [lia|auto].
Qed.
Lemma partition_shows : forall m l a b o, partition m a l b -> In o l -> shows_at m (l_from o) (l_text o) (l_to o).
Proof.
  intros m. induction l as [|x l IH]; intros a b o P []; cbn [partition] in P; destruct P as (P1 & P2 & P3 & P4).
  - subst x. rewrite P1. exact P3.
  - eapply IH; eauto.
Qed.
