(** * From source text to memory and back (C42, C44, C47, C48 together)
    Write a program in the editor, save it to memory, look at it in the debugger. *)
From Coq Require Import String ZArith NArith List Bool Lia ZifyBool ZifyN.
From Verif Require Import Prog Isa Api ApiFacts Usage Front IsaFacts Reach PropsApi PropsIsa PropsLife.
From Verif Require Import JsStr AsmTable Asm AsmSpec AsmRe AsmLine AsmFacts AsmExec AsmProg AsmErr PropsAsm Disasm DisasmFacts PropsDisasm.
Import ListNotations.
Open Scope list_scope.
Open Scope Z_scope.

(** The cells from [o] on hold [bytes]. *)
Definition holds (m : Z -> Z) (o : Z) (bytes : list Z) : Prop :=
  forall k, (k < List.length bytes)%nat -> m (o + Z.of_nat k) = nth k bytes 0.
(** A program that assembles: lines, their code, start address. *)
Definition program (lines : list str) (codes : list (option code)) (init : Z) : Prop :=
  lines_ok lines /\ Forall2 written lines codes /\
  (forall c, In c (somes codes) -> value_ok (map lab (somes codes)) c /\ ~ byte_ref c) /\
  somes codes <> [] /\ 0 <= init /\ init + total (somes codes) <= 65536.

Lemma encodes_size : forall p a c b, encodes p a c b -> Z.of_nat (List.length b) = size (ins c).
Proof.
  intros p a c b (op & _ & ->). unfold size. destruct (value_kind (ins c)) as [[s| |]|] eqn:K; try reflexivity.
Qed.
Lemma image_total : forall p a q bytes, image p a q bytes -> Z.of_nat (List.length bytes) = total q.
Proof.
  intros p a. induction q as [|c q IH]; intros bytes H; cbn [image total fold_right] in *; [subst; reflexivity|].
  destruct H as (b & bs & -> & H1 & H2). rewrite app_length. apply encodes_size in H1. apply IH in H2. unfold total in H2. lia.
Qed.
Lemma address_range : forall p a n, 0 <= a -> a + total p <= 65536 -> 0 <= address p a n <= 65535.
Proof.
  induction p as [|c p IH]; intros a n Ha Ht; cbn [address total fold_right] in *; [lia|]. pose proof (size_pos (ins c)).
  assert (0 <= total p). { clear. induction p as [|c p IH]; cbn [total fold_right]; [lia|]. pose proof (size_pos (ins c)). unfold total in IH. lia. }
  destruct (str_eqb (lab c) n); [unfold total in *; lia|]. apply IH; unfold total in *; lia.
Qed.
(** The value an instruction of the program has. *)
Definition value_of (p : list code) (a : Z) (c : code) : Z :=
  match value_kind (ins c) with
  | Some Value16 => match hd_error (val c) with Some 84%N => address p a (val c) | _ => numeral_value (val c) end
  | _ => numeral_value (val c)
  end.
Lemma value_range : forall L p a c, value_ok L c -> ~ byte_ref c -> 0 <= a -> a + total p <= 65536 ->
  match value_kind (ins c) with Some Value8 => 0 <= value_of p a c <= 255 | Some _ => 0 <= value_of p a c <= 65535 | None => True end.
Proof.
  intros L p a c V B Ha Ht. unfold value_ok in V. unfold value_of, byte_ref in *. destruct (value_kind (ins c)) as [[s| |]|] eqn:K; auto.
  - destruct (kind_not_name _ _ K).
  - pose proof (numeral_nonneg (val c)). destruct V as [(V1 & V2)|(V1 & V2)]; [lia|]. destruct B. auto.
  - pose proof (numeral_nonneg (val c)). unfold is_ref in V. destruct V as [(V1 & V2)|(V1 & V2)].
    + assert (NR : ~ is_ref (val c)) by (intros X; exact (ref_not_numeral _ X V1)). unfold is_ref in NR.
      destruct (hd_error (val c)) as [ch|]; [|lia]. destruct (N.eq_dec ch 84) as [->|Nc]; [tauto|].
      assert (Mm : forall (x y : Z), match ch with 84%N => x | _ => y end = y).
      { intros x y. clear -Nc. destruct ch as [|q]; auto. repeat (destruct q as [q|q|]; auto). congruence. }
      rewrite Mm. lia.
    + rewrite V1. apply address_range; auto.
Qed.
Lemma encodes_bytes : forall L p a c b, value_ok L c -> ~ byte_ref c -> 0 <= a -> a + total p <= 65536 -> encodes p a c b -> forall v, In v b -> 0 <= v <= 255.
Proof.
  intros L p a c b V Br Ha Ht (op & (R & _) & ->) v [<-|Hv]; auto. pose proof (value_range L p a c V Br Ha Ht) as K. unfold value_of in K.
  destruct (value_kind (ins c)) as [[s| |]|]; try (destruct Hv; fail).
  - destruct Hv as [<-|[]]. exact K.
  - destruct Hv as [<-|[<-|[]]]; [|pose proof (Z.mod_pos_bound (match hd_error (val c) with Some 84%N => address p a (val c) | _ => numeral_value (val c) end) 256 ltac:(lia)); lia].
    split; [apply Z.div_pos; lia|]. apply Z.lt_succ_r. apply Z.div_lt_upper_bound; lia.
Qed.
Lemma image_bytes : forall L p a q bytes, (forall c, In c q -> value_ok L c /\ ~ byte_ref c) -> 0 <= a -> a + total p <= 65536 -> image p a q bytes -> forall v, In v bytes -> 0 <= v <= 255.
Proof.
  intros L p a. induction q as [|c q IH]; intros bytes G Ha Ht H v Hv; cbn [image] in H; [subst; destruct Hv|]. destruct H as (b & bs & -> & H1 & H2).
  apply in_app_or in Hv. destruct Hv as [Hv|Hv].
  - destruct (G c ltac:(cbn; auto)). eapply encodes_bytes; eauto.
  - eapply IH; eauto. intros c' Hc'. apply G. cbn; auto.
Qed.

(** Saving a program leaves exactly its instructions in memory, and the machine
    ready to fetch. *)
Theorem C42_source : forall lines codes init l h c, program lines codes init -> live l h true -> obs h c ->
  exists out slots h' bytes, parse_input (text_of lines) init = Some out /\ new_translation out = Some slots /\ bytes = slot_values slots /\
    image (somes codes) init (somes codes) bytes /\ Z.of_nat (List.length bytes) = total (somes codes) /\
    save_to_memory init bytes h = Some h' /\ live (l ++ ResetControl :: store_from init bytes) h' true /\
    holds (seen h') init bytes /\ (forall a, a < init \/ init + total (somes codes) <= a -> seen h' a = seen h a) /\
    (forall r, get_register_value r h' = get_register_value r h) /\ get_next_state h' = Some 0 /\ hl h' = hl h.
Proof.
  intros lines codes init l h c (P1 & P2 & P3 & P4 & P5 & P6) L O. destruct (C44_image lines codes init P1 P2 P3 P4 P5 P6) as (out & slots & E1 & E2 & Im & _).
  pose proof (image_total _ _ _ _ Im) as Tl. pose proof (image_bytes _ _ _ _ _ P3 P5 P6 Im) as By.
  destruct (C42_save (slot_values slots) l h init c L O P5 ltac:(lia) By) as (h' & S1 & S2 & S3 & S4 & S5 & _ & S6 & S7).
  exists out, slots, h', (slot_values slots). split; auto. split; auto. split; auto. split; auto. split; auto. split; auto. split; auto. split; [|split; [|auto]].
  - intros k Hk. unfold seen. rewrite S4 by exact Hk. rewrite (nth_error_nth' _ 0 Hk). reflexivity.
  - intros a Ha. unfold seen. rewrite S5 by lia. reflexivity.
Qed.

(** The listing of a program, line by line of its code. *)
Definition lists_code (p : list code) (init : Z) (c : code) (o : listed) : Prop :=
  match value_kind (ins c) with
  | None => l_text o = listing (ins c) []
  | Some Value16 => exists t1 t2, byte_text (value_of p init c / 256) t1 /\ byte_text (value_of p init c mod 256) t2 /\ l_text o = listing (ins c) (t1 ++ t2)
  | Some _ => exists t1, byte_text (value_of p init c) t1 /\ l_text o = listing (ins c) t1
  end.
Fixpoint lists_program (p : list code) (init a : Z) (q : list code) (l : list listed) : Prop :=
  match q, l with
  | [], [] => True
  | c :: q', o :: l' => l_from o = a /\ l_to o = a + size (ins c) - 1 /\ lists_code p init c o /\ lists_program p init (a + size (ins c)) q' l'
  | _, _ => False
  end.
Lemma holds_app : forall m o x y, holds m o (x ++ y) -> holds m o x /\ holds m (o + Z.of_nat (List.length x)) y.
Proof.
  intros m o x y H. split; intros k Hk.
  - rewrite H by (rewrite app_length; lia). apply app_nth1. exact Hk.
  - specialize (H (List.length x + k)%nat). rewrite app_length in H. specialize (H ltac:(lia)). rewrite app_nth2_plus in H. rewrite <- H. f_equal. lia.
Qed.
Lemma lists_image : forall m p init q a bytes l e b, reads_bytes m -> image p init q bytes -> holds m a bytes -> 0 <= a -> a + total q = b -> b <= 65536 ->
  partition m a l e -> b <= e -> (forall o, In o l -> l_from o = a \/ l_from o < b) -> (q = [] -> l = []) -> lists_program p init a q l.
Proof.
  intros m p init. induction q as [|c q IH]; intros a bytes l e b R Im Ho Ha Eb Hb P He Hs Hn.
  { rewrite Hn by reflexivity. exact I. }
  cbn [image] in Im. destruct Im as (cb & bs & -> & En & Im). apply holds_app in Ho. destruct Ho as (Ho & Hos). pose proof (encodes_size _ _ _ _ En) as Sz. rewrite Sz in Hos.
  pose proof (size_pos (ins c)) as Sp. change (a + (size (ins c) + total q) = b) in Eb.
  assert (Tq : 0 <= total q). { clear. induction q as [|c q IH]; cbn [total fold_right]; [lia|]. pose proof (size_pos (ins c)). unfold total in IH. lia. }
  assert (Tq1 : q <> [] -> 1 <= total q). { clear - Tq. destruct q as [|c q]; [congruence|]. intros _. cbn [total fold_right] in *. assert (0 <= total q). { clear. induction q as [|c q IH]; cbn [total fold_right]; [lia|]. pose proof (size_pos (ins c)). unfold total in IH. lia. } pose proof (size_pos (ins c)). unfold total in *. lia. }
  destruct l as [|o l]; cbn [partition] in P; [lia|]. destruct P as (P1 & P2 & P3 & P4). destruct En as (op & (Or & Od) & En).
  assert (M0 : m a = op). { specialize (Ho 0%nat). rewrite En in Ho. cbn [List.length nth] in Ho. rewrite <- (Ho ltac:(lia)). f_equal. lia. }
  unfold shows_at in P3. rewrite M0, Od in P3. destruct P3 as (P3 & P5). cbn [lists_program]. split; auto. split; auto. split.
  - unfold lists_code, value_of. destruct (value_kind (ins c)) as [[s| |]|] eqn:K.
    + destruct (kind_not_name _ _ K).
    + destruct P5 as (t1 & T1 & E1). exists t1. split; auto. unfold cell_text in T1. destruct (Z.ltb_spec (a + 1) 65536) as [Hl|Hl]; [|unfold size in *; rewrite K in *; lia].
      specialize (Ho 1%nat). rewrite En in Ho. cbn [List.length nth] in Ho. change (Z.of_nat 1) with 1 in Ho. rewrite Ho in T1 by lia. exact T1.
    + destruct P5 as (t1 & t2 & T1 & T2 & E1). exists t1, t2. unfold cell_text in T1, T2. unfold size in *. rewrite K in *.
      destruct (Z.ltb_spec (a + 1) 65536) as [Hl|Hl]; [|lia]. destruct (Z.ltb_spec (a + 2) 65536) as [Hl2|Hl2]; [|lia].
      pose proof (Ho 1%nat) as H1. pose proof (Ho 2%nat) as H2. rewrite En in H1, H2. cbn [List.length nth] in H1, H2. change (Z.of_nat 1) with 1 in H1. change (Z.of_nat 2) with 2 in H2.
      rewrite H1 in T1 by lia. rewrite H2 in T2 by lia. auto.
    + exact P5.
  - assert (Ea : l_to o + 1 = a + size (ins c)) by lia. rewrite Ea in P4. apply (IH _ bs l e b); auto; try lia; try lia.
    + intros x Hx. destruct (partition_ge _ _ _ _ _ P4 Hx). destruct (Hs x ltac:(cbn; auto)); [lia|auto].
    + intros Eq. subst q. destruct l as [|x l]; auto. exfalso. destruct (Hs x ltac:(cbn; auto)); destruct (partition_ge _ _ _ _ x P4 ltac:(cbn; auto)); cbn in *; lia.
Qed.
(** The debugger lists a saved program line by line, in the order of the source. *)
Theorem C48_program : forall lines codes init l h c, program lines codes init -> live l h true -> obs h c ->
  exists out slots h' rows, parse_input (text_of lines) init = Some out /\ new_translation out = Some slots /\ save_to_memory init (slot_values slots) h = Some h' /\
    deduct (seen h') init (init + total (somes codes)) = Lists rows /\ lists_program (somes codes) init init (somes codes) rows.
Proof.
  intros lines codes init l h c P L O. destruct (C42_source lines codes init l h c P L O) as (out & slots & h' & bytes & E1 & E2 & -> & Im & Tl & Sv & L' & Ho & _).
  destruct P as (P1 & P2 & P3 & P4 & P5 & P6). destruct (C47_memory _ h' true L') as (_ & R).
  destruct (C47_partition (seen h') init (init + total (somes codes)) R ltac:(lia)) as (rows & e & D & N & Pa & Eb & Hs).
  exists out, slots, h', rows. split; auto. split; auto. split; auto. split; auto. rewrite Z.max_r in * by lia. rewrite Z.min_l in * by lia.
  apply (lists_image (seen h') _ init _ init (slot_values slots) rows e (init + total (somes codes)) R Im Ho P5); auto. intros X. congruence.
Qed.
Example C48_program_nonvacuous : program ex_src ex_codes 256 /\ (exists l h c, live l h true /\ obs h c).
Proof.
  destruct C44_nonvacuous as (N1 & N2 & N3 & N4 & _). split; [unfold program; split; auto; split; auto; split; auto; split; [discriminate|]; split; [lia|exact N4]|].
  destruct (C14_nonvacuous (mkArch 0 false false 0 0 0 0 10 0 (fun i => 0) [])) as (l & h & L & _); [repeat split; cbn; lia|reflexivity|]. exists l, h.
  destruct (live_up l h true L) as (_ & z & U). destruct (up_obs h z U) as (O & _). eauto.
Qed.
Print Assumptions C42_source.
Print Assumptions C48_program.
