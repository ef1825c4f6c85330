(** * One line: [executeRegex] against the specification *)
From Coq Require Import String ZArith NArith List Bool Lia ZifyBool ZifyN.
From Verif Require Import JsStr AsmTable Asm Isa AsmSpec AsmRe AsmLine AsmFacts.
Import ListNotations.
Open Scope Z_scope.

(** ** The table *)
Definition is_dir (e : instruction) : bool := includes (s2l "dir") (s2l (NEMO e)).
Definition is_inm (e : instruction) : bool := includes (s2l "inm") (s2l (NEMO e)).
Definition entry_ok (e : instruction) : bool :=
  match entry_instr e with
  | Some i =>
      (0 <=? entry_op e) && (entry_op e <=? 255) && Nat.eqb (List.length (s2l (HEX e))) 2 && check_is_hex (s2l (HEX e)) && (ALLOC e =? size i) &&
      match syntax i, value_kind i with
      | Some (F0 _), None => true
      | Some _, None => GRUPO e <? 4
      | Some _, Some Value8 => negb (GRUPO e <? 4) && is_inm e && negb (is_dir e)
      | Some _, Some Value16 => negb (GRUPO e <? 4) && is_dir e && negb (is_inm e)
      | _, _ => false
      end
  | None => false
  end.
Lemma entries_ok : forallb entry_ok operations = true.
Proof. vm_compute. reflexivity. Qed.
Lemma entry_ok_in : forall e, In e operations -> entry_ok e = true.
Proof. intros e H. pose proof entries_ok as K. rewrite forallb_forall in K. auto. Qed.
Lemma entry_facts : forall e i, In e operations -> entry_instr e = Some i ->
  0 <= entry_op e <= 255 /\ List.length (s2l (HEX e)) = 2%nat /\ check_is_hex (s2l (HEX e)) = true /\ ALLOC e = size i /\ opcode i (entry_op e).
Proof.
  intros e i H E. pose proof (entry_ok_in e H) as K. unfold entry_ok in K. rewrite E in K. repeat (apply andb_true_iff in K; destruct K as (K & ?)).
  repeat split; try lia; auto.
Qed.

(** The translation of an instruction by entry [e] with value text [t]. *)
Definition emitted (L : list str) (e : instruction) (i : instr) (t : str) : list str :=
  match value_kind i with None => [s2l (HEX e)] | Some _ => translate_operand L e t end.
Lemma translate_emitted : forall L e i sh, In e operations -> entry_instr e = Some i -> smatch i (cshape sh) = true ->
  translate L e (groups sh) = emitted L e i (opnd i sh).
Proof.
  intros L e i sh H E M. pose proof (entry_ok_in e H) as K. unfold entry_ok in K. rewrite E in K. apply andb_true_iff in K. destruct K as (_ & K).
  unfold smatch in M. unfold emitted, opnd. unfold value_kind in *. destruct (syntax i) as [[m|m a|m a d]|]; [| | |discriminate].
  - destruct sh; try discriminate. reflexivity.
  - destruct sh; try discriminate. cbn [groups translate nth]. destruct a; [rewrite K; reflexivity| |];
      repeat (apply andb_true_iff in K; destruct K as (K & ?)); apply negb_true_iff in K; rewrite K; reflexivity.
  - destruct sh; try discriminate. cbn [groups translate nth]. destruct a; [rewrite K; reflexivity| |].
    + repeat (apply andb_true_iff in K; destruct K as (K & ?)); apply negb_true_iff in K; rewrite K; reflexivity.
    + rewrite K. reflexivity.
Qed.

Definition limit (i : instr) : Z := match value_kind i with Some Value16 => 65535 | _ => 255 end.
(** The text of a numeral operand. *)
Definition num_bytes (i : instr) (t : str) : list str :=
  match value_kind i with
  | Some Value16 => let h := pad_start 4 (to_hex (numeral_value t)) in [firstn 2 h; skipn 2 h]
  | Some _ => let h := pad_start 2 (to_hex (numeral_value t)) in [firstn 2 h]
  | None => []
  end.
Lemma operand_cases : forall L e i t, In e operations -> entry_instr e = Some i -> value_kind i <> None -> t <> [] ->
  (is_ref t /\ In t L /\ translate_operand L e t = [s2l (HEX e); t]) \/
  (is_ref t /\ ~ In t L /\ translate_operand L e t = []) \/
  (~ is_ref t /\ numeral t /\ numeral_value t <= limit i /\ translate_operand L e t = s2l (HEX e) :: num_bytes i t) \/
  (~ is_ref t /\ ~ (numeral t /\ numeral_value t <= limit i) /\ translate_operand L e t = []).
Proof.
  intros L e i t H E V N. pose proof (entry_ok_in e H) as K. unfold entry_ok in K. rewrite E in K. apply andb_true_iff in K. destruct K as (_ & K).
  unfold limit, num_bytes. destruct t as [|c t]; [tauto|]. unfold is_ref. cbn [hd_error translate_operand]. fold (is_dir e). fold (is_inm e).
  rewrite numeral_check. rewrite parse_hex_value.
  destruct (N.eqb_spec c T_CHAR) as [->|Nc].
  - destruct (existsb (str_eqb (T_CHAR :: t)) L) eqn:X.
    + left. apply existsb_exists in X. destruct X as (y & Hy & Ey). apply str_eqb_eq in Ey. subst y. auto.
    + right. left. split; auto. split; auto. intros Hi. rewrite <- not_true_iff_false in X. apply X. apply existsb_exists. eexists. split; [exact Hi|]. apply str_eqb_refl.
  - right. right. assert (Nr : Some c <> Some 84%N) by (unfold T_CHAR in Nc; congruence).
    destruct (check_is_hex (c :: t)) eqn:X; cbn [negb]; [|right; split; auto; split; auto; intros ((_ & ?) & _); discriminate].
    destruct (syntax i) as [f|]; [|discriminate]. destruct (value_kind i) as [[s| |]|]; try tauto; [destruct f; discriminate| |].
    + assert (Kd : is_inm e = true /\ is_dir e = false) by (destruct f; lia). destruct Kd as (-> & ->). cbn [andb].
      destruct (numeral_value (c :: t) >? 255) eqn:G.
      * right. split; auto. split; auto. lia.
      * left. split; auto. split; [split; [discriminate|auto]|]. split; [lia|]. reflexivity.
    + assert (Kd : is_inm e = false /\ is_dir e = true) by (destruct f; lia). destruct Kd as (-> & ->). cbn [andb].
      destruct (numeral_value (c :: t) >? 65535) eqn:G.
      * right. split; auto. split; auto. lia.
      * left. split; auto. split; [split; [discriminate|auto]|]. split; [lia|]. reflexivity.
Qed.
Lemma value_ok_iff : forall L l i t, value_ok L (mkCode l i t) <->
  (value_kind i = None \/ (is_ref t /\ In t L) \/ (numeral t /\ numeral_value t <= limit i)).
Proof.
  intros L l i t. unfold value_ok, limit. cbn [ins val]. 
  assert (K : match value_kind i with Some (Name _) => False | _ => True end).
  { unfold value_kind. destruct (syntax i) as [[m|m [s| |]|m [s| |] d]|]; auto. }
  destruct (value_kind i) as [[s| |]|]; try tauto; split; try tauto; intros [?|?]; try discriminate; tauto.
Qed.
Lemma ref_not_numeral : forall t, is_ref t -> ~ numeral t.
Proof. intros t R N. apply numeral_check in N. destruct N as (_ & N). rewrite (T_not_hex t R) in N. discriminate. Qed.
Lemma emitted_ok : forall L e i t l, In e operations -> entry_instr e = Some i -> (value_kind i <> None -> t <> []) ->
  (emitted L e i t <> [] <-> value_ok L (mkCode l i t)).
Proof.
  intros L e i t l H E N. rewrite value_ok_iff. unfold emitted. destruct (value_kind i) as [k|] eqn:V; [|split; [auto|discriminate]].
  destruct (operand_cases L e i t H E) as [(R & A & ->)|[(R & A & ->)|[(R & A & B & ->)|(R & A & ->)]]]; try (rewrite V; discriminate); try (apply N; discriminate).
  - split; [tauto|discriminate].
  - split; [congruence|]. intros [?|[(_ & ?)|(X & _)]]; try tauto; try discriminate. destruct (ref_not_numeral t R X).
  - split; [tauto|discriminate].
  - split; [congruence|]. intros [?|[(? & _)|X]]; try tauto; discriminate.
Qed.
Lemma parts_value : forall i t s, parts i t s -> value_kind i <> None -> t <> [].
Proof.
  intros i t s P V. apply parts_iff in P. destruct P as (M & ->). unfold opnd. destruct (value_kind i) as [k|] eqn:Vk; [|tauto].
  unfold value_kind in Vk. unfold smatch in M. destruct (syntax i) as [[m|m a|m a d]|]; try discriminate.
  - destruct (shape s) as [|w x| |]; try discriminate. cbn [cshape groups nth] in *. apply andb_true_iff in M. destruct M as (_ & M).
    destruct a; try discriminate; cbn [sarg] in M; apply nonnil_iff; [apply andb_true_iff in M; tauto|auto].
  - destruct (shape s) as [| |w x y|]; try discriminate. cbn [cshape groups nth] in *. rewrite !andb_true_iff in M. destruct M as ((_ & M) & _).
    destruct a; try discriminate; cbn [sarg] in M; apply nonnil_iff; [apply andb_true_iff in M; tauto].
Qed.

(** ** First word *)
Lemma join_split : forall sep s, join sep (split sep s) = s.
Proof.
  induction s as [|x s IH]; cbn [split]; [reflexivity|]. destruct (split sep s) as [|w ws] eqn:E.
  - exfalso. destruct s; cbn in E; [discriminate|]. destruct (N.eqb n sep); [discriminate|]. destruct (split sep s); discriminate.
  - destruct (N.eqb_spec x sep) as [->|N].
    + cbn [join]. cbn [app]. f_equal. exact IH.
    + destruct ws; cbn [join] in *; rewrite <- IH; reflexivity.
Qed.
Lemma split_nosep : forall sep s, ~ In sep s -> split sep s = [s].
Proof.
  induction s as [|x s IH]; intros H; cbn [split]; auto. destruct (N.eqb_spec x sep) as [->|]; [cbn in H; tauto|]. rewrite IH; auto. cbn in H; tauto.
Qed.
Lemma split_app : forall sep a b, ~ In sep a -> split sep (a ++ sep :: b) = a :: split sep b.
Proof.
  induction a as [|x a IH]; intros b H; cbn [app split]; [rewrite N.eqb_refl; reflexivity|].
  destruct (N.eqb_spec x sep) as [->|]; [cbn in H; tauto|]. rewrite IH; auto. cbn in H; tauto.
Qed.
Lemma first_of : forall a b, ~ In SPACE a -> first_word (a ++ SPACE :: b) = a /\ after_first_word (a ++ SPACE :: b) = b.
Proof. intros a b H. unfold first_word, after_first_word. rewrite split_app by auto. cbn [hd tl]. rewrite join_split. auto. Qed.
Lemma first_none : forall s, ~ In SPACE s -> first_word s = s /\ after_first_word s = [].
Proof. intros s H. unfold first_word, after_first_word. rewrite split_nosep by auto. auto. Qed.
Lemma first_cases : forall s, (exists a b, s = a ++ SPACE :: b /\ ~ In SPACE a) \/ ~ In SPACE s.
Proof.
  induction s as [|x s IH]; [right; tauto|]. destruct (N.eq_dec x SPACE) as [->|N]; [left; exists [], s; cbn; auto|].
  destruct IH as [(a & b & -> & H)|H]; [left; exists (x :: a), b; cbn; intuition|right; cbn; intuition].
Qed.
Lemma single_after : forall s, single_line s -> single_line (after_first_word s).
Proof.
  intros s H. destruct (first_cases s) as [(a & b & -> & N)|N].
  - rewrite (proj2 (first_of a b N)). intros c Hc. apply H. apply in_or_app. cbn. auto.
  - rewrite (proj2 (first_none s N)). intros c [].
Qed.

(** ** [executeRegex] *)
Definition hits (e : instruction) (s : str) : bool := cmatch (ekind e) (cshape (shape s)).
Lemma find_ext_in : forall {A} (f g : A -> bool) l, (forall x, In x l -> f x = g x) -> find f l = find g l.
Proof. induction l as [|a l IH]; intros H; cbn; auto. rewrite (H a) by (cbn; auto). rewrite IH; auto. intros; apply H; cbn; auto. Qed.
Lemma exec_find : forall L s off, single_line s -> execute_regex L s off =
  match find (fun e => hits e s || hits e (after_first_word s)) operations with
  | None => None
  | Some e =>
      if hits e s then Some (mkRow s (translate L e (groups (shape s))) [] e off)
      else if starts_with [T_CHAR] (first_word s)
           then Some (mkRow s (translate L e (groups (shape (after_first_word s)))) (first_word s) e off)
           else None
  end.
Proof.
  intros L s off H. unfold execute_regex. assert (G : forall e, In e operations -> In e operations) by auto. revert G.
  generalize operations at 1 3 4. induction l as [|e l IH]; intros G; cbn [execute_regex_from find]; auto.
  rewrite (ins_exec_cls e s) by (auto; apply G; cbn; auto). fold (hits e s). destruct (hits e s) eqn:E1; cbn [orb]; [rewrite E1; reflexivity|].
  rewrite (ins_exec_cls e (after_first_word s)) by (auto using single_after; apply G; cbn; auto). fold (hits e (after_first_word s)).
  destruct (hits e (after_first_word s)) eqn:E2; [rewrite E1; reflexivity|]. apply IH. intros; apply G; cbn; auto.
Qed.
Lemma find_or : forall {A} (p q : A -> bool) l x, find (fun e => p e || q e) l = Some x ->
  (p x = true -> find p l = Some x) /\ (p x = false -> find q l = Some x).
Proof.
  induction l as [|a l IH]; intros x H; cbn in H; [discriminate|]. cbn [find]. destruct (p a) eqn:Pa; cbn [orb] in H.
  - injection H as <-. split; auto. congruence.
  - destruct (q a) eqn:Qa.
    + injection H as <-. split; [congruence|auto].
    + apply IH. exact H.
Qed.
Lemma find_or_none : forall {A} (p q : A -> bool) l, find (fun e => p e || q e) l = None <-> find p l = None /\ find q l = None.
Proof.
  induction l as [|a l IH]; cbn; [tauto|]. destruct (p a), (q a); cbn; try tauto; split; try discriminate; intros (? & ?); discriminate.
Qed.
Lemma hit_find : forall s, hit (cshape (shape s)) = find (fun e => hits e s) operations. Proof. reflexivity. Qed.

(** A whole instruction whose rest after the first space is one too: its operand
    is a name like CMA, never a good value. *)
Lemma no_space_word : forall w, (forall c, In c w -> is_word c = true) -> ~ In SPACE w.
Proof. intros w H X. apply H in X. discriminate X. Qed.
Lemma parts_nil : forall j u, ~ parts j u [].
Proof.
  intros j u P. apply parts_iff in P. destruct P as (M & _). revert M. apply not_true_iff_false.
  assert (K : forallb (fun j => negb (smatch j (cshape (shape [])))) all_instr = true) by (vm_compute; reflexivity).
  rewrite forallb_forall in K. apply negb_true_iff. apply K, all_instr_in.
Qed.
(** Names of the form [F0]: not hexadecimal, not a register, not T. *)
Definition nullary_ok (j : instr) : bool :=
  match syntax j with
  | Some (F0 m) => negb (check_is_hex (s2l m)) && negb (Nat.ltb (cls names (s2l m)) 5) && negb (starts_with [T_CHAR] (s2l m))
  | _ => true
  end.
Lemma nullary_all : forall j, nullary_ok j = true.
Proof.
  assert (K : forallb nullary_ok all_instr = true) by (vm_compute; reflexivity). rewrite forallb_forall in K. intros j. apply K, all_instr_in.
Qed.
Lemma hd_upper : forall x, is_ref x -> starts_with [T_CHAR] (upper x) = true.
Proof. intros [|c x] H; [discriminate|]. injection H as ->. reflexivity. Qed.
Lemma word_parts : forall j u x, (forall c, In c x -> is_word c = true) -> parts j u x ->
  check_is_hex x = false /\ ~ is_name x /\ ~ is_ref x.
Proof.
  intros j u x W P. apply parts_iff in P. destruct P as (M & _). pose proof (nullary_all j) as K. pose proof (form_ok_all j) as F.
  assert (Es : shape x = S0 x). { unfold shape. rewrite <- (app_nil_r x) at 1. rewrite span_of by (auto; discriminate). reflexivity. }
  rewrite Es in M. unfold smatch, nullary_ok, form_ok in *. destruct (syntax j) as [[m|m a|m a d]|]; try discriminate. cbn [cshape] in M.
  assert (C : upper x = s2l m).
  { unfold lit_ok in F. apply andb_true_iff in F. destruct F as (_ & F). unfold cmnem in M. rewrite <- (cls_lit mnems (s2l m)) in M by exact F. apply str_eqb_eq. exact M. }
  rewrite !andb_true_iff in K. destruct K as ((K1 & K2) & K3). rewrite <- C in *. split; [rewrite <- hex_upper; apply negb_true_iff; auto|]. split.
  - rewrite names_iff. pose proof (cls_le names (upper x)) as B. change (List.length names) with 5%nat in B. apply negb_true_iff, Nat.ltb_ge in K2. lia.
  - intros R. rewrite (hd_upper x R) in K3. discriminate.
Qed.
Lemma name_is_name : forall a t x, arg_ok a = true -> (exists s, a = Name s) -> arg_text a t x -> is_name x.
Proof.
  intros a t x K (s & ->) (_ & C). cbn [arg_ok] in K. apply names_iff. apply (caseless_iff names s x K) in C. apply Nat.eqb_eq in C. rewrite C.
  unfold lit_ok in K. apply andb_true_iff in K. destruct K as (_ & K). apply cls_in in K. change (List.length names) with 5%nat in K. lia.
Qed.
Lemma both_parts : forall L i t j u s, parts i t s -> parts j u (after_first_word s) -> ~ value_ok L (mkCode [] i t).
Proof.
  intros L i t j u s P Q. rewrite value_ok_iff. pose proof (form_ok_all i) as K. unfold form_ok in K. unfold parts in P. unfold value_kind.
  destruct (syntax i) as [[m|m a|m a d]|]; [| | |tauto].
  - exfalso. destruct P as (_ & C). pose proof (caseless_words _ _ _ K C) as W. rewrite (proj2 (first_none s (no_space_word s W))) in Q. exact (parts_nil _ _ Q).
  - destruct P as (m' & c & x & -> & C & Wc & A). apply andb_true_iff in K. destruct K as (Km & Ka).
    pose proof (caseless_words _ _ _ Km C) as W. pose proof (arg_text_words _ _ _ Ka A) as Wx.
    destruct (N.eq_dec c SPACE) as [->|Nc].
    + rewrite (proj2 (first_of m' x (no_space_word m' W))) in Q. destruct (word_parts j u x Wx Q) as (H1 & H2 & H3).
      destruct a as [s| |]; [exfalso; apply H2; eapply name_is_name; eauto| |]; destruct A as (-> & _);
      intros [?|[(? & _)|(X & _)]]; try discriminate; try tauto; apply numeral_check in X; destruct X; congruence.
    + exfalso. rewrite (proj2 (first_none (m' ++ c :: x) ltac:(rewrite in_app_iff; cbn [In]; intros [X|[X|X]]; [exact (no_space_word _ W X)|congruence|exact (no_space_word _ Wx X)]))) in Q.
      exact (parts_nil _ _ Q).
  - exfalso. destruct P as (m' & c & x & sp & d' & -> & C & Wc & A & Hsp & D). apply andb_true_iff in K. destruct K as (K & Kd). apply andb_true_iff in K. destruct K as (Km & Ka).
    apply andb_true_iff in Ka. destruct Ka as (Ka & _).
    pose proof (caseless_words _ _ _ Km C) as W. pose proof (arg_text_words _ _ _ Ka A) as Wx. pose proof (caseless_words _ _ _ Kd D) as Wd.
    destruct (N.eq_dec c SPACE) as [->|Nc].
    + rewrite (proj2 (first_of m' _ (no_space_word m' W))) in Q. apply parts_iff in Q. destruct Q as (M & _).
      assert (Es : shape (x ++ 44%N :: sp ++ d') = SX). { unfold shape. rewrite span_of by (auto; intros ? ? E; injection E as <- <-; reflexivity). reflexivity. }
      rewrite Es in M. unfold smatch in M. cbn [cshape] in M. destruct (syntax j) as [[]|]; discriminate.
    + assert (N1 : ~ In SPACE (m' ++ c :: x ++ [44%N])).
      { rewrite in_app_iff. cbn [In]. rewrite in_app_iff. cbn [In]. intros [X|[X|[X|[X|[]]]]]; [exact (no_space_word _ W X)|congruence|exact (no_space_word _ Wx X)|discriminate X]. }
      replace (m' ++ c :: x ++ 44%N :: sp ++ d') with ((m' ++ c :: x ++ [44%N]) ++ sp ++ d') in Q by (rewrite <- app_assoc; cbn [app]; rewrite <- app_assoc; reflexivity).
      assert (D2 : sp = [SPACE] \/ ~ In SPACE ((m' ++ c :: x ++ [44%N]) ++ sp ++ d')).
      { destruct Hsp as [->|(c' & -> & _)].
        - right. rewrite in_app_iff. intros [X|X]; [exact (N1 X)|exact (no_space_word _ Wd X)].
        - destruct (N.eq_dec c' SPACE) as [->|Nc']; [auto|]. right. rewrite in_app_iff. intros [X|[X|X]]; [exact (N1 X)|congruence|exact (no_space_word _ Wd X)]. }
      destruct D2 as [->|N2].
      * cbn [app] in Q. rewrite (proj2 (first_of _ d' N1)) in Q. destruct (word_parts j u d' Wd Q) as (_ & H2 & _). apply H2. eapply (name_is_name (Name d) []); eauto. split; auto.
      * rewrite (proj2 (first_none _ N2)) in Q. exact (parts_nil _ _ Q).
Qed.
(** No name of an instruction starts with T. *)
Definition head_ok (i : instr) : bool :=
  match syntax i with
  | Some (F0 m) | Some (F1 m _) | Some (F2 m _ _) => negb (starts_with [T_CHAR] (s2l m)) && negb (Nat.eqb (List.length (s2l m)) 0)
  | None => true
  end.
Lemma head_all : forall i, head_ok i = true.
Proof. assert (K : forallb head_ok all_instr = true) by (vm_compute; reflexivity). rewrite forallb_forall in K. intros j. apply K, all_instr_in. Qed.
Lemma parts_not_T : forall i t s, parts i t s -> hd_error s <> Some T_CHAR.
Proof.
  intros i t s P H. pose proof (head_all i) as K. pose proof (form_ok_all i) as F. unfold head_ok, form_ok, parts in *.
  assert (G : forall m m' r, lit_ok mnems m = true -> negb (starts_with [T_CHAR] (s2l m)) && negb (Nat.eqb (List.length (s2l m)) 0) = true ->
              caseless m m' -> hd_error (m' ++ r) = Some T_CHAR -> False).
  { intros m m' r O Hh C E. apply andb_true_iff in Hh. destruct Hh as (H1 & H2). unfold lit_ok in O. apply andb_true_iff in O. destruct O as (O & _).
    unfold caseless in C. rewrite (map_up_good (s2l m) O) in C. rewrite <- C in H1, H2. destruct m' as [|c m']; [discriminate|]. cbn in E. injection E as ->. discriminate. }
  destruct (syntax i) as [[m|m a|m a d]|]; [| | |tauto].
  - destruct P as (_ & C). apply (G m s []); auto. rewrite app_nil_r. exact H.
  - destruct P as (m' & c & x & -> & C & _). apply andb_true_iff in F. destruct F as (F & _). eapply G; eauto.
  - destruct P as (m' & c & x & sp & d' & -> & C & _). rewrite !andb_true_iff in F. destruct F as ((F & _) & _). eapply G; eauto.
Qed.

Lemma hit_parts : forall s e, hit (cshape (shape s)) = Some e -> exists i, In e operations /\ entry_instr e = Some i /\ parts i (opnd i (shape s)) s.
Proof.
  intros s e H. destruct (hit_sound _ _ H) as (i & E & M). exists i. unfold hit in H. apply find_some in H. destruct H as (H & _).
  split; auto. split; auto. apply parts_iff. auto.
Qed.
Lemma parts_hit : forall i t s, parts i t s -> exists e, hit (cshape (shape s)) = Some e /\ In e operations /\ entry_instr e = Some i /\ t = opnd i (shape s).
Proof.
  intros i t s P. apply parts_iff in P. destruct P as (M & E). destruct (hit_complete _ _ M) as (e & H & He). exists e. split; auto.
  unfold hit in H. apply find_some in H. tauto.
Qed.

(** A line of code with a good value becomes a row. *)
Lemma line_good : forall L s c off, single_line s -> code_line s c -> value_ok L c ->
  exists e, In e operations /\ entry_instr e = Some (ins c) /\
    execute_regex L s off = Some (mkRow s (emitted L e (ins c) (val c)) (lab c) e off) /\ emitted L e (ins c) (val c) <> [].
Proof.
  intros L s [l i t] off SL C V. cbn [ins val lab]. destruct C as [(El & P)|(Lb & body & -> & P)]; cbn [ins val lab] in *.
  - subst l. destruct (parts_hit _ _ _ P) as (e & H & He & Ee & Et). exists e. split; auto. split; auto. split.
    + rewrite exec_find by exact SL. rewrite hit_find in H.
      destruct (find (fun e => hits e s || hits e (after_first_word s)) operations) as [e'|] eqn:F; [|apply find_or_none in F; destruct F; congruence].
      destruct (find_or _ _ _ _ F) as (F1 & F2). destruct (hits e' s) eqn:X.
      * rewrite (F1 eq_refl) in H. injection H as ->. rewrite (translate_emitted L e i) by (auto; apply parts_iff in P; tauto). rewrite <- Et. reflexivity.
      * exfalso. specialize (F2 eq_refl). rewrite <- hit_find in F2. destruct (hit_parts _ _ F2) as (j & _ & _ & Q). exact (both_parts L _ _ _ _ _ P Q V).
    + apply (emitted_ok L e i t []); auto. exact (parts_value _ _ _ P).
  - destruct Lb as (Lb & Ls). destruct (first_of l body Ls) as (Ef & Ea). destruct (parts_hit _ _ _ P) as (e & H & He & Ee & Et). exists e. split; auto. split; auto. split.
    + rewrite exec_find by exact SL. change 32%N with SPACE. rewrite Ef, Ea. rewrite hit_find in H.
      destruct (find (fun e => hits e (l ++ SPACE :: body) || hits e body) operations) as [e'|] eqn:F; [|apply find_or_none in F; destruct F; congruence].
      destruct (find_or _ _ _ _ F) as (F1 & F2). destruct (hits e' (l ++ SPACE :: body)) eqn:X.
      * exfalso. specialize (F1 eq_refl). rewrite <- hit_find in F1. destruct (hit_parts _ _ F1) as (j & _ & _ & Q). apply (parts_not_T _ _ _ Q). destruct l; [discriminate|exact Lb].
      * rewrite (F2 eq_refl) in H. injection H as ->. replace (starts_with [T_CHAR] l) with true by (destruct l; [discriminate|]; injection Lb as ->; reflexivity).
        rewrite (translate_emitted L e i) by (auto; apply parts_iff in P; tauto). rewrite <- Et. reflexivity.
    + apply (emitted_ok L e i t []); auto. exact (parts_value _ _ _ P).
Qed.
Lemma starts_T : forall l, starts_with [T_CHAR] l = true -> is_ref l.
Proof. intros [|c l] H; [discriminate|]. cbn [starts_with] in H. apply andb_true_iff in H. destruct H as (H & _). apply N.eqb_eq in H. subst c. reflexivity. Qed.
(** Only such a line becomes a row. *)
Lemma line_bad : forall L s off r, single_line s -> execute_regex L s off = Some r -> r_result r <> [] -> exists c, code_line s c /\ value_ok L c.
Proof.
  intros L s off r SL. rewrite exec_find by exact SL.
  destruct (find (fun e => hits e s || hits e (after_first_word s)) operations) as [e|] eqn:F; [|discriminate].
  destruct (find_or _ _ _ _ F) as (F1 & F2). destruct (hits e s) eqn:X.
  - specialize (F1 eq_refl). rewrite <- hit_find in F1. destruct (hit_parts _ _ F1) as (i & He & Ee & P). intros H R. injection H as <-. cbn [r_result] in R.
    rewrite (translate_emitted L e i) in R by (auto; apply parts_iff in P; tauto). exists (mkCode [] i (opnd i (shape s))). split; [left; auto|].
    apply (emitted_ok L e i _ []) in R; auto. exact (parts_value _ _ _ P).
  - specialize (F2 eq_refl). rewrite <- hit_find in F2. destruct (hit_parts _ _ F2) as (i & He & Ee & P).
    destruct (starts_with [T_CHAR] (first_word s)) eqn:T; [|discriminate]. intros H R. injection H as <-. cbn [r_result] in R.
    rewrite (translate_emitted L e i) in R by (auto; apply parts_iff in P; tauto).
    exists (mkCode (first_word s) i (opnd i (shape (after_first_word s)))). split.
    + right. cbn [lab ins val]. destruct (first_cases s) as [(a & b & -> & N)|N].
      * destruct (first_of a b N) as (Ef & Ea). rewrite Ef, Ea in *. split; [split; auto; exact (starts_T _ T)|]. exists b. auto.
      * rewrite (proj2 (first_none s N)) in P. destruct (parts_nil _ _ P).
    + apply (emitted_ok L e i _ (first_word s)) in R; auto. exact (parts_value _ _ _ P).
Qed.
(** A line is at most one instruction. *)
Lemma code_line_fun : forall s c c', code_line s c -> code_line s c' -> c = c'.
Proof.
  intros s [l i t] [l' i' t'] H H'.
  assert (G : forall i t i' t' s, parts i t s -> parts i' t' s -> i = i' /\ t = t').
  { clear. intros i t i' t' s P P'. destruct (parts_hit _ _ _ P) as (e & Hh & _ & E & ->). destruct (parts_hit _ _ _ P') as (e' & Hh' & _ & E' & ->).
    assert (i = i') by congruence. subst. auto. }
  destruct H as [(El & P)|(Lb & b & Es & P)], H' as [(El' & P')|(Lb' & b' & Es' & P')]; cbn [lab ins val] in *.
  - destruct (G _ _ _ _ _ P P') as (-> & ->). congruence.
  - exfalso. apply (parts_not_T _ _ _ P). rewrite Es'. destruct Lb' as (Lb' & _). destruct l'; [discriminate|exact Lb'].
  - exfalso. apply (parts_not_T _ _ _ P'). rewrite Es. destruct Lb as (Lb & _). destruct l; [discriminate|exact Lb].
  - subst s. destruct (first_of l b (proj2 Lb)) as (E1 & E2). change SPACE with 32%N in *. rewrite Es' in E1, E2.
    destruct (first_of l' b' (proj2 Lb')) as (E3 & E4). change SPACE with 32%N in *. assert (l = l') by congruence. assert (Eb : b = b') by congruence. rewrite Eb in P.
    destruct (G _ _ _ _ _ P P') as (-> & ->). congruence.
Qed.
(** The names [pre] collects that start with T are the labels of the lines of code. *)
Lemma pre_labels : forall lines n, (forall s, In s lines -> single_line s) -> is_ref n ->
  (In n (pre lines) <-> exists s c, In s lines /\ code_line s c /\ lab c = n).
Proof.
  intros lines n SL R. unfold pre. rewrite in_flat_map. split.
  - intros (s & Hs & H). apply in_flat_map in H. destruct H as (e & He & H). rewrite ins_exec_cls in H by auto using single_after.
    destruct (cmatch (ekind e) (cshape (shape (after_first_word s)))) eqn:X; [|destruct H]. destruct H as [<-|[]].
    destruct (hit (cshape (shape (after_first_word s)))) as [e'|] eqn:F.
    + destruct (hit_parts _ _ F) as (i & _ & _ & P). exists s, (mkCode (first_word s) i (opnd i (shape (after_first_word s)))). split; auto. split; auto. right. cbn [lab ins val].
      destruct (first_cases s) as [(a & b & -> & N)|N].
      * destruct (first_of a b N) as (Ef & Ea). rewrite Ef, Ea in *. split; [split; auto|]. exists b. auto.
      * rewrite (proj2 (first_none s N)) in P. destruct (parts_nil _ _ P).
    + exfalso. apply (find_none _ _ F) in He. cbv beta in He. congruence.
  - intros (s & c & Hs & C & <-). exists s. split; auto. destruct C as [(E & _)|(Lb & b & -> & P)].
    + rewrite E in R. discriminate.
    + destruct (first_of (lab c) b (proj2 Lb)) as (Ef & Ea). change SPACE with 32%N in *. rewrite Ef, Ea. destruct (parts_hit _ _ _ P) as (e & Hh & He & _).
      apply in_flat_map. exists e. split; auto. assert (SLb : single_line b). { intros x Hx. apply (SL _ Hs). apply in_or_app. cbn. auto. }
      rewrite ins_exec_cls by auto. unfold hit in Hh. apply find_some in Hh. destruct Hh as (_ & ->). cbn. auto.
Qed.
