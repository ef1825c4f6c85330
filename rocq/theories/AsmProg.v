(** * Whole programs: [parseInput] against the specification *)
From Coq Require Import String ZArith NArith List Bool Lia ZifyBool ZifyN Sorting.Sorted.
From Verif Require Import JsStr AsmTable Asm Isa AsmSpec AsmRe AsmLine AsmFacts AsmExec.
Import ListNotations.
Open Scope Z_scope.

(** ** White space and comments *)
Definition all_ws (w : str) : Prop := forall c, In c w -> is_ws c = true.
Definition no_lead (s : str) : Prop := forall c, hd_error s = Some c -> is_ws c = false.
Lemma trim_start_unique : forall w s, all_ws w -> no_lead s -> trim_start (w ++ s) = s.
Proof.
  induction w as [|c w IH]; intros s W N; cbn [app trim_start].
  - destruct s as [|c s]; cbn [trim_start]; auto. rewrite (N c eq_refl). reflexivity.
  - rewrite (W c) by (cbn; auto). apply IH; auto. intros x Hx. apply W. cbn; auto.
Qed.
Lemma trim_start_split : forall s, exists w, s = w ++ trim_start s /\ all_ws w /\ no_lead (trim_start s).
Proof.
  induction s as [|c s IH]; cbn [trim_start].
  - exists []. repeat split; auto; [intros c []|intros c; discriminate].
  - destruct (is_ws c) eqn:E.
    + destruct IH as (w & Es & W & N). exists (c :: w). cbn [app]. rewrite <- Es. repeat split; auto. intros x [<-|Hx]; auto.
    + exists []. repeat split; auto; [intros x []|]. intros x H. injection H as <-. exact E.
Qed.
Lemma all_ws_rev : forall w, all_ws w -> all_ws (rev w).
Proof. intros w W c Hc. apply W. apply in_rev. exact Hc. Qed.
Lemma trim_end_unique : forall w s, all_ws w -> no_lead (rev s) -> trim_end (s ++ w) = s.
Proof. intros w s W N. unfold trim_end. rewrite rev_app_distr, trim_start_unique by auto using all_ws_rev. apply rev_involutive. Qed.
Lemma trim_end_split : forall s, exists w, s = trim_end s ++ w /\ all_ws w /\ no_lead (rev (trim_end s)).
Proof.
  intros s. unfold trim_end. destruct (trim_start_split (rev s)) as (w & E & W & N). exists (rev w). split.
  - rewrite <- rev_app_distr, <- E. symmetry. apply rev_involutive.
  - split; [apply all_ws_rev; auto|]. rewrite rev_involutive. exact N.
Qed.
Lemma trim_end_keep : forall a c b, is_ws c = false -> exists b', trim_end (a ++ c :: b) = a ++ c :: b'.
Proof.
  intros a c b H. destruct (trim_end_split b) as (w & E & W & N). destruct (trim_end b) as [|x b'] eqn:Eb.
  - exists []. cbn [app] in E. subst b. replace (a ++ c :: w) with ((a ++ [c]) ++ w) by (rewrite <- app_assoc; reflexivity).
    apply trim_end_unique; auto. rewrite rev_app_distr. cbn. intros y Hy. injection Hy as <-. exact H.
  - exists (x :: b'). rewrite E. replace (a ++ c :: (x :: b') ++ w) with ((a ++ c :: x :: b') ++ w) by (rewrite <- app_assoc; reflexivity).
    apply trim_end_unique; auto. intros y Hy. apply N. rewrite rev_app_distr in Hy. cbn [rev] in Hy |- *.
    destruct (rev b' ++ [x]) as [|z l] eqn:El; [destruct (rev b'); discriminate|]. cbn [app hd_error] in Hy |- *. exact Hy.
Qed.
Lemma index_of_app : forall c a b, ~ In c a -> index_of c (a ++ c :: b) = Some (List.length a).
Proof.
  induction a as [|x a IH]; intros b H; cbn [app index_of List.length]; [rewrite N.eqb_refl; reflexivity|].
  destruct (N.eqb_spec x c); [cbn in H; tauto|]. rewrite IH by (cbn in H; tauto). reflexivity.
Qed.
Lemma index_of_none : forall c a, ~ In c a -> index_of c a = None.
Proof. induction a as [|x a IH]; intros H; cbn; auto. destruct (N.eqb_spec x c); [cbn in H; tauto|]. rewrite IH by (cbn in H; tauto). reflexivity. Qed.
Lemma ws_no_hash : forall w, all_ws w -> ~ In HASH w.
Proof. intros w W H. apply W in H. discriminate H. Qed.
Lemma stripped_core : forall raw core, stripped raw core -> check_comment_line (trim raw) = core.
Proof.
  intros raw core (w1 & w2 & rest & -> & W & R & H & N).
  assert (W1 : all_ws w1) by (intros c Hc; apply W; auto). assert (W2 : all_ws w2) by (intros c Hc; apply W; auto).
  assert (Nl : no_lead core) by (intros c Hc; apply N; auto). assert (Nt : no_lead (rev core)) by (intros c Hc; apply N; auto).
  unfold trim, check_comment_line. destruct R as [->|(cs & ->)].
  - rewrite app_nil_r. assert (E : trim_end (trim_start (w1 ++ core ++ w2)) = core).
    { destruct core as [|c core].
      - cbn [app]. rewrite <- (app_nil_r (w1 ++ w2)). rewrite trim_start_unique; [reflexivity| |intros c; discriminate]. intros c Hc. apply in_app_or in Hc. destruct Hc; auto.
      - rewrite trim_start_unique; auto. apply trim_end_unique; auto. }
    rewrite E. rewrite index_of_none by exact H. reflexivity.
  - destruct core as [|c core].
    + cbn [app]. rewrite app_assoc. rewrite trim_start_unique; [|intros x Hx; apply in_app_or in Hx; destruct Hx; auto|intros x Hx; injection Hx as <-; reflexivity].
      destruct (trim_end_keep [] 35%N cs eq_refl) as (b & Eb). cbn [app] in Eb. rewrite Eb. cbn. reflexivity.
    + rewrite trim_start_unique; auto. rewrite app_assoc.
      destruct (trim_end_keep ((c :: core) ++ w2) 35%N cs eq_refl) as (b & Eb). rewrite Eb. change 35%N with HASH.
      rewrite index_of_app; [|intros Hx; apply in_app_or in Hx; destruct Hx as [Hx|Hx]; [exact (H Hx)|exact (ws_no_hash _ W2 Hx)]].
      rewrite firstn_app, firstn_all, Nat.sub_diag. cbn [firstn]. rewrite app_nil_r. apply trim_end_unique; auto.
Qed.
Lemma hash_split : forall s, exists a rest, s = a ++ rest /\ ~ In 35%N a /\ (rest = [] \/ exists cs, rest = 35%N :: cs).
Proof.
  induction s as [|x s (a & rest & -> & H & R)]; [exists [], []; cbn; auto|]. destruct (N.eq_dec x 35) as [->|N].
  - exists [], (35%N :: a ++ rest). cbn. eauto 6.
  - exists (x :: a), rest. split; auto. split; auto. intros [E|E]; [congruence|tauto].
Qed.
Lemma stripped_ex : forall raw, stripped raw (check_comment_line (trim raw)).
Proof.
  intros raw. assert (E : exists core, stripped raw core).
  { destruct (hash_split raw) as (a & rest & -> & H & R). destruct (trim_start_split a) as (w1 & E1 & W1 & N1).
    destruct (trim_end_split (trim_start a)) as (w2 & E2 & W2 & N2). exists (trim_end (trim_start a)), w1, w2, rest.
    split; [rewrite (app_assoc _ w2), <- E2, app_assoc, <- E1; reflexivity|]. split; [intros c [Hc|Hc]; auto|]. split; auto. split.
    - intros Hc. apply H. rewrite E1, E2. apply in_or_app. right. apply in_or_app. auto.
    - intros c [Hc|Hc]; [|apply N2; auto]. apply N1. rewrite E2. destruct (trim_end (trim_start a)); [discriminate|exact Hc]. }
  destruct E as (core & E). rewrite (stripped_core _ _ E). exact E.
Qed.
Definition core_of (raw : str) : str := check_comment_line (trim raw).
Lemma split_join : forall lines, lines <> [] -> (forall l, In l lines -> ~ In NEWLINE l) -> split NEWLINE (join NEWLINE lines) = lines.
Proof.
  induction lines as [|l ls IH]; intros N H; [congruence|]. destruct ls as [|l2 ls].
  - cbn [join]. apply split_nosep. apply H. cbn; auto.
  - change (join NEWLINE (l :: l2 :: ls)) with (l ++ NEWLINE :: join NEWLINE (l2 :: ls)). rewrite split_app by (apply H; cbn; auto).
    f_equal. apply IH; [discriminate|]. intros; apply H; cbn; auto.
Qed.
Lemma input_lines_join : forall lines, lines <> [] -> (forall l, In l lines -> ~ In NEWLINE l) -> input_lines (join NEWLINE lines) = map core_of lines.
Proof. intros lines N H. unfold input_lines. rewrite split_join by auto. rewrite map_map. reflexivity. Qed.

(** ** Labels *)
Definition same_refs (L L' : list str) : Prop := forall n, is_ref n -> (In n L <-> In n L').
Lemma value_ok_refs : forall L L' c, same_refs L L' -> value_ok L c -> value_ok L' c.
Proof.
  intros L L' [l i t] S. rewrite !value_ok_iff. intros [H|[(R & H)|H]]; auto. right. left. split; auto. apply S; auto.
Qed.
Lemma same_refs_sym : forall L L', same_refs L L' -> same_refs L' L.
Proof. intros L L' S n R. symmetry. apply S. exact R. Qed.

(** ** Rows of a program without errors *)
Fixpoint numbered {A} (k : nat) (l : list (option A)) : list (nat * A) :=
  match l with [] => [] | Some c :: l' => (k, c) :: numbered (S k) l' | None :: l' => numbered (S k) l' end.
Lemma numbered_somes : forall {A} (l : list (option A)) k, map snd (numbered k l) = somes l.
Proof. induction l as [|[c|] l IH]; intros k; cbn; auto. f_equal. apply IH. Qed.

Definition row_of (L : list str) (kc : nat * code) (r : row) : Prop :=
  exists e core, In e operations /\ entry_instr e = Some (ins (snd kc)) /\
    r = mkRow core (emitted L e (ins (snd kc)) (val (snd kc))) (lab (snd kc)) e (fst kc).
Definition core_code (core : str) (c : option code) : Prop :=
  single_line core /\ match c with None => core = [] | Some c => code_line core c end.
Lemma parts_nonnil : forall s c, code_line s c -> s <> [].
Proof.
  intros s c [(_ & P)|((Lb & _) & b & E & _)] ->; [exact (parts_nil _ _ P)|destruct (lab c); discriminate].
Qed.
Lemma parse_good : forall L cores codes k, Forall2 core_code cores codes -> (forall c, In c (somes codes) -> value_ok L c) ->
  exists rows, parse_lines L k cores = ([], rows) /\ Forall2 (row_of L) (numbered k codes) rows.
Proof.
  intros L cores codes k F. revert k. induction F as [|core c cores codes (SL & H) F IH]; intros k V; cbn [parse_lines numbered].
  - exists []. auto.
  - destruct c as [c|].
    + destruct (IH (S k)) as (rows & E & R); [intros; apply V; cbn; auto|]. rewrite E.
      destruct (line_good L core c k SL H) as (e & He & Ee & X & N); [apply V; cbn; auto|]. pose proof (parts_nonnil _ _ H) as Nn.
      destruct core as [|x core]; [congruence|]. rewrite X. cbn [r_result]. destruct (emitted L e (ins c) (val c)) as [|b bs] eqn:Eb; [congruence|].
      eexists. split; [reflexivity|]. constructor; auto. exists e, (x :: core). cbn [fst snd]. rewrite Eb. auto.
    + subst core. destruct (IH (S k)) as (rows & E & R); [auto|]. rewrite E. eauto.
Qed.

(** ** Label addresses *)
Lemma positions_found : forall L kcs rows a n, Forall2 (row_of L) kcs rows -> n <> [] ->
  find_eti (eti_positions rows a) n = if existsb (fun kc => str_eqb (lab (snd kc)) n) kcs then Some (address (map snd kcs) a n) else None.
Proof.
  intros L kcs rows a n F N. revert a. induction F as [|[k c] r kcs rows (e & core & He & Ee & ->) F IH]; intros a; cbn [eti_positions existsb map snd address]; auto.
  cbn [r_ins r_eti snd fst]. destruct (entry_facts e _ He Ee) as (_ & _ & _ & -> & _). cbn [snd].
  destruct (lab c) as [|x l] eqn:El.
  - destruct n as [|y n]; [congruence|]. cbn [str_eqb orb]. rewrite IH. reflexivity.
  - unfold find_eti. cbn [find fst]. destruct (str_eqb (x :: l) n) eqn:E; cbn [orb]; auto. apply IH.
Qed.
Lemma size_pos : forall i, 1 <= size i.
Proof. intros i. unfold size. destruct (value_kind i) as [[]|]; lia. Qed.
Lemma address_bounds : forall p a n, In n (map lab p) -> a <= address p a n < a + total p.
Proof.
  induction p as [|c p IH]; intros a n H; [destruct H|]. cbn [address total fold_right]. fold (total p). pose proof (size_pos (ins c)).
  assert (T : 0 <= total p) by (clear; induction p as [|c p IH]; cbn; [lia|]; fold (total p); pose proof (size_pos (ins c)); lia).
  destruct (str_eqb (lab c) n) eqn:E; [lia|]. destruct H as [H|H]; [rewrite H, str_eqb_refl in E; discriminate|]. specialize (IH (a + size (ins c)) n H). lia.
Qed.

(** ** [post] *)
Definition keeps (pos : list (str * Z)) (r : str) : Prop := find_eti pos r = None /\ check_is_hex r = true.
Lemma skipn_nth : forall {A} (l : list A) j x, nth_error l j = Some x -> skipn j l = x :: skipn (S j) l.
Proof. induction l as [|y l IH]; intros [|j] x H; try discriminate; cbn in H |- *; [injection H as ->; reflexivity|]. apply IH. exact H. Qed.
Lemma post_row_keep : forall f pos j res d, Forall (keeps pos) (skipn j res) -> (List.length (skipn j res) < f)%nat -> post_row f pos j res d = Some (res, d).
Proof.
  induction f as [|f IH]; intros pos j res d K Hf; [lia|]. cbn [post_row]. destruct (nth_error res j) as [r|] eqn:E; [|reflexivity].
  rewrite (skipn_nth _ _ _ E) in K, Hf. inversion K as [|? ? (K1 & K2) K3]; subst. cbn [List.length] in Hf. rewrite K1, K2. apply IH; auto. lia.
Qed.
(** All labels start with T. *)
Definition T_labels (pos : list (str * Z)) : Prop := forall p, In p pos -> is_ref (fst p).
Lemma hex_keeps : forall pos r, T_labels pos -> check_is_hex r = true -> keeps pos r.
Proof.
  intros pos r T H. split; auto. unfold find_eti. destruct (find (fun p => str_eqb (fst p) r) pos) as [p|] eqn:E; auto. exfalso.
  apply find_some in E. destruct E as (Hp & E). apply str_eqb_eq in E. subst r. rewrite (T_not_hex _ (T p Hp)) in H. discriminate.
Qed.
Lemma find_eti_len : forall pos n dir, find_eti pos n = Some dir -> (S (List.length (eti_dir_hex dir)) <= list_sum (map (fun p => S (List.length (eti_dir_hex (snd p)))) pos))%nat.
Proof.
  intros pos n dir H. unfold find_eti in H. destruct (find (fun p => str_eqb (fst p) n) pos) as [p|] eqn:E; [|discriminate]. cbn in H. injection H as <-.
  apply find_some in E. destruct E as (Hp & _). clear n. induction pos as [|q pos IH]; [destruct Hp|]. cbn [map list_sum fold_right]. fold (list_sum (map (fun p => S (List.length (eti_dir_hex (snd p)))) pos)).
  destruct Hp as [->|Hp]; [lia|]. specialize (IH Hp). unfold list_sum in *. lia.
Qed.
Lemma pairs_hex : forall n s, (List.length s <= n)%nat -> check_is_hex s = true -> Forall (fun r => check_is_hex r = true) (pairs s) /\ (List.length (pairs s) <= List.length s)%nat.
Proof.
  induction n as [|n IH]; intros s Hl Hs.
  - destruct s; [cbn; auto|cbn in Hl; lia].
  - destruct s as [|a [|b s]]; cbn [pairs]; [auto|split; [repeat constructor; auto|cbn; lia]|].
    cbn in Hs. rewrite !andb_true_iff in Hs. destruct Hs as (Ha & Hb & Hs). destruct (IH s) as (I1 & I2); [cbn in Hl; lia|exact Hs|].
    split; [constructor; auto; cbn; rewrite Ha, Hb; reflexivity|]. cbn [List.length] in *. lia.
Qed.
Lemma eti_dir_hex_ok : forall d, 0 <= d -> check_is_hex (eti_dir_hex d) = true.
Proof. intros d H. unfold eti_dir_hex, pad_start. rewrite hex_zeros, hex_upper. apply to_hex_hex. exact H. Qed.
(** A reference is replaced by the pieces of the address. *)
Lemma post_row_ref : forall pos op t dir, T_labels pos -> find_eti pos t = Some dir -> 0 <= dir ->
  post_row (post_fuel pos [op; t]) pos 1 [op; t] 0 = Some (op :: pairs (eti_dir_hex dir), O).
Proof.
  intros pos op t dir T F H. unfold post_fuel. pose proof (find_eti_len _ _ _ F) as Len.
  destruct (pairs_hex _ _ (le_n (List.length (eti_dir_hex dir))) (eti_dir_hex_ok dir H)) as (P1 & P2).
  cbn [List.length Nat.add]. set (n := list_sum _) in *. replace (S (S (n + 1))) with (S (S (S n))) by lia. cbn [post_row nth_error]. rewrite F. cbn [firstn skipn app].
  change (post_row (S (S n)) pos 2 (op :: pairs (eti_dir_hex dir)) 0 = Some (op :: pairs (eti_dir_hex dir), O)).
  apply post_row_keep.
  - cbn [skipn]. destruct (pairs (eti_dir_hex dir)) as [|x l]; [constructor|]. inversion P1; subst. eapply Forall_impl; [|eassumption]. intros r Hr. apply hex_keeps; auto.
  - cbn [skipn]. destruct (pairs (eti_dir_hex dir)); cbn [List.length] in *; lia.
Qed.
Lemma post_row_hexes : forall pos op l, T_labels pos -> Forall (fun r => check_is_hex r = true) l ->
  post_row (post_fuel pos (op :: l)) pos 1 (op :: l) 0 = Some (op :: l, O).
Proof.
  intros pos op l T F. apply post_row_keep.
  - cbn [skipn]. eapply Forall_impl; [|exact F]. intros r Hr. apply hex_keeps; auto.
  - unfold post_fuel. cbn [skipn List.length]. lia.
Qed.

(** What one row becomes. *)
Lemma num_bytes_hex : forall i t, Forall (fun r => check_is_hex r = true) (num_bytes i t).
Proof.
  intros i t. unfold num_bytes. pose proof (numeral_nonneg t) as N.
  assert (H : forall n, check_is_hex (pad_start n (to_hex (numeral_value t))) = true) by (intros n; unfold pad_start; rewrite hex_zeros; apply to_hex_hex; exact N).
  destruct (value_kind i) as [[]|]; repeat constructor; auto using hex_firstn, hex_skipn.
Qed.
Lemma num_bytes_value : forall i t, numeral_value t <= limit i -> value_kind i <> Some (Name "") -> forall k, value_kind i = Some k ->
  map parse_hex (num_bytes i t) = match k with Value16 => [numeral_value t / 256; numeral_value t mod 256] | _ => [numeral_value t] end /\
  Forall (fun r => List.length r = 2%nat) (num_bytes i t).
Proof.
  intros i t Hl _ k Hk. unfold num_bytes, limit in *. rewrite Hk in *. pose proof (numeral_nonneg t) as N. destruct k; cbn [map]; rewrite ?parse_hex_value.
  - destruct (pad2 (numeral_value t) ltac:(lia)) as (E1 & E2 & _ & E3). rewrite E1, E3. auto.
  - destruct (pad2 (numeral_value t) ltac:(lia)) as (E1 & E2 & _ & E3). rewrite E1, E3. auto.
  - destruct (pad4 (numeral_value t) ltac:(lia)) as (L & H & V). destruct (four_split _ _ L H V) as (L1 & L2 & _ & _ & V1 & V2). rewrite V1, V2. auto.
Qed.

(** A byte written with two hexadecimal digits. *)
Definition two_digits (r : str) : Prop := List.length r = 2%nat /\ check_is_hex r = true.
Definition final_row (p : list code) (a : Z) (kc : nat * code) (r : row) : Prop :=
  r_off r = fst kc /\ r_eti r = lab (snd kc) /\ encodes p a (snd kc) (slot_values (r_result r)) /\ Forall two_digits (r_result r).
Lemma kind_not_name : forall i s, value_kind i <> Some (Name s).
Proof. intros i s. unfold value_kind. destruct (syntax i) as [[m|m [x| |]|m [x| |] d]|]; discriminate. Qed.
Lemma post_one : forall L p a pos kc r, row_of L kc r -> T_labels pos -> value_ok L (snd kc) -> ~ byte_ref (snd kc) ->
  (is_ref (val (snd kc)) -> value_kind (ins (snd kc)) <> None -> find_eti pos (val (snd kc)) = Some (address p a (val (snd kc))) /\ 0 <= address p a (val (snd kc)) <= 65535) ->
  (value_kind (ins (snd kc)) <> None -> val (snd kc) <> []) ->
  exists res, post_row (post_fuel pos (r_result r)) pos 1 (r_result r) 0 = Some (res, O) /\
    final_row p a kc (mkRow (r_line r) res (r_eti r) (r_ins r) (r_off r)).
Proof.
  intros L p a pos [k c] r (e & core & He & Ee & ->) T V NB F Nn. cbn [fst snd r_result r_line r_eti r_ins r_off] in *.
  destruct (entry_facts e _ He Ee) as (Op & Hl & Hh & _ & Oc). unfold emitted.
  assert (Tw : two_digits (s2l (HEX e))) by (split; auto).
  destruct (value_kind (ins c)) as [kd|] eqn:Kd.
  - destruct (operand_cases L e (ins c) (val c) He Ee) as [(R & A & ->)|[(R & A & ->)|[(R & A & B & ->)|(R & A & ->)]]]; try (rewrite Kd; discriminate); try (apply Nn; discriminate).
    + (* reference *)
      destruct (F R ltac:(discriminate)) as (Ff & Rg). eexists. split; [apply post_row_ref; eauto; lia|]. unfold final_row. cbn [r_off r_eti r_result fst snd]. split; auto. split; auto.
      destruct (eti_hex4 _ Rg) as (L4 & H4 & V4). rewrite (pairs4 _ L4). destruct (four_split _ _ L4 H4 V4) as (L1 & L2 & H1 & H2 & V1 & V2).
      split; [|repeat constructor; auto]. exists (entry_op e). split; auto. unfold slot_values. cbn [map]. rewrite Kd.
      destruct kd as [s| |]; [destruct (kind_not_name _ _ Kd)|exfalso; apply NB; split; auto|].
      unfold is_ref in R. rewrite R. rewrite !parse_hex_value, V1, V2. cbv zeta. f_equal. unfold entry_op. rewrite parse_hex_value. reflexivity.
    + (* reference to no label *)
      exfalso. destruct c as [l i t]. cbn [ins val] in *. apply value_ok_iff in V. destruct V as [V|[(_ & V)|(V & _)]]; [congruence|tauto|exact (ref_not_numeral _ R V)].
    + (* numeral *)
      eexists. split; [apply post_row_hexes; auto using num_bytes_hex|]. unfold final_row. cbn [r_off r_eti r_result fst snd]. split; auto. split; auto.
      destruct (num_bytes_value (ins c) (val c) B (kind_not_name _ _) kd Kd) as (E1 & E2). pose proof (num_bytes_hex (ins c) (val c)) as E3. split.
      * exists (entry_op e). split; auto. unfold slot_values. cbn [map]. rewrite E1, Kd. unfold entry_op. f_equal.
        destruct kd as [s| |]; [destruct (kind_not_name _ _ Kd)|reflexivity|].
        destruct (hd_error (val c)) as [ch|] eqn:Eh; [|reflexivity]. unfold is_ref in R. rewrite Eh in R.
        destruct (N.eq_dec ch 84) as [->|Nc]; [tauto|].
        assert (M : forall (x y : Z), match ch with 84%N => x | _ => y end = y).
        { intros x y. clear -Nc. destruct ch as [|q]; auto. repeat (destruct q as [q|q|]; auto). congruence. }
        rewrite M. reflexivity.
      * constructor; auto. clear - E2 E3. induction E2; constructor; inversion E3; subst; auto. split; auto.
    + (* neither *)
      exfalso. destruct c as [l i t]. cbn [ins val] in *. apply value_ok_iff in V. destruct V as [V|[(V & _)|V]]; [congruence|tauto|tauto].
  - eexists. split; [apply post_row_hexes; auto|]. unfold final_row. cbn [r_off r_eti r_result fst snd]. split; auto. split; auto. split; [|constructor; auto].
    exists (entry_op e). split; auto. unfold slot_values. cbn [map]. rewrite Kd. reflexivity.
Qed.
Lemma post_all : forall pos (Q : nat * code -> row -> Prop) kcs rows f,
  Forall2 (fun kc r => exists res, post_row (post_fuel pos (r_result r)) pos 1 (r_result r) 0 = Some (res, O) /\ Q kc (mkRow (r_line r) res (r_eti r) (r_ins r) (r_off r))) kcs rows ->
  (List.length rows < f)%nat -> exists rows', post_rows f pos rows = Some rows' /\ Forall2 Q kcs rows'.
Proof.
  intros pos Q kcs rows f H. revert f. induction H as [|kc r kcs rows (res & E & Hq) H IH]; intros f Hf; (destruct f as [|f]; [lia|]); cbn [post_rows]; [eauto|].
  rewrite E. cbn [List.length] in Hf. destruct (IH f ltac:(lia)) as (rows' & E' & H'). rewrite E'. cbn. eauto.
Qed.
Lemma positions_T : forall L kcs rows a, Forall2 (row_of L) kcs rows -> (forall kc, In kc kcs -> lab (snd kc) = [] \/ is_ref (lab (snd kc))) -> T_labels (eti_positions rows a).
Proof.
  intros L kcs rows a F. revert a. induction F as [|[k c] r kcs rows (e & core & He & Ee & ->) F IH]; intros a H p Hp; cbn [eti_positions r_eti snd r_ins] in Hp; [destruct Hp|].
  assert (G : In p (eti_positions rows (a + ALLOC e)) -> is_ref (fst p)) by (apply IH; intros; apply H; cbn; auto).
  destruct (lab c) as [|x l] eqn:El; [auto|]. destruct Hp as [<-|Hp]; auto. cbn [fst]. destruct (H (k, c)) as [X|X]; cbn; auto; cbn [snd] in X; rewrite El in X; [discriminate|exact X].
Qed.
Lemma code_label : forall s c, code_line s c -> lab c = [] \/ is_ref (lab c).
Proof. intros s c [(E & _)|((E & _) & _)]; auto. Qed.
Lemma code_value : forall s c, code_line s c -> value_kind (ins c) <> None -> val c <> [].
Proof. intros s c [(_ & P)|(_ & b & _ & P)]; exact (parts_value _ _ _ P). Qed.
Lemma numbered_in : forall {A} (l : list (option A)) k kc, In kc (numbered k l) -> In (snd kc) (somes l).
Proof. intros A l k kc H. rewrite <- (numbered_somes l k). apply in_map. exact H. Qed.
Lemma core_code_in : forall cores codes c, Forall2 core_code cores codes -> In c (somes codes) -> exists core, In core cores /\ code_line core c.
Proof.
  intros cores codes c F. induction F as [|core o cores codes (_ & H) F IH]; intros Hc; [destruct Hc|]. destruct o as [c'|].
  - destruct Hc as [->|Hc]; [exists core; cbn; auto|]. destruct (IH Hc) as (x & ? & ?). exists x. cbn; auto.
  - destruct (IH Hc) as (x & ? & ?). exists x. cbn; auto.
Qed.
Lemma core_code_of : forall cores codes core c, Forall2 core_code cores codes -> In core cores -> code_line core c -> In c (somes codes).
Proof.
  intros cores codes core c F. induction F as [|x o cores codes (_ & H) F IH]; intros Hc Hl; [destruct Hc|]. destruct Hc as [->|Hc].
  - destruct o as [c'|]; [left; eapply code_line_fun; eauto|]. subst core. destruct (parts_nonnil _ _ Hl eq_refl).
  - specialize (IH Hc Hl). destruct o; cbn; auto.
Qed.
(** The addresses listed with the result, in the order of the lines. *)
Fixpoint labelled (p : list code) (a : Z) : list (str * Z) :=
  match p with
  | [] => []
  | c :: p' => let rest := labelled p' (a + size (ins c)) in match lab c with [] => rest | l => (l, a) :: rest end
  end.
Lemma positions_labelled : forall L kcs rows a, Forall2 (row_of L) kcs rows -> eti_positions rows a = labelled (map snd kcs) a.
Proof.
  intros L kcs rows a F. revert a. induction F as [|[k c] r kcs rows (e & core & He & Ee & ->) F IH]; intros a; cbn [eti_positions labelled map snd r_ins r_eti]; auto.
  destruct (entry_facts e _ He Ee) as (_ & _ & _ & -> & _). cbn [snd]. rewrite IH. reflexivity.
Qed.

Lemma Forall2_imp : forall {A B} (P Q : A -> B -> Prop) l l', (forall a b, P a b -> Q a b) -> Forall2 P l l' -> Forall2 Q l l'.
Proof. intros A B P Q l l' H F. induction F; constructor; auto. Qed.
Theorem assemble_good : forall cores codes init, Forall2 core_code cores codes ->
  (forall c, In c (somes codes) -> value_ok (map lab (somes codes)) c /\ ~ byte_ref c) -> 0 <= init -> init + total (somes codes) <= 65536 ->
  exists rows rows', parse_lines (pre cores) 0 cores = ([], rows) /\
    post_rows (S (List.length rows)) (eti_positions rows init) rows = Some rows' /\
    Forall2 (final_row (somes codes) init) (numbered 0 codes) rows' /\ eti_positions rows init = labelled (somes codes) init.
Proof.
  intros cores codes init F G I0 I1.
  assert (SL : forall s, In s cores -> single_line s).
  { clear -F. induction F as [|x o cores codes (S & _) F IH]; intros s Hs; [destruct Hs|]. destruct Hs as [<-|Hs]; auto. }
  assert (SR : same_refs (map lab (somes codes)) (pre cores)).
  { intros n R. rewrite (pre_labels cores n SL R). rewrite in_map_iff. split.
    - intros (c & E & Hc). destruct (core_code_in _ _ _ F Hc) as (core & H1 & H2). eauto.
    - intros (s & c & Hs & Hl & E). exists c. split; auto. eapply core_code_of; eauto. }
  destruct (parse_good (pre cores) cores codes 0 F) as (rows & E & R); [intros c Hc; apply (value_ok_refs _ _ _ SR); apply G; auto|].
  pose proof (positions_labelled _ _ _ init R) as EL. rewrite numbered_somes in EL.
  assert (T : T_labels (eti_positions rows init)).
  { eapply positions_T; [exact R|]. intros kc Hk. apply numbered_in in Hk. destruct (core_code_in _ _ _ F Hk) as (core & _ & Hl). exact (code_label _ _ Hl). }
  destruct (post_all (eti_positions rows init) (final_row (somes codes) init) (numbered 0 codes) rows (S (List.length rows))) as (rows' & E' & H').
  2: lia. 2: exists rows, rows'; auto.
  assert (R2 : Forall2 (fun kc r => In kc (numbered 0 codes) /\ row_of (pre cores) kc r) (numbered 0 codes) rows).
  { clear - R. revert R. generalize (numbered 0 codes) as l. intros l R. induction R; constructor; [cbn; auto|]. eapply Forall2_imp; [|exact IHR]. cbn. tauto. }
  eapply Forall2_imp; [|exact R2]. intros kc r (Hk & Hr). apply numbered_in in Hk. destruct (G _ Hk) as (V & NB). destruct (core_code_in _ _ _ F Hk) as (core & _ & Hl).
  apply (post_one (pre cores) (somes codes) init (eti_positions rows init) kc r Hr T); auto.
  - apply (value_ok_refs _ _ _ SR). exact V.
  - intros Rf Kn. assert (Hin : In (val (snd kc)) (map lab (somes codes))).
    { destruct (snd kc) as [l i t]. cbn [ins val] in *. apply value_ok_iff in V. destruct V as [V|[(_ & V)|(V & _)]]; [tauto|auto|destruct (ref_not_numeral _ Rf V)]. }
    pose proof (address_bounds (somes codes) init _ Hin). split; [|lia].
    rewrite (positions_found _ _ _ init (val (snd kc)) R) by (intros X; rewrite X in Rf; discriminate). rewrite numbered_somes.
    replace (existsb _ _) with true; auto. symmetry. apply existsb_exists. apply in_map_iff in Hin. destruct Hin as (c & Ec & Hc).
    rewrite <- (numbered_somes codes 0) in Hc. apply in_map_iff in Hc. destruct Hc as (kc' & Ek & Hk'). exists kc'. split; auto. rewrite Ek, Ec. apply str_eqb_refl.
  - exact (code_value _ _ Hl).
Qed.
