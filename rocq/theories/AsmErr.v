(** * Errors, totality and comments of the assembler *)
From Coq Require Import String ZArith NArith List Bool Lia ZifyBool ZifyN Sorting.Sorted.
From Verif Require Import JsStr AsmTable Asm Isa AsmSpec AsmRe AsmLine AsmFacts AsmExec AsmProg.
Import ListNotations.
Open Scope Z_scope.

Local Opaque operations.
(** ** Which lines are accepted *)
Definition some_bytes (o : option row) : bool := match o with Some r => match r_result r with [] => false | _ => true end | None => false end.
Definition accepted (L : list str) (line : str) : bool := some_bytes (execute_regex L line 0).
Definition set_off (k : nat) (r : row) : row := mkRow (r_line r) (r_result r) (r_eti r) (r_ins r) k.
Lemma exec_off : forall l L s k k', execute_regex_from l L s k = option_map (set_off k) (execute_regex_from l L s k').
Proof.
  induction l as [|e l IH]; intros L s k k'; cbn [execute_regex_from]; auto. destruct (ins_exec e s); [reflexivity|].
  destruct (ins_exec e (after_first_word s)); [destruct (starts_with [T_CHAR] (first_word s)); reflexivity|]. apply IH.
Qed.
Fixpoint indices (f : str -> bool) (k : nat) (l : list str) : list nat :=
  match l with [] => [] | s :: l' => if f s then k :: indices f (S k) l' else indices f (S k) l' end.
Lemma indices_in : forall f l k j, In j (indices f k l) <-> (k <= j)%nat /\ exists s, nth_error l (j - k) = Some s /\ f s = true.
Proof.
  induction l as [|s l IH]; intros k j; cbn [indices].
  - split; [intros []|]. intros (_ & s & H & _). destruct (j - k)%nat; discriminate.
  - assert (G : (S k <= j)%nat /\ (exists x, nth_error l (j - S k) = Some x /\ f x = true) <-> (k < j)%nat /\ exists x, nth_error (s :: l) (j - k) = Some x /\ f x = true).
    { split; intros (H & x & Hx & Hf); (split; [lia|]); exists x; (split; [|auto]).
      - replace (j - k)%nat with (S (j - S k)) by lia. exact Hx.
      - replace (j - k)%nat with (S (j - S k)) in Hx by lia. exact Hx. }
    destruct (f s) eqn:E; cbn [In]; rewrite IH, G; (split; [|intros (H & x & Hx & Hf); destruct (Nat.eq_dec j k) as [->|N]]).
    + intros [<-|(H & x & Hx & Hf)]; [split; [lia|]; exists s; rewrite Nat.sub_diag; auto|]. split; [lia|eauto].
    + auto.
    + right. split; [lia|eauto].
    + intros (H & x & Hx & Hf). split; [lia|eauto].
    + rewrite Nat.sub_diag in Hx. cbn in Hx. congruence.
    + split; [lia|eauto].
Qed.
Lemma indices_sorted : forall f l k, StronglySorted lt (indices f k l).
Proof.
  induction l as [|s l IH]; intros k; cbn [indices]; [constructor|]. destruct (f s); auto. constructor; auto.
  apply Forall_forall. intros j Hj. apply indices_in in Hj. lia.
Qed.
Definition nonblank (s : str) : bool := match s with [] => false | _ => true end.
Lemma parse_indices : forall L cores k, fst (parse_lines L k cores) = indices (fun s => nonblank s && negb (accepted L s)) k cores /\
  map r_off (snd (parse_lines L k cores)) = indices (fun s => nonblank s && accepted L s) k cores.
Proof.
  intros L. induction cores as [|s cores IH]; intros k; cbn [parse_lines indices]; auto. specialize (IH (S k)). destruct (parse_lines L (S k) cores) as [errs rows]. cbn [fst snd] in IH.
  destruct IH as (I1 & I2). destruct s as [|c s]; cbn [nonblank andb]; [auto|].
  unfold accepted, execute_regex. rewrite (exec_off operations L (c :: s) k 0). destruct (execute_regex_from operations L (c :: s) 0) as [r|]; cbn [option_map some_bytes].
  - cbn [set_off r_result]. destruct (r_result r) as [|b bs]; cbn [negb fst snd map r_off]; rewrite ?I1, ?I2; auto.
  - cbn [negb fst snd]. rewrite I1, I2. auto.
Qed.
Lemma accepted_iff : forall L s, single_line s -> (accepted L s = true <-> exists c, code_line s c /\ value_ok L c).
Proof.
  intros L s SL. unfold accepted. split.
  - destruct (execute_regex L s 0) as [r|] eqn:E; [|discriminate]. cbn [some_bytes]. intros H. apply (line_bad L s 0 r SL E). destruct (r_result r); congruence.
  - intros (c & Hc & V). destruct (line_good L s c 0 SL Hc V) as (e & _ & _ & E & N). rewrite E. cbn [some_bytes r_result]. destruct (emitted L e (ins c) (val c)); congruence.
Qed.

(** ** Totality *)
Definition res_form (res : list str) : Prop :=
  exists op rest, res = op :: rest /\ (Forall (fun r => check_is_hex r = true) rest \/ exists t, rest = [t] /\ is_ref t).
Lemma translate_form : forall L e ops, translate L e ops <> [] -> res_form (translate L e ops).
Proof.
  intros L e ops N.
  assert (H0 : res_form [s2l (HEX e)]) by (exists (s2l (HEX e)), []; auto).
  assert (H1 : forall o, translate_operand L e o <> [] -> res_form (translate_operand L e o)).
  { intros o No. unfold translate_operand in *. destruct o as [|c o]; [congruence|]. cbv zeta in *.
    destruct (N.eqb_spec c T_CHAR) as [->|].
    - destruct (existsb (str_eqb (T_CHAR :: o)) L); [|congruence]. exists (s2l (HEX e)), [T_CHAR :: o]. split; auto. right. eexists. split; [reflexivity|]. reflexivity.
    - destruct (negb (check_is_hex (c :: o))); [congruence|]. destruct (_ && (parse_hex (c :: o) >? 65535)); [congruence|]. destruct (_ && (parse_hex (c :: o) >? 255)); [congruence|].
      assert (Hx : forall m, check_is_hex (pad_start m (to_hex (parse_hex (c :: o)))) = true).
      { intros m. unfold pad_start. rewrite hex_zeros. apply to_hex_hex. rewrite parse_hex_value. apply numeral_nonneg. }
      destruct (includes (s2l "dir") (s2l (NEMO e))); eexists _, _; (split; [reflexivity|]); left; repeat constructor; auto using hex_firstn, hex_skipn. }
  unfold translate in *. destruct ops as [|a [|b [|c [|]]]]; try congruence; auto; destruct (GRUPO e <? 4); auto.
Qed.
Definition row_good (r : row) : Prop := In (r_ins r) operations /\ (r_eti r = [] \/ is_ref (r_eti r)) /\ res_form (r_result r).
Lemma exec_row : forall l L s k r, (forall e, In e l -> In e operations) -> execute_regex_from l L s k = Some r -> r_result r <> [] -> row_good r.
Proof.
  induction l as [|e l IH]; intros L s k r Hl H N; cbn [execute_regex_from] in H; [discriminate|].
  destruct (ins_exec e s) as [ops|].
  - injection H as <-. cbn [r_result] in N. split; [apply Hl; cbn; auto|]. split; [auto|]. apply translate_form. exact N.
  - destruct (ins_exec e (after_first_word s)) as [ops|].
    + destruct (starts_with [T_CHAR] (first_word s)) eqn:T; [|discriminate]. injection H as <-. cbn [r_result] in N. split; [apply Hl; cbn; auto|]. split; [right; exact (starts_T _ T)|].
      apply translate_form. exact N.
    + eapply IH; eauto. intros; apply Hl; cbn; auto.
Qed.
Lemma parse_rows_good : forall L cores k, Forall row_good (snd (parse_lines L k cores)).
Proof.
  intros L. induction cores as [|s cores IH]; intros k; cbn [parse_lines]; [constructor|]. specialize (IH (S k)). destruct (parse_lines L (S k) cores) as [errs rows]. cbn [snd] in IH.
  destruct s as [|c s]; [exact IH|]. unfold execute_regex. destruct (execute_regex_from operations L (c :: s) k) as [r|] eqn:E; [|exact IH].
  destruct (r_result r) as [|b bs] eqn:Er; [exact IH|]. cbn [snd]. constructor; auto. apply (exec_row operations L (c :: s) k r (fun e H => H) E). congruence.
Qed.
Lemma positions_good : forall rows a, Forall row_good rows -> 0 <= a -> T_labels (eti_positions rows a) /\ forall p, In p (eti_positions rows a) -> 0 <= snd p.
Proof.
  induction rows as [|r rows IH]; intros a F Ha; cbn [eti_positions]; [split; intros p []|]. inversion F as [|? ? (Hi & He & _) F']; subst.
  assert (A : 0 <= ALLOC (r_ins r)).
  { pose proof entries_ok as K. rewrite forallb_forall in K. specialize (K _ Hi). unfold entry_ok in K. destruct (entry_instr (r_ins r)) as [i|]; [|discriminate]. pose proof (size_pos i). lia. }
  destruct (IH (a + ALLOC (r_ins r)) F') as (I1 & I2); [lia|]. destruct (r_eti r) as [|x l] eqn:E; [auto|].
  split; intros p [<-|Hp]; auto. cbn [fst]. destruct He as [X|X]; [discriminate|exact X].
Qed.
Lemma post_row_total : forall pos res, T_labels pos -> (forall p, In p pos -> 0 <= snd p) -> res_form res ->
  exists res' d, post_row (post_fuel pos res) pos 1 res 0 = Some (res', d).
Proof.
  intros pos res T P (op & rest & -> & [H|(t & -> & R)]).
  - rewrite post_row_hexes by auto. eauto.
  - destruct (find_eti pos t) as [dir|] eqn:E.
    + rewrite (post_row_ref pos op t dir T E); [eauto|]. unfold find_eti in E. destruct (find (fun p => str_eqb (fst p) t) pos) as [p|] eqn:F; [|discriminate]. injection E as <-.
      apply find_some in F. destruct F as (F & _). auto.
    + unfold post_fuel. cbn [List.length Nat.add]. set (n := list_sum _). replace (S (S (n + 1))) with (S (S (S n))) by lia. cbn [post_row nth_error]. rewrite E. eauto.
Qed.
Lemma post_rows_total : forall pos f rows, T_labels pos -> (forall p, In p pos -> 0 <= snd p) -> Forall row_good rows -> (List.length rows < f)%nat ->
  exists rows', post_rows f pos rows = Some rows'.
Proof.
  intros pos. induction f as [|f IH]; intros rows T P G Hf; [lia|]. cbn [post_rows]. destruct rows as [|r rest]; [eauto|]. inversion G as [|? ? Gr G']; subst.
  destruct (post_row_total pos (r_result r) T P) as (res & d & E); [apply Gr|]. rewrite E. cbn [List.length] in Hf. destruct d as [|d].
  - destruct (IH rest T P G' ltac:(lia)) as (rows' & ->). cbn. eauto.
  - destruct (skipn d rest) as [|r2 rest2] eqn:Es; [eauto|]. assert (G2 : Forall row_good (skipn d rest)).
    { apply Forall_forall. intros x Hx. rewrite Forall_forall in G'. apply G'. rewrite <- (firstn_skipn d rest). apply in_or_app. auto. }
    rewrite Es in G2. inversion G2; subst. assert (List.length (skipn d rest) <= List.length rest)%nat by (rewrite skipn_length; lia). rewrite Es in H. cbn [List.length] in H.
    destruct (IH rest2 T P) as (rows' & ->); auto; [lia|]. cbn. eauto.
Qed.
Theorem parse_total : forall text init, 0 <= init -> exists out, parse_input text init = Some out.
Proof.
  intros text init H. unfold parse_input. cbv zeta. pose proof (parse_rows_good (pre (input_lines text)) (input_lines text) 0) as G.
  destruct (parse_lines (pre (input_lines text)) 0 (input_lines text)) as [errs rows]. cbn [snd] in G.
  destruct (positions_good rows init G H) as (T & P). destruct (post_rows_total (eti_positions rows init) (S (List.length rows)) rows T P G ltac:(lia)) as (rows' & ->). cbn. eauto.
Qed.

(** ** Rows kept by [post] *)
Inductive sub {A} : list A -> list A -> Prop :=
| sub_nil : forall l, sub [] l
| sub_keep : forall x l l', sub l l' -> sub (x :: l) (x :: l')
| sub_skip : forall x l l', sub l l' -> sub l (x :: l').
Lemma sub_app : forall {A} (p : list A) l l', sub l l' -> sub l (p ++ l').
Proof. induction p; cbn; auto. intros. apply sub_skip. auto. Qed.
Lemma sub_in : forall {A} (l l' : list A) x, sub l l' -> In x l -> In x l'.
Proof. intros A l l' x S. induction S; cbn; intros H; auto; [destruct H|]. destruct H; auto. Qed.
Lemma sub_sorted : forall l l', sub l l' -> StronglySorted lt l' -> StronglySorted lt l.
Proof.
  intros l l' S. induction S; intros H; [constructor| |].
  - inversion H as [|? ? H1 H2]; subst. constructor; auto. apply Forall_forall. intros y Hy. rewrite Forall_forall in H2. apply H2. eapply sub_in; eauto.
  - inversion H; subst; auto.
Qed.
Lemma post_sub : forall pos f rows rows', post_rows f pos rows = Some rows' -> sub (map r_off rows') (map r_off rows).
Proof.
  intros pos. induction f as [|f IH]; intros rows rows' H; [discriminate|]. cbn [post_rows] in H. destruct rows as [|r rest]; [injection H as <-; constructor|].
  destruct (post_row (post_fuel pos (r_result r)) pos 1 (r_result r) 0) as [[res d]|]; [|discriminate]. destruct d as [|d].
  - destruct (post_rows f pos rest) as [x|] eqn:E; [|discriminate]. cbn in H. injection H as <-. cbn [map r_off]. apply sub_keep. eauto.
  - cbn [map]. apply sub_skip. destruct (skipn d rest) as [|r2 rest2] eqn:Es; [injection H as <-; constructor|].
    destruct (post_rows f pos rest2) as [x|] eqn:E; [|discriminate]. cbn in H. injection H as <-. rewrite <- (firstn_skipn d rest), Es, map_app. apply sub_app. cbn [map]. apply sub_keep. eauto.
Qed.

(** ** Blank lines *)
Definition ren (j n : nat) : nat := if (n <? j)%nat then n else S n.
Definition ren_row (j : nat) (r : row) : row := set_off (ren j (r_off r)) r.
Definition ren_out (j : nat) (o : output) : output := mkOut (map (ren j) (errors o)) (map (ren_row j) (results o)) (positions o).
Lemma parse_off : forall L cores k j, (j <= k)%nat -> parse_lines L (S k) cores = let '(e, r) := parse_lines L k cores in (map (ren j) e, map (ren_row j) r).
Proof.
  intros L. induction cores as [|s cores IH]; intros k j Hj; cbn [parse_lines]; auto. rewrite (IH (S k) j) by lia. destruct (parse_lines L (S k) cores) as [e r].
  destruct s as [|c s]; auto. unfold execute_regex. rewrite (exec_off operations L (c :: s) (S k) k). destruct (execute_regex_from operations L (c :: s) k) as [x|] eqn:E; cbn [option_map].
  - assert (Ex : r_off x = k). { rewrite (exec_off _ _ _ _ 0) in E. destruct (execute_regex_from operations L (c :: s) 0); [|discriminate]. injection E as <-. reflexivity. }
    assert (Er : ren j k = S k) by (unfold ren; destruct (k <? j)%nat eqn:F; [apply Nat.ltb_lt in F; lia|auto]).
    cbn [set_off r_result]. destruct (r_result x) eqn:Er2; cbn [map]; rewrite ?Er; auto. unfold ren_row at 2. rewrite Ex, Er. reflexivity.
  - assert (Er : ren j k = S k) by (unfold ren; destruct (k <? j)%nat eqn:F; [apply Nat.ltb_lt in F; lia|auto]). cbn [map]. rewrite Er. reflexivity.
Qed.
Lemma parse_insert : forall L l1 l2 k, parse_lines L k (l1 ++ [] :: l2) = let '(e, r) := parse_lines L k (l1 ++ l2) in (map (ren (k + List.length l1)) e, map (ren_row (k + List.length l1)) r).
Proof.
  intros L. induction l1 as [|s l1 IH]; intros l2 k; cbn [app List.length].
  - rewrite Nat.add_0_r. cbn [parse_lines]. rewrite (parse_off L l2 k k) by lia. destruct (parse_lines L k l2). reflexivity.
  - cbn [parse_lines]. rewrite IH. replace (S k + List.length l1)%nat with (k + S (List.length l1))%nat by lia. destruct (parse_lines L (S k) (l1 ++ l2)) as [e r].
    destruct s as [|c s]; auto.
    assert (Er : ren (k + S (List.length l1)) k = k) by (unfold ren; destruct (k <? k + S (List.length l1))%nat eqn:F; [auto|apply Nat.ltb_ge in F; lia]).
    destruct (execute_regex L (c :: s) k) as [x|] eqn:E.
    + assert (Ex : r_off x = k). { unfold execute_regex in E. rewrite (exec_off _ _ _ _ 0) in E. destruct (execute_regex_from operations L (c :: s) 0); [|discriminate]. injection E as <-. reflexivity. }
      destruct (r_result x) eqn:Er2; cbn [map]; rewrite ?Er; auto. f_equal. f_equal. unfold ren_row. rewrite Ex, Er. destruct x; cbn in *; subst; reflexivity.
    + cbn [map]. rewrite Er. reflexivity.
Qed.
Lemma positions_off : forall (g : row -> row) rows a, (forall r, r_ins (g r) = r_ins r /\ r_eti (g r) = r_eti r) -> eti_positions (map g rows) a = eti_positions rows a.
Proof. intros g rows a H. revert a. induction rows as [|r rows IH]; intros a; cbn [map eti_positions]; auto. destruct (H r) as (-> & ->). rewrite IH. reflexivity. Qed.
Lemma post_off : forall j pos f rows, post_rows f pos (map (ren_row j) rows) = option_map (map (ren_row j)) (post_rows f pos rows).
Proof.
  intros j pos. induction f as [|f IH]; intros rows; cbn [post_rows]; auto. destruct rows as [|r rest]; cbn [map]; auto. unfold ren_row at 1 2. cbn [set_off r_result].
  destruct (post_row (post_fuel pos (r_result r)) pos 1 (r_result r) 0) as [[res d]|]; auto. destruct d as [|d].
  - rewrite IH. destruct (post_rows f pos rest); reflexivity.
  - rewrite skipn_map. destruct (skipn d rest) as [|r2 rest2]; cbn [map]; auto. rewrite IH. destruct (post_rows f pos rest2); reflexivity.
Qed.
Lemma pre_blank : forall l1 l2, pre (l1 ++ [] :: l2) = pre (l1 ++ l2).
Proof.
  intros l1 l2. unfold pre. rewrite !flat_map_app. cbn [flat_map].
  assert (E : flat_map (fun i => match ins_exec i (after_first_word []) with Some _ => [first_word []] | None => [] end) operations = []) by (vm_compute; reflexivity).
  rewrite E. reflexivity.
Qed.
Definition of_cores (cores : list str) (init : Z) : option output :=
  let '(errs, rows) := parse_lines (pre cores) 0 cores in
  let pos := eti_positions rows init in
  option_map (fun rs => mkOut errs rs pos) (post_rows (S (List.length rows)) pos rows).
Lemma parse_of_cores : forall lines init, lines <> [] -> (forall l, In l lines -> ~ In NEWLINE l) ->
  parse_input (join NEWLINE lines) init = of_cores (map core_of lines) init.
Proof. intros lines init N H. unfold parse_input. rewrite input_lines_join by auto. reflexivity. Qed.
Lemma cores_blank : forall c1 c2 init, of_cores (c1 ++ [] :: c2) init = option_map (ren_out (List.length c1)) (of_cores (c1 ++ c2) init).
Proof.
  intros c1 c2 init. unfold of_cores. rewrite pre_blank, parse_insert. cbn [Nat.add].
  destruct (parse_lines (pre (c1 ++ c2)) 0 (c1 ++ c2)) as [e r]. cbv beta iota zeta.
  rewrite positions_off by (intros; auto). rewrite map_length, post_off. destruct (post_rows _ _ r); reflexivity.
Qed.
Theorem insert_blank : forall l1 l2 blank init, (forall l, In l (l1 ++ blank :: l2) -> ~ In NEWLINE l) -> l1 ++ l2 <> [] -> stripped blank [] ->
  parse_input (join NEWLINE (l1 ++ blank :: l2)) init = option_map (ren_out (List.length l1)) (parse_input (join NEWLINE (l1 ++ l2)) init).
Proof.
  intros l1 l2 blank init H N B. rewrite parse_of_cores, parse_of_cores; auto.
  2: intros l Hl; apply H; apply in_app_iff in Hl; apply in_app_iff; cbn; tauto.
  2: destruct l1; discriminate.
  rewrite !map_app. cbn [map]. unfold core_of at 2. rewrite (stripped_core _ _ B). rewrite cores_blank, map_length. reflexivity.
Qed.

(** ** Without errors every line of code keeps its row *)
Lemma post_keep : forall L pos kc r, row_of L kc r -> T_labels pos -> (forall p, In p pos -> 0 <= snd p) -> value_ok L (snd kc) ->
  (is_ref (val (snd kc)) -> value_kind (ins (snd kc)) <> None -> find_eti pos (val (snd kc)) <> None) ->
  (value_kind (ins (snd kc)) <> None -> val (snd kc) <> []) ->
  exists res, post_row (post_fuel pos (r_result r)) pos 1 (r_result r) 0 = Some (res, O) /\ r_off (mkRow (r_line r) res (r_eti r) (r_ins r) (r_off r)) = fst kc.
Proof.
  intros L pos [k c] r (e & core & He & Ee & ->) T P V F Nn. cbn [fst snd r_result r_line r_eti r_ins r_off] in *. unfold emitted.
  destruct (value_kind (ins c)) as [kd|] eqn:Kd.
  - destruct (operand_cases L e (ins c) (val c) He Ee) as [(R & A & ->)|[(R & A & ->)|[(R & A & B & ->)|(R & A & ->)]]]; try (rewrite Kd; discriminate); try (apply Nn; discriminate).
    + destruct (find_eti pos (val c)) as [dir|] eqn:Ef; [|destruct (F R ltac:(discriminate) eq_refl)]. eexists. split; [eapply post_row_ref; eauto|reflexivity].
      unfold find_eti in Ef. destruct (find (fun p => str_eqb (fst p) (val c)) pos) as [p|] eqn:Fd; [|discriminate]. injection Ef as <-. apply find_some in Fd. destruct Fd; auto.
    + exfalso. destruct c as [l i t]. cbn [ins val] in *. apply value_ok_iff in V. destruct V as [V|[(_ & V)|(V & _)]]; [congruence|tauto|exact (ref_not_numeral _ R V)].
    + eexists. split; [apply post_row_hexes; auto using num_bytes_hex|reflexivity].
    + exfalso. destruct c as [l i t]. cbn [ins val] in *. apply value_ok_iff in V. destruct V as [V|[(V & _)|V]]; [congruence|tauto|tauto].
  - eexists. split; [apply post_row_hexes; auto|reflexivity].
Qed.
Lemma codes_exist : forall L cores, (forall s, In s cores -> single_line s /\ (s = [] \/ accepted L s = true)) ->
  exists codes, Forall2 core_code cores codes /\ forall c, In c (somes codes) -> value_ok L c.
Proof.
  intros L. induction cores as [|s cores IH]; intros H; [exists []; split; [constructor|intros c []]|].
  destruct IH as (codes & F & V); [intros; apply H; cbn; auto|]. destruct (H s) as (SL & Hs); [cbn; auto|]. destruct s as [|x s].
  - exists (None :: codes). split; auto. constructor; auto. split; auto.
  - destruct Hs as [Hs|Hs]; [discriminate|]. apply accepted_iff in Hs; auto. destruct Hs as (c & Hc & Vc). exists (Some c :: codes). split; [constructor; auto; split; auto|].
    intros c' [<-|Hc']; auto.
Qed.
Lemma numbered_indices : forall cores codes k, Forall2 core_code cores codes -> map fst (numbered k codes) = indices nonblank k cores.
Proof.
  intros cores codes k F. revert k. induction F as [|s o cores codes (_ & H) F IH]; intros k; cbn [numbered indices map]; auto. destruct o as [c|].
  - pose proof (parts_nonnil _ _ H) as N. destruct s; [congruence|]. cbn [nonblank map fst]. f_equal. apply IH.
  - subst s. cbn [nonblank]. apply IH.
Qed.
Lemma Forall2_In_l : forall {A B} (P : A -> B -> Prop) l l', Forall2 P l l' -> Forall2 (fun a b => In a l /\ P a b) l l'.
Proof. intros A B P l l' F. induction F; constructor; [cbn; auto|]. eapply Forall2_imp; [|exact IHF]. cbn. tauto. Qed.
Theorem no_errors_rows : forall cores init errs rows rs, (forall s, In s cores -> single_line s) -> 0 <= init ->
  parse_lines (pre cores) 0 cores = (errs, rows) -> post_rows (S (List.length rows)) (eti_positions rows init) rows = Some rs -> errs = [] ->
  map r_off rs = indices nonblank 0 cores.
Proof.
  intros cores init errs rows rs SL I0 E Ep ->. pose proof (parse_indices (pre cores) cores 0) as (P1 & _). rewrite E in P1. cbn [fst] in P1.
  destruct (codes_exist (pre cores) cores) as (codes & F & V).
  { intros s Hs. split; auto. destruct (In_nth_error _ _ Hs) as (k & Hk). destruct s as [|x s]; auto. right. destruct (accepted (pre cores) (x :: s)) eqn:A; auto. exfalso.
    assert (X : In k (indices (fun s => nonblank s && negb (accepted (pre cores) s)) 0 cores)).
    { apply indices_in. split; [lia|]. exists (x :: s). rewrite Nat.sub_0_r. split; auto. rewrite A. reflexivity. }
    rewrite <- P1 in X. destruct X. }
  destruct (parse_good (pre cores) cores codes 0 F V) as (rows2 & E2 & R). rewrite E in E2. injection E2 as <-.
  pose proof (parse_rows_good (pre cores) cores 0) as G. rewrite E in G. cbn [snd] in G. destruct (positions_good rows init G I0) as (T & P).
  destruct (post_all (eti_positions rows init) (fun kc r => r_off r = fst kc) (numbered 0 codes) rows (S (List.length rows))) as (rs' & E' & H').
  - eapply Forall2_imp; [|exact (Forall2_In_l _ _ _ R)]. intros kc r (Hk & Hr). cbv beta. apply numbered_in in Hk. destruct (core_code_in _ _ _ F Hk) as (core & Hc & Hl).
    apply (post_keep (pre cores) _ kc r Hr T P); auto; [|exact (code_value _ _ Hl)].
    intros Rf Kn. specialize (V _ Hk). assert (Hin : In (val (snd kc)) (pre cores)).
    { destruct (snd kc) as [l i t]. cbn [ins val] in *. apply value_ok_iff in V. destruct V as [V|[(_ & V)|(V & _)]]; [tauto|auto|destruct (ref_not_numeral _ Rf V)]. }
    apply (pre_labels cores _ SL Rf) in Hin. destruct Hin as (s & c & Hs & Hcl & El). pose proof (core_code_of _ _ _ _ F Hs Hcl) as Hc2.
    rewrite (positions_found _ _ _ init (val (snd kc)) R) by (intros X; rewrite X in Rf; discriminate).
    replace (existsb _ _) with true; [discriminate|]. symmetry. apply existsb_exists. rewrite <- (numbered_somes codes 0) in Hc2. apply in_map_iff in Hc2. destruct Hc2 as (kc' & Ek & Hk').
    exists kc'. split; auto. rewrite Ek, El. apply str_eqb_refl.
  - lia.
  - rewrite Ep in E'. injection E' as <-. rewrite <- (numbered_indices cores codes 0 F). clear -H'. induction H'; cbn [map]; congruence.
Qed.
