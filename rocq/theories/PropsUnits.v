(** * Theorems: conversions, widths, the sequencer table, multiplexers and gates (C16, C25, C26, C50) *)
From Coq Require Import ZArith List Bool Lia ZifyBool.
From Verif Require Import Word WordFacts Tables Prog Components Gates MicroIsa.
Import ListNotations.
Open Scope Z_scope.

(** ** C25: words and integers *)
Theorem C25_int_word_int : forall v, 0 <= v <= INT_MAX -> word_to_int (int_to_word v) = Some v.
Proof. exact word_to_int_i2w. Qed.
(** The integer of a word has the word's bits. *)
Theorem C25_word_int_word : forall w, length w = 32%nat -> nth 31 w false = false ->
  exists v, word_to_int w = Some v /\ 0 <= v <= INT_MAX /\ (forall i, (i < 32)%nat -> Z.testbit v (Z.of_nat i) = nth i w false) /\ int_to_word v = w.
Proof.
  intros w Hw Hb. pose proof (word_to_int_some w Hw Hb) as E. exists (bval w). split; auto. split.
  { rewrite word_to_int_spec in E by auto. pose proof (bval_bound w). destruct (bval w <=? INT_MAX) eqn:X; [lia|discriminate]. }
  split; [intros i _; apply bval_testbit|]. apply int_to_word_bval. exact Hw.
Qed.
Theorem C25_undefined : forall w, length w = 32%nat -> (word_to_int w = None <-> nth 31 w false = true).
Proof.
  intros w Hw. split; [|apply word_to_int_top; auto]. intros E. destruct (nth 31 w false) eqn:X; auto. pose proof (word_to_int_some w Hw X). congruence.
Qed.
(** Negative integers have a word but converting it back is undefined. *)
Theorem C25_negative_refuted : forall v, INT_MIN <= v < 0 -> length (int_to_word v) = 32%nat /\ word_to_int (int_to_word v) = None.
Proof.
  intros v Hv. split; [apply length_int_to_word|]. apply C25_undefined; [apply length_int_to_word|]. change (nth 31 (int_to_word v) false) with (bit (int_to_word v) 31).
  rewrite bit_int_to_word by lia. unfold INT_MIN in Hv. change (Z.of_nat 31) with 31. rewrite Z.testbit_true by lia.
  assert (v / 2 ^ 31 = -1); [|rewrite H; reflexivity]. symmetry. apply Z.div_unique with (r := v + 2 ^ 31); lia.
Qed.
Theorem C25_injective : forall v v', INT_MIN <= v <= INT_MAX -> INT_MIN <= v' <= INT_MAX -> int_to_word v = int_to_word v' -> v = v'.
Proof.
  intros v v' H H' E. apply (f_equal bval) in E. rewrite !bval_int_to_word in E. unfold INT_MIN, INT_MAX in *.
  assert (X : (v - v') mod 2 ^ 32 = 0) by (rewrite Zminus_mod, E, Z.sub_diag; reflexivity).
  apply Z.mod_divide in X; [|lia]. destruct X as (k & X). lia.
Qed.
Example words_nonvacuous : word_to_int (int_to_word 40961) = Some 40961 /\ nth 31 (int_to_word 40961) false = false /\ nth 15 (int_to_word 40961) false = true /\ nth 31 (int_to_word (-2)) false = true.
Proof. repeat split; vm_compute; reflexivity. Qed.

(** ** C26: widths *)
Theorem C26_width : forall v n, 0 <= v <= INT_MAX -> 0 <= n -> (get_used_bits (int_to_word v) <= n <-> v < 2 ^ n).
Proof. intros v n Hv Hn. rewrite get_used_bits_i2w by exact Hn. rewrite Z.mod_small by (unfold INT_MAX in Hv; lia). tauto. Qed.
Theorem C26_negative : forall v, INT_MIN <= v < 0 -> get_used_bits (int_to_word v) = 32.
Proof.
  intros v Hv. unfold INT_MIN in Hv. assert (X : v mod 2 ^ 32 = v + 2 ^ 32) by (symmetry; apply Z.mod_unique with (q := -1); lia).
  pose proof (get_used_bits_i2w v 32 ltac:(lia)) as A1. pose proof (get_used_bits_i2w v 31 ltac:(lia)) as A2. rewrite X in A1, A2. lia.
Qed.
(** It is the place of the highest bit set, for any word. *)
Theorem C26_highest : forall w, (0 < get_used_bits w -> nth (Z.to_nat (get_used_bits w - 1)) w false = true) /\
  (forall i, (i < length w)%nat -> get_used_bits w <= Z.of_nat i -> nth i w false = false) /\ 0 <= get_used_bits w <= Z.of_nat (length w).
Proof.
  assert (G : forall w i acc, (used_bits_from w i acc = acc \/ (exists k, (k < length w)%nat /\ used_bits_from w i acc = i + Z.of_nat k + 1 /\ nth k w false = true)) /\ (acc <= used_bits_from w i acc \/ acc > i)).
  { induction w as [|b w IH]; intros i acc; cbn [used_bits_from length]; [split; [left; auto|lia]|].
    destruct (IH (i + 1) (if b then i + 1 else acc)) as ([E|(k & Hk & E & Hb)] & M).
    - destruct b; [split; [right; exists 0%nat; split; [lia|split; [lia|reflexivity]]|lia]|split; [left; exact E|lia]].
    - split; [right; exists (S k); split; [lia|split; [lia|exact Hb]]|destruct b; lia]. }
  intros w. split; [|split].
  - intros H. destruct (G w 0 0) as ([E|(k & Hk & E & Hb)] & _); unfold get_used_bits in *; [lia|].
    replace (Z.to_nat (used_bits_from w 0 0 - 1)) with k by lia. exact Hb.
  - intros i Hi H. destruct (nth i w false) eqn:X; auto. exfalso.
    pose proof (proj1 (used_bits_from_spec w 0 0 (Z.of_nat i) ltac:(lia)) H) as (_ & K). specialize (K i Hi X). lia.
  - destruct (G w 0 0) as ([E|(k & Hk & E & Hb)] & _); unfold get_used_bits in *; lia.
Qed.
Example width_nonvacuous : get_used_bits (int_to_word 255) = 8 /\ get_used_bits (int_to_word 256) = 9 /\ get_used_bits (int_to_word 0) = 0.
Proof. repeat split; vm_compute; reflexivity. Qed.

(** ** C16: the truth table is deterministic *)
(** A row accepts inputs (q5..q0, c7..c0, fz, fc) when each of its cells 1..16 is the
    wildcard -1 or equal to the input. *)
Definition accepts (row : list Z) (inputs : nat -> bool) : Prop :=
  forall k, (k < 16)%nat -> nth (S k) row 0 = -1 \/ nth (S k) row 0 = Z.b2z (inputs k).
Definition input_list (inputs : nat -> bool) : list bool := map inputs (seq 0 16).

(** The inputs in state [q] with opcode [op] and the flags. *)
Definition inputs_of (q op : Z) (fz fc : bool) (k : nat) : bool :=
  if Nat.ltb k 6 then Z.testbit q (5 - Z.of_nat k) else if Nat.ltb k 14 then Z.testbit op (13 - Z.of_nat k) else if Nat.eqb k 14 then fz else fc.

Definition apart (r1 r2 : list Z) : bool :=
  existsb (fun k => negb (nth (S k) r1 0 =? -1) && negb (nth (S k) r2 0 =? -1) && negb (nth (S k) r1 0 =? nth (S k) r2 0)) (seq 0 16).
(** The two exceptions: seq.c:86 and 89, seq.c:102 and 106. *)
Definition overlap (i j : nat) : bool := (Nat.eqb i 60 && Nat.eqb j 63) || (Nat.eqb i 76 && Nat.eqb j 80).
Definition all_apart : bool :=
  forallb (fun i => forallb (fun j => Nat.eqb i j || overlap i j || overlap j i || apart (nth i truth_table []) (nth j truth_table [])) (seq 0 100)) (seq 0 100).
Lemma all_apart_true : all_apart = true.
Proof. vm_compute. reflexivity. Qed.
Lemma truth_table_100 : length truth_table = 100%nat.
Proof. reflexivity. Qed.
(** The comment of the code, "it should be only one match", is false: in state 17
    with opcode 0xC3 (INISP) and carry clear two rows accept, and they disagree on
    the next state. *)
Theorem C16_one_row_refuted : forall fz, accepts (nth 60 truth_table []) (inputs_of 17 0xC3 fz false) /\ accepts (nth 63 truth_table []) (inputs_of 17 0xC3 fz false) /\
  nth 23 (nth 60 truth_table []) 0 = 38 /\ nth 23 (nth 63 truth_table []) 0 = 0.
Proof.
  intros fz. split; [|split; [|split; reflexivity]]; intros k Hk; do 16 (destruct k as [|k]; [cbn; tauto|]); lia.
Qed.
Lemma accepts_cell : forall row inputs k b n (g : nat -> bool), accepts row inputs -> (k < n)%nat -> (n <= 16)%nat -> b = g k ->
  forallb (fun k => nth (S k) row 0 =? Z.b2z (g k)) (seq 0 n) = true -> inputs k = b.
Proof.
  intros row inputs k b n g A Hk Hn -> F. rewrite forallb_forall in F. specialize (F k ltac:(apply in_seq; lia)). specialize (A k ltac:(lia)).
  apply Z.eqb_eq in F. rewrite F in A. destruct (g k), (inputs k); auto; cbn in A; destruct A; discriminate.
Qed.
(** Apart from that and from state 29 with the undocumented opcode 0xC6, at most one
    row accepts. *)
Theorem C16_one_row : forall inputs i j, (i < length truth_table)%nat -> (j < length truth_table)%nat ->
  accepts (nth i truth_table []) inputs -> accepts (nth j truth_table []) inputs -> (i < j)%nat ->
  (i = 60 /\ j = 63 /\ forall k, (k < 14 \/ k = 15)%nat -> inputs k = inputs_of 17 0xC3 false false k)%nat \/
  (i = 76 /\ j = 80 /\ forall k, (k < 14)%nat -> inputs k = inputs_of 29 0xC6 false false k)%nat.
Proof.
  intros inputs i j Hi Hj Ai Aj Lt. rewrite truth_table_100 in *. pose proof all_apart_true as T. unfold all_apart in T. rewrite forallb_forall in T.
  specialize (T i ltac:(apply in_seq; lia)). rewrite forallb_forall in T. specialize (T j ltac:(apply in_seq; lia)).
  destruct (apart (nth i truth_table []) (nth j truth_table [])) eqn:Ap.
  - exfalso. unfold apart in Ap. apply existsb_exists in Ap. destruct Ap as (k & Hk & Ap). apply in_seq in Hk.
    destruct (Ai k ltac:(lia)) as [X|X]; destruct (Aj k ltac:(lia)) as [Y|Y]; lia.
  - unfold overlap in T. assert (X : (i = 60 /\ j = 63 \/ i = 76 /\ j = 80)%nat) by lia. clear T. destruct X as [(-> & ->)|(-> & ->)]; [left|right]; (split; [reflexivity|split; [reflexivity|]]).
    + intros k Hk. destruct (Nat.eq_dec k 15) as [->|N].
      * specialize (Aj 15%nat ltac:(lia)). change (nth 16 (nth 63 truth_table []) 0) with 0 in Aj. change (inputs_of 17 0xC3 false false 15) with false. destruct (inputs 15%nat); [|reflexivity]. cbn in Aj. destruct Aj; discriminate.
      * exact (accepts_cell _ _ k _ 14%nat (inputs_of 17 0xC3 false false) Ai ltac:(lia) ltac:(lia) eq_refl eq_refl).
    + intros k Hk. exact (accepts_cell _ _ k _ 14%nat (inputs_of 29 0xC6 false false) Ai ltac:(lia) ltac:(lia) eq_refl eq_refl).
Qed.
Lemma row_matches_spec : forall cells bs, (length bs <= length cells)%nat ->
  (row_matches cells bs = true <-> forall k, (k < length bs)%nat -> nth k cells 0 = -1 \/ nth k cells 0 = Z.b2z (nth k bs false)).
Proof.
  induction cells as [|c cells IH]; intros bs Hl; destruct bs as [|b bs]; cbn [row_matches length] in *; try (split; [intros _ k Hk; lia|reflexivity]).
  rewrite andb_true_iff, (IH bs ltac:(lia)). unfold cell_matches. split.
  - intros (H1 & H2) [|k] Hk; cbn [nth]; [lia|]. apply H2. lia.
  - intros H. split; [specialize (H 0%nat ltac:(lia)); cbn [nth] in H; lia|]. intros k Hk. exact (H (S k) ltac:(lia)).
Qed.
Lemma rows_24 : forallb (fun r => Nat.eqb (length r) 24) truth_table = true.
Proof. vm_compute. reflexivity. Qed.
Lemma match_accepts : forall row inputs, In row truth_table -> (row_matches (tl row) (input_list inputs) = true <-> accepts row inputs).
Proof.
  intros row inputs Hin. pose proof rows_24 as R. rewrite forallb_forall in R. specialize (R row Hin). apply Nat.eqb_eq in R.
  destruct row as [|c row]; [discriminate|]. cbn [tl length] in *. assert (L : length (input_list inputs) = 16%nat) by reflexivity.
  rewrite row_matches_spec by lia. rewrite L. unfold accepts. cbn [nth].
  assert (N : forall k, (k < 16)%nat -> nth k (input_list inputs) false = inputs k).
  { intros k Hk. unfold input_list. rewrite nth_indep with (d' := inputs 0%nat) by (rewrite map_length, seq_length; exact Hk). rewrite map_nth, seq_nth by exact Hk. reflexivity. }
  split; intros H k Hk; [rewrite <- (N k Hk)|rewrite (N k Hk)]; auto.
Qed.
(** The search returns the first accepting row; it reports none exactly when no row
    accepts, and then all six outputs are 0, the first microstate of an
    instruction. *)
Theorem C16_search : forall inputs i, (i < length truth_table)%nat -> accepts (nth i truth_table []) inputs ->
  (forall j, (j < i)%nat -> ~ accepts (nth j truth_table []) inputs) -> find_row (input_list inputs) = Some (nth i truth_table []).
Proof.
  intros inputs i Hi Ha Hf. unfold find_row.
  assert (G : forall l, (forall r, In r l -> In r truth_table) -> (i < length l)%nat -> accepts (nth i l []) inputs -> (forall j, (j < i)%nat -> ~ accepts (nth j l []) inputs) ->
    find (fun row => row_matches (tl row) (input_list inputs)) l = Some (nth i l [])).
  { clear. induction i as [|i IH]; intros l Hl Hi Ha Hf; destruct l as [|r l]; cbn [length] in Hi; try lia; cbn [find nth] in *.
    - rewrite (proj2 (match_accepts r inputs (Hl r (or_introl eq_refl))) Ha). reflexivity.
    - destruct (row_matches (tl r) (input_list inputs)) eqn:M.
      + exfalso. apply match_accepts in M; [|apply Hl; left; reflexivity]. exact (Hf 0%nat ltac:(lia) M).
      + apply IH; auto; [intros x Hx; apply Hl; right; exact Hx|lia|]. intros j Hj. exact (Hf (S j) ltac:(lia)). }
  apply G; auto.
Qed.
Theorem C16_none : forall inputs, find_row (input_list inputs) = None <-> (forall row, In row truth_table -> ~ accepts row inputs).
Proof.
  intros inputs. split.
  - intros F row Hin Ha. unfold find_row in F. apply find_none with (x := row) in F; auto. apply match_accepts in Ha; auto. congruence.
  - intros H. destruct (find_row (input_list inputs)) as [r|] eqn:F; auto. exfalso. unfold find_row in F. apply find_some in F. destruct F as (Hr & Hm).
    apply (H r Hr). apply match_accepts; auto.
Qed.
Theorem C16_default : forall k, dcell None k = zero_word.
Proof. reflexivity. Qed.
(** INISP works because its row comes first, and 0xC6 never gets past state 1.
    ([succ q ri fc fz] is the next state.) *)
Theorem C16_overlaps_harmless : forall fc fz, 0 <= fc <= 1 -> 0 <= fz <= 1 -> succ 17 0xC3 fc fz = 38 /\ succ 0 0xC6 fc fz = 1 /\ succ 1 0xC6 fc fz = 0.
Proof.
  intros fc fz H1 H2. assert (C1 : fc = 0 \/ fc = 1) by lia. assert (C2 : fz = 0 \/ fz = 1) by lia.
  destruct C1 as [-> | ->], C2 as [-> | ->]; vm_compute; auto.
Qed.
(** The labels written in the table agree with its bits - column 0 with the number in
    q5..q0, column 23 with the number in d5..d0 - except in three rows (seq.c:94,
    101, 102). *)
Definition num6 (row : list Z) (c : nat) : Z :=
  32 * nth c row 0 + 16 * nth (c + 1) row 0 + 8 * nth (c + 2) row 0 + 4 * nth (c + 3) row 0 + 2 * nth (c + 4) row 0 + nth (c + 5) row 0.
Lemma labels_ok : forallb (fun i => let r := nth i truth_table [] in (Nat.eqb i 68) || (Nat.eqb i 75) || (Nat.eqb i 76) || ((nth 0 r 0 =? num6 r 1) && (nth 23 r 0 =? num6 r 17))) (seq 0 100) = true.
Proof. vm_compute. reflexivity. Qed.
Theorem C16_labels : forall i, (i < 100)%nat -> i <> 68%nat -> i <> 75%nat -> i <> 76%nat ->
  nth 0 (nth i truth_table []) 0 = num6 (nth i truth_table []) 1 /\ nth 23 (nth i truth_table []) 0 = num6 (nth i truth_table []) 17.
Proof.
  intros i Hi N1 N2 N3. pose proof labels_ok as L. rewrite forallb_forall in L. specialize (L i ltac:(apply in_seq; lia)). cbv zeta in L. lia.
Qed.
Theorem C16_labels_refuted :
  (nth 0 (nth 68 truth_table []) 0 = 21 /\ num6 (nth 68 truth_table []) 1 = 22) /\
  (nth 23 (nth 75 truth_table []) 0 = 27 /\ num6 (nth 75 truth_table []) 17 = 29) /\
  (nth 0 (nth 76 truth_table []) 0 = 27 /\ num6 (nth 76 truth_table []) 1 = 29).
Proof. repeat split. Qed.
Example table_nonvacuous : exists inputs row, In row truth_table /\ accepts row inputs /\ nth 0 row 0 = 1 /\ nth 23 row 0 = 2.
Proof.
  exists (fun k => Nat.eqb k 5), (nth 1 truth_table []). split; [right; left; reflexivity|]. split; [|split; reflexivity].
  intros k Hk. do 16 (destruct k as [|k]; [cbn; tauto|]). lia.
Qed.

(** ** C50: multiplexers and gates *)
Theorem C50_mx4 : forall sel i1 i2 i3 i4,
  (sel = 0 -> run_4x1_mx sel i1 i2 i3 i4 = i1) /\ (sel = 1 -> run_4x1_mx sel i1 i2 i3 i4 = i2) /\ (sel = 2 -> run_4x1_mx sel i1 i2 i3 i4 = i3) /\
  (sel = 3 -> run_4x1_mx sel i1 i2 i3 i4 = i4) /\ (~ 0 <= sel <= 3 -> run_4x1_mx sel i1 i2 i3 i4 = -1).
Proof.
  intros sel i1 i2 i3 i4. unfold run_4x1_mx. repeat split; intros H; try (rewrite H; reflexivity).
  destruct (sel =? 0) eqn:?, (sel =? 1) eqn:?, (sel =? 2) eqn:?, (sel =? 3) eqn:?; lia.
Qed.
Theorem C50_mx2 : forall sel i1 i2,
  (sel = 0 -> run_2x1_mx sel i1 i2 = i1) /\ (sel = 1 -> run_2x1_mx sel i1 i2 = i2) /\ (~ 0 <= sel <= 1 -> run_2x1_mx sel i1 i2 = -1).
Proof.
  intros sel i1 i2. unfold run_2x1_mx. repeat split; intros H; try (rewrite H; reflexivity). destruct (sel =? 0) eqn:?, (sel =? 1) eqn:?; lia.
Qed.
Lemma fold_land : forall l a i, Z.testbit (fold_left Z.land l a) i = Z.testbit a i && forallb (fun x => Z.testbit x i) l.
Proof. induction l as [|x l IH]; intros a i; cbn [fold_left forallb]; [rewrite andb_true_r; auto|]. rewrite IH, Z.land_spec, andb_assoc. reflexivity. Qed.
Lemma fold_lor : forall l a i, Z.testbit (fold_left Z.lor l a) i = Z.testbit a i || existsb (fun x => Z.testbit x i) l.
Proof. induction l as [|x l IH]; intros a i; cbn [fold_left existsb]; [rewrite orb_false_r; auto|]. rewrite IH, Z.lor_spec, orb_assoc. reflexivity. Qed.
(** OR is the bitwise or of the whole array. *)
Theorem C50_or : forall l i, Z.testbit (OR_gate l) i = existsb (fun x => Z.testbit x i) l.
Proof. intros l i. unfold OR_gate. rewrite fold_lor, Z.bits_0. reflexivity. Qed.
(** AND is 1 when all numbers are odd and 0 otherwise; on 0/1 inputs that is the
    conjunction. *)
Theorem C50_and : forall l, AND_gate l = if forallb Z.odd l then 1 else 0.
Proof.
  intros l. apply Z.bits_inj'. intros n Hn. unfold AND_gate. rewrite fold_land. destruct (Z.eq_dec n 0) as [->|N].
  - rewrite (@Z.bit0_odd 1). cbn [Z.odd andb]. replace (forallb (fun x => Z.testbit x 0) l) with (forallb Z.odd l).
    + destruct (forallb Z.odd l); reflexivity.
    + clear. induction l as [|x l IH]; cbn [forallb]; [reflexivity|]. rewrite IH, Z.bit0_odd. reflexivity.
  - replace (Z.testbit 1 n) with false; [|symmetry; rewrite Z.testbit_false by lia; rewrite Z.div_small; [reflexivity|split; [lia|apply Z.pow_gt_1; lia]]].
    cbn [andb]. destruct (forallb Z.odd l); [symmetry; rewrite Z.testbit_false by lia; rewrite Z.div_small; [reflexivity|split; [lia|apply Z.pow_gt_1; lia]]|symmetry; apply Z.bits_0].
Qed.
Theorem C50_and_bits : forall l, (forall x, In x l -> x = 0 \/ x = 1) -> (AND_gate l = 1 <-> forall x, In x l -> x = 1).
Proof.
  intros l H. rewrite C50_and. destruct (forallb Z.odd l) eqn:E.
  - split; auto. intros _ x Hx. rewrite forallb_forall in E. specialize (E x Hx). destruct (H x Hx) as [->| ->]; [discriminate|reflexivity].
  - split; [discriminate|]. intros K. exfalso. assert (X : forallb Z.odd l = true); [|congruence]. apply forallb_forall. intros x Hx. rewrite (K x Hx). reflexivity.
Qed.
(** It is not the bitwise and of wider numbers: it starts from 1. *)
Theorem C50_and_bitwise_refuted : exists l i, forallb (fun x => Z.testbit x i) l = true /\ l <> [] /\ Z.testbit (AND_gate l) i = false.
Proof. exists [2; 6], 1. repeat split; try reflexivity. discriminate. Qed.

Print Assumptions C16_one_row_refuted.
Print Assumptions C16_one_row.
Print Assumptions C16_overlaps_harmless.
Print Assumptions C16_search.
Print Assumptions C16_none.
Print Assumptions C16_labels.
Print Assumptions C25_int_word_int.
Print Assumptions C25_word_int_word.
Print Assumptions C25_undefined.
Print Assumptions C25_negative_refuted.
Print Assumptions C25_injective.
Print Assumptions C26_width.
Print Assumptions C26_negative.
Print Assumptions C26_highest.
Print Assumptions C50_mx4.
Print Assumptions C50_mx2.
Print Assumptions C50_or.
Print Assumptions C50_and.
Print Assumptions C50_and_bits.
Print Assumptions C50_and_bitwise_refuted.
