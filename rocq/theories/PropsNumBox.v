(** * Theorems: the number boxes (C61) *)
From Coq Require Import String ZArith NArith List Bool Lia ZifyBool ZifyN.
From Verif Require Import JsStr AsmFacts NumBox.
From Verif Require AsmRe.
Import ListNotations.
Open Scope Z_scope.

(** ** What a numeral is, in any base *)
(** The value of a character as a digit: 0-9, A-F, a-f. *)
Definition digit_value (c : N) (d : Z) : Prop :=
  Z.of_N c = 48 + d /\ 0 <= d <= 9 \/ Z.of_N c = 55 + d /\ 10 <= d <= 15 \/ Z.of_N c = 87 + d /\ 10 <= d <= 15.
(** [denotes r t v]: the text [t], most significant digit first, is the number [v] in base [r]. *)
Inductive denotes (r : Z) : str -> Z -> Prop :=
| D_one : forall c d, digit_value c d -> d < r -> denotes r [c] d
| D_more : forall t c v d, denotes r t v -> digit_value c d -> d < r -> denotes r (t ++ [c]) (r * v + d).
(** The usual way of writing a number: capital letters, no leading zeros. *)
Definition plain_numeral (t : str) : Prop := (forall c, In c t -> ~ (97 <= c)%N) /\ (hd_error t = Some 48%N -> t = [48%N]).
(** What a box accepts: a numeral; in base ten, possibly with a fraction. *)
Definition acceptable (b : base) (t : str) (v : Z) : Prop :=
  denotes (radix b) t v \/ b = DEC /\ exists t1 t2, t = t1 ++ 46%N :: t2 /\ denotes 10 t1 v /\ (t2 = [] \/ exists w, denotes 10 t2 w).

Lemma digit_iff : forall c d, digit c = Some d <-> digit_value c d.
Proof.
  intros c d. unfold digit, digit_value.
  destruct ((48 <=? c) && (c <=? 57))%N eqn:E1; [split; [intros H; injection H as <-; lia|intros H; f_equal; lia]|].
  destruct ((65 <=? c) && (c <=? 70))%N eqn:E2; [split; [intros H; injection H as <-; lia|intros H; f_equal; lia]|].
  destruct ((97 <=? c) && (c <=? 102))%N eqn:E3; [split; [intros H; injection H as <-; lia|intros H; f_equal; lia]|].
  split; [discriminate|lia].
Qed.
Definition val_acc (r : Z) (s : str) (a : Z) : Z := fold_left (fun a c => r * a + match digit c with Some d => d | None => 0 end) s a.
Lemma val_snoc : forall r s c a, val_acc r (s ++ [c]) a = r * val_acc r s a + match digit c with Some d => d | None => 0 end.
Proof. intros. unfold val_acc. rewrite fold_left_app. reflexivity. Qed.
Lemma denotes_iff : forall r t v, denotes r t v <-> t <> [] /\ forallb (is_digit r) t = true /\ val_acc r t 0 = v.
Proof.
  intros r t v. split.
  - induction 1 as [c d D L|t c v d D (N & F & V) Dc L].
    + apply digit_iff in D. split; [discriminate|]. unfold is_digit, val_acc. cbn [forallb fold_left]. rewrite D. split; [lia|lia].
    + apply digit_iff in Dc. split; [intros X; apply app_eq_nil in X; destruct X; discriminate|]. rewrite forallb_app, F. cbn [forallb]. unfold is_digit at 1. rewrite Dc. split; [lia|].
      rewrite val_snoc, V, Dc. reflexivity.
  - revert v. induction t as [|c t IH] using rev_ind; intros v (N & F & V); [congruence|]. rewrite forallb_app in F. apply andb_prop in F as (F & Fc). cbn [forallb] in Fc.
    unfold is_digit in Fc. destruct (digit c) as [d|] eqn:E; [|discriminate Fc]. rewrite val_snoc, E in V. subst v. apply digit_iff in E. destruct t as [|x t].
    + cbn. replace (r * 0 + d) with d by lia. apply D_one; [exact E|lia].
    + apply D_more; [|exact E|lia]. apply IH. split; [discriminate|auto].
Qed.
Lemma denotes_fun : forall r t v w, denotes r t v -> denotes r t w -> v = w.
Proof. intros r t v w H1 H2. apply denotes_iff in H1, H2. destruct H1 as (_ & _ & <-), H2 as (_ & _ & <-). reflexivity. Qed.
Lemma denotes_nonneg : forall r t v, 0 < r -> denotes r t v -> 0 <= v.
Proof. intros r t v R D. induction D as [c d [?|[?|?]] L|t c v d D IH [?|[?|?]] L]; nia. Qed.

(** ** Formatting *)
Lemma radix_range : forall b, 2 <= radix b <= 16. Proof. destruct b; cbn; lia. Qed.
Definition up_digit (d : Z) : N := up (hex_digit d).
Lemma up_digit_value : forall d, 0 <= d <= 15 -> digit_value (up_digit d) d /\ (up_digit d < 97)%N.
Proof.
  intros d H. split; [apply digit_iff; unfold up_digit; rewrite digit_up; apply digit_hex_digit; exact H|].
  unfold up_digit, up, hex_digit. destruct (d <? 10) eqn:E; destruct (_ && _)%N eqn:E2; lia.
Qed.
Lemma digits_step : forall f r v, digits_of (S f) r v = if v <? r then [hex_digit v] else digits_of f r (v / r) ++ [hex_digit (v mod r)].
Proof. reflexivity. Qed.
Lemma digits_good : forall f r v, 2 <= r <= 16 -> 0 <= v -> v < 2 ^ Z.of_nat f -> (0 < f)%nat ->
  denotes r (upper (digits_of f r v)) v /\ (forall c, In c (upper (digits_of f r v)) -> (c < 97)%N) /\ (hd_error (upper (digits_of f r v)) = Some 48%N -> v = 0).
Proof.
  induction f as [|f IH]; intros r v R V F P; [lia|]. rewrite digits_step. destruct (Z.ltb_spec v r) as [H|H].
  - cbn [upper map]. destruct (up_digit_value v ltac:(lia)) as (D & L). fold (up_digit v). split; [apply D_one; auto|]. split; [intros c [<-|[]]; exact L|].
    cbn. intros E. injection E as E. unfold digit_value in D. lia.
  - assert (Q : 0 < v / r) by (apply Z.div_str_pos; lia). assert (M : 0 <= v mod r < r) by (apply Z.mod_pos_bound; lia).
    assert (B : v / r < 2 ^ Z.of_nat f). { rewrite Nat2Z.inj_succ, Z.pow_succ_r in F by lia. apply Z.div_lt_upper_bound; [lia|]. nia. }
    assert (P' : (0 < f)%nat). { destruct f; [|lia]. cbn in B. lia. }
    destruct (IH r (v / r) R ltac:(lia) B P') as (I1 & I2 & I3). unfold upper in *. rewrite map_app. cbn [map]. destruct (up_digit_value (v mod r) ltac:(lia)) as (D & L). fold (up_digit (v mod r)).
    split; [rewrite (Z.div_mod v r) at 3 by lia; apply D_more; auto; lia|]. split.
    + intros c Hc. apply in_app_or in Hc. destruct Hc as [Hc|[<-|[]]]; auto.
    + intros E. assert (v / r = 0); [|lia]. apply I3. destruct (map up (digits_of f r (v / r))) as [|x l]; [|exact E]. inversion I1 as [|t c]; exfalso; eapply app_cons_not_nil; eauto.
Qed.
Lemma digits_fuel : forall f g r v, 2 <= r -> 0 <= v -> v < 2 ^ Z.of_nat f -> v < 2 ^ Z.of_nat g -> (0 < f)%nat -> (0 < g)%nat -> digits_of f r v = digits_of g r v.
Proof.
  induction f as [|f IH]; intros g r v R V F G Pf Pg; [lia|]. destruct g as [|g]; [lia|]. rewrite !digits_step. destruct (Z.ltb_spec v r) as [H|H]; [reflexivity|].
  assert (Q : 0 < v / r) by (apply Z.div_str_pos; lia). rewrite Nat2Z.inj_succ, Z.pow_succ_r in F, G by lia.
  assert (B1 : v / r < 2 ^ Z.of_nat f) by (apply Z.div_lt_upper_bound; [lia|nia]). assert (B2 : v / r < 2 ^ Z.of_nat g) by (apply Z.div_lt_upper_bound; [lia|nia]).
  f_equal. apply IH; auto; try lia; [destruct f; [cbn in B1; lia|lia]|destruct g; [cbn in B2; lia|lia]].
Qed.
Lemma log2_bound : forall v, 0 <= v -> v < 2 ^ Z.of_nat (S (Z.to_nat (Z.log2 v))).
Proof.
  intros v H. pose proof (Z.log2_nonneg v). rewrite Nat2Z.inj_succ, Z2Nat.id by lia. destruct (Z.eq_dec v 0) as [->|N]; [cbn; lia|]. apply Z.log2_spec. lia.
Qed.
Lemma formatted_ok : forall b v, 0 <= v -> denotes (radix b) (get_formatted v b) v /\ plain_numeral (get_formatted v b).
Proof.
  intros b v V. unfold get_formatted, to_radix. destruct (Z.ltb_spec v 0); [lia|].
  destruct (digits_good (S (Z.to_nat (Z.log2 v))) (radix b) v (radix_range b) V (log2_bound v V) ltac:(lia)) as (I1 & I2 & I3). split; [exact I1|]. split.
  - intros c Hc X. specialize (I2 c Hc). lia.
  - intros E. specialize (I3 E). subst v. change (S (Z.to_nat (Z.log2 0))) with 1%nat. cbn. pose proof (radix_range b). destruct (0 <? radix b) eqn:X; [reflexivity|lia].
Qed.
Lemma plain_unique : forall t r v, 2 <= r <= 16 -> denotes r t v -> plain_numeral t -> t = upper (to_radix r v).
Proof.
  induction t as [|c t IH] using rev_ind; intros r v R D (P1 & P2); [inversion D|]. { apply app_eq_nil in H; destruct H; discriminate. }
  assert (Du : forall c d, digit_value c d -> ~ (97 <= c)%N -> c = up_digit d).
  { intros c' d Hd Hc. unfold up_digit, up, hex_digit, digit_value in *. destruct (d <? 10) eqn:E; destruct (_ && _)%N eqn:E2; lia. }
  apply denotes_iff in D. destruct D as (_ & F & V). rewrite forallb_app in F. apply andb_prop in F as (F & Fc). cbn [forallb] in Fc. rewrite andb_true_r in Fc. unfold is_digit in Fc.
  destruct (digit c) as [d|] eqn:E; [|discriminate]. rewrite val_snoc, E in V. apply digit_iff in E. assert (Hc : c = up_digit d) by (apply Du; auto; apply P1; apply in_or_app; cbn; auto).
  assert (Rd : 0 <= d < r) by (unfold digit_value in E; lia).
  destruct t as [|x t].
  - cbn in V. replace (r * 0 + d) with d in V by lia. subst v. unfold to_radix. destruct (Z.ltb_spec d 0); [lia|]. rewrite digits_step. destruct (Z.ltb_spec d r); [|lia]. cbn. subst c. reflexivity.
  - set (w := val_acc r (x :: t) 0) in *. assert (Dw : denotes r (x :: t) w) by (apply denotes_iff; split; [discriminate|auto]).
    assert (Pw : plain_numeral (x :: t)). { split; [intros c' Hc'; apply P1; apply in_or_app; auto|]. intros Hx. cbn in Hx. injection Hx as ->. specialize (P2 eq_refl). destruct t; discriminate P2. }
    specialize (IH r w R Dw Pw). pose proof (denotes_nonneg r _ _ ltac:(lia) Dw) as W0.
    assert (Wp : w <> 0).
    { intros W. rewrite W in IH. destruct Pw as (_ & Pw). rewrite IH in P2. unfold to_radix in P2. change (S (Z.to_nat (Z.log2 0))) with 1%nat in P2. cbn in P2. destruct (0 <? r) eqn:X; [|lia]. specialize (P2 eq_refl). discriminate P2. }
    assert (Ev : v / r = w) by (symmetry; apply (Z.div_unique v r w d); lia). assert (Em : v mod r = d) by (symmetry; apply (Z.mod_unique v r w d); lia).
    unfold to_radix in *. destruct (Z.ltb_spec w 0); [lia|]. destruct (Z.ltb_spec v 0); [lia|]. rewrite digits_step. destruct (Z.ltb_spec v r); [nia|]. rewrite Ev, Em.
    assert (Lg : (0 < Z.to_nat (Z.log2 v))%nat). { assert (1 <= Z.log2 v) by (change 1 with (Z.log2 2); apply Z.log2_le_mono; lia). lia. }
    rewrite (digits_fuel (Z.to_nat (Z.log2 v)) (S (Z.to_nat (Z.log2 w))) r w); auto using log2_bound; try lia.
    + unfold upper in *. rewrite map_app, <- IH. cbn [map]. fold (up_digit d). rewrite <- Hc. reflexivity.
    + rewrite Z2Nat.id by lia. pose proof (Z.log2_spec v ltac:(nia)) as (_ & U). rewrite Z.pow_succ_r in U by lia. nia.
Qed.
(** The box writes a number in the usual way, and there is only one. *)
Theorem C61_format : forall b v, 0 <= v -> denotes (radix b) (get_formatted v b) v /\ plain_numeral (get_formatted v b) /\
  forall t, denotes (radix b) t v -> plain_numeral t -> t = get_formatted v b.
Proof.
  intros b v V. destruct (formatted_ok b v V) as (H1 & H2). split; [exact H1|]. split; [exact H2|]. intros t D P. exact (plain_unique t (radix b) v (radix_range b) D P).
Qed.

(** ** Accepted texts *)
Lemma span_app : forall f s, let '(a, b) := span f s in s = a ++ b /\ forallb f a = true /\ match b with [] => True | c :: _ => f c = false end.
Proof.
  induction s as [|c s IH]; cbn [span]; [auto|]. destruct (f c) eqn:E; [|auto]. destruct (span f s) as [a b]. destruct IH as (-> & F & B). split; [reflexivity|]. cbn [forallb]. rewrite E. auto.
Qed.
Lemma span_unique : forall f a b, forallb f a = true -> match b with [] => True | c :: _ => f c = false end -> span f (a ++ b) = (a, b).
Proof.
  induction a as [|c a IH]; intros b F B; cbn [app span].
  - destruct b as [|c b]; [reflexivity|]. cbn [span]. rewrite B. reflexivity.
  - cbn [forallb] in F. apply andb_prop in F as (F1 & F2). rewrite F1, (IH b F2 B). reflexivity.
Qed.
Lemma validate_iff : forall b t, validate t b = true <-> exists v, acceptable b t v.
Proof.
  assert (Z0 : forall b t, b <> DEC -> (match t with [] => false | _ => forallb (is_digit (radix b)) t end = true <-> exists v, acceptable b t v)).
  { intros b t Nb. split.
    - intros H. exists (val_acc (radix b) t 0). left. apply denotes_iff. destruct t; [discriminate H|]. split; [discriminate|auto].
    - intros (v & [D|(X & _)]); [|congruence]. apply denotes_iff in D. destruct D as (N & F & _). destruct t; [congruence|exact F]. }
  intros b t. destruct b; [|apply (Z0 HEX); discriminate|apply (Z0 BIN); discriminate]. unfold validate. pose proof (span_app (is_digit 10) t) as S. destruct (span (is_digit 10) t) as [d rest] eqn:Es. destruct S as (-> & F & B).
  split.
  - destruct d as [|x d]; [discriminate|]. assert (D : denotes 10 (x :: d) (val_acc 10 (x :: d) 0)) by (apply denotes_iff; split; [discriminate|auto]). destruct rest as [|c rest].
    + intros _. rewrite app_nil_r. eexists. left. exact D.
    + intros H. apply andb_prop in H as (Hc & Hr). apply N.eqb_eq in Hc. subst c. eexists. right. split; [reflexivity|]. exists (x :: d), rest. split; [reflexivity|]. split; [exact D|].
      destruct rest as [|y rest]; [auto|]. right. exists (val_acc 10 (y :: rest) 0). apply denotes_iff. split; [discriminate|auto].
  - intros (v & [D|(_ & t1 & t2 & E & D1 & D2)]).
    + apply denotes_iff in D. destruct D as (N & Fa & _). cbn [radix] in Fa. rewrite forallb_app in Fa. apply andb_prop in Fa as (_ & Fr). destruct rest as [|c rest]; [|cbn [forallb] in Fr; rewrite B in Fr; discriminate Fr].
      rewrite app_nil_r in N. destruct d; congruence.
    + apply denotes_iff in D1. destruct D1 as (N1 & F1 & _). pose proof (span_unique (is_digit 10) t1 (46%N :: t2) F1 eq_refl) as S1. rewrite <- E, Es in S1. injection S1 as -> ->. destruct t1; [congruence|]. cbn.
      destruct D2 as [->|(w & D2)]; [reflexivity|]. apply denotes_iff in D2. apply D2.
Qed.
Lemma parse_ok : forall b t v, acceptable b t v -> parse_int (radix b) t = v.
Proof.
  intros b t v [D|(-> & t1 & t2 & -> & D & _)]; apply denotes_iff in D; destruct D as (N & F & V); unfold parse_int; cbn [radix] in *.
  - rewrite <- (app_nil_r t), (span_unique _ t [] F I). exact V.
  - rewrite (span_unique (is_digit 10) t1 (46%N :: t2) F eq_refl). exact V.
Qed.
Lemma acceptable_nonneg : forall b t v, acceptable b t v -> 0 <= v.
Proof. intros b t v [D|(_ & t1 & t2 & _ & D & _)]; (eapply denotes_nonneg; [|exact D]); [pose proof (radix_range b)|]; lia. Qed.
(** Typing a numeral gives the owner its number, at most [max], and shows it. *)
Theorem C61_typed : forall x t v m, acceptable (nbase x) t v -> v < 2 ^ 53 -> 0 < m ->
  typed (Some m) t x = Some (mkBox (Z.min v m) (nbase x) (get_formatted (Z.min v m) (nbase x)) true) /\
  typed None t x = Some (mkBox v (nbase x) (get_formatted v (nbase x)) true).
Proof.
  intros x t v m A L M. unfold typed. assert (V : validate t (nbase x) = true) by (apply validate_iff; eauto). rewrite V, (parse_ok _ _ _ A).
  destruct (Z.ltb_spec (2 ^ 53 - 1) v); [lia|]. split; [|reflexivity]. replace (if negb (m =? 0) && (m <? v) then m else v) with (Z.min v m); [reflexivity|]. destruct (_ && _) eqn:E; lia.
Qed.
(** Typing anything else leaves the number alone. *)
Theorem C61_refused : forall x t m, (forall v, ~ acceptable (nbase x) t v) -> typed m t x = Some (mkBox (number x) (nbase x) t false).
Proof.
  intros x t m N. unfold typed. destruct (validate t (nbase x)) eqn:V; [|reflexivity]. exfalso. apply validate_iff in V. destruct V as (v & V). exact (N v V).
Qed.
(** Whatever is typed, chosen or passed, a box never shows a numeral of a number
    other than its own: it shows its number in the chosen base, or a text that is
    no numeral, and then it is marked. *)
Definition passed_ok (e : box_event) : Prop := match e with PassNumber n => 0 <= n | _ => True end.
Definition honest (x : numbox) : Prop := 0 <= number x /\ (formatted x = get_formatted (number x) (nbase x) \/ (forall v, ~ acceptable (nbase x) (formatted x) v) /\ is_valid x = false).
Theorem C61_honest : forall l max n b x, 0 <= n -> (forall m, max = Some m -> 0 <= m) -> Forall passed_ok l -> box_acts max l (new_box n b) = Some x -> honest x.
Proof.
  intros l max n b x N M F E. assert (H : honest (new_box n b)) by (split; [exact N|left; reflexivity]). revert x H E. generalize (new_box n b). induction F as [|e l Fe F IH]; intros x0 x H E.
  - injection E as <-. exact H.
  - cbn [box_acts] in E. destruct (box_act max e x0) as [x1|] eqn:E1; [|discriminate E]. apply (IH x1 x); [|exact E]. clear E IH. destruct H as (H0 & H). destruct e as [t|b'|n']; cbn [box_act] in E1.
    + unfold typed in E1. destruct (validate t (nbase x0)) eqn:V.
      * destruct (Z.ltb_spec (2 ^ 53 - 1) (parse_int (radix (nbase x0)) t)); [discriminate E1|]. injection E1 as <-. apply validate_iff in V. destruct V as (v & A). rewrite (parse_ok _ _ _ A). pose proof (acceptable_nonneg _ _ _ A).
        split; cbn [number nbase formatted]; [|left; reflexivity]. destruct max as [m|]; [|lia]. specialize (M m eq_refl). destruct (_ && _); lia.
      * injection E1 as <-. split; [exact H0|]. right. cbn [nbase formatted is_valid]. split; [|reflexivity]. intros v A. assert (validate t (nbase x0) = true) by (apply validate_iff; eauto). congruence.
    + injection E1 as <-. split; [exact H0|]. left. reflexivity.
    + injection E1 as <-. unfold pass_number. destruct (Z.eqb_spec n' (number x0)); [split; assumption|]. split; [exact Fe|]. left. reflexivity.
Qed.
(** What is shown can be typed again without changing anything. *)
Theorem C61_retype : forall x, 0 <= number x < 2 ^ 53 -> formatted x = get_formatted (number x) (nbase x) ->
  typed None (formatted x) x = Some (mkBox (number x) (nbase x) (formatted x) true).
Proof.
  intros x R E. rewrite E. destruct (formatted_ok (nbase x) (number x) ltac:(lia)) as (D & _). apply (C61_typed x _ _ 1); [left; exact D|lia|lia].
Qed.
(** The mark can be wrong: it stays when the text is replaced by choosing another
    base or by a new number. *)
Theorem C61_mark_refuted : forall n m b t, 0 <= n -> 0 <= m -> m <> n -> (forall v, ~ acceptable b t v) ->
  exists x y, box_acts None [Typed t; ChooseBase b] (new_box n b) = Some x /\ formatted x = get_formatted n b /\ is_valid x = false /\
    box_acts None [Typed t; PassNumber m] (new_box n b) = Some y /\ formatted y = get_formatted m b /\ is_valid y = false.
Proof.
  intros n m b t Hn Hm Nm A. cbn [box_acts box_act]. rewrite (C61_refused (new_box n b) t None A). eexists _, _. split; [reflexivity|]. split; [reflexivity|]. split; [reflexivity|].
  unfold pass_number. cbn [number new_box]. destruct (Z.eqb_spec m n); [congruence|]. split; [reflexivity|]. split; reflexivity.
Qed.
Example C61_nonvacuous : acceptable DEC (s2l "12.5") 12 /\ typed None (s2l "12.5") (new_box 7 DEC) = Some (mkBox 12 DEC (s2l "12") true) /\
  acceptable HEX (s2l "fF0") 4080 /\ typed (Some 255) (s2l "fF0") (new_box 7 HEX) = Some (mkBox 255 HEX (s2l "FF") true) /\
  (forall v, ~ acceptable BIN (s2l "102") v) /\ box_acts None [Typed (s2l "102"); ChooseBase DEC] (new_box 5 BIN) = Some (mkBox 5 DEC (s2l "5") false).
Proof.
  split. { right. split; [reflexivity|]. exists (s2l "12"), (s2l "5"). split; [reflexivity|]. split; [apply denotes_iff; repeat split; discriminate|]. right. exists 5. apply denotes_iff. repeat split; discriminate. }
  split; [reflexivity|]. split. { left. apply denotes_iff. repeat split; discriminate. } split; [reflexivity|]. split; [|reflexivity].
  intros v A. assert (X : validate (s2l "102") BIN = true) by (apply validate_iff; eauto). discriminate X.
Qed.
Print Assumptions C61_format.
Print Assumptions C61_typed.
Print Assumptions C61_refused.
Print Assumptions C61_honest.
Print Assumptions C61_retype.
Print Assumptions C61_mark_refuted.
