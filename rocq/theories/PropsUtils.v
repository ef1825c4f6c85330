(** * Theorems: digits, decimal text and sleeping (C75, C76) *)
From Coq Require Import ZArith List Bool Lia ZifyBool.
From Verif Require Import Utils.
Import ListNotations.
Open Scope Z_scope.

(** ** Specification *)
(** [d] is the number of decimal digits of [n]. *)
Definition has_digits (n d : Z) : Prop := 1 <= d /\ 10 ^ (d - 1) <= Z.abs n < 10 ^ d.
(** The number a text of decimal digits stands for. *)
Definition value (t : list Z) : Z := fold_left (fun v c => 10 * v + (c - 48)) t 0.
Definition decimal (t : list Z) (n : Z) : Prop :=
  value t = n /\ t <> [] /\ (forall c, In c t -> 48 <= c <= 57) /\ (hd 0 t = 48 -> t = [48]).

(** ** Proofs *)
Lemma count_is : forall d fuel n c, (Z.to_nat d <= fuel)%nat -> 1 <= d -> 10 ^ (d - 1) <= Z.abs n < 10 ^ d -> count_digits fuel n c = Some (c + d).
Proof.
  intros d fuel n c. revert d n c. induction fuel as [|f IH]; intros d n c Hf Hd Hn; [lia|].
  assert (P1 : 0 < 10 ^ (d - 1)) by (apply Z.pow_pos_nonneg; lia). cbn [count_digits]. destruct (Z.eqb_spec n 0) as [->|Nz]; [change (Z.abs 0) with 0 in Hn; lia|].
  assert (Ep : 10 ^ d = 10 * 10 ^ (d - 1)). { rewrite <- Z.pow_succ_r by lia. f_equal. lia. }
  assert (Q : Z.abs (Z.quot n 10) = Z.abs n / 10). { rewrite <- Z.quot_div_nonneg by lia. rewrite <- Z.quot_abs by lia. reflexivity. }
  destruct (Z.eq_dec d 1) as [->|N1].
  - change (10 ^ (1 - 1)) with 1 in Hn. change (10 ^ 1) with 10 in Hn. assert (E : Z.quot n 10 = 0). { assert (Z.abs n / 10 = 0) by (apply Z.div_small; lia). lia. }
    rewrite E. destruct f; reflexivity.
  - rewrite (IH (d - 1) (Z.quot n 10) (c + 1)); [f_equal; lia|lia|lia|]. rewrite Q.
    assert (Ep' : 10 ^ (d - 1) = 10 * 10 ^ (d - 1 - 1)). { rewrite <- Z.pow_succ_r by lia. f_equal. lia. }
    split; [apply Z.div_le_lower_bound; lia|apply Z.div_lt_upper_bound; lia].
Qed.
Lemma digits_exist : forall n, 0 < n -> exists d, 1 <= d /\ 10 ^ (d - 1) <= n < 10 ^ d.
Proof.
  apply (well_founded_ind (Z.lt_wf 0) (fun n => 0 < n -> exists d, 1 <= d /\ 10 ^ (d - 1) <= n < 10 ^ d)). intros n IH Hn.
  destruct (Z.lt_ge_cases n 10) as [L|G]; [exists 1; change (10 ^ (1 - 1)) with 1; change (10 ^ 1) with 10; lia|].
  destruct (IH (n / 10)) as (d & Hd & Hr). { split; [apply Z.div_pos; lia|apply Z.div_lt; lia]. } { apply Z.div_str_pos. lia. }
  exists (d + 1). replace (d + 1 - 1) with d by lia. rewrite Z.pow_add_r by lia. change (10 ^ 1) with 10. assert (E : 10 ^ d = 10 * 10 ^ (d - 1)). { rewrite <- Z.pow_succ_r by lia. f_equal. lia. }
  split; [lia|]. assert (D := Z.div_mod n 10 ltac:(lia)). assert (M := Z.mod_pos_bound n 10 ltac:(lia)). lia.
Qed.
Lemma digits_small : forall n d, 1 <= d -> 10 ^ (d - 1) <= n -> n < 10 ^ 11 -> d <= 11.
Proof. intros n d Hd H1 H2. destruct (Z.le_gt_cases d 11); [assumption|]. assert (10 ^ 11 <= 10 ^ (d - 1)) by (apply Z.pow_le_mono_r; lia). lia. Qed.

Lemma log10_is : forall d fuel n, (Z.to_nat d <= S fuel)%nat -> 1 <= d -> 10 ^ (d - 1) <= n < 10 ^ d -> log10_loop fuel n = d - 1.
Proof.
  intros d fuel n. revert d n. induction fuel as [|f IH]; intros d n Hf Hd Hn.
  - assert (d = 1) by lia. subst d. change (10 ^ 1) with 10 in Hn. cbn [log10_loop]. destruct (n <? 10); reflexivity.
  - cbn [log10_loop]. assert (P1 : 0 < 10 ^ (d - 1)) by (apply Z.pow_pos_nonneg; lia). destruct (Z.eq_dec d 1) as [->|N1].
    + change (10 ^ 1) with 10 in Hn. destruct (Z.ltb_spec n 10); [reflexivity|lia].
    + assert (Ep' : 10 ^ (d - 1) = 10 * 10 ^ (d - 1 - 1)). { rewrite <- Z.pow_succ_r by lia. f_equal. lia. } assert (Ep : 10 ^ d = 10 * 10 ^ (d - 1)). { rewrite <- Z.pow_succ_r by lia. f_equal. lia. }
      assert (P2 : 0 < 10 ^ (d - 1 - 1)) by (apply Z.pow_pos_nonneg; lia). destruct (Z.ltb_spec n 10); [lia|].
      rewrite (IH (d - 1) (n / 10)); [lia|lia|lia|]. split; [apply Z.div_le_lower_bound; lia|apply Z.div_lt_upper_bound; lia].
Qed.
Lemma value_app : forall t c, value (t ++ [c]) = 10 * value t + (c - 48).
Proof. intros. unfold value. rewrite fold_left_app. reflexivity. Qed.
Lemma hd_app : forall (t u : list Z) x, t <> [] -> hd x (t ++ u) = hd x t.
Proof. intros [|a t] u x H; [congruence|reflexivity]. Qed.
Lemma print_is : forall fuel d n, (Z.to_nat d <= fuel)%nat -> 1 <= d -> (10 ^ (d - 1) <= n \/ d = 1) -> 0 <= n < 10 ^ d -> decimal (print_d fuel n) n /\ Z.of_nat (length (print_d fuel n)) = d /\ (0 < n -> hd 0 (print_d fuel n) <> 48).
Proof.
  induction fuel as [|f IH]; intros d n Hf Hd Hn Hn'; [lia|]. cbn [print_d]. assert (M := Z.mod_pos_bound n 10 ltac:(lia)). assert (Dm := Z.div_mod n 10 ltac:(lia)).
  destruct (Z.eq_dec d 1) as [->|N1].
  - change (10 ^ 1) with 10 in Hn'. destruct (Z.ltb_spec n 10); [|lia]. rewrite Z.mod_small by lia. cbn [app]. split; [|split; [reflexivity|cbn [hd]; lia]].
    split; [unfold value; cbn [fold_left]; lia|]. split; [discriminate|]. split; [intros c [<-|[]]; lia|cbn [hd]; intros E; f_equal; exact E].
  - destruct Hn as [Hn|Hn]; [|lia]. assert (Ep' : 10 ^ (d - 1) = 10 * 10 ^ (d - 1 - 1)). { rewrite <- Z.pow_succ_r by lia. f_equal. lia. } assert (Ep : 10 ^ d = 10 * 10 ^ (d - 1)). { rewrite <- Z.pow_succ_r by lia. f_equal. lia. }
    assert (P2 : 0 < 10 ^ (d - 1 - 1)) by (apply Z.pow_pos_nonneg; lia). destruct (Z.ltb_spec n 10); [lia|].
    destruct (IH (d - 1) (n / 10)) as ((V & Ne & Dg & Hz) & Ln & Hh).
    { lia. } { lia. } { left. apply Z.div_le_lower_bound; lia. } { split; [apply Z.div_pos; lia|apply Z.div_lt_upper_bound; lia]. }
    assert (Hp : 0 < n / 10) by (apply Z.div_str_pos; lia). specialize (Hh Hp).
    split; [|split; [rewrite app_length; cbn [length]; lia|intros _; rewrite hd_app by exact Ne; exact Hh]].
    split; [rewrite value_app, V; lia|]. split; [intros E; apply app_eq_nil in E; destruct E; contradiction|]. split; [intros c I; apply in_app_or in I; destruct I as [I|[<-|[]]]; [apply Dg; exact I|lia]|].
    rewrite hd_app by exact Ne. intros E. contradiction.
Qed.

(** ** C75 *)
(** The number of decimal digits, for every [int] except 0. *)
Theorem C75_digits : forall n, INT_MIN <= n <= INT_MAX -> n <> 0 -> exists d, get_num_digits n = Some d /\ has_digits n d.
Proof.
  intros n H Nz. unfold INT_MIN, INT_MAX in H. destruct (digits_exist (Z.abs n) ltac:(lia)) as (d & Hd & Hr). exists d. split; [|split; assumption].
  unfold get_num_digits. rewrite (count_is d 11 n 0); [reflexivity| |exact Hd|exact Hr]. assert (d <= 11) by (apply (digits_small (Z.abs n)); [exact Hd|lia|change (10 ^ 11) with 100000000000; lia]). lia.
Qed.
(** Finding: 0 is said to have none. *)
Theorem C75_digits_refuted : get_num_digits 0 = Some 0 /\ ~ has_digits 0 0.
Proof. split; [reflexivity|]. intros (H & _). lia. Qed.
(** The decimal text of every number from 0 to INT_MAX - 1, complete and without
    leading zeros. *)
Theorem C75_text : forall n, 0 <= n < INT_MAX -> exists t, num_to_str n = Some t /\ decimal t n.
Proof.
  intros n H. unfold INT_MAX in H. unfold num_to_str, INT_MAX. replace (2147483647 <=? n) with false by lia.
  destruct (digits_exist (n + 1) ltac:(lia)) as (d & Hd & Hr). assert (d <= 11) by (apply (digits_small (n + 1)); [exact Hd|lia|change (10 ^ 11) with 100000000000; lia]).
  unfold log10. replace (n + 1 <? 1) with false by lia. rewrite (log10_is d 11 (n + 1)) by (try lia; exact Hr). cbv zeta. eexists. split; [reflexivity|].
  assert (K : exists e, 1 <= e <= d /\ (10 ^ (e - 1) <= n \/ e = 1) /\ 0 <= n < 10 ^ e).
  { destruct (Z.eq_dec n 0) as [->|Nz]; [exists 1; change (10 ^ 1) with 10; lia|]. destruct (digits_exist n ltac:(lia)) as (e & He & Hre). exists e. split; [|split; [left|]; lia].
    split; [exact He|]. destruct (Z.le_gt_cases e d); [assumption|]. assert (10 ^ d <= 10 ^ (e - 1)) by (apply Z.pow_le_mono_r; lia). lia. }
  destruct K as (e & He & Hs & Hb). destruct (print_is 11 e n ltac:(lia) ltac:(lia) Hs Hb) as (D & L & _). rewrite firstn_all2 by lia. exact D.
Qed.
(** Finding: undefined for negative numbers and for the largest [int]. *)
Theorem C75_text_refuted : forall n, INT_MIN <= n < 0 \/ n = INT_MAX -> num_to_str n = None.
Proof.
  intros n [H| ->]; [|reflexivity]. unfold num_to_str, INT_MAX, INT_MIN in *. replace (2147483647 <=? n) with false by lia. unfold log10. replace (n + 1 <? 1) with true by lia. reflexivity.
Qed.
Example C75_nonvacuous : num_to_str 13502 = Some [49; 51; 53; 48; 50] /\ num_to_str 99 = Some [57; 57] /\ num_to_str 0 = Some [48] /\ num_to_str 2147483646 = Some [50; 49; 52; 55; 52; 56; 51; 54; 52; 54] /\
  get_num_digits (-2147483648) = Some 10.
Proof. repeat split. Qed.

(** ** C76 *)
(** A wait of 0 ms is over at once, and so is one whose signal is already aborted. *)
Theorem C76_at_once : forall ms already, ms = 0 \/ already = true -> resolved (sleep ms already) = true /\ pending (sleep ms already) = false /\ attached (sleep ms already) = false.
Proof. intros ms already H. unfold sleep. destruct (Z.eqb_spec ms 0); [auto|]. destruct H as [H|H]; [contradiction|]. rewrite H. auto. Qed.
(** Any other wait is over exactly when the time is due or the signal is aborted,
    whichever comes first; then neither timer nor listener is left behind. *)
Theorem C76_first : forall ms l, ms <> 0 -> let s := sleep_steps l (sleep ms false) in
  (resolved s = true <-> l <> []) /\ (resolved s = true -> pending s = false /\ attached s = false) /\ (resolved s = false -> pending s = true /\ attached s = true).
Proof.
  intros ms l H. unfold sleep. destruct (Z.eqb_spec ms 0) as [|_]; [contradiction|]. destruct l as [|e l]; cbv zeta.
  - cbn. repeat split; intros; congruence.
  - assert (K : forall l s, resolved s = true -> pending s = false -> attached s = false -> let s' := sleep_steps l s in resolved s' = true /\ pending s' = false /\ attached s' = false).
    { clear. induction l as [|e l IH]; intros s H1 H2 H3; [cbn; auto|]. unfold sleep_steps. cbn [fold_left]. apply IH; destruct e; cbn [sleep_step]; rewrite ?H2; destruct (aborted s); cbn [resolved pending attached]; rewrite ?H1, ?H2, ?H3; reflexivity. }
    unfold sleep_steps. cbn [fold_left]. destruct (K l (sleep_step e (mkSleeper false true true false))) as (K1 & K2 & K3); [destruct e; reflexivity..|]. unfold sleep_steps in *.
    split; [split; [intros _; discriminate|intros _; exact K1]|]. split; [auto|]. intros X. congruence.
Qed.
Example C76_nonvacuous : resolved (sleep_steps [] (sleep 500 false)) = false /\ resolved (sleep_steps [Abort; Due] (sleep 500 false)) = true.
Proof. split; reflexivity. Qed.
Print Assumptions C75_digits.
Print Assumptions C75_digits_refuted.
Print Assumptions C75_text.
Print Assumptions C75_text_refuted.
Print Assumptions C76_at_once.
Print Assumptions C76_first.
