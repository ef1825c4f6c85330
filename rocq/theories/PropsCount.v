(** * C85: the number of subscriptions fits its C type
    [subscription_count] (pubsub.c:27) is an [int], in the model (PubSub.v) a number
    without bound.  These theorems say up to where that makes no difference. *)
From Coq Require Import ZArith List Lia.
From Verif Require Import Word Prog Components Machine PubSub Api Lifecycle Usage Reach PropsApi PropsFootprint.
From Verif Require PropsLife.
Import ListNotations.
Open Scope Z_scope.

(** In any history of allowed calls the count fits an [int] exactly as long as there
    were at most 27183337 initialisations, with or without shutdowns in between; so in
    such a history no increment, at any point of it, overflows. *)
Theorem C85_count_fits : forall l u h, proper l u -> run_calls l boot = Some h -> (subscriptions h <= 2 ^ 31 - 1 <-> inits l <= 27183337).
Proof. intros l u h P E. destruct (C85_exact l u h P E) as (_ & B & _). rewrite B. change (2 ^ 31 - 1) with 2147483647. lia. Qed.
(** Beyond that the increment at pubsub.c:39 is undefined, and there are allowed histories that
    go there. *)
Theorem C85_count_always_fits_refuted : ~ (forall l u h, proper l u -> run_calls l boot = Some h -> subscriptions h <= 2 ^ 31 - 1).
Proof.
  intro A. set (n := Z.to_nat 27183338). assert (N : Z.of_nat n = 27183338) by (apply Z2Nat.id; lia). clearbody n.
  destruct (PropsLife.C37_leak_unbounded_refuted n) as (h & P & E & _).
  pose proof (A _ _ _ P E) as B. destruct (C85_restarts_refuted n) as (h' & E' & _ & _ & S & _).
  rewrite E in E'. injection E' as <-. rewrite S, N in B. change (2 ^ 31 - 1) with 2147483647 in B. lia.
Qed.
Example C85_count_nonvacuous : forall n, Z.of_nat n <= 27183337 -> exists h, run_calls (PropsLife.restarts n) boot = Some h /\ subscriptions h = 79 * Z.of_nat n /\ subscriptions h <= 2 ^ 31 - 1.
Proof.
  intros n H. destruct (C85_restarts_refuted n) as (h & E & _ & _ & S & _). exists h. split; [exact E|]. split; [exact S|].
  rewrite S. change (2 ^ 31 - 1) with 2147483647. lia.
Qed.
Print Assumptions C85_count_fits.
Print Assumptions C85_count_always_fits_refuted.
