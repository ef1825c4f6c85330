(** * Every usable machine shows a programmer-visible state *)
From Coq Require Import ZArith List Bool Lia ZifyBool.
From Verif Require Import Word WordFacts Prog Tables Components Machine ZMachine ZWord ZRefine ZRefineB ZRefineC
  Rtl Micro Isa MicroIsa IsaOps Track Drive LinkedList PubSub Api HeapSim Lifecycle Usage ApiFacts Reach PropsApi.
Import ListNotations.
Open Scope Z_scope.
Opaque trk.

Lemma live_shows : forall l h k, live l h k -> exists a, shows h a /\ valid a.
Proof.
  intros l h k L. destruct (live_up l h k L) as (_ & z & U). destruct (up_obs h z U) as (O & _).
  pose proof (zview_valid z (inv_rng z (up_inv _ _ U))) as V.
  exists (abs (view z)). assert (S : shows h (abs (view z))) by (apply (obs_shows h (view z)); [exact O|exact V|repeat split]).
  split; auto. destruct (C18_ranges l h k L) as (Rr & Rm). destruct S as (S1 & S2 & S3 & S4 & S5 & S6 & S7 & S8 & S9 & S10 & _).
  assert (G : forall r v, get_register_value r h = Some v -> 0 <= v < 2 ^ width r) by (intros r v E; destruct (Rr r) as (w & Ew & Hw); rewrite E in Ew; injection Ew as ->; exact Hw).
  pose proof (G _ _ S1). pose proof (G _ _ S4). pose proof (G _ _ S5). pose proof (G _ _ S6). pose proof (G _ _ S7). pose proof (G _ _ S8). pose proof (G _ _ S9). cbn [width] in *. change (2 ^ 8) with 256 in *. change (2 ^ 16) with 65536 in *.
  unfold valid. do 7 (split; [lia|]). intros a Ha. destruct (Rm a Ha) as (v & Ev & Hv). rewrite S10 in Ev by exact Ha. assert (Ev2 : M (abs (view z)) a = v) by congruence. rewrite Ev2. change (2 ^ 8) with 256 in Hv. lia.
Qed.
