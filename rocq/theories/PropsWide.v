(** * Theorem: set_memory_value stores whatever it is given (C34) *)
From Coq Require Import ZArith List Bool Lia ZifyBool.
From Verif Require Import Word WordFacts Prog Tables Components Machine ZMachine ZWord ZRefine ZRefineC Rtl Isa Micro MicroIsa IsaOps
  LinkedList PubSub Api HeapSim Lifecycle Drive Track ApiFacts Usage Reach Front Runs IsaFacts PropsIsa PropsApi.
Import ListNotations.
Open Scope Z_scope.

(** In every live machine, every cell takes every value, byte or not, and reads back as
    that value; all other cells, the registers and the control state stay. *)
Theorem C34_any_value_refuted : forall l h o v, live l h true -> 0 <= o < 65536 ->
  exists h', do_call (SetMem o v) h = Some h' /\ (forall i, get_memory_value i h' = if i =? o then Some v else get_memory_value i h) /\
    (forall r, get_register_value r h' = get_register_value r h) /\ get_state h' = get_state h /\ get_next_state h' = get_next_state h /\ hl h' = hl h.
Proof.
  intros l h o v L Ho. destruct (live_up _ _ _ L) as (Hu & z & [(s & S & R) I T K]).
  pose proof Ho as Hv. apply valid_offset_range in Hv.
  cbn [do_call]. unfold api_set_memory_value, set_memory_value. rewrite Hv, hexec_StM, Hv.
  destruct (sim_mem h s S) as (f & SM & _). rewrite SM.
  exists (set_hm h (Mem (mset f o v))). split.
  { change (call_update_ui (set_hm h (Mem (mset f o v))) = Some (set_hm h (Mem (mset f o v)))).
    unfold call_update_ui. change (ui (set_hm h (Mem (mset f o v)))) with (ui h). rewrite Hu. reflexivity. }
  split.
  { intros i. unfold get_memory_value. change (hm (set_hm h (Mem (mset f o v)))) with (Mem (mset f o v)). rewrite SM. destruct (valid_offset i) eqn:Ei.
    - unfold mset. destruct (Z.eqb_spec i o); reflexivity.
    - destruct (Z.eqb_spec i o) as [->|]; [congruence|reflexivity]. }
  repeat split.
Qed.
(** The hypothesis is met by the machine after init with the callback set. *)
Example C34_any_value_nonvacuous : exists h h', live [Init (fun _ => 0); SetUi true] h true /\ do_call (SetMem 7 (-300)) h = Some h' /\ get_memory_value 7 h' = Some (-300).
Proof.
  destruct (live_init (fun _ => 0) ltac:(intros; lia)) as (h & L & _ & _). destruct (C34_any_value_refuted _ h 7 (-300) L ltac:(lia)) as (h' & E & G & _).
  exists h, h'. split; [exact L|]. split; [exact E|]. rewrite G. reflexivity.
Qed.
Print Assumptions C34_any_value_refuted.
