(** * C30, C61, C74: cases the other theorems do not reach
    Removing a middleware in the model of PubSub.v, negative numbers in a number box, and the message of an error without one. *)
From Coq Require Import String ZArith NArith List Bool Lia ZifyBool ZifyN.
From Verif Require Import Word PubSub PubSubPtr PubSubSpec PropsBus JsStr NumBox PropsNumBox Logger.
Import ListNotations.
Open Scope Z_scope.

(** After any history, removing a middleware is undefined in both models of the bus; removing NULL does nothing and says so. *)
Theorem C30_remove : forall es w rs q rs', promised_run es world0 = Some (w, rs) -> p_run es ph0 = Some (q, rs') ->
  (forall m p, p_rm_middleware m q = None /\ rm_topic_middleware (Some m) p = None) /\ forall p, rm_topic_middleware None p = Some (p, false).
Proof. intros es w rs q rs' E Eq. split; [|reflexivity]. intros m p. split; [exact (C30_store_refuted es w rs q rs' m E Eq)|reflexivity]. Qed.
Example C30_remove_nonvacuous : exists w rs q rs', promised_run [] world0 = Some (w, rs) /\ p_run [] ph0 = Some (q, rs').
Proof. do 4 eexists. split; reflexivity. Qed.

(** A negative number is written as '-' and the numeral of its opposite, without leading zeros, in every base. *)
Theorem C61_negative : forall b v, v < 0 -> exists t, get_formatted v b = s2l "-" ++ t /\ denotes (radix b) t (- v) /\ plain_numeral t.
Proof.
  intros b v V. destruct (formatted_ok b (- v) ltac:(lia)) as (D & P). exists (get_formatted (- v) b). split; [|split; assumption].
  unfold get_formatted, to_radix. destruct (Z.ltb_spec v 0); [|lia]. destruct (Z.ltb_spec (- v) 0); [lia|]. reflexivity.
Qed.
Example C61_negative_nonvacuous : get_formatted (-26) HEX = s2l "-1A" /\ get_formatted (-5) BIN = s2l "-101".
Proof. split; vm_compute; reflexivity. Qed.

(** A notice with a message prints that message; without one, the default message, which is number 0. *)
Theorem C74_message : forall debug, (forall x, throw_error debug NOTICE_ERROR false (Some x) logger0 = Some ([Printed 4 x], false) /\ throw_error debug NOTICE_ERROR true (Some x) logger0 = Some ([Perror x], false)) /\
  throw_error debug NOTICE_ERROR false None logger0 = Some ([Printed 4 0], false) /\ throw_error debug NOTICE_ERROR true None logger0 = Some ([Perror 0], false).
Proof. intros []; repeat split. Qed.
Print Assumptions C30_remove.
Print Assumptions C30_remove_nonvacuous.
Print Assumptions C61_negative.
Print Assumptions C61_negative_nonvacuous.
Print Assumptions C74_message.
