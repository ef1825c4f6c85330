(** * Theorems: what the logger prints and passes on (C74) *)
From Coq Require Import ZArith List Bool Lia ZifyBool.
From Verif Require Import Logger.
Import ListNotations.
Open Scope Z_scope.

(** ** Specification, from the history of calls alone *)
Definition final_level (l : list lcall) : Z := fold_left (fun c e => match e with SetLevel x => x | _ => c end) l 0.
Definition final_quiet (l : list lcall) : bool := fold_left (fun c e => match e with SetQuiet x => x | _ => c end) l false.
Definition final_lock (l : list lcall) : option nat * Z := fold_left (fun c e => match e with SetLock f u => (f, u) | _ => c end) l (None, 0).
(** The callbacks added, in order (function, data, level). *)
Fixpoint added (l : list lcall) : list (nat * Z * Z) :=
  match l with
  | [] => []
  | AddCallback (Some f) u lv :: l' => (f, u, lv) :: added l'
  | _ :: l' => added l'
  end.
(** The first 32 of them are kept. *)
Definition kept (l : list lcall) : list (nat * Z * Z) := firstn 32 (added l).
Definition receives (lv msg : Z) (c : nat * Z * Z) : list output :=
  let '(f, u, least) := c in if least <=? lv then [Passed f u lv msg] else [].
Definition around (b : bool) (k : option nat * Z) : list output := match fst k with Some f => [Locked f b (snd k)] | None => [] end.

(** ** Proofs *)
Definition as_slot (c : nat * Z * Z) : slot := let '(f, u, lv) := c in mkSlot (Some f) u lv.
Definition holds (cs : list (nat * Z * Z)) (l : list slot) : Prop :=
  exists free, l = map as_slot cs ++ free /\ length l = 32%nat /\ forall x, In x free -> fn x = None.
Lemma fill_holds : forall f u lv cs l, holds cs l -> (length cs < 32)%nat -> exists l', fill (mkSlot (Some f) u lv) l = Some l' /\ holds (cs ++ [(f, u, lv)]) l'.
Proof.
  intros f u lv cs l (free & -> & Hl & Hf) Hc. destruct free as [|x free]; [rewrite app_nil_r, map_length in Hl; lia|].
  exists (map as_slot (cs ++ [(f, u, lv)]) ++ free). split.
  - rewrite map_app, <- app_assoc. clear -Hf. induction cs as [|((f0, u0), l0) cs IH]; cbn [map app fill as_slot fn].
    + rewrite (Hf x (or_introl eq_refl)). reflexivity.
    + rewrite IH. reflexivity.
  - exists free. split; [reflexivity|]. split; [|intros y Hy; apply Hf; right; exact Hy]. rewrite !app_length, !map_length, app_length in *. cbn [length] in *. lia.
Qed.
Lemma fill_null : forall u lv cs l, holds cs l -> match fill (mkSlot None u lv) l with Some l' => holds cs l' | None => length cs = 32%nat end.
Proof.
  intros u lv cs l (free & -> & Hl & Hf). destruct free as [|x free].
  - rewrite app_nil_r in *. rewrite map_length in Hl. replace (fill (mkSlot None u lv) (map as_slot cs)) with (@None (list slot)); [exact Hl|].
    clear. induction cs as [|((f0, u0), l0) cs IH]; [reflexivity|]. cbn [map fill as_slot fn]. rewrite <- IH. reflexivity.
  - replace (fill (mkSlot None u lv) (map as_slot cs ++ x :: free)) with (Some (map as_slot cs ++ mkSlot None u lv :: free)).
    + exists (mkSlot None u lv :: free). split; [reflexivity|]. split; [rewrite app_length in *; cbn [length] in *; exact Hl|]. intros y [<-|Hy]; [reflexivity|]. apply Hf. right. exact Hy.
    + clear -Hf. induction cs as [|((f0, u0), l0) cs IH]; cbn [map app fill as_slot fn]; [rewrite (Hf x (or_introl eq_refl)); reflexivity|]. rewrite <- IH. reflexivity.
Qed.
Lemma fill_full : forall s cs l, holds cs l -> length cs = 32%nat -> fill s l = None.
Proof.
  intros s cs l (free & -> & Hl & _) Hc. rewrite app_length, map_length in Hl. destruct free; [|cbn [length] in Hl; lia]. rewrite app_nil_r.
  clear. induction cs as [|((f0, u0), l0) cs IH]; [reflexivity|]. cbn [map fill as_slot fn]. rewrite IH. reflexivity.
Qed.
Lemma added_app : forall l l', added (l ++ l') = added l ++ added l'.
Proof. induction l as [|e l IH]; intros l'; [reflexivity|]. cbn [app added]. destruct e as [f u|v|q|[f|] u v]; rewrite IH; reflexivity. Qed.
Lemma kept_len : forall l, (length (kept l) <= 32)%nat.
Proof. intros. unfold kept. rewrite firstn_length. lia. Qed.
Lemma state_is : forall l, holds (kept l) (slots (lsteps l)) /\ level (lsteps l) = final_level l /\ quiet (lsteps l) = final_quiet l /\
  (lock_fn (lsteps l), lock_udata (lsteps l)) = final_lock l.
Proof.
  intros l. induction l as [|e l IH] using rev_ind.
  - split; [|repeat split]. exists (repeat (mkSlot None 0 0) max_callbacks). split; [reflexivity|]. split; [reflexivity|]. intros x Hx. apply repeat_spec in Hx. subst x. reflexivity.
  - unfold lsteps, final_level, final_quiet, final_lock. rewrite !fold_left_app. cbn [fold_left]. fold (lsteps l). fold (final_level l). fold (final_quiet l). fold (final_lock l).
    destruct IH as (H1 & H2 & H3 & H4). unfold kept. rewrite added_app. 
    destruct e as [f u|v|q|[f|] u v]; cbn [added lstep]; rewrite ?app_nil_r; fold (kept l); cbn [log_set_lock log_set_level log_set_quiet slots level quiet lock_fn lock_udata]; try (repeat split; assumption).
    + unfold log_add_callback. pose proof (kept_len l) as K.
      destruct (Nat.eq_dec (length (kept l)) 32) as [E|E].
      * rewrite (fill_full _ _ _ H1 E). cbn [snd]. replace (firstn 32 (added l ++ [(f, u, v)])) with (kept l); [repeat split; assumption|].
        unfold kept in *. rewrite firstn_app. rewrite firstn_length in E. replace (32 - length (added l))%nat with 0%nat by lia. cbn [firstn]. rewrite app_nil_r. reflexivity.
      * destruct (fill_holds f u v _ _ H1 ltac:(lia)) as (l' & -> & Hl'). cbn [snd slots level quiet lock_fn lock_udata]. split; [|repeat split; assumption].
        assert (Ek : kept l = added l) by (unfold kept in *; rewrite firstn_length in E; apply firstn_all2; lia). rewrite Ek in *.
        rewrite firstn_all2 by (rewrite app_length; cbn [length]; lia). exact Hl'.
    + unfold log_add_callback. pose proof (fill_null u v _ _ H1) as N. destruct (fill (mkSlot None u v) (slots (lsteps l))); cbn [snd slots level quiet lock_fn lock_udata]; repeat split; assumption.
Qed.
Lemma call_all_is : forall lv msg cs l, holds cs l -> call_all lv msg l = flat_map (receives lv msg) cs.
Proof.
  intros lv msg cs l (free & -> & _ & Hf). induction cs as [|((f, u), v) cs IH]; cbn [map app].
  - destruct free as [|x free]; [reflexivity|]. cbn [call_all]. rewrite (Hf x (or_introl eq_refl)). reflexivity.
  - cbn [call_all as_slot fn slot_level udata flat_map receives]. rewrite IH. reflexivity.
Qed.
Lemma locking_is : forall b l, locking b (lsteps l) = around b (final_lock l).
Proof. intros b l. destruct (state_is l) as (_ & _ & _ & E). rewrite <- E. reflexivity. Qed.

(** ** C74 *)
(** After any set-up, a message of a level from TRACE (0) to FATAL (5) in a debugging
    build is printed once if the logger is not quiet and the level is at least the one
    set, and passed once, in the order they were added, to each of the first 32
    callbacks whose level it reaches; the lock is held meanwhile. *)
Theorem C74_debug : forall l lv msg, 0 <= lv <= 5 ->
  log_log true lv msg (lsteps l) = Some (around true (final_lock l) ++
    (if negb (final_quiet l) && (final_level l <=? lv) then [Printed lv msg] else []) ++ flat_map (receives lv msg) (kept l) ++ around false (final_lock l)).
Proof.
  intros l lv msg H. destruct (state_is l) as (H1 & H2 & H3 & _). unfold log_log. cbn [negb andb]. rewrite H2, H3, !locking_is, (call_all_is lv msg _ _ H1).
  destruct (negb (final_quiet l) && (final_level l <=? lv)); [|reflexivity]. unfold print. replace ((0 <=? lv) && (lv <=? 5)) with true by lia. reflexivity.
Qed.
(** The release build does the same for INFO and ERROR messages and ignores all others. *)
Theorem C74_release : forall g lv msg, log_log false lv msg g = if (lv =? 2) || (lv =? 4) then log_log true lv msg g else Some [].
Proof. intros g lv msg. unfold log_log, LOG_INFO, LOG_ERROR. cbn [negb andb]. destruct (lv =? 2), (lv =? 4); reflexivity. Qed.
(** Adding reports failure exactly when 32 callbacks are held, and then changes nothing. *)
Theorem C74_add : forall l f u lv, let r := log_add_callback (Some f) u lv (lsteps l) in
  ((length (added l) < 32)%nat -> fst r = 0) /\ ((32 <= length (added l))%nat -> fst r = -1 /\ snd r = lsteps l).
Proof.
  intros l f u lv. destruct (state_is l) as (H & _). unfold log_add_callback. pose proof (kept_len l) as K. unfold kept in K, H. cbv zeta.
  split; intros Hn.
  - destruct (fill_holds f u lv _ _ H) as (l' & -> & _); [rewrite firstn_length; lia|]. reflexivity.
  - rewrite (fill_full _ _ _ H) by (rewrite firstn_length; lia). auto.
Qed.
(** A notice is always reported: with the logger as it starts, in both builds. *)
Theorem C74_notice : forall debug m, throw_error debug NOTICE_ERROR false m logger0 = Some ([Printed 4 (text_of m)], false) /\
  throw_error debug NOTICE_ERROR true m logger0 = Some ([Perror (text_of m)], false).
Proof. intros [|] m; split; reflexivity. Qed.
(** A fatal error always ends the process... *)
Theorem C74_fatal_exits : forall debug e m g o b, throw_error debug FATAL_ERROR e m g = Some (o, b) -> b = true.
Proof. intros debug e m g o b H. unfold throw_error in H. destruct e; [injection H as _ H; auto|]. destruct (log_log debug LOG_FATAL (text_of m) g); [injection H as _ H; auto|discriminate H]. Qed.
(** ...but, in the release build, without its message, whatever the set-up (finding). *)
Theorem C74_fatal_refuted : forall m g, throw_error true FATAL_ERROR false m logger0 = Some ([Printed 5 (text_of m)], true) /\
  throw_error false FATAL_ERROR false m g = Some ([], true).
Proof. intros. split; reflexivity. Qed.
Example C74_nonvacuous : let l := [AddCallback (Some 1%nat) 7 4; SetLock (Some 9%nat) 3; AddCallback None 0 0; SetLevel 3; AddCallback (Some 2%nat) 8 0] in
  log_log true 2 99 (lsteps l) = Some [Locked 9 true 3; Passed 2 8 2 99; Locked 9 false 3] /\
  log_log false 4 99 (lsteps l) = Some [Locked 9 true 3; Printed 4 99; Passed 1 7 4 99; Passed 2 8 4 99; Locked 9 false 3] /\
  (exists l', length (added l') = 33%nat /\ fst (log_add_callback (Some 5%nat) 0 0 (lsteps l')) = -1).
Proof. cbv zeta. split; [vm_compute; reflexivity|]. split; [vm_compute; reflexivity|]. exists (repeat (AddCallback (Some 1%nat) 0 0) 33). split; vm_compute; reflexivity. Qed.
Print Assumptions C74_debug.
Print Assumptions C74_release.
Print Assumptions C74_add.
Print Assumptions C74_notice.
Print Assumptions C74_fatal_exits.
Print Assumptions C74_fatal_refuted.
