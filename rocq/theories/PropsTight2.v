(** * C59, C77: the page just opened, and texts after broken bytes *)
From Coq Require Import String ZArith NArith List Bool Lia ZifyBool ZifyN.
From Verif Require Import Prog Api View JsStr TextIo PropsView PropsTextIo.
Import ListNotations.
Open Scope list_scope.
Open Scope N_scope.

(** ** C77 *)
(** A state of the decoder between two bytes. *)
Definition waits (d : dec) : Prop := match needed d with O => d = start | S _ => 0x80 <= lower d /\ TextIo.upper d <= 0xBF end.
Lemma waits_start : waits start.
Proof. reflexivity. Qed.
Lemma waits_lead : forall b, waits (snd (lead b)).
Proof.
  intros b. unfold lead. destruct (b <=? 0x7F); [reflexivity|]. destruct ((0xC2 <=? b) && (b <=? 0xDF)); [unfold waits; cbn; lia|].
  destruct ((0xE0 <=? b) && (b <=? 0xEF)); [unfold waits; cbn; destruct (b =? 0xE0), (b =? 0xED); lia|]. destruct ((0xF0 <=? b) && (b <=? 0xF4)); [unfold waits; cbn; destruct (b =? 0xF0), (b =? 0xF4); lia|reflexivity].
Qed.
Lemma waits_feed : forall b d, waits (snd (feed b d)).
Proof.
  intros b d. unfold feed. destruct (needed d) as [|n]; [apply waits_lead|]. destruct ((lower d <=? b) && (b <=? TextIo.upper d)); [|apply waits_lead]. destruct n; [reflexivity|unfold waits; cbn; lia].
Qed.
(** A byte that is not in the middle of a character begins one, whatever came before. *)
Lemma decode_resumes : forall bs d b r, waits d -> b < 0x80 \/ 0xC0 <= b -> decode d (bs ++ b :: r) = decode d bs ++ decode start (b :: r).
Proof.
  induction bs as [|x bs IH]; intros d b r W H.
  - cbn [app]. unfold waits in W. destruct (needed d) as [|n] eqn:E; [subst d; reflexivity|]. cbn [decode]. rewrite E. unfold feed. rewrite E. replace ((lower d <=? b) && (b <=? TextIo.upper d)) with false by lia. reflexivity.
  - cbn [app]. cbn [decode]. rewrite IH by (auto using waits_feed). apply app_assoc.
Qed.
Lemma first_byte : forall c, scalar c -> exists b r, utf8 c = b :: r /\ (b < 0x80 \/ 0xC0 <= b).
Proof.
  intros c H. unfold utf8. destruct (c <? 0x80) eqn:E1; [do 2 eexists; split; [reflexivity|lia]|]. destruct (c <? 0x800); [do 2 eexists; split; [reflexivity|lia]|]. destruct (c <? 0x10000); do 2 eexists; (split; [reflexivity|lia]).
Qed.
(** Whatever bytes come before it in a file, broken characters included, a text is read whole, and they are read as if it were
    not there. *)
Theorem C77_resumes : forall bs t, proper_text t -> (forall r, t <> 0xFEFF :: r) -> open_file (bs ++ download t) = open_file bs ++ t.
Proof.
  intros bs t P N. pose proof P as (cs & F & Et). destruct F as [|c cs Hc F].
  - subst t. cbn [flat_map download encode_text scalars]. unfold download, encode_text. cbn. rewrite !app_nil_r. reflexivity.
  - assert (Ed : exists b r, download t = b :: r /\ (b < 0x80 \/ 0xC0 <= b)).
    { unfold download, encode_text. rewrite Et, scalars_all by (constructor; assumption). cbn [flat_map]. destruct (first_byte c Hc) as (b & r & -> & H). exists b, (r ++ flat_map utf8 cs). auto. }
    destruct Ed as (b & r & Ed & Hb). assert (Dt : decode_text (download t) = t) by (apply codec_proper; exact P).
    assert (K : forall l, decode_text (l ++ download t) = decode_text l ++ t).
    { intros l. rewrite <- Dt at 2. unfold decode_text. rewrite Ed, decode_resumes by (auto using waits_start). apply flat_map_app. }
    destruct bs as [|x [|y [|z bs]]].
    + cbn [app]. rewrite C77_file by assumption. reflexivity.
    + rewrite no_mark_bytes; [exact (K [x])|]. intros r' E. rewrite Ed in E. cbn [app] in E. injection E as _ E _. lia.
    + rewrite no_mark_bytes; [exact (K [x; y])|]. intros r' E. rewrite Ed in E. cbn [app] in E. injection E as _ _ E _. lia.
    + cbn [app open_file]. destruct ((x =? 0xEF) && (y =? 0xBB) && (z =? 0xBF)); [apply K|exact (K (x :: y :: z :: bs))].
Qed.
Example C77_resumes_nonvacuous : proper_text (s2l "FIN") /\ (forall r, s2l "FIN" <> 0xFEFF :: r) /\ open_file ([0x23; 0xE2; 0x82] ++ download (s2l "FIN")) = [0x23; 0xFFFD] ++ s2l "FIN".
Proof. split; [exists (s2l "FIN"); split; [repeat constructor; unfold scalar; lia|reflexivity]|]. split; [intros r; discriminate|vm_compute; reflexivity]. Qed.

(** ** C59 *)
(** Before the page is first told of a change, no box pulses and every box shows 0. *)
Theorem C59_opening : forall rnd h es h' v' b, run_calls [Init rnd; SetUi true] boot = Some h -> (forall e, In e es -> notified e = false) -> happens es (h, view0) = Some (h', v') -> v_blob v' b = false /\ v_value v' b = 0%Z.
Proof.
  intros rnd h es h' v' b _ Nn E. assert (K : forall es g v, (forall e, In e es -> notified e = false) -> happens es (g, v) = Some (h', v') -> v_blob v' b = v_blob v b /\ v_value v' b = v_value v b).
  { clear. induction es as [|e es IH]; intros g v Nn E; [injection E as <- <-; auto|]. cbn [happens] in E. destruct (happen e (g, v)) as [[g1 v1]|] eqn:E1; [|discriminate E].
    destruct (IH g1 v1 (fun x Hx => Nn x (or_intror Hx)) E) as (-> & ->). specialize (Nn e (or_introl eq_refl)). destruct e as [c| |n|]; cbn [happen notified] in *; [|discriminate Nn|injection E1 as <- <-; auto|injection E1 as <- <-; auto].
    destruct (do_call c g); [|discriminate E1]. rewrite Nn in E1. injection E1 as _ <-. auto. }
  exact (K es h view0 Nn E).
Qed.
Example C59_opening_nonvacuous : exists rnd h h' v', run_calls [Init rnd; SetUi true] boot = Some h /\ (forall e, In e [Search 7; Clear] -> notified e = false) /\ happens [Search 7; Clear] (h, view0) = Some (h', v').
Proof.
  destruct C58_executed_refuted as (rnd & h & _ & _ & E & _). exists rnd, h. do 2 eexists. split; [exact E|]. split; [intros e [<-|[<-|[]]]; reflexivity|reflexivity].
Qed.
Print Assumptions C77_resumes.
Print Assumptions C77_resumes_nonvacuous.
Print Assumptions C59_opening.
Print Assumptions C59_opening_nonvacuous.
