(** * Theorems: every text on the page is in the chosen language (C73) *)
From Coq Require Import String List Bool Arith Lia.
From Verif Require Import I18nTable I18n.
Import ListNotations.
Open Scope string_scope.
Open Scope list_scope.

(** ** Specification *)
(** React mounts a component that is not mounted, and unmounts or re-renders one that is. *)
Inductive fits : list tevent -> texts -> Prop :=
| F_nil : forall t, fits [] t
| F_mount : forall n k l t, ~ In n (map num (mounted t)) -> fits l (happen_text (Mount n k) t) -> fits (Mount n k :: l) t
| F_unmount : forall n l t, In n (map num (mounted t)) -> fits l (happen_text (Unmount n) t) -> fits (Unmount n :: l) t
| F_give : forall n k l t, In n (map num (mounted t)) -> fits l (happen_text (Give n k) t) -> fits (Give n k :: l) t
| F_language : forall x l t, fits l (happen_text (SetLanguage x) t) -> fits (SetLanguage x :: l) t.
(** The text a user expects under a key in a language: the chosen language's table,
    English for a language there is no table for. *)
Definition expected (k l : string) : table * string :=
  ((if string_dec l "eu" then T_eu else if string_dec l "es" then T_es else T_en), k).
Definition right (l : string) (s : shown_text) : Prop :=
  shows s = if in_dec string_dec (given s) (keys (fst (expected (given s) l))) then Some (expected (given s) l) else None.
Definition chosen (first : string) (l : list tevent) : string :=
  fold_left (fun c e => match e with SetLanguage x => x | _ => c end) l first.
Definition is_give (e : tevent) : bool := match e with Give _ _ => true | _ => false end.
Definition is_language (e : tevent) : bool := match e with SetLanguage _ => true | _ => false end.

(** ** Proofs *)
Lemma loc_expected : forall k l, loc k l = if in_dec string_dec k (keys (fst (expected k l))) then Some (expected k l) else None.
Proof.
  intros k l. unfold loc.
  assert (E : language_data l = fst (expected k l)).
  { unfold language_data, expected. cbn [fst]. destruct (string_dec l "eu") as [->|N1]; [reflexivity|]. destruct (string_dec l "es") as [->|N2]; [reflexivity|].
    apply String.eqb_neq in N1, N2. rewrite N1, N2. destruct (String.eqb l "en"); reflexivity. }
  rewrite E. destruct (existsb (String.eqb k) (keys (fst (expected k l)))) eqn:X; destruct (in_dec string_dec k (keys (fst (expected k l)))) as [I|I].
  - reflexivity.
  - destruct I. apply existsb_exists in X. destruct X as (x & I & X). apply String.eqb_eq in X. subst x. exact I.
  - assert (Y : existsb (String.eqb k) (keys (fst (expected k l))) = true) by (apply existsb_exists; exists k; split; [exact I|apply String.eqb_refl]). congruence.
  - reflexivity.
Qed.

Definition paired (P : listener -> shown_text -> Prop) (t : texts) : Prop :=
  NoDup (map num (mounted t)) /\ Forall2 (fun c s => owner c = num s /\ P c s) (listeners t) (mounted t).
Lemma Forall2_filter_num : forall P n ls ms, Forall2 (fun c s => owner c = num s /\ P c s) ls ms -> NoDup (map num ms) -> In n (map num ms) ->
  Forall2 (fun c s => owner c = num s /\ P c s) (remover n ls) (filter (fun s => negb (Nat.eqb (num s) n)) ms).
Proof.
  intros P n ls ms H Nd I.
  assert (K : exists i, index_of n ls = Some i /\ Forall2 (fun c s => owner c = num s /\ P c s) (remove_at i ls) (filter (fun s => negb (Nat.eqb (num s) n)) ms)).
  { induction H as [|c s ls ms (Ho & Hp) H IH]; [destruct I|]. cbn [map] in *. inversion Nd as [|? ? Ni Nd']; subst. cbn [index_of filter]. rewrite Ho.
    destruct (Nat.eqb_spec (num s) n) as [E|Nn]; cbn [negb]; [rewrite E in Ni|].
    - exists 0. split; [reflexivity|]. cbn [remove_at].
      assert (F : filter (fun s0 => negb (Nat.eqb (num s0) n)) ms = ms).
      { clear -Ni. induction ms as [|x ms IH]; [reflexivity|]. cbn [filter map] in *. destruct (Nat.eqb_spec (num x) n) as [E|E]; [destruct Ni; left; exact E|]. cbn [negb]. f_equal. apply IH. intros X. apply Ni. right. exact X. }
      rewrite F. exact H.
    - destruct I as [I|I]; [contradiction|]. destruct (IH Nd' I) as (i & Ei & Hi). exists (S i). rewrite Ei. split; [reflexivity|]. cbn [remove_at]. constructor; auto. }
  destruct K as (i & Ei & Hi). unfold remover. rewrite Ei. exact Hi.
Qed.
Lemma set_text_num : forall n x m, map num (set_text n x m) = map num m.
Proof. intros n x m. unfold set_text. rewrite map_map. apply map_ext. intros s. destruct (Nat.eqb (num s) n); reflexivity. Qed.
Lemma set_text_none : forall n x m, ~ In n (map num m) -> set_text n x m = m.
Proof.
  intros n x m. induction m as [|s m IH]; intros H; [reflexivity|]. cbn [set_text map] in *. destruct (Nat.eqb_spec (num s) n) as [E|E]; [destruct H; left; exact E|]. f_equal. apply IH. intros X. apply H. right. exact X.
Qed.
Lemma notify_head : forall x ls s m, ~ In (num s) (map owner ls) -> notify x ls (s :: m) = s :: notify x ls m.
Proof.
  intros x. induction ls as [|c ls IH]; intros s m H; [reflexivity|]. cbn [notify fold_left map] in *. cbn [set_text map]. destruct (Nat.eqb_spec (num s) (owner c)) as [E|E]; [destruct H; left; congruence|].
  apply IH. intros X. apply H. right. exact X.
Qed.
Lemma notify_all : forall (P Q : listener -> shown_text -> Prop) x ls ms, (forall c s, P c s -> Q c (mkText (num s) (given s) (loc (captured c) x))) ->
  Forall2 (fun c s => owner c = num s /\ P c s) ls ms -> NoDup (map num ms) ->
  Forall2 (fun c s => owner c = num s /\ Q c s) ls (notify x ls ms) /\ map num (notify x ls ms) = map num ms.
Proof.
  intros P Q x ls ms PQ H. induction H as [|c s ls ms (Ho & Hp) H IH]; intros Nd; [split; [constructor|reflexivity]|].
  cbn [map] in Nd. inversion Nd as [|? ? Ni Nd']; subst. destruct (IH Nd') as (I1 & I2).
  assert (Eo : map owner ls = map num ms). { clear -H. induction H as [|c s ls ms (E & _) _ IH]; [reflexivity|]. cbn [map]. congruence. }
  assert (E : notify x (c :: ls) (s :: ms) = mkText (num s) (given s) (loc (captured c) x) :: notify x ls ms).
  { change (notify x (c :: ls) (s :: ms)) with (notify x ls (set_text (owner c) (loc (captured c) x) (s :: ms))). rewrite Ho. cbn [set_text map]. rewrite Nat.eqb_refl.
    change (map (fun s0 => if Nat.eqb (num s0) (num s) then mkText (num s0) (given s0) (loc (captured c) x) else s0) ms) with (set_text (num s) (loc (captured c) x) ms).
    rewrite set_text_none by exact Ni. apply notify_head. cbn [num]. rewrite Eo. exact Ni. }
  rewrite E. cbn [map num]. rewrite I2. split; [|reflexivity]. constructor; [split; [exact Ho|apply PQ; exact Hp]|exact I1].
Qed.
Lemma give_all : forall (P Q : listener -> shown_text -> Prop) l n k ls ms, (forall c s, P c s -> num s <> n -> Q c s) ->
  (forall c s, P c s -> num s = n -> Q c (if String.eqb (given s) k then s else mkText n k (loc k l))) ->
  Forall2 (fun c s => owner c = num s /\ P c s) ls ms ->
  Forall2 (fun c s => owner c = num s /\ Q c s) ls (map (fun s => if Nat.eqb (num s) n then (if String.eqb (given s) k then s else mkText n k (loc k l)) else s) ms).
Proof.
  intros P Q l n k ls ms H1 H2 H. induction H as [|c s ls ms (Ho & Hp) H IH]; [constructor|]. cbn [map]. constructor; [|exact IH].
  destruct (Nat.eqb_spec (num s) n) as [E|E]; [|split; auto]. split; [|apply H2; assumption]. destruct (String.eqb (given s) k); cbn [num]; congruence.
Qed.
Lemma give_num : forall n k l ms, map num (map (fun s => if Nat.eqb (num s) n then (if String.eqb (given s) k then s else mkText n k (loc k l)) else s) ms) = map num ms.
Proof.
  intros. rewrite map_map. apply map_ext. intros s. destruct (Nat.eqb_spec (num s) n) as [E|E]; [|reflexivity]. destruct (String.eqb (given s) k); cbn [num]; congruence.
Qed.
Lemma nodup_app_one : forall (l : list nat) n, NoDup l -> ~ In n l -> NoDup (l ++ [n]).
Proof.
  induction l as [|a l IH]; intros n H N; [constructor; [intros []|constructor]|]. inversion H; subst. cbn [app]. constructor; [|apply IH; auto; intros X; apply N; right; exact X].
  intros X. apply in_app_or in X. destruct X as [X|[X|[]]]; [contradiction|]. apply N. left. auto.
Qed.
Lemma nodup_filter : forall n ms, NoDup (map num ms) -> NoDup (map num (filter (fun s => negb (Nat.eqb (num s) n)) ms)).
Proof.
  intros n. induction ms as [|s ms IH]; intros H; [constructor|]. cbn [map filter] in *. inversion H as [|? ? N Nd]; subst. destruct (negb (Nat.eqb (num s) n)); [|apply IH; exact Nd].
  cbn [map]. constructor; [|apply IH; exact Nd]. intros X. apply N. apply in_map_iff in X. destruct X as (y & Ey & X). apply filter_In in X. destruct X as (X & _). rewrite <- Ey. apply in_map. exact X.
Qed.
(** What is known of a listener and its component: the text shown is the one under the
    given key, or the one under the key of the first rendering. *)
Definition either (l : string) (c : listener) (s : shown_text) : Prop := shows s = loc (given s) l \/ shows s = loc (captured c) l.
Definition both (l : string) (c : listener) (s : shown_text) : Prop := shows s = loc (given s) l /\ captured c = given s.
Definition exact_now (l : string) (c : listener) (s : shown_text) : Prop := shows s = loc (given s) l.

Ltac other_event := cbn [happen_text lang listeners mounted].
Lemma event_either : forall e l t, fits (e :: l) t -> paired (either (lang t)) t -> paired (either (lang (happen_text e t))) (happen_text e t) /\ fits l (happen_text e t).
Proof.
  intros e l t F (Nd & H). inversion F as [|n k l' t' N F'|n l' t' N F'|n k l' t' N F'|x l' t' F']; subst; (split; [|exact F']); other_event.
  - split; cbn [mounted listeners]; [rewrite map_app; apply nodup_app_one; assumption|]. unfold on_change. apply Forall2_app; [exact H|]. constructor; [|constructor]. split; [reflexivity|]. left. reflexivity.
  - split; cbn [mounted listeners]; [apply nodup_filter; exact Nd|]. apply Forall2_filter_num; assumption.
  - split; cbn [mounted listeners]; [rewrite give_num; exact Nd|]. apply (give_all (either (lang t))); [auto| |exact H].
    intros c s Ps E. destruct (String.eqb_spec (given s) k) as [Eg|Eg]; [exact Ps|]. left. reflexivity.
  - destruct (notify_all (either (lang t)) (either x) x _ _ ltac:(intros c s _; right; reflexivity) H Nd) as (K & En). split; cbn [mounted listeners]; [rewrite En; exact Nd|exact K].
Qed.
Lemma event_both : forall e l t, fits (e :: l) t -> is_give e = false -> paired (both (lang t)) t -> paired (both (lang (happen_text e t))) (happen_text e t).
Proof.
  intros e l t F G (Nd & H). inversion F as [|n k l' t' N F'|n l' t' N F'|n k l' t' N F'|x l' t' F']; subst; try discriminate G; other_event.
  - split; cbn [mounted listeners]; [rewrite map_app; apply nodup_app_one; assumption|]. unfold on_change. apply Forall2_app; [exact H|]. constructor; [|constructor]. split; [reflexivity|]. split; reflexivity.
  - split; cbn [mounted listeners]; [apply nodup_filter; exact Nd|]. apply Forall2_filter_num; assumption.
  - assert (PQ : forall c s, both (lang t) c s -> both x c (mkText (num s) (given s) (loc (captured c) x))) by (intros c s (_ & E); split; cbn [shows given]; [rewrite E; reflexivity|exact E]).
    destruct (notify_all _ _ x _ _ PQ H Nd) as (K & En). split; cbn [mounted listeners]; [rewrite En; exact Nd|exact K].
Qed.
Lemma event_exact : forall e l t, fits (e :: l) t -> is_language e = false -> paired (exact_now (lang t)) t -> paired (exact_now (lang (happen_text e t))) (happen_text e t).
Proof.
  intros e l t F G (Nd & H). inversion F as [|n k l' t' N F'|n l' t' N F'|n k l' t' N F'|x l' t' F']; subst; try discriminate G; other_event.
  - split; cbn [mounted listeners]; [rewrite map_app; apply nodup_app_one; assumption|]. unfold on_change. apply Forall2_app; [exact H|]. constructor; [|constructor]. split; reflexivity.
  - split; cbn [mounted listeners]; [apply nodup_filter; exact Nd|]. apply Forall2_filter_num; assumption.
  - split; cbn [mounted listeners]; [rewrite give_num; exact Nd|]. apply (give_all (exact_now (lang t))); [auto| |exact H].
    intros c s Ps E. destruct (String.eqb_spec (given s) k) as [Eg|Eg]; [exact Ps|]. reflexivity.
Qed.
Lemma history : forall l t, fits l t -> paired (either (lang t)) t -> paired (either (lang (happen_texts l t))) (happen_texts l t).
Proof. induction l as [|e l IH]; intros t F P; [exact P|]. destruct (event_either e l t F P) as (P' & F'). apply IH; assumption. Qed.
Lemma history_both : forall l t, fits l t -> existsb is_give l = false -> paired (both (lang t)) t -> paired (both (lang (happen_texts l t))) (happen_texts l t).
Proof.
  induction l as [|e l IH]; intros t F G P; [exact P|]. cbn [existsb] in G. apply orb_false_iff in G. destruct G as (G1 & G2).
  assert (F' : fits l (happen_text e t)) by (inversion F; subst; assumption). cbn [happen_texts]. apply IH; [exact F'|exact G2|]. exact (event_both e l t F G1 P).
Qed.
Lemma history_exact : forall l t, fits l t -> existsb is_language l = false -> paired (exact_now (lang t)) t -> paired (exact_now (lang (happen_texts l t))) (happen_texts l t).
Proof.
  induction l as [|e l IH]; intros t F G P; [exact P|]. cbn [existsb] in G. apply orb_false_iff in G. destruct G as (G1 & G2).
  assert (F' : fits l (happen_text e t)) by (inversion F; subst; assumption). cbn [happen_texts]. apply IH; [exact F'|exact G2|]. exact (event_exact e l t F G1 P).
Qed.
Lemma lang_chosen : forall l t, lang (happen_texts l t) = chosen (lang t) l.
Proof. induction l as [|e l IH]; intros t; [reflexivity|]. cbn [happen_texts]. rewrite IH. destruct e; reflexivity. Qed.
Lemma fits_app : forall l l' t, fits (l ++ l') t -> fits l t /\ fits l' (happen_texts l t).
Proof.
  induction l as [|e l IH]; intros l' t F; [split; [constructor|exact F]|]. cbn [app happen_texts] in *.
  inversion F as [|n k x t' N F'|n x t' N F'|n k x t' N F'|y x t' F']; subst; destruct (IH _ _ F'); (split; [constructor; assumption|assumption]).
Qed.
Lemma happen_texts_app : forall l l' t, happen_texts (l ++ l') t = happen_texts l' (happen_texts l t).
Proof. induction l as [|e l IH]; intros; [reflexivity|]. cbn [app happen_texts]. apply IH. Qed.
Lemma paired_in : forall P t s, paired P t -> In s (mounted t) -> exists c, In c (listeners t) /\ owner c = num s /\ P c s.
Proof.
  intros P t s (_ & H) I. induction H as [|c x ls ms (E & Hp) H IH]; [destruct I|]. destruct I as [<-|I]; [exists c; split; [left; reflexivity|auto]|]. destruct (IH I) as (d & D & Q). exists d. split; [right; exact D|exact Q].
Qed.

(** ** C73 *)
(** However components with fixed keys come and go and the language changes, every
    mounted one shows its text in the language chosen last. *)
Theorem C73_texts : forall l first, fits l (no_texts first) -> existsb is_give l = false ->
  forall s, In s (mounted (happen_texts l (no_texts first))) -> right (chosen first l) s.
Proof.
  intros l first F G s I. pose proof (history_both l _ F G ltac:(split; [constructor|constructor])) as P. rewrite lang_chosen in P. cbn [no_texts lang] in P.
  destruct (paired_in _ _ _ P I) as (c & _ & _ & (E & _)). unfold right. rewrite E. apply loc_expected.
Qed.
(** Components whose key changes (the run status, the memory's reading or writing)
    also do as long as the language has not changed since the page was loaded. *)
Theorem C73_rekeyed : forall l first, fits l (no_texts first) -> existsb is_language l = false ->
  forall s, In s (mounted (happen_texts l (no_texts first))) -> right first s.
Proof.
  intros l first F G s I. pose proof (history_exact l _ F G ltac:(split; [constructor|constructor])) as P. rewrite lang_chosen in P.
  assert (E0 : chosen (lang (no_texts first)) l = first).
  { cbn [no_texts lang]. clear -G. unfold chosen. induction l as [|e l IH]; [reflexivity|]. cbn [existsb fold_left] in *. apply orb_false_iff in G. destruct G as (G1 & G2). destruct e; try discriminate G1; apply IH; exact G2. }
  rewrite E0 in P. destruct (paired_in _ _ _ P I) as (c & _ & _ & E). unfold exact_now in E. unfold right. rewrite E. apply loc_expected.
Qed.
(** A component given a new key shows its text at once, in the language chosen last. *)
Theorem C73_new_key : forall l first n k, fits (l ++ [Give n k]) (no_texts first) ->
  (forall s, In s (mounted (happen_texts l (no_texts first))) -> num s = n -> given s <> k) ->
  forall s, In s (mounted (happen_texts (l ++ [Give n k]) (no_texts first))) -> num s = n -> given s = k /\ right (chosen first l) s.
Proof.
  intros l first n k F D s I E. rewrite happen_texts_app in I. cbn [happen_texts happen_text mounted] in I. apply in_map_iff in I. destruct I as (s0 & E0 & I).
  specialize (D s0 I). destruct (Nat.eqb_spec (num s0) n) as [En|En]; [|subst s0; contradiction]. specialize (D En).
  destruct (String.eqb_spec (given s0) k) as [Eg|Eg]; [contradiction|]. subst s. split; [reflexivity|]. unfold right. cbn [given shows]. rewrite lang_chosen. apply loc_expected.
Qed.
(** Finding: after a language change such a component may show the text of the key it
    was mounted with: with the machine running, the status reads "stopped". *)
Theorem C73_rekeyed_refuted : forall first, let l := [Mount 0 "status.stopped"; Give 0 "status.running"; SetLanguage "en"] in fits l (no_texts first) /\
  exists s, mounted (happen_texts l (no_texts first)) = [s] /\ given s = "status.running" /\ shows s = Some (T_en, "status.stopped") /\ ~ right (chosen first l) s.
Proof.
  intros first. split.
  - apply F_mount; [intros []|]. apply F_give; [left; reflexivity|]. apply F_language. apply F_nil.
  - eexists. split; [reflexivity|]. split; [reflexivity|]. split; [vm_compute; reflexivity|]. vm_compute. discriminate.
Qed.
(** No listener outlives its component and none is lost: there is exactly one per
    mounted component. *)
Theorem C73_listeners : forall l first, fits l (no_texts first) -> let t := happen_texts l (no_texts first) in
  map owner (listeners t) = map num (mounted t) /\ NoDup (map owner (listeners t)).
Proof.
  intros l first F t. destruct (history l _ F ltac:(split; [constructor|constructor])) as (Nd & H). fold t in Nd, H.
  assert (E : map owner (listeners t) = map num (mounted t)). { clear -H. induction H as [|c s ls ms (E & _) _ IH]; [reflexivity|]. cbn [map]. congruence. }
  split; [exact E|]. rewrite E. exact Nd.
Qed.
(** Finding: calling a remover a second time removes another listener. *)
Theorem C73_remove_twice_refuted : exists ls, map owner ls = [0; 1; 2] /\ map owner (remover 1 (remover 1 ls)) = [0].
Proof. exists [mkListener 0 "a"; mkListener 1 "b"; mkListener 2 "c"]. split; reflexivity. Qed.
(** Every key the pages use has a text in every language, with one exception. *)
Theorem C73_coverage : forall k l, In k keys_used -> k <> "memory.writting" -> loc k l = Some (expected k l).
Proof.
  intros k l I N. rewrite loc_expected. destruct (in_dec string_dec k (keys (fst (expected k l)))) as [|X]; [reflexivity|]. destruct X.
  assert (C : forallb (fun k => (k =? "memory.writting")%string || forallb (fun t => existsb (String.eqb k) (keys t)) [T_eu; T_en; T_es]) keys_used = true) by (vm_compute; reflexivity).
  rewrite forallb_forall in C. specialize (C k I). apply String.eqb_neq in N. rewrite N in C. cbn [orb] in C. rewrite forallb_forall in C.
  assert (T : In (fst (expected k l)) [T_eu; T_en; T_es]) by (destruct (fst (expected k l)); cbn; tauto). specialize (C _ T). apply existsb_exists in C. destruct C as (x & Ix & Ex). apply String.eqb_eq in Ex. subst x. exact Ix.
Qed.
(** Finding: while memory is written, its box has no text in any language. *)
Theorem C73_coverage_refuted : In "memory.writting" keys_used /\ forall l, loc "memory.writting" l = None.
Proof.
  split.
  { assert (C : existsb (String.eqb "memory.writting") keys_used = true) by (vm_compute; reflexivity). apply existsb_exists in C. destruct C as (x & Ix & Ex). apply String.eqb_eq in Ex. rewrite Ex. exact Ix. }
  intros l. unfold loc. destruct (language_data l); vm_compute; reflexivity.
Qed.
Example C73_nonvacuous : fits [Mount 0 "title"; Mount 1 "words.save"; SetLanguage "eu"; Unmount 0; SetLanguage "fr"] (no_texts "es") /\
  mounted (happen_texts [Mount 0 "title"; Mount 1 "words.save"; SetLanguage "eu"; Unmount 0; SetLanguage "fr"] (no_texts "es")) = [mkText 1 "words.save" (Some (T_en, "words.save"))].
Proof.
  split; [|vm_compute; reflexivity]. apply F_mount; [intros []|]. apply F_mount; [intros [X|[]]; discriminate X|]. apply F_language. apply F_unmount; [left; reflexivity|]. apply F_language. apply F_nil.
Qed.
Print Assumptions C73_texts.
Print Assumptions C73_rekeyed.
Print Assumptions C73_new_key.
Print Assumptions C73_rekeyed_refuted.
Print Assumptions C73_listeners.
Print Assumptions C73_remove_twice_refuted.
Print Assumptions C73_coverage.
Print Assumptions C73_coverage_refuted.
