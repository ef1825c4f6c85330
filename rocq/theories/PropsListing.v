(** * Theorems: the debugger's list while a program runs (C95)
    [deduct m from to] is [deductOperationOf(from, to)] when the memory reads as [m];
    [seen h] is the memory of the machine [h], read through [get_memory_value]. *)
From Coq Require Import String ZArith List Bool Lia ZifyBool.
From Verif Require Import Prog Isa Access Api Usage IsaFacts PropsApi PropsIsa IsaRun PropsRepro.
From Verif Require Import JsStr AsmTable Asm Disasm DisasmFacts PropsDisasm.
Import ListNotations.
Open Scope list_scope.
Open Scope Z_scope.

(** ** Specification *)
(** The addresses a list from [from] to [to] can depend on: the window, cut to the
    memory, and the two cells after it, where the last instruction may end. *)
Definition looked_at (from to x : Z) : Prop := Z.max 0 from <= x <= Z.max (Z.max 0 from) (Z.min to 65536 - 1) + 2.
(** An address begins a line. *)
Definition begins (l : list listed) (x : Z) : Prop := exists o, In o l /\ l_from o = x.

(** ** Lemmas *)
Lemma alloc_range : forall o, In o operations -> 1 <= ALLOC o <= 3.
Proof.
  assert (K : forallb (fun o => (1 <=? ALLOC o) && (ALLOC o <=? 3)) operations = true) by (vm_compute; reflexivity).
  intros o I. rewrite forallb_forall in K. specialize (K o I). lia.
Qed.
Lemma find_from : forall m a v, l_from (find_operation m a v) = a /\ a <= l_to (find_operation m a v) <= a + 2.
Proof.
  intros m a v. unfold find_operation. destruct (find _ operations) as [op|] eqn:F; cbn [l_from l_to]; [|lia].
  apply find_some in F. pose proof (alloc_range op (proj1 F)). lia.
Qed.
Lemma find_local : forall m m' a, (forall x, a <= x <= a + 2 -> m x = m' x) -> find_operation m a (m a) = find_operation m' a (m' a).
Proof.
  intros m m' a H. rewrite (H a ltac:(lia)). unfold find_operation. destruct (find _ operations) as [op|]; [|reflexivity].
  unfold do_replacements, replace_dir, replace_inm. rewrite (H (a + 1)), (H (a + 2)) by lia. reflexivity.
Qed.
Lemma loop_local : forall f m m' a b, (forall x, a <= x <= Z.max a (b - 1) + 2 -> m x = m' x) -> deduct_loop f m a b = deduct_loop f m' a b.
Proof.
  induction f as [|f IH]; intros m m' a b H; [reflexivity|]. cbn [deduct_loop]. rewrite (find_local m m' a) by (intros x Hx; apply H; lia).
  set (op := find_operation m' a (m' a)). destruct (Z.ltb_spec (l_to op + 1) b) as [Lt|]; [|reflexivity].
  pose proof (find_from m' a (m' a)) as (F1 & F2). fold op in F1, F2. rewrite (IH m m'); [reflexivity|]. intros x Hx. apply H. lia.
Qed.
Lemma loop_lines : forall f m a b l, deduct_loop f m a b = Some l -> forall o, In o l -> o = find_operation m (l_from o) (m (l_from o)) /\ a <= l_from o.
Proof.
  induction f as [|f IH]; intros m a b l E o I; [discriminate E|]. cbn [deduct_loop] in E. set (op := find_operation m a (m a)) in *.
  pose proof (find_from m a (m a)) as (F1 & F2). fold op in F1, F2.
  destruct (_ <? _).
  - destruct (deduct_loop f m (l_to op + 1) b) as [r|] eqn:Er; [|discriminate E]. injection E as <-. destruct I as [<-|I].
    + rewrite F1. split; [reflexivity|lia].
    + destruct (IH _ _ _ _ Er o I). split; [assumption|lia].
  - injection E as <-. destruct I as [<-|[]]. rewrite F1. split; [reflexivity|lia].
Qed.
Lemma loop_begins : forall f m a b l, deduct_loop f m a b = Some l -> begins l a.
Proof.
  intros [|f] m a b l E; [discriminate E|]. cbn [deduct_loop] in E. pose proof (find_from m a (m a)) as (F1 & F2).
  destruct (_ <? _); [destruct (deduct_loop f m _ b); [|discriminate E]|]; injection E as <-; eexists; (split; [left; reflexivity|exact F1]).
Qed.
Lemma loop_next : forall f m a b l, deduct_loop f m a b = Some l -> forall o, In o l -> l_to o + 1 < b -> begins l (l_to o + 1).
Proof.
  induction f as [|f IH]; intros m a b l E o I H; [discriminate E|]. cbn [deduct_loop] in E. set (op := find_operation m a (m a)) in *.
  destruct (Z.ltb_spec (l_to op + 1) b) as [Lt|Ge].
  - destruct (deduct_loop f m (l_to op + 1) b) as [r|] eqn:Er; [|discriminate E]. injection E as <-. destruct I as [<-|I].
    + destruct (loop_begins _ _ _ _ _ Er) as (o' & I' & F'). exists o'. split; [right; exact I'|exact F'].
    + destruct (IH _ _ _ _ Er o I H) as (o' & I' & F'). exists o'. split; [right; exact I'|exact F'].
  - injection E as <-. destruct I as [<-|[]]. lia.
Qed.
Lemma loop_overlap : forall f1 m a1 b1 l1 f2 a2 b2 l2, deduct_loop f1 m a1 b1 = Some l1 -> deduct_loop f2 m a2 b2 = Some l2 ->
  forall x, begins l1 x -> begins l2 x -> forall o, In o l1 -> x <= l_from o -> l_from o = x \/ l_from o < b2 -> In o l2.
Proof.
  induction f1 as [|f IH]; intros m a1 b1 l1 f2 a2 b2 l2 E1 E2 x B1 B2 o I Hx Hb; [discriminate E1|].
  pose proof (loop_lines _ _ _ _ _ E1) as Ls. cbn [deduct_loop] in E1. set (op := find_operation m a1 (m a1)) in *.
  pose proof (find_from m a1 (m a1)) as (F1 & F2). fold op in F1, F2.
  assert (Same : forall y, begins l2 y -> In (find_operation m y (m y)) l2).
  { intros y (o2 & I2 & <-). rewrite <- (proj1 (loop_lines _ _ _ _ _ E2 o2 I2)). exact I2. }
  destruct (Z.eq_dec (l_from o) x) as [Ex|Nx]. { rewrite (proj1 (Ls o I)), Ex. apply Same. exact B2. }
  destruct Hb as [Hb|Hb]; [contradiction|].
  destruct (Z.ltb_spec (l_to op + 1) b1) as [Lt|Ge].
  - destruct (deduct_loop f m (l_to op + 1) b1) as [r|] eqn:Er; [|discriminate E1]. injection E1 as <-.
    destruct B1 as (o1 & [<-|I1] & Fx).
    + (* the line at [x] is the first *)
      destruct I as [<-|I]; [lia|]. destruct (loop_lines _ _ _ _ _ Er o I) as (_ & Hg).
      assert (Ax : a1 = x) by lia. clear Fx. subst x. assert (Io : In op l2) by (apply Same; exact B2).
      assert (Bn : begins l2 (l_to op + 1)) by (eapply loop_next; [exact E2|exact Io|lia]).
      exact (IH m _ b1 r f2 a2 b2 l2 Er E2 (l_to op + 1) (loop_begins _ _ _ _ _ Er) Bn o I Hg (or_intror Hb)).
    + destruct (loop_lines _ _ _ _ _ Er o1 I1) as (_ & Hg1). destruct I as [<-|I]; [lia|].
      exact (IH m _ b1 r f2 a2 b2 l2 Er E2 x (ex_intro _ o1 (conj I1 Fx)) B2 o I Hx (or_intror Hb)).
  - injection E1 as <-. destruct B1 as (o1 & [<-|[]] & Fx). destruct I as [<-|[]]. lia.
Qed.
Lemma loop_prefix : forall f1 m a b1 l1 f2 b2 l2, b1 <= b2 -> deduct_loop f1 m a b1 = Some l1 -> deduct_loop f2 m a b2 = Some l2 -> exists r, l2 = l1 ++ r.
Proof.
  induction f1 as [|f IH]; intros m a b1 l1 [|f2] b2 l2 Hb E1 E2; try discriminate. cbn [deduct_loop] in E1, E2. set (op := find_operation m a (m a)) in *.
  destruct (Z.ltb_spec (l_to op + 1) b1) as [L1|G1], (Z.ltb_spec (l_to op + 1) b2) as [L2|G2]; try lia.
  - destruct (deduct_loop f m _ b1) as [r1|] eqn:Q1; [|discriminate E1]. destruct (deduct_loop f2 m _ b2) as [r2|] eqn:Q2; [|discriminate E2].
    injection E1 as <-. injection E2 as <-. destruct (IH _ _ _ _ _ _ _ Hb Q1 Q2) as (r & ->). exists r. reflexivity.
  - destruct (deduct_loop f2 m _ b2) as [r2|]; [|discriminate E2]. injection E1 as <-. injection E2 as <-. exists r2. reflexivity.
  - injection E1 as <-. injection E2 as <-. exists []. reflexivity.
Qed.
Lemma deduct_loops : forall m from to l, deduct m from to = Lists l ->
  deduct_loop (S (Z.to_nat (Z.min to 65536 - Z.max 0 from))) m (Z.max 0 from) (Z.min to 65536) = Some l.
Proof.
  intros m from to l. unfold deduct. destruct (to <? from); [discriminate|].
  replace (if from <? 0 then 0 else from) with (Z.max 0 from) by (destruct (Z.ltb_spec from 0); lia).
  replace (if get_memory_size <? to then get_memory_size else to) with (Z.min to 65536) by (unfold get_memory_size; change (64 * 1024 * 8 / 8) with 65536; destruct (Z.ltb_spec 65536 to); lia).
  destruct (deduct_loop _ m _ _); [|discriminate]. intros E. injection E as <-. reflexivity.
Qed.

(** ** C95 *)
(** A list depends on the cells of its window and the two after it, on no others. *)
Theorem C95_local : forall m m' from to, (forall x, looked_at from to x -> m x = m' x) -> deduct m from to = deduct m' from to.
Proof.
  intros m m' from to H. unfold looked_at in H. unfold deduct. destruct (to <? from); [reflexivity|].
  replace (if from <? 0 then 0 else from) with (Z.max 0 from) by (destruct (Z.ltb_spec from 0); lia).
  replace (if get_memory_size <? to then get_memory_size else to) with (Z.min to 65536) by (unfold get_memory_size; change (64 * 1024 * 8 / 8) with 65536; destruct (Z.ltb_spec 65536 to); lia).
  rewrite (loop_local _ m m' _ _ H). reflexivity.
Qed.
(** While a program runs, the list of a window stays the same as long as no instruction
    writes one of these cells. *)
Theorem C95_runs : forall n l h k a us h' from to, live l h k -> boundary h -> shows h a -> instructions n h us h' ->
  (forall x, looked_at from to x -> ~ In x (written n a)) -> deduct (seen h') from to = deduct (seen h) from to.
Proof.
  intros n l h k a us h' from to L Bd S I N. destruct (C14_programs n l h k a us h' L Bd S I) as (S' & _ & L' & _).
  apply C95_local. intros x Hx. destruct (C47_memory l h k L) as (_ & R). destruct (C47_memory _ h' k L') as (_ & R').
  destruct (Z.ltb_spec x 65536) as [Lt|Ge].
  - unfold looked_at in Hx. pose proof S as (_ & _ & _ & _ & _ & _ & _ & _ & _ & Sm & _). destruct S' as (_ & _ & _ & _ & _ & _ & _ & _ & _ & Sm' & _).
    unfold seen. rewrite Sm, Sm' by lia. apply steps_frame; [intros m _; exact (live_steps_valid l h k a L Bd S m)|apply N; exact Hx].
  - rewrite (proj2 (R x)), (proj2 (R' x)) by lia. reflexivity.
Qed.
(** Two lists of the same memory that both begin a line at an address have the same
    lines from there on, as far as both windows go. *)
Theorem C95_overlap : forall m f1 t1 l1 f2 t2 l2 x, deduct m f1 t1 = Lists l1 -> deduct m f2 t2 = Lists l2 -> begins l1 x -> begins l2 x ->
  forall o, x <= l_from o < Z.min t1 (Z.min t2 65536) -> (In o l1 <-> In o l2).
Proof.
  intros m f1 t1 l1 f2 t2 l2 x D1 D2 B1 B2 o Ho. apply deduct_loops in D1, D2. split; intros I.
  - eapply loop_overlap; [exact D1|exact D2|exact B1|exact B2|exact I|lia|lia].
  - eapply loop_overlap; [exact D2|exact D1|exact B2|exact B1|exact I|lia|lia].
Qed.
(** Lists that begin at the same address differ only in where they stop.  As long as the
    address pointed to is at most [pad], as in a short program at the start of memory,
    the list of the debugger therefore only grows or shrinks at its end. *)
Theorem C95_grows : forall m f1 t1 l1 f2 t2 l2, Z.max 0 f1 = Z.max 0 f2 -> t1 <= t2 -> deduct m f1 t1 = Lists l1 -> deduct m f2 t2 = Lists l2 -> exists r, l2 = l1 ++ r.
Proof.
  intros m f1 t1 l1 f2 t2 l2 Hf Ht D1 D2. apply deduct_loops in D1, D2. rewrite <- Hf in D2. eapply loop_prefix; [|exact D1|exact D2]. lia.
Qed.
Corollary C95_start : forall m pad pc pc' l l', 0 <= pc <= pc' -> pc' <= pad -> deduct m (pc - pad) (pc + pad) = Lists l -> deduct m (pc' - pad) (pc' + pad) = Lists l' -> exists r, l' = l ++ r.
Proof. intros m pad pc pc' l l' H Hp. apply C95_grows; lia. Qed.
(** But one more address at the start of the window can change every line: the same
    memory, listed from 2 and from 3, has no line in common up to the address 12. *)
Theorem C95_shift_refuted : exists m l l', reads_bytes m /\ deduct m 2 12 = Lists l /\ deduct m 3 12 = Lists l' /\ l <> [] /\ l' <> [] /\ forall o, In o l -> ~ In o l'.
Proof.
  exists (fun o => if (o <? 0) || (65536 <=? o) then -1 else 0x70), (map (fun a => mkListed (s2l "LDA 7070") a (a + 2)) [2; 5; 8; 11]), (map (fun a => mkListed (s2l "LDA 7070") a (a + 2)) [3; 6; 9]).
  split. { intros o. destruct (Z.ltb_spec o 0), (Z.leb_spec 65536 o); cbn [orb]; split; lia. }
  split; [vm_compute; reflexivity|]. split; [vm_compute; reflexivity|]. split; [discriminate|]. split; [discriminate|].
  intros o I J. cbn [map In] in I, J. intuition (subst; discriminate).
Qed.
(** An instruction that writes into the window does change the list. *)
Theorem C95_written_refuted : exists l h a us h', live l h true /\ boundary h /\ shows h a /\ instructions 1 h us h' /\ deduct (seen h') 0 4 <> deduct (seen h) 0 4.
Proof.
  set (p := [113; 0; 3; 255]). assert (Hb : forall b, In b p -> 0 <= b <= 255). { intros b [<-|[<-|[<-|[<-|[]]]]]; lia. }
  destruct (every_state_reachable (fresh p 0) (fresh_valid p 0 Hb ltac:(lia) 0) eq_refl) as (l & h & L & Bd & S).
  destruct (C14_programs_run 1 true l h true _ L Bd S ltac:(reflexivity)) as (h1 & I). destruct (C14_programs 1 l h true _ _ h1 L Bd S I) as (S1 & _ & _ & _).
  eexists l, h, _, _, h1. do 4 (split; [eassumption|]).
  assert (K : forall g b, shows g b -> deduct (seen g) 0 4 = deduct (M b) 0 4).
  { intros g b (_ & _ & _ & _ & _ & _ & _ & _ & _ & Sm & _). apply C95_local. intros x Hx. unfold looked_at in Hx. unfold seen. rewrite Sm by lia. reflexivity. }
  rewrite (K _ _ S), (K _ _ S1). vm_compute. discriminate.
Qed.
(** The hypotheses of [C95_runs] and [C95_overlap] hold together, in a program that loads a value,
    stores it at 0x200 and ends. *)
Example C95_nonvacuous : exists l h a us h' l1 l2, live l h true /\ boundary h /\ shows h a /\ instructions 2 h us h' /\
  (forall x, looked_at (0 - 50) (0 + 50) x -> ~ In x (written 2 a)) /\ written 2 a <> [] /\
  deduct (seen h') (-50) 50 = Lists l1 /\ deduct (seen h') 2 70 = Lists l2 /\ begins l1 2 /\ begins l2 2.
Proof.
  set (p := [100; 5; 113; 2; 0; 255]). assert (Hb : forall b, In b p -> 0 <= b <= 255). { intros b [<-|[<-|[<-|[<-|[<-|[<-|[]]]]]]]; lia. }
  destruct (every_state_reachable (fresh p 0) (fresh_valid p 0 Hb ltac:(lia) 0) eq_refl) as (l & h & L & Bd & S).
  destruct (C14_programs_run 2 true l h true _ L Bd S ltac:(reflexivity)) as (h1 & I). destruct (C14_programs 2 l h true _ _ h1 L Bd S I) as (S1 & _ & L1 & _).
  assert (K : forall t f, 0 <= f -> t < 1000 -> f < t -> deduct (seen h1) f t = deduct (M (steps 2 (fresh p 0))) f t).
  { destruct S1 as (_ & _ & _ & _ & _ & _ & _ & _ & _ & Sm & _). intros t f H1 H2 H3. apply C95_local. intros x Hx. unfold looked_at in Hx. unfold seen. rewrite Sm by lia. reflexivity. }
  destruct (C47_memory _ h1 true L1) as (_ & R). destruct (C47_partition _ (-50) 50 R ltac:(lia)) as (l1 & e1 & D1 & _). destruct (C47_partition _ 2 70 R ltac:(lia)) as (l2 & e2 & D2 & _).
  eexists l, h, _, _, h1, l1, l2. do 4 (split; [eassumption|]). split. { intros x Hx J. unfold looked_at in Hx. vm_compute in J. destruct J as [<-|[]]. lia. }
  split; [vm_compute; discriminate|]. do 2 (split; [assumption|]). split.
  - change (deduct (seen h1) (-50) 50) with (deduct (seen h1) 0 50) in D1. rewrite K in D1 by lia. vm_compute in D1. injection D1 as <-. eexists. split; [right; left; reflexivity|reflexivity].
  - apply deduct_loops in D2. exact (loop_begins _ _ _ _ _ D2).
Qed.
Print Assumptions C95_local.
Print Assumptions C95_runs.
Print Assumptions C95_overlap.
Print Assumptions C95_grows.
Print Assumptions C95_start.
Print Assumptions C95_shift_refuted.
Print Assumptions C95_written_refuted.
Print Assumptions C95_nonvacuous.
