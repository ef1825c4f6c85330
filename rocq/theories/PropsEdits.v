(** * Theorems: editing memory while a program runs (C93) *)
From Coq Require Import ZArith List Bool Lia ZifyBool.
From Verif Require Import Prog Isa Access Api Usage IsaFacts PropsApi PropsIsa PropsRun IsaRun PropsRepro.
From Verif Require ApiFacts Shown.
Import ListNotations.
Open Scope Z_scope.

(** ** Specification *)
(** Values stored from outside, one [set_memory_value] after the other. *)
Definition edits (ws : list (Z * Z)) : list call := map (fun w => SetMem (fst w) (snd w)) ws.
Definition good_edits (ws : list (Z * Z)) : Prop := forall w, In w ws -> 0 <= fst w < 65536 /\ 0 <= snd w <= 255.
Definition edited (ws : list (Z * Z)) (x : Z) : Prop := exists v, In (x, v) ws.
(** The next [n] instructions neither read nor write a cell of [X]. *)
Definition untouched (X : Z -> Prop) (n : nat) (a : arch) : Prop :=
  forall m x, (m < n)%nat -> X x -> ~ In x (reads (steps m a)) /\ ~ In x (writes (steps m a)).
(** The next [n] instructions read no cell of [X] before they have written it. *)
Definition unread (X : Z -> Prop) (n : nat) (a : arch) : Prop :=
  forall m x, (m < n)%nat -> X x -> In x (reads (steps m a)) -> In x (written m a).

(** The memory after the edits: the last value stored in a cell, else the old one. *)
Definition overlay (ws : list (Z * Z)) (m : Z -> Z) (x : Z) : Z :=
  fold_left (fun v w => if x =? fst w then snd w else v) ws (m x).
Definition with_memory (m : Z -> Z) (a : arch) : arch := mkArch (AC a) (FC a) (FZ a) (Isa.B a) (C a) (D a) (E a) (PC a) (SP a) m (log a).

(** ** Lemmas *)
Fixpoint patch (ws : list (Z * Z)) (a : arch) : arch :=
  match ws with [] => a | w :: r => patch r (write (fst w) (snd w) a) end.
Lemma edits_live : forall ws l h a, live l h true -> boundary h -> shows h a -> good_edits ws ->
  exists h', run_calls (edits ws) h = Some h' /\ live (l ++ edits ws) h' true /\ boundary h' /\ shows h' (patch ws a).
Proof.
  induction ws as [|(x, v) ws IH]; intros l h a L Bd S G; [exists h; rewrite app_nil_r; auto|].
  destruct (G (x, v) (or_introl eq_refl)) as (Gx & Gv). destruct (live_set_mem l h a x v L S Gx Gv) as (h1 & E1 & L1 & B1 & S1).
  destruct (IH _ h1 _ L1 (B1 Bd) S1 ltac:(intros w I; apply G; right; exact I)) as (h' & E & L' & B' & S').
  exists h'. cbn [edits map fst snd patch]. split; [cbn [run_calls]; rewrite E1; exact E|]. split; [rewrite <- app_assoc in L'; exact L'|]. split; assumption.
Qed.
Lemma patch_regs : forall ws a, AC (patch ws a) = AC a /\ FC (patch ws a) = FC a /\ FZ (patch ws a) = FZ a /\ Isa.B (patch ws a) = Isa.B a /\ C (patch ws a) = C a /\ D (patch ws a) = D a /\ E (patch ws a) = E a /\
  PC (patch ws a) = PC a /\ SP (patch ws a) = SP a /\ log (patch ws a) = log a.
Proof. induction ws as [|w ws IH]; intros a; cbn [patch]; [repeat split|]. destruct (IH (write (fst w) (snd w) a)) as (H1 & H2 & H3 & H4 & H5 & H6 & H7 & H8 & H9 & H10). repeat split; assumption. Qed.
Lemma patch_other : forall ws a x, ~ edited ws x -> M (patch ws a) x = M a x.
Proof.
  induction ws as [|(y, v) ws IH]; intros a x N; cbn [patch fst snd]; [reflexivity|]. rewrite IH.
  - cbn [write M]. destruct (Z.eqb_spec x y); [|reflexivity]. destruct N. exists v. left. congruence.
  - intros (u & I). apply N. exists u. right. exact I.
Qed.
Lemma patch_same : forall ws a b x, edited ws x \/ M a x = M b x -> M (patch ws a) x = M (patch ws b) x.
Proof.
  induction ws as [|(y, v) ws IH]; intros a b x H; cbn [patch fst snd]; [destruct H as [(u & [])|H]; exact H|].
  apply IH. cbn [write M]. destruct (Z.eqb_spec x y) as [->|N]; [right; reflexivity|]. destruct H as [(u & [I|I])|H]; [congruence|left; exists u; exact I|right; exact H].
Qed.
Lemma patch_alike : forall ws a, alike (fun x => ~ edited ws x) a (patch ws a).
Proof. intros ws a. destruct (patch_regs ws a) as (H1 & H2 & H3 & H4 & H5 & H6 & H7 & H8 & H9 & _). repeat split; try (symmetry; assumption). intros x N. symmetry. apply patch_other. exact N. Qed.
Lemma relies_mono : forall n (K K' : Z -> Prop) a, (forall x, K x -> K' x) -> relies K n a -> relies K' n a.
Proof.
  induction n as [|n IH]; intros K K' a H R; [exact I|]. cbn [relies] in *. destruct R as (R1 & R2). split; [intros x I; apply H, R1, I|].
  refine (IH _ _ _ _ R2). cbn beta. intros x [Hx|Hx]; auto.
Qed.
Lemma edited_dec : forall ws x, edited ws x \/ ~ edited ws x.
Proof.
  intros ws x. destruct (in_dec Z.eq_dec x (map fst ws)) as [I|N].
  - left. apply in_map_iff in I. destruct I as ((y, v) & <- & I). exists v. exact I.
  - right. intros (v & I). apply N. apply in_map_iff. exists (x, v). auto.
Qed.
Lemma unread_relies : forall (X : Z -> Prop), (forall x, X x \/ ~ X x) -> forall n a (pre : list Z), (forall m x, (m < n)%nat -> X x -> In x (reads (steps m a)) -> In x pre \/ In x (written m a)) -> relies (fun x => ~ X x \/ In x pre) n a.
Proof.
  intros X Dx. induction n as [|n IH]; intros a pre H; [exact I|]. cbn [relies]. split.
  - intros x Ix. destruct (Dx x) as [Hx|Hx]; [|left; exact Hx]. right. destruct (H 0%nat x ltac:(lia) Hx Ix) as [P|[]]. exact P.
  - apply (relies_mono n (fun x => ~ X x \/ In x (pre ++ writes a))).
    + intros x [Hx|Hx]; [auto|]. apply in_app_or in Hx. tauto.
    + apply IH. intros m x Hm Hx Ix. destruct (H (S m) x ltac:(lia) Hx Ix) as [P|P]; [left; apply in_or_app; auto|]. cbn [written] in P. apply in_app_or in P. destruct P; [left; apply in_or_app; auto|auto].
Qed.
Lemma untouched_written : forall X n a, untouched X n a -> forall x, X x -> ~ In x (written n a).
Proof.
  intros X n. induction n as [|n IH]; intros a U x Hx; cbn [written]; [intros []|]. intros I. apply in_app_or in I. destruct I as [I|I].
  - exact (proj2 (U 0%nat x ltac:(lia) Hx) I).
  - revert I. apply IH; [|exact Hx]. intros m y Hm. apply (U (S m) y). lia.
Qed.

Lemma patch_overlay : forall ws a x, M (patch ws a) x = overlay ws (M a) x.
Proof.
  induction ws as [|(y, v) ws IH]; intros a x; cbn [patch fst snd]; [reflexivity|]. rewrite IH. unfold overlay. cbn [fold_left write M fst snd]. reflexivity.
Qed.

(** ** C93 *)
(** Values stored from outside between two instructions change those cells and nothing
    else, and the instructions after that use them, as operands, data or instructions. *)
Theorem C93_used : forall ws l h a, live l h true -> boundary h -> shows h a -> good_edits ws ->
  exists h', run_calls (edits ws) h = Some h' /\ boundary h' /\ live (l ++ edits ws) h' true /\ shows h' (with_memory (overlay ws (M a)) a) /\
    forall n us h1, instructions n h' us h1 -> shows h1 (steps n (with_memory (overlay ws (M a)) a)).
Proof.
  intros ws l h a L Bd S G. destruct (edits_live ws l h a L Bd S G) as (h' & E & L' & B' & S').
  assert (S2 : shows h' (with_memory (overlay ws (M a)) a)).
  { eapply shows_cong; [exact S'|]. destruct (patch_regs ws a) as (P1 & P2 & P3 & P4 & P5 & P6 & P7 & P8 & P9 & P10). repeat split; try assumption. intros x. apply patch_overlay. }
  exists h'. do 4 (split; [assumption|]). intros n us h1 I. exact (proj1 (C14_programs n _ h' true _ us h1 L' B' S2 I)).
Qed.
(** Values are stored from outside while a program is between two instructions.  When the
    next [n] instructions neither read nor write these cells, storing them before the
    instructions or after is the same: the instructions take the same clock cycles, and
    the same registers, the same memory and the same notices are shown in the end. *)
Theorem C93_commute : forall n u w ws l h a h1, live l h true -> boundary h -> shows h a -> good_edits ws -> untouched (edited ws) n a -> instructions n h (repeat u w) h1 ->
  exists h' h1' h2 b, run_calls (edits ws) h = Some h' /\ instructions n h' (repeat u w) h1' /\ run_calls (edits ws) h1 = Some h2 /\ boundary h1' /\ boundary h2 /\ shows h1' b /\ shows h2 b.
Proof.
  intros n u w ws l h a h1 L Bd S G U I. destruct (edits_live ws l h a L Bd S G) as (h' & E & L' & B' & S').
  assert (R : relies (fun x => ~ edited ws x) n a).
  { apply (relies_mono n (fun x => ~ edited ws x \/ In x [])); [intros x [N|[]]; exact N|]. apply unread_relies; [apply edited_dec|]. intros m x Hm Hx Ix. destruct (proj1 (U m x Hm Hx) Ix). }
  pose proof (fun m (_ : (m <= n)%nat) => live_steps_valid l h true a L Bd S m) as V.
  destruct (run_like n (fun x => ~ edited ws x) (log a) (log a) a (patch ws a) V (conj (patch_alike ws a) (ex_intro _ [] (conj eq_refl (proj2 (proj2 (proj2 (proj2 (proj2 (proj2 (proj2 (proj2 (proj2 (patch_regs ws a)))))))))))) ) R) as ((A & (new & N1 & N2)) & T & W & _).
  destruct (C14_programs n l h true a _ h1 L Bd S I) as (S1 & B1 & L1 & Cy).
  destruct (C14_programs_run n u _ h' true _ L' B' S' ltac:(reflexivity)) as (h1' & I'). rewrite <- T, <- Cy, repeat_length, Nat2Z.id in I'.
  destruct (C14_programs n _ h' true _ _ h1' L' B' S' I') as (S1' & B1' & _ & _).
  destruct (edits_live ws _ h1 _ L1 B1 S1 G) as (h2 & E2 & L2 & B2 & S2).
  exists h', h1', h2, (patch ws (steps n a)). do 5 (split; [assumption|]). split; [|exact S2]. eapply shows_cong; [exact S1'|].
  destruct A as (A1 & A2 & A3 & A4 & A5 & A6 & A7 & A8 & A9 & Am). destruct (patch_regs ws (steps n a)) as (P1 & P2 & P3 & P4 & P5 & P6 & P7 & P8 & P9 & P10).
  pose proof (untouched_written _ _ _ U) as Nw.
  repeat split; try congruence. intros x. destruct (edited_dec ws x) as [Ed|Ne].
  - rewrite (steps_frame n (patch ws a)); [|intros m _; exact (live_steps_valid _ _ _ _ L' B' S' m)|rewrite <- W; apply Nw; exact Ed]. apply patch_same. left. exact Ed.
  - rewrite patch_other by exact Ne. symmetry. apply Am. left. exact Ne.
Qed.
(** When the next [n] instructions write these cells and read none of them before, the
    values stored are lost: the end is as if nothing had been stored. *)
Theorem C93_lost : forall n u w ws l h a h1, live l h true -> boundary h -> shows h a -> good_edits ws -> unread (edited ws) n a -> (forall x, edited ws x -> In x (written n a)) -> instructions n h (repeat u w) h1 ->
  exists h' h1' b, run_calls (edits ws) h = Some h' /\ instructions n h' (repeat u w) h1' /\ boundary h1' /\ shows h1' b /\ shows h1 b.
Proof.
  intros n u w ws l h a h1 L Bd S G U Wr I. destruct (edits_live ws l h a L Bd S G) as (h' & E & L' & B' & S').
  assert (R : relies (fun x => ~ edited ws x) n a).
  { apply (relies_mono n (fun x => ~ edited ws x \/ In x [])); [intros x [N|[]]; exact N|]. apply unread_relies; [apply edited_dec|]. intros m x Hm Hx Ix. right. exact (U m x Hm Hx Ix). }
  pose proof (fun m (_ : (m <= n)%nat) => live_steps_valid l h true a L Bd S m) as V.
  destruct (run_like n (fun x => ~ edited ws x) (log a) (log a) a (patch ws a) V (conj (patch_alike ws a) (ex_intro _ [] (conj eq_refl (proj2 (proj2 (proj2 (proj2 (proj2 (proj2 (proj2 (proj2 (proj2 (patch_regs ws a)))))))))))) ) R) as ((A & (new & N1 & N2)) & T & W & _).
  destruct (C14_programs n l h true a _ h1 L Bd S I) as (S1 & B1 & L1 & Cy).
  destruct (C14_programs_run n u _ h' true _ L' B' S' ltac:(reflexivity)) as (h1' & I'). rewrite <- T, <- Cy, repeat_length, Nat2Z.id in I'.
  destruct (C14_programs n _ h' true _ _ h1' L' B' S' I') as (S1' & B1' & _ & _).
  exists h', h1', (steps n a). do 3 (split; [assumption|]). split; [|exact S1]. eapply shows_cong; [exact S1'|].
  destruct A as (A1 & A2 & A3 & A4 & A5 & A6 & A7 & A8 & A9 & Am). repeat split; try congruence.
  intros x. symmetry. apply Am. destruct (edited_dec ws x) as [Ed|Ne]; [right; apply Wr; exact Ed|left; exact Ne].
Qed.
(** A cell an instruction reads is another matter: its operand stored before the
    instruction is what it loads, stored after it comes too late. *)
Theorem C93_read_refuted : exists l h a h1 h' h1' h2 b b', live l h true /\ boundary h /\ shows h a /\ instructions 1 h (repeat false (Z.to_nat (total_cycles 1 a))) h1 /\
  run_calls (edits [(1, 7)]) h = Some h' /\ instructions 1 h' (repeat false (Z.to_nat (total_cycles 1 a))) h1' /\ run_calls (edits [(1, 7)]) h1 = Some h2 /\ shows h1' b /\ shows h2 b' /\ AC b = 7 /\ AC b' = 5.
Proof.
  set (p := [100; 5]). assert (Hb : forall b, In b p -> 0 <= b <= 255). { intros b [<-|[<-|[]]]; lia. }
  destruct (every_state_reachable (fresh p 0) (fresh_valid p 0 Hb ltac:(lia) 0) eq_refl) as (l & h & L & Bd & S).
  assert (G : good_edits [(1, 7)]). { intros w [<-|[]]. cbn. lia. }
  destruct (edits_live [(1, 7)] l h _ L Bd S G) as (h' & E & L' & B' & S').
  destruct (C14_programs_run 1 false l h true _ L Bd S ltac:(discriminate)) as (h1 & I). destruct (C14_programs 1 l h true _ _ h1 L Bd S I) as (S1 & B1 & L1 & _).
  destruct (C14_programs_run 1 false _ h' true _ L' B' S' ltac:(discriminate)) as (h1' & I'). destruct (C14_programs 1 _ h' true _ _ h1' L' B' S' I') as (S1' & _).
  destruct (edits_live [(1, 7)] _ h1 _ L1 B1 S1 G) as (h2 & E2 & L2 & B2 & S2).
  exists l, h, (fresh p 0), h1, h', h1', h2, (steps 1 (patch [(1, 7)] (fresh p 0))), (patch [(1, 7)] (steps 1 (fresh p 0))).
  do 5 (split; [assumption|]). split; [exact I'|]. do 3 (split; [assumption|]). split; reflexivity.
Qed.
(** "MOV 5,AC; STA 200h": the cell 300h is not touched, the cell 200h is written. *)
Example C93_nonvacuous : exists l h a, live l h true /\ boundary h /\ shows h a /\ (exists w h1, instructions 2 h (repeat true w) h1) /\
  good_edits [(768, 9); (700, 1); (768, 2)] /\ untouched (edited [(768, 9); (700, 1); (768, 2)]) 2 a /\ good_edits [(512, 9)] /\ unread (edited [(512, 9)]) 2 a /\ (forall x, edited [(512, 9)] x -> In x (written 2 a)).
Proof.
  set (p := [100; 5; 113; 2; 0]). assert (Hb : forall b, In b p -> 0 <= b <= 255). { intros b [<-|[<-|[<-|[<-|[<-|[]]]]]]; lia. }
  destruct (every_state_reachable (fresh p 0) (fresh_valid p 0 Hb ltac:(lia) 0) eq_refl) as (l & h & L & Bd & S).
  destruct (C14_programs_run 2 true l h true _ L Bd S ltac:(reflexivity)) as (h1 & I).
  exists l, h, (fresh p 0). do 3 (split; [assumption|]). split; [eauto|]. split; [intros w [<-|[<-|[<-|[]]]]; cbn; lia|]. split.
  - intros m x Hm (v & Hx). assert (x = 768 \/ x = 700) as Ex by (destruct Hx as [Hx|[Hx|[Hx|[]]]]; inversion Hx; auto).
    destruct m as [|[|m]]; [| |lia]; destruct Ex as [-> | ->]; (split; intros J; vm_compute in J; intuition discriminate).
  - split; [intros w [<-|[]]; cbn; lia|]. split.
    + intros m x Hm (v & [Hx|[]]) J. inversion Hx; subst. destruct m as [|[|m]]; [| |lia]; vm_compute in J; intuition discriminate.
    + intros x (v & [Hx|[]]). inversion Hx. vm_compute. auto.
Qed.
Print Assumptions C93_used.
Print Assumptions C93_commute.
Print Assumptions C93_lost.
Print Assumptions C93_read_refuted.
Print Assumptions C93_nonvacuous.
