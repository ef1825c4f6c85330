(** * Theorems: a program that comes back to where it was never ends, and every endless
    program comes back (C91) *)
From Coq Require Import ZArith List Bool Lia ZifyBool.
From Verif Require Import Prog Isa Access Api Usage Front IsaFacts Reach PropsApi PropsIsa PropsRun IsaRun PropsRepro.
Import ListNotations.
Open Scope Z_scope.

(** ** Specification *)
(** Equal registers, flags, pointers and memory; the notices shown so far may differ. *)
Definition same_machine (s t : arch) : Prop := alike (fun x => 0 <= x < 65536) s t.
(** How many machines there are: 65536 cells and AC, B, C, D, E of 8 bits, PC and SP of 16,
    the two flags. *)
Definition machines : Z := 256 ^ 65541 * 65536 * 65536 * 2 * 2.

(** ** The same machine goes on in the same way *)
Lemma reads_range : forall s x, valid s -> In x (reads s) -> 0 <= x < 65536.
Proof.
  intros s x V. pose proof V as (_ & _ & _ & Vd & Ve & Vp & Vs & Vm).
  assert (A : forall p, 0 <= p <= 65535 -> 0 <= after p < 65536) by (unfold after; intros; lia).
  assert (A1 := A _ Vp). assert (A2 : 0 <= after (after (PC s)) < 65536) by (apply A; lia).
  assert (O : 0 <= operand s < 65536). { unfold operand. pose proof (Vm _ A1). pose proof (Vm _ A2). lia. }
  assert (D1 : 0 <= DE s < 65536) by (unfold DE; lia).
  assert (B1 := A _ Vs). assert (B2 : 0 <= after (after (SP s)) < 65536) by (apply A; lia).
  unfold reads. intros [<-|H]; [lia|].
  destruct (decode (M s (PC s))) as []; repeat match type of H with context [match ?o with Reg _ => _ | Acc => _ | Imm => _ end] => destruct o end; cbn in H; repeat (destruct H as [<-|H]; [lia|]); destruct H.
Qed.
Lemma relies_all : forall n s, (forall m, (m <= n)%nat -> valid (steps m s)) -> relies (fun x => 0 <= x < 65536) n s.
Proof.
  assert (G : forall n (K : Z -> Prop) s, (forall m, (m <= n)%nat -> valid (steps m s)) -> (forall x, 0 <= x < 65536 -> K x) -> relies K n s).
  { induction n as [|n IH]; intros K s V H; [exact I|]. split; [intros x Hx; apply H, (reads_range s x (V 0%nat ltac:(lia)) Hx)|].
    apply IH; [intros m Hm; apply (V (S m)); lia|]. intros x Hx. left. apply H. exact Hx. }
  intros n s V. apply G; [exact V|auto].
Qed.
Lemma same_run : forall n s t, (forall m, (m <= n)%nat -> valid (steps m s)) -> same_machine s t -> same_machine (steps n s) (steps n t) /\ forall m, (m < n)%nat -> opcode (steps m s) = opcode (steps m t).
Proof.
  intros n s t V H. destruct (run_like n (fun x => 0 <= x < 65536) (log s) (log t) s t V (conj H (ex_intro _ [] (conj eq_refl eq_refl))) (relies_all n s V)) as ((A & _) & _ & _ & O).
  split; [|exact O]. destruct A as (A1 & A2 & A3 & A4 & A5 & A6 & A7 & A8 & A9 & A). unfold same_machine, alike. repeat (split; [assumption|]). intros x Hx. apply A. left. exact Hx.
Qed.
Lemma same_trans : forall s t u, same_machine s t -> same_machine t u -> same_machine s u.
Proof.
  intros s t u (A1 & A2 & A3 & A4 & A5 & A6 & A7 & A8 & A9 & A) (B1 & B2 & B3 & B4 & B5 & B6 & B7 & B8 & B9 & B). unfold same_machine, alike.
  repeat (split; [congruence|]). intros x Hx. rewrite (A x Hx). apply B. exact Hx.
Qed.
Lemma same_refl : forall s, same_machine s s. Proof. intros s. unfold same_machine, alike. auto 12. Qed.
Lemma same_shows : forall h s t, shows h s -> shows h t -> same_machine s t.
Proof.
  intros h s t A B. destruct (shows_agree h s t A B) as (E1 & E2 & E3 & E4 & E5 & E6 & E7 & E8 & E9 & E10 & _). unfold same_machine, alike. repeat (split; [assumption|]). exact E10.
Qed.
Lemma same_opcode : forall s t, valid s -> same_machine s t -> opcode s = opcode t.
Proof. intros s t (_ & _ & _ & _ & _ & V & _) (_ & _ & _ & _ & _ & _ & _ & P & _ & A). unfold opcode. rewrite <- P. apply A. lia. Qed.
Lemma same_period : forall a d, (forall m, valid (steps m a)) -> same_machine a (steps d a) -> forall j m, same_machine (steps m a) (steps (j * d + m) a).
Proof.
  intros a d V H. induction j as [|j IH]; intros m; [apply same_refl|].
  replace (S j * d + m)%nat with (d + (j * d + m))%nat by lia. rewrite steps_add. eapply same_trans; [apply IH|]. apply same_run; [intros; apply V|exact H].
Qed.
Lemma period_no_fin : forall a d, (forall m, valid (steps m a)) -> (0 < d)%nat -> same_machine a (steps d a) -> (forall m, (m < d)%nat -> opcode (steps m a) <> 255) -> forall n, opcode (steps n a) <> 255.
Proof.
  intros a d V D H N n. rewrite (Nat.div_mod n d) by lia. rewrite Nat.mul_comm. rewrite <- (same_opcode _ _ (V _) (same_period a d V H (n / d) (n mod d))). apply N. apply Nat.mod_upper_bound. lia.
Qed.

(** ** Counting the machines *)
Lemma pigeon : forall (f : nat -> Z) (n : nat), (exists i j, (i < j < n)%nat /\ f i = f j) \/ NoDup (map f (seq 0 n)).
Proof.
  intros f. induction n as [|n [(i & j & H & E)|IH]]; [right; constructor|left; exists i, j; split; [lia|exact E]|].
  destruct (in_dec Z.eq_dec (f n) (map f (seq 0 n))) as [I|I].
  - left. apply in_map_iff in I. destruct I as (i & E & I). apply in_seq in I. exists i, n. split; [lia|exact E].
  - right. rewrite seq_S, map_app. cbn. rewrite <- (rev_involutive (map f (seq 0 n) ++ [f n])). apply NoDup_rev. rewrite rev_app_distr. cbn. constructor; [rewrite <- in_rev; exact I|apply NoDup_rev; exact IH].
Qed.
Lemma pigeons : forall (N : Z) (f : nat -> Z) (n : nat), (forall i, 0 <= f i < N) -> N < Z.of_nat n -> exists i j, (i < j < n)%nat /\ f i = f j.
Proof.
  intros N f n H L. destruct (pigeon f n) as [P|P]; [exact P|]. exfalso.
  pose proof (NoDup_incl_length P (l' := map Z.of_nat (seq 0 (Z.to_nat N)))) as G. rewrite !map_length, !seq_length in G. pose proof (H 0%nat).
  enough (n <= Z.to_nat N)%nat by lia. apply G. intros x I. apply in_map_iff in I. destruct I as (i & <- & _). specialize (H i). apply in_map_iff. exists (Z.to_nat (f i)). split; [lia|]. apply in_seq. lia.
Qed.
Fixpoint digits (l : list Z) : Z := match l with [] => 0 | b :: l' => b + 256 * digits l' end.
Lemma digits_range : forall l, (forall b, In b l -> 0 <= b <= 255) -> 0 <= digits l < 256 ^ Z.of_nat (length l).
Proof.
  induction l as [|b l IH]; intros H; [cbn; lia|]. cbn [digits length]. rewrite Nat2Z.inj_succ, Z.pow_succ_r by lia. pose proof (H b (or_introl eq_refl)). pose proof (IH (fun x I => H x (or_intror I))). lia.
Qed.
Lemma digits_inj : forall l m, length l = length m -> (forall b, In b l -> 0 <= b <= 255) -> (forall b, In b m -> 0 <= b <= 255) -> digits l = digits m -> l = m.
Proof.
  induction l as [|b l IH]; intros [|c m] L H1 H2 E; try discriminate L; [reflexivity|]. cbn [digits length] in *. injection L as L. pose proof (H1 b (or_introl eq_refl)). pose proof (H2 c (or_introl eq_refl)).
  assert (b = c /\ digits l = digits m) as (-> & E') by lia. f_equal. apply IH; [exact L|intros x I; apply H1; right; exact I|intros x I; apply H2; right; exact I|exact E'].
Qed.
Definition bytes_of (n : nat) (s : arch) : list Z := AC s :: B s :: C s :: D s :: E s :: map (fun i => M s (Z.of_nat i)) (seq 0 n).
Definition number_of (n : nat) (s : arch) : Z := (((digits (bytes_of n s) * 65536 + PC s) * 65536 + SP s) * 2 + Z.b2z (FC s)) * 2 + Z.b2z (FZ s).
Lemma bytes_ok : forall n s, Z.of_nat n <= 65536 -> valid s -> forall b, In b (bytes_of n s) -> 0 <= b <= 255.
Proof.
  intros n s N (V1 & V2 & V3 & V4 & V5 & _ & _ & Vm) b [<-|[<-|[<-|[<-|[<-|H]]]]]; try lia. apply in_map_iff in H. destruct H as (i & <- & H). apply in_seq in H. apply Vm. lia.
Qed.
Lemma number_range : forall n s, Z.of_nat n <= 65536 -> valid s -> 0 <= number_of n s < 256 ^ (Z.of_nat n + 5) * 65536 * 65536 * 2 * 2.
Proof.
  intros n s N V. pose proof (digits_range _ (bytes_ok n s N V)) as H. replace (Z.of_nat (length (bytes_of n s))) with (Z.of_nat n + 5) in H by (unfold bytes_of; cbn [length]; rewrite map_length, seq_length; lia).
  destruct V as (_ & _ & _ & _ & _ & Vp & Vs & _). unfold number_of. assert (forall b, 0 <= Z.b2z b <= 1) as Hb by (intros []; cbn; lia). pose proof (Hb (FC s)). pose proof (Hb (FZ s)). lia.
Qed.
Lemma number_inj : forall n s t, Z.of_nat n = 65536 -> valid s -> valid t -> number_of n s = number_of n t -> same_machine s t.
Proof.
  intros n s t N Vs Vt H. pose proof (bytes_ok n s ltac:(lia) Vs) as Bs. pose proof (bytes_ok n t ltac:(lia) Vt) as Bt.
  destruct Vs as (_ & _ & _ & _ & _ & Vp & Vs & _), Vt as (_ & _ & _ & _ & _ & Wp & Ws & _). unfold number_of in H.
  assert (forall b, 0 <= Z.b2z b <= 1) as Hb by (intros []; cbn; lia). pose proof (Hb (FC s)). pose proof (Hb (FZ s)). pose proof (Hb (FC t)). pose proof (Hb (FZ t)).
  assert (digits (bytes_of n s) = digits (bytes_of n t) /\ PC s = PC t /\ SP s = SP t /\ Z.b2z (FC s) = Z.b2z (FC t) /\ Z.b2z (FZ s) = Z.b2z (FZ t)) as (Ed & Ep & Es & Ec & Ez) by lia.
  apply Z.b2z_inj in Ec, Ez. apply digits_inj in Ed; [|unfold bytes_of; cbn [length]; rewrite !map_length, !seq_length; reflexivity|exact Bs|exact Bt].
  unfold bytes_of in Ed. injection Ed as E1 E2 E3 E4 E5 E6. unfold same_machine, alike. repeat (split; [assumption|]). intros x Hx.
  rewrite <- (Z2Nat.id x) by lia. apply (ext_in_map E6). apply in_seq. lia.
Qed.
Lemma comes_back : forall a n, (forall m, valid (steps m a)) -> machines < Z.of_nat n -> exists i j, (i < j < n)%nat /\ same_machine (steps i a) (steps j a).
Proof.
  intros a n V L. set (k := Z.to_nat 65536). assert (K : Z.of_nat k = 65536) by (apply Z2Nat.id; lia). clearbody k.
  destruct (pigeons machines (fun i => number_of k (steps i a)) n) as (i & j & H & E); [|exact L|].
  - intros i. pose proof (number_range k (steps i a) ltac:(lia) (V i)) as R. rewrite K in R. exact R.
  - exists i, j. split; [exact H|]. exact (number_inj k _ _ K (V i) (V j) E).
Qed.
Lemma search : forall a n, (exists m, (m < n)%nat /\ first_fin m a) \/ forall m, (m < n)%nat -> opcode (steps m a) <> 255.
Proof.
  intros a. induction n as [|n [(m & H & F)|IH]]; [right; lia|left; exists m; split; [lia|exact F]|].
  destruct (Z.eq_dec (opcode (steps n a)) 255) as [E|E]; [left; exists n; split; [lia|split; auto]|right].
  intros m Hm. destruct (Nat.eq_dec m n) as [->|]; [exact E|apply IH; lia].
Qed.
Lemma machines_pos : 0 <= machines.
Proof. unfold machines. assert (H : 0 <= 256) by lia. generalize (Z.pow_nonneg 256 65541 H). generalize (256 ^ 65541). intros x Hx. lia. Qed.

(** ** C91 *)
(** A machine that, some instructions later and without a FIN in between, is as it was
    comes back for ever, and "Run program" never stops. *)
Theorem C91_loops : forall d u l h k a us h' b, (u = true -> k = true) -> live l h k -> boundary h -> shows h a -> (0 < d)%nat -> instructions d h us h' -> shows h' b -> same_machine a b ->
  (forall m, (m < d)%nat -> opcode (steps m a) <> 255) ->
  (forall h'', ~ run_program u false h h'') /\ forall j vs hj bj, instructions (j * d) h vs hj -> shows hj bj -> same_machine a bj.
Proof.
  intros d u l h k a us h' b Hu L Bd S D I S' A N. pose proof (live_steps_valid l h k a L Bd S) as V.
  destruct (C14_programs d l h k a us h' L Bd S I) as (S1 & _). pose proof (same_trans _ _ _ A (same_shows h' _ _ S' S1)) as P. split.
  - intros h'' R. destruct (C41_stops_only_after_fin u l h k a h'' Hu L Bd S R) as (n & (F & _) & _). exact (period_no_fin a d V D P N n F).
  - intros j vs hj bj J Sj. destruct (C14_programs (j * d) l h k a vs hj L Bd S J) as (S2 & _). eapply same_trans; [|exact (same_shows hj _ _ S2 Sj)].
    pose proof (same_period a d V P j 0) as Q. rewrite Nat.add_0_r in Q. exact Q.
Qed.
(** Every run that never stops is of this kind, and comes back within [machines] instructions. *)
Theorem C91_returns : forall u l h k a, (u = true -> k = true) -> live l h k -> boundary h -> shows h a -> (forall h', ~ run_program u false h h') ->
  exists i d us1 us2 h1 h2 b1 b2, (0 < d)%nat /\ Z.of_nat (i + d) <= machines /\ instructions i h us1 h1 /\ shows h1 b1 /\ instructions d h1 us2 h2 /\ shows h2 b2 /\ same_machine b1 b2 /\
    (forall m, (m < d)%nat -> opcode (steps m b1) <> 255).
Proof.
  intros u l h k a Hu L Bd S N. pose proof (live_steps_valid l h k a L Bd S) as V. pose proof machines_pos as G.
  destruct (comes_back a (Z.to_nat (machines + 1)) V ltac:(lia)) as (i & j & H & P).
  destruct (C14_programs_run i false l h k a L Bd S ltac:(discriminate)) as (h1 & I1). destruct (C14_programs i l h k a _ h1 L Bd S I1) as (S1 & Bd1 & L1 & _).
  destruct (C14_programs_run (j - i) false _ h1 k _ L1 Bd1 S1 ltac:(discriminate)) as (h2 & I2). destruct (C14_programs _ _ h1 k _ _ h2 L1 Bd1 S1 I2) as (S2 & _).
  exists i, (j - i)%nat, (repeat false (Z.to_nat (total_cycles i a))), (repeat false (Z.to_nat (total_cycles (j - i) (steps i a)))), h1, h2, (steps i a), (steps (j - i) (steps i a)).
  split; [lia|]. split; [lia|]. split; [exact I1|]. split; [exact S1|]. split; [exact I2|]. split; [exact S2|]. split.
  - rewrite <- steps_add. replace (i + (j - i))%nat with j by lia. exact P.
  - intros m _ F. rewrite <- steps_add in F. destruct (search a (Datatypes.S (i + m))) as [(n & _ & Fn)|Fn]; [|exact (Fn (i + m)%nat ltac:(lia) F)].
    destruct (C41_stops_after_fin n u l h k a Hu L Bd S Fn) as (h' & R & _). exact (N h' R).
Qed.
(** A run that stops is never twice at the same machine, and takes at most [machines]
    instructions. *)
Theorem C91_ends : forall u l h k a h', (u = true -> k = true) -> live l h k -> boundary h -> shows h a -> run_program u false h h' ->
  exists n us he b, instructions n h us he /\ shows he b /\ shows h' b /\ Z.of_nat n <= machines /\
    forall i j us1 us2 h1 h2 b1 b2, (i < j < n)%nat -> instructions i h us1 h1 -> instructions j h us2 h2 -> shows h1 b1 -> shows h2 b2 -> ~ same_machine b1 b2.
Proof.
  intros u l h k a h' Hu L Bd S R. pose proof (live_steps_valid l h k a L Bd S) as V. destruct (C41_stops_only_after_fin u l h k a h' Hu L Bd S R) as (n & (F1 & F2) & S' & _).
  assert (D : forall i j, (i < j <= n)%nat -> ~ same_machine (steps i a) (steps j a)).
  { intros i j H P. replace j with (i + (j - i))%nat in P by lia. rewrite steps_add in P.
    pose proof (period_no_fin (steps i a) (j - i) ltac:(intros m; rewrite <- steps_add; apply V) ltac:(lia) P) as Q. apply (Q ltac:(intros m Hm; rewrite <- steps_add; apply F2; lia) (n - i)%nat).
    rewrite <- steps_add. replace (i + (n - i))%nat with n by lia. exact F1. }
  destruct (C14_programs_run (Datatypes.S n) false l h k a L Bd S ltac:(discriminate)) as (he & I1). destruct (C14_programs _ l h k a _ he L Bd S I1) as (S1 & _).
  exists (Datatypes.S n), (repeat false (Z.to_nat (total_cycles (Datatypes.S n) a))), he, (steps (Datatypes.S n) a). split; [exact I1|]. split; [exact S1|]. split; [exact S'|]. split.
  - destruct (Z.le_gt_cases (Z.of_nat (Datatypes.S n)) machines) as [G|G]; [exact G|]. destruct (comes_back a (Datatypes.S n) V ltac:(lia)) as (i & j & H & P). destruct (D i j ltac:(lia) P).
  - intros i j us1 us2 h1 h2 b1 b2 H J1 J2 Sb1 Sb2 P. destruct (C14_programs i l h k a us1 h1 L Bd S J1) as (T1 & _). destruct (C14_programs j l h k a us2 h2 L Bd S J2) as (T2 & _).
    apply (D i j ltac:(lia)). eapply same_trans; [exact (same_shows h1 _ _ T1 Sb1)|]. eapply same_trans; [exact P|exact (same_shows h2 _ _ Sb2 T2)].
Qed.
(** Coming back to the same registers, flags and pointers is not enough: this program does
    so once and stops the second time, since the memory has changed.  It counts the cell
    0x20 up to 0: LDA 0020; INC; STA 0020; BEQ 000E; XOR AC; JMP 0000; FIN. *)
Definition counting : arch := mkArch 0 false true 0 0 0 0 0 100
  (fun x => if x =? 32 then 254 else nth (Z.to_nat x) [0x70; 0; 32; 0x4B; 0x71; 0; 32; 0x72; 0; 14; 0x4A; 0x74; 0; 0; 255] 0) [].
Lemma nth_byte : forall l n, forallb (fun b => (0 <=? b) && (b <=? 255)) l = true -> 0 <= nth n l 0 <= 255.
Proof.
  intros l n H. rewrite forallb_forall in H. destruct (Nat.lt_ge_cases n (length l)) as [G|G]; [|rewrite nth_overflow by exact G; lia]. specialize (H _ (nth_In l 0 G)). lia.
Qed.
Theorem C91_registers_refuted : ~ (forall d l h a us h' b, live l h true -> boundary h -> shows h a -> (0 < d)%nat -> instructions d h us h' -> shows h' b ->
  alike (fun _ => False) a b -> (forall m, (m < d)%nat -> opcode (steps m a) <> 255) -> forall h'', ~ run_program true false h h'').
Proof.
  intros H. assert (V : valid counting).
  { unfold valid, counting; cbn [AC B C D E PC SP M]. repeat (split; [lia|]). intros x _. destruct (x =? 32); [lia|]. apply nth_byte. reflexivity. }
  destruct (every_state_reachable counting V eq_refl) as (l & h & L & Bd & S).
  destruct (C14_programs_run 6 true l h true counting L Bd S ltac:(auto)) as (h' & I). destruct (C14_programs 6 l h true counting _ h' L Bd S I) as (S' & _).
  assert (Q : forall m, (m < 10)%nat -> opcode (steps m counting) <> 255) by (intros m Hm; do 10 (destruct m as [|m]; [vm_compute; discriminate|]); lia).
  assert (F : first_fin 10 counting) by (split; [vm_compute; reflexivity|exact Q]).
  destruct (C41_stops_after_fin 10 true l h true counting ltac:(auto) L Bd S F) as (h'' & R & _).
  apply (H 6%nat l h counting _ h' (steps 6 counting) L Bd S ltac:(lia) I S') with (h'' := h''); [|intros m Hm; apply Q; lia|exact R].
  unfold alike. do 9 (split; [vm_compute; reflexivity|]). intros x [].
Qed.
(** INC; JMP 0000 comes back after 512 instructions. *)
Definition rolling : arch := mkArch 0 false true 7 0 0 0 0 100 (fun x => nth (Z.to_nat x) [0x4B; 0x74; 0; 0] 0) [].
Example C91_nonvacuous : exists l h us h' b, live l h true /\ boundary h /\ shows h rolling /\ instructions 512 h us h' /\ shows h' b /\ same_machine rolling b /\
  (forall m, (m < 512)%nat -> opcode (steps m rolling) <> 255) /\ (forall h'', ~ run_program true false h h'') /\
  exists l2 h2 h2', live l2 h2 true /\ boundary h2 /\ shows h2 counting /\ run_program true false h2 h2'.
Proof.
  assert (V : valid rolling). { unfold valid, rolling; cbn [AC B C D E PC SP M]. repeat (split; [lia|]). intros x _. apply nth_byte. reflexivity. }
  destruct (every_state_reachable rolling V eq_refl) as (l & h & L & Bd & S).
  destruct (C14_programs_run 512 true l h true rolling L Bd S ltac:(auto)) as (h' & I). destruct (C14_programs 512 l h true rolling _ h' L Bd S I) as (S' & _).
  assert (A : same_machine rolling (steps 512 rolling)). { unfold same_machine, alike. do 9 (split; [vm_compute; reflexivity|]). intros x _. vm_compute. reflexivity. }
  assert (N : forall m, (m < 512)%nat -> opcode (steps m rolling) <> 255).
  { assert (G : forallb (fun m => negb (opcode (steps m rolling) =? 255)) (seq 0 512) = true) by (vm_compute; reflexivity). rewrite forallb_forall in G. intros m Hm. specialize (G m ltac:(apply in_seq; lia)). lia. }
  exists l, h, (repeat true (Z.to_nat (total_cycles 512 rolling))), h', (steps 512 rolling).
  split; [exact L|]. split; [exact Bd|]. split; [exact S|]. split; [exact I|]. split; [exact S'|]. split; [exact A|]. split; [exact N|].
  split; [exact (proj1 (C91_loops 512 true l h true rolling _ h' _ ltac:(auto) L Bd S ltac:(lia) I S' A N))|].
  assert (Vc : valid counting). { unfold valid, counting; cbn [AC B C D E PC SP M]. repeat (split; [lia|]). intros x _. destruct (x =? 32); [lia|]. apply nth_byte. reflexivity. }
  destruct (every_state_reachable counting Vc eq_refl) as (l2 & h2 & L2 & Bd2 & S2).
  assert (F : first_fin 10 counting) by (split; [vm_compute; reflexivity|intros m Hm; do 10 (destruct m as [|m]; [vm_compute; discriminate|]); lia]).
  destruct (C41_stops_after_fin 10 true l2 h2 true counting ltac:(auto) L2 Bd2 S2 F) as (h'' & R & _). exists l2, h2, h''. auto.
Qed.

Print Assumptions C91_loops.
Print Assumptions C91_returns.
Print Assumptions C91_ends.
Print Assumptions C91_registers_refuted.
Print Assumptions C91_nonvacuous.
