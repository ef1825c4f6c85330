(** * The microprograms shown in the documentation (C70)
    docs/src/pages/es/instructions/*.mdx: each page lists the microstates an
    instruction goes through. *)
From Coq Require Import ZArith List Bool Lia ZifyBool.
From Verif Require Import Word WordFacts Prog Tables Components Machine ZMachine ZWord ZRefine ZRefineB ZRefineC Rtl Micro Isa MicroIsa IsaOps Track Drive LinkedList PubSub Api HeapSim Lifecycle Usage ApiFacts Reach Front Runs IsaFacts PropsApi PropsIsa Shown.
Import ListNotations.
Open Scope Z_scope.

(** ** Specification *)
(** The values [get_state] returns after each of the clock calls [us]. *)
Inductive visits : hstate -> list bool -> list Z -> Prop :=
| V_none : forall h, visits h [] []
| V_more : forall h u h1 q us qs, do_call (RunClock u) h = Some h1 -> get_state h1 = Some q -> visits h1 us qs -> visits h (u :: us) (q :: qs).
(** The tables of the pages, under the headings "Microprograma". *)
Definition page (i : instr) (fc fz : bool) : option (list Z) :=
  match i with
  | OP ADD (Reg _) => Some [0; 1; 2; 5] | OP ADD Imm => Some [0; 1; 15; 5] | OP ADD Acc => Some [0; 1; 12; 5]  (* ADD.mdx *)
  | OP SUB (Reg _) => Some [0; 1; 2; 6] | OP SUB Imm => Some [0; 1; 15; 6] | OP SUB Acc => Some [0; 1; 12; 6]  (* SUB.mdx *)
  | OP AND (Reg _) => Some [0; 1; 2; 9] | OP AND Imm => Some [0; 1; 15; 9] | OP AND Acc => Some [0; 1; 12; 9]  (* AND.mdx *)
  | OP OR (Reg _) => Some [0; 1; 12; 10] | OP OR Imm => Some [0; 1; 15; 10] | OP OR Acc => Some [0; 1; 12; 10]  (* OR.mdx *)
  | OP XOR (Reg _) => Some [0; 1; 2; 11] | OP XOR Imm => Some [0; 1; 15; 11] | OP XOR Acc => Some [0; 1; 12; 11]  (* XOR.mdx *)
  | OP CMP (Reg _) => Some [0; 1; 2; 7]  (* CMP.mdx *)
  | INC_r _ => Some [0; 1; 2; 8] | INC_ac => Some [0; 1; 12; 13]  (* INC.mdx *)
  | MOV_i_r _ => Some [0; 1; 15; 39] | MOV_rr _ _ => Some [0; 1; 2; 3] | MOV_r_ac _ => Some [0; 1; 2; 4] | MOV_i_ac => Some [0; 1; 15; 4]  (* MOV.mdx *)
  | CMA => Some [0; 1; 14] | LFA => Some [0; 1; 23] | SFA => Some [0; 1; 24]  (* CMA.mdx, LFA.mdx, SFA.mdx *)
  | LDA => Some [0; 1; 16; 17; 18; 4] | STA => Some [0; 1; 16; 17; 12; 19]  (* LDA.mdx, STA.mdx *)
  | LDAX => Some [0; 1; 21; 22; 18; 4] | STAX => Some [0; 1; 21; 22; 12; 19]  (* LDAX.mdx, STAX.mdx *)
  | BEQ => Some (if fz then [0; 1; 16; 17; 20] else [0; 1; 16; 17])  (* BEQ.mdx *)
  | BC_ => Some (if fc then [0; 1; 16; 17; 20] else [0; 1; 16; 17])  (* BC.mdx *)
  | JMP => Some [0; 1; 16; 17; 20] | INISP => Some [0; 1; 16; 17; 38]  (* JMP.mdx, INISP.mdx *)
  | PUSH => Some [0; 1; 26; 36] | POP => Some [0; 1; 37; 31]  (* PUSH.mdx, POP.mdx *)
  | CALL => Some [0; 1; 16; 17; 26; 28; 26; 29; 20]  (* CALL.mdx *)
  | RET => Some [0; 1; 32; 31; 33; 31]  (* RET.mdx *)
  | _ => None
  end.

(** ** Proofs *)
Fixpoint ulist (n : nat) (c : cpu * Z) : list Z := match n with O => [] | S n' => snd c :: ulist n' (ustep c) end.
Lemma ulist_cong : forall n s t q, same s t -> ulist n (s, q) = ulist n (t, q).
Proof.
  induction n as [|n IH]; intros s t q S; cbn [ulist snd]; [reflexivity|]. rewrite !ustep_eq. pose proof S as (R & _). rewrite !R. rewrite (IH _ (rtl q t)) by (apply rtl_cong; exact S). reflexivity.
Qed.
Lemma ulist_go : forall n q ri fc fz l s, go n q ri fc fz = Some l -> cvalid s -> reg s R_RI = ri ->
  0 <= fc <= 1 -> 0 <= fz <= 1 ->
  0 <= q < 45 -> (q = 1 \/ q = 16 \/ q = 17 -> reg s R_FC = fc /\ reg s R_FZ = fz) ->
  ulist (length l) (s, q) = l.
Proof.
  induction n as [|n IH]; cbn [go]; intros q ri fc fz l s H V Hri Hfc Hfz Hq H1; [discriminate|].
  destruct (Z.eqb_spec q 0) as [E|E]. { injection H as <-. reflexivity. }
  destruct (go n (succ q ri fc fz) ri fc fz) as [l'|] eqn:G; [|discriminate]. injection H as <-.
  cbn [length ulist snd]. apply (f_equal (cons q)).
  pose proof (cv_r s V R_RI) as X1; pose proof (cv_r s V R_FC) as X2; pose proof (cv_r s V R_FZ) as X3;
  cbn [rhi] in *.
  cbn [ustep]. rewrite Hri. rewrite Hri in X1.
  assert (Es : succ q ri (reg s R_FC) (reg s R_FZ) = succ q ri fc fz).
  { destruct (Z.eq_dec q 17) as [->|N17].
    - destruct H1 as [-> ->]; auto.
    - rewrite succ_flags by lia. symmetry. apply succ_flags; lia. }
  rewrite Es.
  apply IH with (ri := ri) (fc := fc) (fz := fz); auto.
  - apply rtl_valid; auto.
  - rewrite rtl_ri; auto.
  - apply succ_range; lia.
  - intros Hn.
    assert (Hq1 : q = 1 \/ q = 16).
    { destruct Hn as [Hn|Hn].
      - exfalso. revert Hn. apply succ_ne_1; lia.
      - apply (succ_addr q ri fc fz); auto; lia. }
    destruct Hq1 as [-> | ->].
    + apply H1; auto.
    + destruct (rtl_16_flags s) as [-> ->]. apply H1; auto.
Qed.
Lemma ulist_path : forall s l, cvalid s -> path (mem s (reg s R_PC)) (reg s R_FC) (reg s R_FZ) = Some l -> ulist (length l) (s, 0) = l.
Proof.
  intros s l V H. apply path_inv in H. destruct H as (n & l' & -> & G).
  rewrite len2. cbn [ulist snd]. rewrite !ustep_eq.
  pose proof (cv_r s V R_RI) as X1; pose proof (cv_r s V R_FC) as X2; pose proof (cv_r s V R_FZ) as X3;
  pose proof (cv_r s V R_PC) as X4; cbn [rhi] in X1, X2, X3, X4.
  pose proof (cv_m s V (reg s R_PC) ltac:(lia)) as X5.
  rewrite succ_0 by lia. apply (f_equal (cons 0)). apply (f_equal (cons 1)).
  destruct (rtl_0_facts s) as (E1 & E2 & E3).
  rewrite rtl_1, E1, E2, E3.
  refine (ulist_go n _ (mem s (reg s R_PC)) (reg s R_FC) (reg s R_FZ) l' (rtl 0 s) G _ E1 X2 X3 _ _).
  - apply rtl_valid; auto.
  - apply succ_range; lia.
  - intros _. split; assumption.
Qed.
Lemma visits_up : forall us h z, up h z -> (ui h = false -> ~ In true us) -> visits h us (ulist (length us) (view z, dpos z)).
Proof.
  induction us as [|u us IH]; intros h z U Hk; cbn [length ulist]; [constructor|].
  destruct (api_clock_up u h z U) as (h' & z' & E & U' & Hu & _ & Q & D & V & _). { intros ->. destruct (ui h); auto. destruct (Hk eq_refl). left. reflexivity. }
  destruct (up_obs h' z' U') as (_ & G & _). cbn [snd]. apply V_more with (h1 := h').
  - exact E.
  - rewrite G. congruence.
  - rewrite ustep_eq. rewrite (ulist_cong _ _ _ _ (same_sym _ _ V)). change (reg (view z) R_RI) with (rv z R_RI). change (reg (view z) R_FC) with (rv z R_FC). change (reg (view z) R_FZ) with (rv z R_FZ).
    rewrite <- D. apply IH; auto. rewrite Hu. intros X Y. apply (Hk X). right. exact Y.
Qed.
Lemma instruction_path : forall l h k a us h', live l h k -> boundary h -> shows h a -> instruction h us h' ->
  exists qs, path (opcode a) (Z.b2z (FC a)) (Z.b2z (FZ a)) = Some qs /\ visits h us qs.
Proof.
  intros l h k a us h' L Bd S I. destruct (live_up l h k L) as (Hu & z & U). destruct (instruction_spec l h k a us h' L Bd S I) as (El & _).
  pose proof (zview_valid z (inv_rng z (up_inv _ _ U))) as V. pose proof (cv_r _ V R_FC) as X2; pose proof (cv_r _ V R_FZ) as X3; pose proof (cv_r _ V R_PC) as X4; cbn [rhi] in *.
  pose proof (cv_m _ V (reg (view z) R_PC) ltac:(lia)) as X5. destruct (up_obs h z U) as ((O1 & O2 & _) & _ & Nx).
  destruct S as (_ & Sc & Sz & _ & _ & _ & _ & Sp & _ & Sm & _). rewrite O1 in Sc, Sz, Sp. injection Sc as Sc. injection Sz as Sz. injection Sp as Sp.
  assert (Eo : mem (view z) (reg (view z) R_PC) = opcode a). { unfold opcode. rewrite <- Sp. specialize (Sm (reg (view z) R_PC) ltac:(lia)). rewrite O2 in Sm by lia. injection Sm as Sm. exact Sm. }
  destruct (path_some _ _ _ X5 X2 X3) as (qs & Hq & Ln). exists qs. rewrite <- Eo, <- Sc, <- Sz. split; [exact Hq|].
  assert (D0 : dpos z = 0). { destruct Bd as (N0 & _). rewrite Nx in N0. congruence. }
  assert (Lu : length us = length qs). { change (reg (view z)) with (rv z) in *. rewrite Sc, Sz, Eo in Ln. unfold opcode in Ln. destruct (FC a), (FZ a); cbn [Z.b2z Z.eqb Pos.eqb] in Ln; lia. }
  pose proof (visits_up us h z U) as K. rewrite D0, Lu, (ulist_path _ _ V Hq) in K. apply K. intros Hk X. destruct I as (I & _). exact (clocks_ui us h z h' U I Hk X).
Qed.
(** The microstates of the instructions the pages do not list, and of those whose
    list is wrong. *)
Definition microprogram (i : instr) (fc fz : bool) : option (list Z) :=
  match i with
  | CALL => Some [0; 1; 16; 17; 26; 28; 40; 29; 20]
  | RET => Some [0; 1; 32; 31; 33; 41]
  | OP OR (Reg _) => Some [0; 1; 2; 10]
  | OP CMP Imm => Some [0; 1; 15; 7] | OP CMP Acc => Some [0; 1; 12; 7]
  | MOV_ac_r _ => Some [0; 1; 12; 44] | MOV_ac_ac => Some [0; 1; 12; 4]
  | IRET => Some [0; 1; 32; 31; 33; 41; 34; 43; 35]
  | FIN => Some [0; 1]
  | _ => page i fc fz
  end.
Definition zlist_eqb (a b : list Z) : bool := if list_eq_dec Z.eq_dec a b then true else false.
Definition agree (op fc fz : Z) : bool :=
  match decode_documented op with
  | Some i => match microprogram i (fc =? 1) (fz =? 1), path op fc fz with Some x, Some y => zlist_eqb x y | _, _ => false end
  | None => true end.
Lemma paths_b : forallb (fun op => forallb (fun fc => forallb (fun fz => agree op fc fz) (range 2)) (range 2)) (range 256) = true.
Proof. vm_compute. reflexivity. Qed.
Lemma agree_all : forall op (fc fz : bool), 0 <= op <= 255 -> agree op (Z.b2z fc) (Z.b2z fz) = true.
Proof.
  intros op fc fz Ho. pose proof paths_b as F. assert (B2 : forall b : bool, In (Z.b2z b) (range 2)) by (intros []; cbn; auto).
  rewrite forallb_forall in F. specialize (F op (in_range 256 op ltac:(lia))).
  rewrite forallb_forall in F. specialize (F (Z.b2z fc) (B2 fc)).
  rewrite forallb_forall in F. exact (F (Z.b2z fz) (B2 fz)).
Qed.
Lemma paths : forall op i (fc fz : bool), 0 <= op <= 255 -> decode_documented op = Some i -> exists qs, microprogram i fc fz = Some qs /\ path op (Z.b2z fc) (Z.b2z fz) = Some qs.
Proof.
  intros op i fc fz Ho Hi. pose proof (agree_all op fc fz Ho) as F. unfold agree in F. rewrite Hi in F.
  assert (E1 : (Z.b2z fc =? 1) = fc) by (destruct fc; reflexivity). assert (E2 : (Z.b2z fz =? 1) = fz) by (destruct fz; reflexivity). rewrite E1, E2 in F.
  revert F. generalize (path op (Z.b2z fc) (Z.b2z fz)). intros [y|]; generalize (microprogram i fc fz); intros [x|] F; try discriminate F.
  unfold zlist_eqb in F. destruct (list_eq_dec Z.eq_dec x y); [subst; eauto|discriminate F].
Qed.
Lemma opcode_range : forall l h k a, live l h k -> shows h a -> 0 <= opcode a <= 255.
Proof.
  intros l h k a L S. destruct (live_shows l h k L) as (b & Sb & V). assert (E : PC a = PC b). { destruct S as (_ & _ & _ & _ & _ & _ & _ & Sp & _). destruct Sb as (_ & _ & _ & _ & _ & _ & _ & Sp' & _). congruence. }
  destruct V as (_ & _ & _ & _ & _ & Vp & _ & Vm). destruct S as (_ & _ & _ & _ & _ & _ & _ & _ & _ & Sm & _). destruct Sb as (_ & _ & _ & _ & _ & _ & _ & _ & _ & Sm' & _).
  unfold opcode. specialize (Sm (PC a) ltac:(lia)). rewrite E in *. rewrite Sm' in Sm by lia. injection Sm as <-. apply Vm. lia.
Qed.
(** ** C70 *)
Theorem C70_microprograms : forall l h k a us h' i, live l h k -> boundary h -> shows h a -> instruction h us h' -> decode_documented (opcode a) = Some i ->
  exists qs, microprogram i (FC a) (FZ a) = Some qs /\ visits h us qs.
Proof.
  intros l h k a us h' i L Bd S I Hi. destruct (instruction_path l h k a us h' L Bd S I) as (qs & Hp & V).
  assert (R : 0 <= opcode a <= 255). { apply (opcode_range l h k); auto. }
  destruct (paths (opcode a) i (FC a) (FZ a) R Hi) as (qs' & Em & Ep). rewrite Hp in Ep. injection Ep as ->. eauto.
Qed.
Theorem C70_pages : forall l h k a us h' i qs, live l h k -> boundary h -> shows h a -> instruction h us h' -> decode_documented (opcode a) = Some i ->
  page i (FC a) (FZ a) = Some qs -> i <> CALL -> i <> RET -> (forall r, i <> OP OR (Reg r)) -> visits h us qs.
Proof.
  intros l h k a us h' i qs L Bd S I Hi Hp N1 N2 N3. destruct (C70_microprograms l h k a us h' i L Bd S I Hi) as (qs' & Em & V).
  assert (E : microprogram i (FC a) (FZ a) = page i (FC a) (FZ a)). { destruct i; try reflexivity; try congruence; try discriminate Hp. destruct o, x; try reflexivity; try discriminate Hp. destruct (N3 r eq_refl). }
  rewrite E, Hp in Em. injection Em as ->. exact V.
Qed.
(** CALL and RET go through other microstates than listed, but with the same micro-operations. *)
Theorem C70_same_operation : forall c, rtl 40 c = rtl 26 c /\ rtl 41 c = rtl 31 c.
Proof. intros c. split; reflexivity. Qed.
Theorem C70_call_ret : forall l h k a us h', live l h k -> boundary h -> shows h a -> instruction h us h' ->
  (opcode a = 0xC4 -> visits h us [0; 1; 16; 17; 26; 28; 40; 29; 20]) /\ (opcode a = 0xC5 -> visits h us [0; 1; 32; 31; 33; 41]).
Proof.
  intros l h k a us h' L Bd S I. split; intros Ho;
    [destruct (C70_microprograms l h k a us h' CALL L Bd S I) as (qs & E & V)|destruct (C70_microprograms l h k a us h' RET L Bd S I) as (qs & E & V)];
    try (rewrite Ho; reflexivity); cbn [microprogram] in E; injection E as <-; exact V.
Qed.
(** The lists of the pages are wrong for these three; for OR with a register the
    listed microstate 12 also stands for another operation than the one executed. *)
Lemma visits_fun : forall h us qs, visits h us qs -> forall qs', visits h us qs' -> qs = qs'.
Proof.
  intros h us qs V. induction V as [h|h u h1 q us qs E G V IH]; intros qs' V'; inversion V' as [|? ? h2 q2 ? qs2 E2 G2 V2]; subst; [reflexivity|].
  rewrite E in E2. injection E2 as <-. rewrite G in G2. injection G2 as <-. rewrite (IH qs2 V2). reflexivity.
Qed.
Theorem C70_pages_refuted : forall l h k a us h' i qs, live l h k -> boundary h -> shows h a -> instruction h us h' -> decode_documented (opcode a) = Some i ->
  page i (FC a) (FZ a) = Some qs -> i = CALL \/ i = RET \/ (exists r, i = OP OR (Reg r)) -> ~ visits h us qs.
Proof.
  intros l h k a us h' i qs L Bd S I Hi Hp Hc V. destruct (C70_microprograms l h k a us h' i L Bd S I Hi) as (qs' & Em & V'). pose proof (visits_fun _ _ _ V _ V') as E. subst qs'.
  destruct Hc as [->|[->|(r & ->)]]; cbn [page microprogram] in *; injection Hp as <-; discriminate Em.
Qed.
Theorem C70_or_operation_refuted : exists c, reg (rtl 12 c) R_2OP <> reg (rtl 2 c) R_2OP.
Proof. exists (mkCpu (fun r => match r with R_AC => 1 | _ => 0 end) (fun _ => 0) []). vm_compute. discriminate. Qed.
Example C70_nonvacuous : forall op, 0 <= op <= 255 -> exists l h a us h', live l h true /\ boundary h /\ shows h a /\ instruction h us h' /\ opcode a = op /\ FC a = true /\ FZ a = false.
Proof.
  intros op Ho. set (a := mkArch 7 true false 1 2 3 4 100 200 (fun i => if i =? 100 then op else 9) []).
  destruct (every_state_reachable a) as (l & h & L & Bd & S). { repeat split; cbn; try lia; destruct (_ =? _); lia. } { reflexivity. }
  destruct (C13_completes l h true a L Bd S) as (n & _ & _ & X). destruct (X (repeat true n)) as (h' & I); [apply repeat_length|discriminate|]. exists l, h, a, (repeat true n), h'.
  repeat (split; [assumption || reflexivity|]). reflexivity.
Qed.
Print Assumptions C70_microprograms.
Print Assumptions C70_pages.
Print Assumptions C70_same_operation.
Print Assumptions C70_call_ret.
Print Assumptions C70_pages_refuted.
Print Assumptions C70_or_operation_refuted.
