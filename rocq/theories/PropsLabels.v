(** * Theorems: what the labels of the microstates say is what the cycles do (C87) *)
From Coq Require Import String ZArith List Bool Lia ZifyBool.
From Verif Require Import Prog Rtl ZMachine ZRefine ZRefineC Micro MicroIsa Track Drive LinkedList PubSub Api HeapSim Lifecycle Usage ApiFacts Reach Front View Labels.
From Verif Require Isa.
From Verif Require Import PropsView.
From Verif Require ViewSpec PropsApi PropsBuses PropsGuard.
Import ListNotations.
Open Scope Z_scope.

(** ** The microstate belongs to the instruction in RI *)
Definition path_of (ri fc fz : Z) : list Z := match path ri fc fz with Some l => l | None => [] end.
Definition on_path (q ri : Z) : Prop := q = 0 \/ exists fc fz, 0 <= fc <= 1 /\ 0 <= fz <= 1 /\ In q (path_of ri fc fz).
Fixpoint gof (f : Z -> Z) (n : nat) (q : Z) : option (list Z) :=
  match n with O => None | S n' => if q =? 0 then Some [] else match gof f n' (f q) with Some l => Some (q :: l) | None => None end end.
Lemma gof_next : forall f n q l, gof f n q = Some l -> (q = 0 \/ In q l) /\ forall x, In x l -> f x = 0 \/ In (f x) l.
Proof.
  intros f. induction n as [|n IH]; intros q l G; [discriminate G|]. cbn [gof] in G. destruct (Z.eqb_spec q 0) as [E|E]; [injection G as <-; split; [auto|intros x []]|].
  destruct (gof f n (f q)) as [l'|] eqn:G'; [|discriminate G]. injection G as <-. destruct (IH _ _ G') as (K1 & K2). split; [right; cbn; auto|].
  intros x [<-|I]; [destruct K1; cbn; auto|]. destruct (K2 x I); cbn; auto.
Qed.
Lemma go_gof : forall n q ri fc fz, go n q ri fc fz = gof (fun x => succ x ri fc fz) n q.
Proof. induction n as [|n IH]; intros q ri fc fz; [reflexivity|]. cbn [go gof]. rewrite IH. reflexivity. Qed.
Lemma go_next : forall n q ri fc fz l, go n q ri fc fz = Some l -> (q = 0 \/ In q l) /\ forall x, In x l -> succ x ri fc fz = 0 \/ In (succ x ri fc fz) l.
Proof. intros n q ri fc fz l G. rewrite go_gof in G. exact (gof_next _ _ _ _ G). Qed.
Lemma path_next : forall ri fc fz x, In x (path_of ri fc fz) -> x <> 0 -> succ x ri fc fz = 0 \/ In (succ x ri fc fz) (path_of ri fc fz).
Proof.
  intros ri fc fz x. unfold path_of. pose proof (path_inv ri fc fz) as P. destruct (path ri fc fz) as [l|]; [|intros []]. destruct (P l eq_refl) as (n & l' & -> & G). clear P. revert G. pose proof (go_next n (succ 1 ri fc fz) ri fc fz l') as K. intros G. destruct (K G) as (K1 & K2). clear K G.
  intros [<-|[<-|I]] N; [congruence| |]; [destruct K1 as [K1|K1]; [left; exact K1|right; right; right; exact K1]|]. destruct (K2 x I) as [K|K]; [left; exact K|right; right; right; exact K].
Qed.
Definition reg_opt_eqb (a : option regid) (b : regid) : bool := match a with Some x => regid_eqb x b | None => false end.
(** What is used of it. *)
Definition fit (q ri : Z) : bool :=
  match q with
  | 2 => reg_opt_eqb (source ri) (greg (ri mod 4))
  | 3 => reg_opt_eqb (destination ri) (greg (ri / 4 mod 4))
  | 8 | 39 | 44 => reg_opt_eqb (destination ri) (greg (ri mod 4))
  | 25 | 27 | 30 | 42 => false
  | 43 => match destination ri with Some _ => false | None => true end
  | _ => true
  end.
Definition four (ri : Z) : list (list Z) := map (fun f => path_of ri (fst f) (snd f)) [(0, 0); (0, 1); (1, 0); (1, 1)].
Definition one_ok (ri : Z) (l : list Z) : bool := existsb (Z.eqb 1) l && forallb (fun q => (0 <=? q) && (q <=? 44) && fit q ri) l.
Definition has17 (l : list Z) : bool := existsb (Z.eqb 17) l.
Lemma paths_b : forallb (fun ri => let ls := four ri in forallb (one_ok ri) ls && forallb (fun l => Bool.eqb (has17 (hd [] ls)) (has17 l)) ls) (range 256) = true.
Proof. vm_compute. reflexivity. Qed.
Lemma in_four : forall ri a b, 0 <= a <= 1 -> 0 <= b <= 1 -> In (path_of ri a b) (four ri).
Proof. intros ri a b Ha Hb. unfold four. apply in_map_iff. exists (a, b). split; [reflexivity|]. assert (a = 0 \/ a = 1) as [->| ->] by lia; assert (b = 0 \/ b = 1) as [->| ->] by lia; cbn; auto. Qed.
Lemma table_ok : forall (f : Z -> list (list Z)) (g : Z -> list Z -> bool), forallb (fun ri => let ls := f ri in forallb (g ri) ls && forallb (fun l => Bool.eqb (has17 (hd [] ls)) (has17 l)) ls) (range 256) = true ->
  forall ri, 0 <= ri <= 255 -> (forall l, In l (f ri) -> g ri l = true) /\ forall l l', In l (f ri) -> In l' (f ri) -> has17 l = has17 l'.
Proof.
  intros f g F ri H. rewrite forallb_forall in F. specialize (F ri (in_range 256 ri ltac:(lia))). cbv zeta in F. apply andb_prop in F. destruct F as (F1 & F2). rewrite forallb_forall in F1, F2. split; [exact F1|].
  intros l l' A B. apply F2 in A, B. apply eqb_prop in A, B. congruence.
Qed.
Lemma one_ok_spec : forall ri l, one_ok ri l = true -> existsb (Z.eqb 1) l = true /\ forall q, In q l -> (0 <= q <= 44) /\ fit q ri = true.
Proof. intros ri l F. apply andb_prop in F. destruct F as (F1 & F2). split; [exact F1|]. intros q Hq. rewrite forallb_forall in F2. specialize (F2 q Hq). lia. Qed.
Lemma paths_ok : forall ri fc fz, 0 <= ri <= 255 -> 0 <= fc <= 1 -> 0 <= fz <= 1 ->
  existsb (Z.eqb 1) (path_of ri fc fz) = true /\ forall q, In q (path_of ri fc fz) -> (0 <= q <= 44) /\ fit q ri = true.
Proof. intros ri fc fz H1 H2 H3. apply one_ok_spec. exact (proj1 (table_ok four one_ok paths_b ri H1) _ (in_four ri fc fz H2 H3)). Qed.
Lemma on_path_fit : forall q ri, 0 <= ri <= 255 -> on_path q ri -> 0 <= q <= 44 /\ fit q ri = true.
Proof. intros q ri H [->|(fc & fz & A & B & I)]; [split; [lia|reflexivity]|]. exact (proj2 (paths_ok ri fc fz H A B) q I). Qed.
Lemma has17_spec : forall l, has17 l = true <-> In 17 l.
Proof. intros l. unfold has17. rewrite existsb_exists. split; [intros (x & A & B); apply Z.eqb_eq in B; subst; exact A|intros A; exists 17; split; [exact A|reflexivity]]. Qed.
Lemma seventeen : forall ri fc fz fc' fz', 0 <= ri <= 255 -> 0 <= fc <= 1 -> 0 <= fz <= 1 -> 0 <= fc' <= 1 -> 0 <= fz' <= 1 -> In 17 (path_of ri fc fz) -> In 17 (path_of ri fc' fz').
Proof.
  intros ri fc fz fc' fz' H A B A' B' I. apply has17_spec. apply has17_spec in I. rewrite <- I. exact (proj2 (table_ok four one_ok paths_b ri H) _ _ (in_four ri fc' fz' A' B') (in_four ri fc fz A B)).
Qed.
Lemma on_path_next : forall q ri fc fz, 0 <= ri <= 255 -> 0 <= fc <= 1 -> 0 <= fz <= 1 -> q <> 0 -> on_path q ri -> on_path (succ q ri fc fz) ri.
Proof.
  intros q ri fc fz H A B N O. pose proof (on_path_fit q ri H O) as (Q & _). destruct O as [->|(fc0 & fz0 & A0 & B0 & I)]; [congruence|].
  destruct (Z.eq_dec q 17) as [->|N17].
  - pose proof (seventeen ri fc0 fz0 fc fz H A0 B0 A B I) as I'. destruct (path_next _ _ _ _ I' N) as [K|K]; [left; exact K|right; exists fc, fz; auto].
  - assert (Es : succ q ri fc fz = succ q ri fc0 fz0) by (rewrite (succ_flags q ri fc fz ltac:(lia) N17 H A B); symmetry; apply succ_flags; auto; lia).
    rewrite Es. destruct (path_next _ _ _ _ I N) as [K|K]; [left; exact K|right; exists fc0, fz0; auto].
Qed.
Lemma on_path_1 : forall ri, 0 <= ri <= 255 -> on_path 1 ri.
Proof.
  intros ri H. destruct (paths_ok ri 0 0 H ltac:(lia) ltac:(lia)) as (K & _). apply existsb_exists in K. destruct K as (x & Hx & Ex). apply Z.eqb_eq in Ex. subst x. right. exists 0, 0. split; [lia|]. split; [lia|exact Hx].
Qed.

Opaque path_of on_path init_list shutdown_list api_init.
(** Whatever calls were made, the next microstate is one of the instruction in RI. *)
Definition placed (h : hstate) : Prop := forall q ri, get_next_state h = Some q -> get_register_value R_RI h = Some ri -> on_path q ri.
Lemma placed_up : forall h z, up h z -> on_path (dpos z) (rv z R_RI) -> placed h.
Proof. intros h z U P q ri Q R. destruct (up_obs h z U) as ((O & _) & _ & N). rewrite N in Q. rewrite O in R. injection Q as <-. injection R as <-. exact P. Qed.
Lemma placed_of : forall h z, up h z -> placed h -> on_path (dpos z) (rv z R_RI).
Proof. intros h z U P. destruct (up_obs h z U) as ((O & _) & _ & N). apply (P _ _ N (O R_RI)). Qed.
Lemma init_placed : forall rnd h0 h1, sane (ps h0) -> (forall i, 0 <= rnd i) -> api_init rnd h0 = Some h1 -> placed h1.
Proof. intros rnd h0 h1 S H E. destruct (init_up h0 rnd S H) as (h2 & z & E2 & U & _ & _ & D & _). rewrite E2 in E. injection E as <-. apply (placed_up h2 z U). left. exact D. Qed.
Lemma ui_placed : forall b h0 z, up h0 z -> placed h0 -> placed (set_ui h0 b).
Proof. intros b h0 z U P. apply (placed_up _ z); [apply set_ui_up; exact U|]. apply (placed_of h0); auto. Qed.
Lemma step_placed : forall z z', inv z -> dpos z' = succ (dpos z) (rv z R_RI) (rv z R_FC) (rv z R_FZ) -> same (Micro.view z') (rtl (dpos z) (Micro.view z)) -> on_path (dpos z) (rv z R_RI) -> on_path (dpos z') (rv z' R_RI).
Proof.
  intros z z' I D V Pl. pose proof (zview_valid z (inv_rng z I)) as W. pose proof (cv_r _ W R_RI) as W1. pose proof (cv_r _ W R_FC) as W2. pose proof (cv_r _ W R_FZ) as W3. cbn [rhi] in W1, W2, W3.
  assert (Ri : rv z' R_RI = reg (rtl (dpos z) (Micro.view z)) R_RI) by exact (reg_same _ _ R_RI V). rewrite D, Ri. clear D Ri V. revert Pl. generalize (dpos z) as q. intros q Pl. destruct (Z.eq_dec q 0) as [Z0|Z0].
  - subst q. rewrite (succ_0 (rv z R_RI) (rv z R_FC) (rv z R_FZ) W1 W2 W3). apply on_path_1. exact (cv_r _ (rtl_valid 0 (Micro.view z) W) R_RI).
  - rewrite (rtl_ri q _ Z0). exact (on_path_next q (rv z R_RI) (rv z R_FC) (rv z R_FZ) W1 W2 W3 Z0 Pl).
Qed.
Lemma clock_placed : forall u h0 h1 z, up h0 z -> (u = true -> ui h0 = true) -> api_run_clock_cycle u h0 = Some h1 -> placed h0 -> placed h1.
Proof.
  intros u h0 h1 z U Hu E P. destruct (api_clock_up u h0 z U Hu) as (h2 & z' & E2 & U' & _ & _ & _ & D & V & _). rewrite E2 in E. injection E as <-.
  apply (placed_up h2 z' U'). exact (step_placed z z' (up_inv _ _ U) D V (placed_of h0 z U P)).
Qed.
Lemma reset_placed : forall h0 h1 z, up h0 z -> api_reset_control h0 = Some h1 -> placed h1.
Proof. intros h0 h1 z U E. destruct (reset_up h0 z U) as (h2 & z' & E2 & U' & _ & _ & D & _). rewrite E2 in E. injection E as <-. apply (placed_up h2 z' U'). left. exact D. Qed.
Lemma mem_placed : forall o v h0 h1 z, up h0 z -> ui h0 = true -> 0 <= o < 65536 -> 0 <= v <= 255 -> api_set_memory_value o v h0 = Some h1 -> placed h0 -> placed h1.
Proof.
  intros o v h0 h1 z U G1 H H0 E P. destruct (set_mem_up h0 z o v U G1 H H0) as (h2 & z' & E2 & U' & _ & _ & D & V). rewrite E2 in E. injection E as <-.
  apply (placed_up h2 z' U'). rewrite D. assert (X : rv z' R_RI = rv z R_RI) by exact (reg_same _ _ R_RI V). rewrite X. exact (placed_of h0 z U P).
Qed.
Lemma pc_placed : forall v h0 h1 z, up h0 z -> ui h0 = true -> 0 <= v <= 65535 -> api_set_register_pc v h0 = Some h1 -> placed h0 -> placed h1.
Proof.
  intros v h0 h1 z U G1 H E P. destruct (set_pc_up h0 z v U G1 H) as (h2 & z' & E2 & U' & _ & _ & D & V). rewrite E2 in E. injection E as <-.
  apply (placed_up h2 z' U'). rewrite D. assert (X : rv z' R_RI = rv z R_RI) by exact (reg_same _ _ R_RI V). rewrite X. exact (placed_of h0 z U P).
Qed.
Lemma do_init : forall rnd h, do_call (Init rnd) h = api_init rnd h.
Proof. reflexivity. Qed.
Lemma call_placed : forall u c u' h0 h1, good u h0 -> allowed u c u' -> do_call c h0 = Some h1 -> (on u = true -> placed h0) -> on u' = true -> placed h1.
Proof.
  intros u c u' h0 h1 (G1 & G2 & G3) A. destruct A; intros E IH On.
  - rewrite do_init in E. exact (init_placed rnd h0 h1 G2 H E).
  - discriminate On.
  - injection E as <-. destruct (G3 On) as (z & U). exact (ui_placed k h0 z U (IH On)).
  - destruct (G3 eq_refl) as (z & U). refine (clock_placed u h0 h1 z U _ E (IH eq_refl)). intros Hu. rewrite G1. exact (H Hu).
  - destruct (G3 eq_refl) as (z & U). exact (reset_placed h0 h1 z U E).
  - destruct (G3 eq_refl) as (z & U). exact (mem_placed o v h0 h1 z U G1 H H0 E (IH eq_refl)).
  - destruct (G3 eq_refl) as (z & U). exact (pc_placed v h0 h1 z U G1 H E (IH eq_refl)).
Qed.
Lemma snoc_run : forall (x : hstate) l c h, run_calls (l ++ [c]) x = Some h -> exists h0, run_calls l x = Some h0 /\ do_call c h0 = Some h.
Proof. intros x l c h R. rewrite run_calls_app in R. destruct (run_calls l x) as [h0|]; [|discriminate R]. exists h0. split; [reflexivity|]. cbn [run_calls] in R. destruct (do_call c h0); [exact R|discriminate R]. Qed.
Lemma proper_placed : forall l u, proper l u -> forall h, run_calls l boot = Some h -> on u = true -> placed h.
Proof.
  generalize boot (proper_good). intros x Pg. induction 1 as [|l u c u' P IH A]; intros h R On; [discriminate On|].
  destruct (snoc_run x l c h R) as (h0 & R0 & E). destruct (Pg l u P) as (h2 & R2 & G). rewrite R0 in R2. injection R2 as <-. exact (call_placed u c u' h0 h G A E (IH h0 R0) On).
Qed.

(** ** Each label against its register transfer *)
Lemma regid_eqb_refl : forall r, regid_eqb r r = true.
Proof. destruct r; reflexivity. Qed.
Definition quiet (xs : list part) (c c' : cpu) : Prop := errs c' = errs c /\ existsb (fun x => at_end x c) xs = false.
Lemma says_intro : forall t xs c c', read t = Some xs -> (forall x, In x xs -> part_done x c c') ->
  (forall r, (forall x, In x xs -> ~ concerns x c r) -> reg c' r = reg c r) ->
  (forall a, 0 <= a < 65536 -> (forall x, In x xs -> ~ about_cell x c a) -> mem c' a = mem c a) ->
  quiet xs c c' -> says t c c'.
Proof. intros t xs c c' R P F M (Q1 & Q2). exists xs. split; [exact R|]. split; [exact P|]. split; [exact F|]. split; [exact M|]. split; [intros _; exact Q1|]. intros X. rewrite Q2 in X. discriminate X. Qed.
Lemma reg_set : forall x v c r, reg (set x v c) r = if regid_eqb r x then v else reg c r.
Proof. reflexivity. Qed.
(** One register gets a value, with or without flags. *)
Lemma says_move : forall t r e c v, r <> R_PC -> r <> R_PCH -> r <> R_PCL -> read t = Some [Gets (Reg r) e] -> sets_flags e = false -> yields e c v None ->
  at_end (Gets (Reg r) e) c = false -> says t c (set r v c).
Proof.
  intros t r e c v N1 N2 N3 R Sf Y Q. apply (says_intro t [Gets (Reg r) e]); auto.
  - intros x [<-|[]]. exists v, None. split; [exact Y|]. split; [|exact I]. apply V_reg; auto. rewrite reg_set, regid_eqb_refl. reflexivity.
  - intros r' H. rewrite reg_set. destruct (regid_eqb r' r) eqn:E; [|reflexivity]. apply regid_eqb_eq in E. subst r'. exfalso. apply (H (Gets (Reg r) e)); [left; reflexivity|]. left. destruct r; try reflexivity; congruence.
  - split; [reflexivity|]. cbn [existsb]. rewrite Q. reflexivity.
Qed.
Lemma flags_reg : forall k v c r, reg (set_flags k v c) r = if regid_eqb r R_FC then Z.b2z k else if regid_eqb r R_FZ then Z.b2z (v =? 0) else reg c r.
Proof. reflexivity. Qed.
Lemma says_alu : forall t e c v k, read t = Some [Gets (Reg R_AC) e] -> sets_flags e = true -> yields e c v (Some k) -> at_end (Gets (Reg R_AC) e) c = false -> says t c (set_flags k v (set R_AC v c)).
Proof.
  intros t e c v k R Sf Y Q. apply (says_intro t [Gets (Reg R_AC) e]); auto.
  - intros x [<-|[]]. exists v, (Some k). split; [exact Y|]. split; [apply V_reg; try discriminate; reflexivity|]. split; reflexivity.
  - intros r H. rewrite flags_reg, reg_set. assert (X := H _ (or_introl eq_refl)). cbn [concerns] in X. destruct r; try reflexivity; exfalso; apply X; auto.
  - split; [reflexivity|]. cbn [existsb]. rewrite Q. reflexivity.
Qed.
Lemma says_rd : forall t e c v (k : option bool) r, read t = Some [Gets RD e] -> (sets_flags e = match k with Some _ => true | None => false end) -> yields e c v k -> at_end (Gets RD e) c = false ->
  destination (reg c R_RI) = Some r -> r <> R_FC -> r <> R_FZ -> says t c (match k with Some b => set_flags b v (set r v c) | None => set r v c end).
Proof.
  intros t e c v k r R Sf Y Q D N1 N2. apply (says_intro t [Gets RD e]); auto.
  - intros x [<-|[]]. exists v, k. split; [exact Y|]. split.
    + apply (V_rd c r); [exact D|]. destruct k; [rewrite flags_reg|]; rewrite ?reg_set, regid_eqb_refl; [|reflexivity].
      destruct (regid_eqb r R_FC) eqn:E1; [apply regid_eqb_eq in E1; congruence|]. destruct (regid_eqb r R_FZ) eqn:E2; [apply regid_eqb_eq in E2; congruence|reflexivity].
    + destruct k; [split; reflexivity|exact I].
  - intros r' H. assert (X := H _ (or_introl eq_refl)). cbn [concerns] in X. rewrite Sf in X.
    assert (Nr : regid_eqb r' r = false). { destruct (regid_eqb r' r) eqn:E; [|reflexivity]. apply regid_eqb_eq in E. subst. exfalso. apply X. left. exact D. }
    destruct k; rewrite ?flags_reg, ?reg_set, Nr; [|reflexivity]. destruct (regid_eqb r' R_FC) eqn:E1; [apply regid_eqb_eq in E1; subst; exfalso; apply X; auto|].
    destruct (regid_eqb r' R_FZ) eqn:E2; [apply regid_eqb_eq in E2; subst; exfalso; apply X; auto|reflexivity].
  - destruct k; reflexivity.
  - split; [destruct k; reflexivity|]. cbn [existsb]. rewrite Q. reflexivity.
Qed.
Lemma says_store : forall t p e c a v, read t = Some [Gets (Cell p) e] -> sets_flags e = false -> yields e c v None -> at_end (Gets (Cell p) e) c = false -> holds p c a -> says t c (store a v c).
Proof.
  intros t p e c a v R Sf Y Q H. apply (says_intro t [Gets (Cell p) e]); auto.
  - intros x [<-|[]]. exists v, None. split; [exact Y|]. split; [|exact I]. apply (V_cell p c a); [exact H|]. cbn. rewrite Z.eqb_refl. reflexivity.
  - intros x _ X. cbn. destruct (Z.eqb_spec x a) as [->|]; [|reflexivity]. exfalso. apply (X _ (or_introl eq_refl)). exact H.
  - split; [reflexivity|]. cbn [existsb]. rewrite Q. reflexivity.
Qed.
Lemma says_flags : forall t p c v, read t = Some [Gets Flags (Val p)] -> holds p c v -> says t c (flags_of_byte v c).
Proof.
  intros t p c v R H. apply (says_intro t [Gets Flags (Val p)]); auto.
  - intros x [<-|[]]. exists v, None. split; [apply Y_val; exact H|]. split; [|exact I]. apply V_flags; reflexivity.
  - intros r X. specialize (X _ (or_introl eq_refl)). cbn [concerns] in X. destruct r; try reflexivity; exfalso; apply X; auto.
  - split; reflexivity.
Qed.
(** An operand or opcode is fetched and PC counts. *)
Lemma says_fetch : forall t r c, r = R_RI \/ r = R_2OP \/ r = R_H \/ r = R_L -> 0 <= reg c R_PC <= 65535 -> read t = Some [Gets (Reg r) (Val (Cell (Reg R_PC))); Count] ->
  says t c (pc_inc (set r (mem c (reg c R_PC)) c)).
Proof.
  intros t r c Hr Hp R. assert (N : r <> R_PC /\ r <> R_PCH /\ r <> R_PCL) by (destruct Hr as [->|[->|[->| ->]]]; repeat split; discriminate). destruct N as (N1 & N2 & N3).
  set (v := mem c (reg c R_PC)). set (s := set r v c). assert (Sp : reg s R_PC = reg c R_PC) by (unfold s; rewrite reg_set; destruct Hr as [->|[->|[->| ->]]]; reflexivity).
  assert (Sr : forall x, reg s x = if regid_eqb x r then v else reg c x) by reflexivity.
  exists [Gets (Reg r) (Val (Cell (Reg R_PC))); Count]. split; [exact R|]. unfold pc_inc. rewrite Sp. cbn [existsb at_end]. rewrite orb_false_r. cbn [orb].
  destruct (Z.eqb_spec (reg c R_PC) 65535) as [E|E].
  - split; [|split; [|split; [reflexivity|split; [discriminate|intros _; reflexivity]]]].
    + intros x [<-|[<-|[]]].
      * exists v, None. split; [apply Y_val, H_cell, H_reg|]. split; [|exact I]. apply V_reg; auto. cbn [report reg]. rewrite Sr, regid_eqb_refl. reflexivity.
      * cbn [part_done]. split; [lia|]. intros _. cbn [report reg]. rewrite Sp. exact E.
    + intros x X. cbn [report reg]. rewrite Sr. destruct (regid_eqb x r) eqn:Ex; [|reflexivity]. apply regid_eqb_eq in Ex. subst x. exfalso. apply (X _ (or_introl eq_refl)). left. destruct r; try reflexivity; congruence.
  - split; [|split; [|split; [reflexivity|split; [intros _; reflexivity|discriminate]]]].
    + intros x [<-|[<-|[]]].
      * exists v, None. split; [apply Y_val, H_cell, H_reg|]. split; [|exact I]. apply V_reg; auto. unfold set_pc. rewrite !reg_set, Sr. destruct Hr as [->|[->|[->| ->]]]; reflexivity.
      * cbn [part_done]. split; [|lia]. intros _. apply V_pc; reflexivity.
    + intros x X. unfold set_pc. rewrite !reg_set, Sr. assert (A := X _ (or_introl eq_refl)). assert (B := X _ (or_intror (or_introl eq_refl))). cbn [concerns] in A, B.
      destruct (regid_eqb x r) eqn:Ex. { apply regid_eqb_eq in Ex. subst x. exfalso. apply A. left. destruct r; try reflexivity; congruence. }
      destruct x; try reflexivity; exfalso; apply B; auto.
Qed.

Lemma says_same : forall t x c, (x = Nothing \/ x = Signal) -> read t = Some [x] -> says t c c.
Proof.
  intros t x c H R. apply (says_intro t [x]); auto; [|split; [reflexivity|destruct H as [->| ->]; reflexivity]]. intros y [<-|[]]. destruct H as [->| ->]; exact I.
Qed.
Lemma says_compare : forall t p q c v k, read t = Some [Compare p q] -> yields (Sub p q) c v (Some k) -> says t c (set_flags k v c).
Proof.
  intros t p q c v k R Y. apply (says_intro t [Compare p q]); auto; [| |split; reflexivity].
  - intros x [<-|[]]. exists v, (Some k). split; [exact Y|]. split; reflexivity.
  - intros r X. specialize (X _ (or_introl eq_refl)). cbn [concerns] in X. rewrite flags_reg. destruct r; try reflexivity; exfalso; apply X; auto.
Qed.
Lemma says_pc : forall t p c v, read t = Some [Gets (Reg R_PC) (Val p)] -> holds p c v -> says t c (set_pc v c).
Proof.
  intros t p c v R H. apply (says_intro t [Gets (Reg R_PC) (Val p)]); auto; [| |split; reflexivity].
  - intros x [<-|[]]. exists v, None. split; [apply Y_val; exact H|]. split; [|exact I]. apply V_pc; reflexivity.
  - intros r X. specialize (X _ (or_introl eq_refl)). cbn [concerns] in X. destruct r; try reflexivity; exfalso; apply X; auto.
Qed.
Lemma says_pcl : forall t c v w, read t = Some [Gets (Reg R_PCL) (Val (Cell (Reg R_SP)))] -> v = mem c (reg c R_SP) -> w = 256 * (reg c R_PC / 256) + v -> says t c (set R_PCL v (set R_PC w c)).
Proof.
  intros t c v w R -> ->. apply (says_intro t [Gets (Reg R_PCL) (Val (Cell (Reg R_SP)))]); auto; [| |split; reflexivity].
  - intros x [<-|[]]. eexists _, None. split; [apply Y_val, H_cell, H_reg|]. split; [|exact I]. apply V_pcl; reflexivity.
  - intros r X. specialize (X _ (or_introl eq_refl)). cbn [concerns] in X. destruct r; try reflexivity; exfalso; apply X; auto.
Qed.
Lemma says_pch : forall t c v w, read t = Some [Gets (Reg R_PCH) (Val (Cell (Reg R_SP)))] -> v = mem c (reg c R_SP) -> w = 256 * v + reg c R_PC mod 256 -> says t c (set R_PCH v (set R_PC w c)).
Proof.
  intros t c v w R -> ->. apply (says_intro t [Gets (Reg R_PCH) (Val (Cell (Reg R_SP)))]); auto; [| |split; reflexivity].
  - intros x [<-|[]]. eexists _, None. split; [apply Y_val, H_cell, H_reg|]. split; [|exact I]. apply V_pch; reflexivity.
  - intros r X. specialize (X _ (or_introl eq_refl)). cbn [concerns] in X. destruct r; try reflexivity; exfalso; apply X; auto.
Qed.
Lemma says_sp : forall t e c c', (e = Inc (Reg R_SP) /\ c' = sp_inc c \/ e = Dec (Reg R_SP) /\ c' = sp_dec c) -> 0 <= reg c R_SP <= 65535 -> read t = Some [Gets (Reg R_SP) e] -> says t c c'.
Proof.
  intros t e c c' H B R. exists [Gets (Reg R_SP) e]. split; [exact R|].
  assert (Fr : forall r, (forall x, In x [Gets (Reg R_SP) e] -> ~ concerns x c r) -> r <> R_SP). { intros r X ->. apply (X _ (or_introl eq_refl)). left. reflexivity. }
  destruct H as [(-> & ->)|(-> & ->)]; unfold sp_inc, sp_dec; cbn [existsb at_end orb].
  - destruct (Z.eqb_spec (reg c R_SP) 65535) as [E|E]; (split; [|split; [|split; [reflexivity|split; [try discriminate; intros _; reflexivity|try discriminate; intros _; reflexivity]]]]).
    + intros x [<-|[]]. eexists _, None. split; [apply Y_sp_inc|]. split; [|exact I]. apply V_reg; try discriminate. cbn [report reg]. lia.
    + reflexivity.
    + intros x [<-|[]]. eexists _, None. split; [apply Y_sp_inc|]. split; [|exact I]. apply V_reg; try discriminate. rewrite reg_set, regid_eqb_refl. lia.
    + intros r X. rewrite reg_set. destruct (regid_eqb r R_SP) eqn:Er; [apply regid_eqb_eq in Er; destruct (Fr r X Er)|reflexivity].
  - destruct (Z.eqb_spec (reg c R_SP) 0) as [E|E]; (split; [|split; [|split; [reflexivity|split; [try discriminate; intros _; reflexivity|try discriminate; intros _; reflexivity]]]]).
    + intros x [<-|[]]. eexists _, None. split; [apply Y_sp_dec|]. split; [|exact I]. apply V_reg; try discriminate. cbn [report reg]. lia.
    + reflexivity.
    + intros x [<-|[]]. eexists _, None. split; [apply Y_sp_dec|]. split; [|exact I]. apply V_reg; try discriminate. rewrite reg_set, regid_eqb_refl. lia.
    + intros r X. rewrite reg_set. destruct (regid_eqb r R_SP) eqn:Er; [apply regid_eqb_eq in Er; destruct (Fr r X Er)|reflexivity].
Qed.
Lemma greg_not : forall n, greg n <> R_FC /\ greg n <> R_FZ /\ greg n <> R_PC /\ greg n <> R_PCH /\ greg n <> R_PCL.
Proof. intros n. destruct n as [|[[|[]|]|[|[]|]|]|]; repeat split; discriminate. Qed.
Lemma reg_opt : forall a b, reg_opt_eqb a b = true -> a = Some b.
Proof. intros [x|] b H; [apply regid_eqb_eq in H; congruence|discriminate H]. Qed.
Definition label (q : Z) : string := en_op (entry_of q).
Lemma transfer : forall q c, cvalid c -> 0 <= q <= 44 -> fit q (reg c R_RI) = true -> forall t, read t = read (label q) -> says t c (rtl q c).
Proof.
  intros q c V Q F t T. pose proof (cv_r c V R_PC) as Bp. pose proof (cv_r c V R_SP) as Bs. cbn [rhi] in Bp, Bs.
  pose proof (greg_not (reg c R_RI mod 4)) as (G1 & G2 & _). pose proof (greg_not (reg c R_RI / 4 mod 4)) as (G3 & G4 & _).
  assert (C : q = 0 \/ q = 1 \/ q = 2 \/ q = 3 \/ q = 4 \/ q = 5 \/ q = 6 \/ q = 7 \/ q = 8 \/ q = 9 \/ q = 10 \/ q = 11 \/ q = 12 \/ q = 13 \/ q = 14 \/ q = 15 \/ q = 16 \/ q = 17 \/ q = 18 \/ q = 19 \/ q = 20 \/ q = 21 \/ q = 22 \/
    q = 23 \/ q = 24 \/ q = 25 \/ q = 26 \/ q = 27 \/ q = 28 \/ q = 29 \/ q = 30 \/ q = 31 \/ q = 32 \/ q = 33 \/ q = 34 \/ q = 35 \/ q = 36 \/ q = 37 \/ q = 38 \/ q = 39 \/ q = 40 \/ q = 41 \/ q = 42 \/ q = 43 \/ q = 44) by lia.
  repeat (destruct C as [->|C]; [|]); [..|subst q]; cbn [fit] in F; try discriminate F; (match type of T with _ = ?x => let y := eval vm_compute in x in change x with y in T end);
  cbv beta iota zeta delta [rtl]; unfold low2, high2.
  all: first
  [ eapply says_same; [|exact T]; solve [auto]
  | eapply says_fetch; [|exact Bp|exact T]; solve [auto]
  | eapply says_sp; [|exact Bs|exact T]; solve [auto]
  | eapply says_compare; [exact T|]; apply Y_sub; apply H_reg
  | eapply says_alu; [exact T|reflexivity| |reflexivity]; first [apply Y_add|apply Y_sub|apply Y_and|apply Y_or|apply Y_xor|apply Y_inc; [discriminate|]|apply Y_not]; apply H_reg
  | eapply says_flags; [exact T|]; solve [repeat constructor]
  | eapply says_pc; [exact T|]; solve [repeat constructor]
  | eapply says_pcl; [exact T|reflexivity|lia]
  | eapply says_pch; [exact T|reflexivity|lia]
  | eapply says_store; [exact T|reflexivity|apply Y_val|reflexivity|]; solve [repeat constructor]
  | eapply says_move; [discriminate|discriminate|discriminate|exact T|reflexivity| |reflexivity]; apply Y_val; solve [repeat constructor]
  | eapply says_move; [discriminate|discriminate|discriminate|exact T|reflexivity| |reflexivity]; apply Y_val; apply H_rf; apply reg_opt; exact F
  | eapply (says_rd t _ c _ None); [exact T|reflexivity|apply Y_val; apply H_reg|reflexivity|apply reg_opt; exact F|assumption|assumption]
  | eapply (says_rd t _ c _ (Some false)); [exact T|reflexivity|apply Y_inc; [discriminate|]; apply H_reg|reflexivity|apply reg_opt; exact F|assumption|assumption]
  | idtac ].
Qed.

(** Only what the getters show matters. *)
Lemma holds_range : forall p c v, cvalid c -> holds p c v -> 0 <= v < 65536.
Proof.
  intros p c v V H. induction H as [r c|c|p c a H IH|c r S|c r S|c].
  - pose proof (cv_r c V r). destruct r; cbn [rhi] in *; lia.
  - pose proof (cv_r c V R_H). pose proof (cv_r c V R_L). cbn [rhi] in *. lia.
  - pose proof (cv_m c V a (IH V)). lia.
  - pose proof (cv_r c V r). destruct r; cbn [rhi] in *; lia.
  - pose proof (cv_r c V r). destruct r; cbn [rhi] in *; lia.
  - pose proof (cv_r c V R_FC). pose proof (cv_r c V R_FZ). cbn [rhi] in *. lia.
Qed.
Lemma says_after : forall t c c1 c2, cvalid c -> says t c c1 -> (forall r, reg c2 r = reg c1 r) -> (forall a, 0 <= a < 65536 -> mem c2 a = mem c1 a) -> errs c2 = errs c1 -> says t c c2.
Proof.
  intros t c c1 c2 V (xs & R & P & F & M & Q1 & Q2) Er Em El. exists xs. split; [exact R|].
  assert (Rc : forall p v, received p c v c1 -> received p c v c2).
  { intros p v H. destruct H as [r c v c' A1 A2 A3 A|c v c' A1 A2 A3|c v c' A1 A2|c v c' A1 A2|p c a v c' A1 A2|c r v c' A1 A2|c v c' A1 A2].
    - apply V_reg; auto. rewrite Er. exact A.
    - apply V_pc; rewrite Er; auto.
    - apply V_pch; rewrite Er; auto.
    - apply V_pcl; rewrite Er; auto.
    - apply (V_cell p c a); auto. rewrite Em; auto. exact (holds_range p c a V A1).
    - apply (V_rd c r); auto. rewrite Er. exact A2.
    - apply V_flags; rewrite Er; auto. }
  split; [|split; [intros r H; rewrite Er; auto|split; [intros a Ha H; rewrite Em by exact Ha; auto|rewrite El; auto]]].
  intros x Hx. specialize (P x Hx). destruct x as [| |p e|p q|]; cbn [part_done] in *; auto.
  - destruct P as (v & f & Y & Re & Fl). exists v, f. split; [exact Y|]. split; [apply Rc; exact Re|]. destruct f; cbn [flags_tell] in *; [rewrite !Er|]; exact Fl.
  - destruct P as (v & f & Y & Fl). exists v, f. split; [exact Y|]. destruct f; cbn [flags_tell] in *; [rewrite !Er|]; exact Fl.
  - rewrite Er. destruct P as (P1 & P2). split; auto.
Qed.

(** ** C87 *)
(** What is known of a clock cycle. *)
Lemma cycle_facts : forall l h k u h' q c, live l h k -> do_call (RunClock u) h = Some h' -> (u = true -> k = true) -> get_next_state h = Some q -> obs h c ->
  cvalid c /\ on_path q (reg c R_RI) /\ 0 <= reg c R_RI <= 255 /\ obs h' (rtl q c) /\ get_state h' = Some q.
Proof.
  intros l h k u h' q c L E Hu N O. destruct (PropsApi.C38_clock l h k u q c L Hu N O) as (h2 & E2 & Q & O2). rewrite E in E2. injection E2 as <-.
  destruct (live_up l h k L) as (_ & z0 & U0). destruct (obs_up h z0 c U0 O) as (z & U & Sm & _).
  assert (V : cvalid c) by (eapply cvalid_same; [exact Sm|]; apply zview_valid; apply (inv_rng z (up_inv _ _ U))).
  pose proof (cv_r c V R_RI) as B. cbn [rhi] in B. split; [exact V|]. split; [|auto]. destruct L as (P & R). apply (proper_placed l _ P h R eq_refl q); [exact N|exact (proj1 O R_RI)].
Qed.
Lemma cycle_next : forall l h k u h' q, live l h k -> do_call (RunClock u) h = Some h' -> (u = true -> k = true) -> get_state h' = Some q -> get_next_state h = Some q.
Proof.
  intros l h k u h' q L E Hu Q. destruct (live_up l h k L) as (_ & z & U). destruct (up_obs h z U) as (O & _ & N).
  destruct (cycle_facts l h k u h' _ _ L E Hu N O) as (_ & _ & _ & _ & Q2). rewrite N. congruence.
Qed.
Lemma obs_says : forall t h' c c1 c2, cvalid c -> says t c c1 -> obs h' c1 -> obs h' c2 -> says t c c2.
Proof.
  intros t h' c c1 c2 V S (A1 & A2 & A3) (B1 & B2 & B3). apply (says_after t c c1); auto.
  - intros r. specialize (A1 r). specialize (B1 r). congruence.
  - intros a Ha. specialize (A2 a Ha). specialize (B2 a Ha). congruence.
  - congruence.
Qed.
Lemma cycle_says : forall l h k u h' q c c' t, live l h k -> (u = true -> k = true) -> do_call (RunClock u) h = Some h' -> get_next_state h = Some q -> obs h c -> obs h' c' ->
  read t = read (label q) -> says t c c'.
Proof.
  intros l h k u h' q c c' t L Hu E N O O' T. destruct (cycle_facts l h k u h' q c L E Hu N O) as (V & P & B & O2 & _). destruct (on_path_fit q _ B P) as (Q & F).
  exact (obs_says t h' c _ c' V (transfer q c V Q F t T) O2 O').
Qed.
(** A clock cycle in any history of allowed calls does what the label of the microstate
    it executes says, and nothing else. *)
Theorem C87_cycle : forall l h k u h' q c c', live l h k -> (u = true -> k = true) -> do_call (RunClock u) h = Some h' -> get_state h' = Some q -> obs h c -> obs h' c' ->
  says (en_op (entry_of q)) c c'.
Proof. intros l h k u h' q c c' L Hu E Q O O'. exact (cycle_says l h k u h' q c c' _ L Hu E (cycle_next l h k u h' q L E Hu Q) O O' eq_refl). Qed.
(** The list of the page: the last item says what the next cycle will do. *)
Theorem C87_next : forall h v e h1 v1 h2 c c', showing h v -> page_event e -> notified e = true -> View.happen e (h, v) = Some (h1, v1) -> do_call (RunClock true) h1 = Some h2 ->
  obs h1 c -> obs h2 c' -> says (en_op (last (v_states v1) (mkEntry (-1) ""))) c c'.
Proof.
  intros h v e h1 v1 h2 c c' S PE N E E2 O O'. destruct (C58_next h v e h1 v1 S PE N E) as (nx & Nx & -> & _). pose proof (S_event e h v h1 v1 S PE E) as S1.
  destruct (showing_live h1 v1 S1) as (l & L). exact (cycle_says l h1 true true h2 nx c c' _ L (fun _ => eq_refl) E2 Nx O O' eq_refl).
Qed.
(** ... and the item before it what the last cycle did, when the list was empty before a
    number of cycles. *)
Theorem C87_executed : forall n h v, showing h v -> v_states v = [] -> exists h1 v1 h2 v2,
  happens (repeat (Call (RunClock true)) n) (h, v) = Some (h1, v1) /\ View.happen (Call (RunClock true)) (h1, v1) = Some (h2, v2) /\
  forall c c', obs h1 c -> obs h2 c' -> says (en_op (last (ViewSpec.executed (v_states v2)) (mkEntry (-1) ""))) c c'.
Proof.
  intros n h v S Hv. destruct (C58_cycles n h v S Hv) as (qs & h2 & v2 & nx & E & R & Hl & _ & Ex & _).
  assert (Ha : forall a b p, happens (a ++ b) p = match happens a p with Some p' => happens b p' | None => None end).
  { induction a as [|e a IH]; intros b p; [reflexivity|]. cbn [happens app]. destruct (View.happen e p); auto. }
  replace (Datatypes.S n) with (n + 1)%nat in E by lia. rewrite repeat_app, Ha in E. destruct (happens (repeat (Call (RunClock true)) n) (h, v)) as [(h1, v1)|] eqn:E1; [|discriminate E].
  cbn [repeat happens] in E. destruct (View.happen (Call (RunClock true)) (h1, v1)) as [(h3, v3)|] eqn:E3; [|discriminate E]. injection E as -> ->.
  exists h1, v1, h2, v2. split; [reflexivity|]. split; [exact E3|]. intros c c' O O'.
  assert (S1 : showing h1 v1).
  { clear - S E1. revert h v S E1. induction n as [|n IH]; intros h v S E1; cbn [repeat happens] in E1; [injection E1 as <- <-; exact S|].
    destruct (View.happen (Call (RunClock true)) (h, v)) as [(h4, v4)|] eqn:E4; [|discriminate E1]. exact (IH h4 v4 (S_event _ h v h4 v4 S (PE_clock true) E4) E1). }
  destruct (showing_live h1 v1 S1) as (l & L).
  assert (Ec : do_call (RunClock true) h1 = Some h2). { cbn [View.happen notifies] in E3. destruct (do_call (RunClock true) h1) as [hx|]; [|discriminate E3]. destruct (refresh hx v1); congruence. }
  assert (Lq : exists q, last (map entry_of qs) (mkEntry (-1) "") = entry_of q /\ get_state h2 = Some q).
  { inversion R as [|? qs0 hx ? q R0 Ex0 Q]; subst; [discriminate Hl|]. exists q. rewrite map_app. cbn [map]. rewrite last_last. auto. }
  destruct Lq as (q & Lq & Q). assert (El : last (ViewSpec.executed (v_states v2)) (mkEntry (-1) "") = entry_of q).
  { rewrite Ex, <- Lq. destruct (map entry_of qs) as [|a m _] using rev_ind; [reflexivity|]. rewrite last_last. unfold ViewSpec.lastn. rewrite app_length. cbn [List.length].
    rewrite skipn_app. replace (List.length m + 1 - 2 - List.length m)%nat with 0%nat by lia. cbn [skipn]. rewrite last_last. reflexivity. }
  rewrite El. exact (C87_cycle l h1 true true h2 q c c' L (fun _ => eq_refl) Ec Q O O').
Qed.
(** The documentation's table of states says the same of the first 43 ... *)
Theorem C87_documented : forall l h k u h' q c c' t, live l h k -> (u = true -> k = true) -> do_call (RunClock u) h = Some h' -> get_state h' = Some q -> obs h c -> obs h' c' ->
  q <> 43 -> nth_error documented (Z.to_nat q) = Some t -> says t c c'.
Proof.
  intros l h k u h' q c c' t L Hu E Q O O' N43 T. pose proof (cycle_next l h k u h' q L E Hu Q) as N. apply (cycle_says l h k u h' q c c' t L Hu E N O O').
  destruct (cycle_facts l h k u h' q c L E Hu N O) as (V & P & B & _). destruct (on_path_fit q _ B P) as (Qr & _).
  assert (K : firstn 43 (map read documented) = firstn 43 (map (fun e => read (en_op e)) state_details)) by (vm_compute; reflexivity).
  assert (Hq : (Z.to_nat q < 43)%nat). { pose proof (nth_error_Some documented (Z.to_nat q)) as Z1. rewrite T in Z1. assert (Z2 : (Z.to_nat q < List.length documented)%nat) by (apply Z1; discriminate). change (List.length documented) with 44%nat in Z2. lia. }
  assert (G : forall {A} (a : list A) n m, (n < m)%nat -> nth_error (firstn m a) n = nth_error a n).
  { intros A0. induction a as [|x a IH]; intros [|n] [|m] H; try lia; cbn; auto. apply IH. lia. }
  pose proof (f_equal (fun w => nth_error w (Z.to_nat q)) K) as K2. cbn beta in K2. rewrite !G in K2 by exact Hq. rewrite !nth_error_map, T in K2. rewrite (entry_ok q) in K2 by lia. cbn [option_map] in K2. injection K2 as ->. reflexivity.
Qed.
(** ... but not of S43: "RD <- 2OP" is what state 44 does.  State 43 counts SP. *)
Theorem C87_documented_refuted : forall l h k u h' c c', live l h k -> (u = true -> k = true) -> do_call (RunClock u) h = Some h' -> get_state h' = Some 43 -> obs h c -> obs h' c' ->
  ~ says (nth 43 documented ""%string) c c'.
Proof.
  intros l h k u h' c c' L Hu E Q O O' (xs & R & P & _). pose proof (cycle_next l h k u h' 43 L E Hu Q) as N.
  destruct (cycle_facts l h k u h' 43 c L E Hu N O) as (V & Pt & B & _). destruct (on_path_fit 43 _ B Pt) as (_ & F). cbn [fit] in F.
  vm_compute in R. injection R as <-. destruct (P _ (or_introl eq_refl)) as (v & f & _ & Re & _). inversion Re as [| | | | |? r ? ? D _|]. rewrite D in F. discriminate F.
Qed.
(** Both are met: a cell with 192 (IRET) written, the eighth cycle executes state 43, and
    the page's label for it is the right one. *)
Example labels_nonvacuous : exists l h h' c c', live l h true /\ do_call (RunClock true) h = Some h' /\ get_state h' = Some 43 /\ obs h c /\ obs h' c' /\
  says "SP ← SP+1" c c' /\ ~ says (nth 43 documented ""%string) c c' /\ reg c' R_SP = 3.
Proof.
  set (cs := SetMem 0 192 :: repeat (RunClock true) 7).
  destruct (PropsBuses.live_shows (cs ++ [RunClock true]) (fun s => match shown_state s, Word.word_to_int (Machine.rg s R_SP) with Some y, Some x => (y =? 43) && (x =? 3) | _, _ => false end)) as (h' & s & L & Sm & F); [reflexivity|vm_compute; reflexivity|].
  rewrite <- (state_sim h' s Sm), <- (PropsGuard.shown h' s R_SP Sm) in F. destruct (get_state h') as [q|] eqn:Q; [|discriminate F]. destruct (get_register_value R_SP h') as [x|] eqn:Hx; [|discriminate F]. apply andb_prop in F. destruct F as (F & Fx). apply Z.eqb_eq in F, Fx. subst q x.
  pose proof (proj2 L) as R. change (Init (fun _ => 0) :: SetUi true :: cs ++ [RunClock true]) with ((Init (fun _ => 0) :: SetUi true :: cs) ++ [RunClock true]) in R.
  destruct (snoc_run _ _ _ _ R) as (h & R0 & E). pose proof (PropsBuses.fine_live cs h eq_refl R0) as L0.
  destruct (live_up _ _ _ L0) as (_ & z & U). destruct (up_obs h z U) as (O & _ & N). destruct (live_up _ _ _ L) as (_ & z' & U'). destruct (up_obs h' z' U') as (O' & _).
  exists (Init (fun _ => 0) :: SetUi true :: cs), h, h', (Micro.view z), (Micro.view z'). split; [exact L0|]. split; [exact E|]. split; [exact Q|]. split; [exact O|]. split; [exact O'|].
  pose proof (C87_cycle _ h true true h' 43 _ _ L0 (fun _ => eq_refl) E Q O O') as Sy. split; [exact Sy|]. split; [exact (C87_documented_refuted _ h true true h' _ _ L0 (fun _ => eq_refl) E Q O O')|].
  pose proof (proj1 O' R_SP) as X. rewrite Hx in X. injection X as X. symmetry. exact X.
Qed.

Print Assumptions C87_cycle.
Print Assumptions C87_next.
Print Assumptions C87_executed.
Print Assumptions C87_documented.
Print Assumptions C87_documented_refuted.
Print Assumptions labels_nonvacuous.

