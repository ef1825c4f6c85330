(** * C39: registers keep out values that are too wide
    The statements range over every history of API calls, in any order and with
    any values stored in memory, as long as the execution is defined; only the
    argument of [set_register_pc] is assumed to be a 16-bit value. *)
From Coq Require Import ZArith List Bool Lia.
From Verif Require Import Word WordFacts Prog Tables Components Machine LinkedList PubSub Api HeapSim Lifecycle Usage.
Import ListNotations.
Open Scope Z_scope.

(** The registers whose load is checked against their width. *)
Definition checked (r : regid) : bool :=
  match r with R_2OP | R_H | R_L | R_FC | R_FZ => false | _ => true end.

(** The value in a register's cells is smaller than 2 to the register's width. *)
Definition fits (r : regid) (w : Word) : Prop := checked r = true -> bval w < 2 ^ bit_length r.

Lemma small_bits : forall w n, bval w < 2 ^ Z.of_nat n <-> forall i, (n <= i)%nat -> bit w i = false.
Proof.
  intros w n. rewrite <- get_used_bits_le by lia. unfold get_used_bits. rewrite used_bits_from_spec by lia. split.
  - intros [_ H] i Hi. destruct (bit w i) eqn:E; auto.
    destruct (le_lt_dec (length w) i); [rewrite bit_high in E by auto; discriminate|].
    specialize (H i l E). lia.
  - intros H. split; [lia|]. intros k Hk E. destruct (le_lt_dec n k); [rewrite H in E by auto; discriminate|lia].
Qed.

Lemma setbit_other_or : forall w i j b, bit (setbit w i b) j = bit w j \/ i = j.
Proof. intros. destruct (Nat.eq_dec i j); auto. left. apply bit_setbit_other; auto. Qed.

Lemma copy_small : forall n k dst d src s, (d + n <= k)%nat -> bval dst < 2 ^ Z.of_nat k ->
  bval (copy_bits dst d src s n) < 2 ^ Z.of_nat k.
Proof.
  intros n k dst d src s L H. unfold copy_bits.
  assert (G : forall l dst, (forall i, In i l -> (i < n)%nat) -> bval dst < 2 ^ Z.of_nat k ->
    bval (fold_left (fun acc i => setbit acc (d + i) (bit src (s + i))) l dst) < 2 ^ Z.of_nat k).
  { induction l as [|x l IH]; intros w Hl Hw; cbn [fold_left]; auto. apply IH; [intros; apply Hl; cbn; auto|].
    apply small_bits. intros i Hi. destruct (setbit_other_or w (d + x) i (bit src (s + x))) as [->|Ex].
    - apply (proj1 (small_bits w k)); auto.
    - specialize (Hl x (or_introl eq_refl)). lia. }
  apply G; auto. intros i Hi. apply in_seq in Hi. lia.
Qed.

(** A program that writes only values that fit, given that it reads only values that fit. *)
Fixpoint guarded (p : prog) : Prop :=
  match p with
  | Done | Undef => True
  | Upd _ k | Pub _ _ k | StM _ _ k | Notice _ k => guarded k
  | Cur _ k | Nxt _ k => forall w, guarded (k w)
  | RdR r k => forall w, fits r w -> guarded (k w)
  | WrR r w k => fits r w /\ guarded k
  | LdM _ k => forall v, guarded (k v)
  end.

Lemma guarded_Call : forall p k, guarded p -> guarded k -> guarded (Call p k).
Proof. induction p; cbn; intros k0 Hp Hk; intuition auto. Qed.
Lemma guarded_ToInt : forall w k, (forall z, guarded (k z)) -> guarded (ToInt w k).
Proof. intros. unfold ToInt. destruct (word_to_int w); cbn; auto. Qed.
Lemma guarded_Int : forall z k, (forall x, guarded (k x)) -> guarded (Int z k).
Proof. intros. unfold Int. destruct (in_int z); cbn; auto. Qed.

Lemma refused : forall w r, (get_used_bits w >? bit_length r) = false -> fits r w.
Proof.
  intros w r H _. rewrite Z.gtb_ltb in H. apply Z.ltb_ge in H. apply get_used_bits_le; auto. destruct r; cbn; lia.
Qed.

Lemma fits_pc_h : forall p h, fits R_PC p -> fits R_PC (copy_bits p 8 h 0 8).
Proof. intros p h H _. apply (copy_small 8 16); [lia|]. exact (H eq_refl). Qed.
Lemma fits_pc_l : forall p l, fits R_PC p -> fits R_PC (copy_bits p 0 l 0 8).
Proof. intros p l H _. apply (copy_small 8 16); [lia|]. exact (H eq_refl). Qed.
Lemma fits_pcl : forall p l, fits R_PCL l -> fits R_PCL (copy_bits l 0 p 0 8).
Proof. intros p l H _. apply (copy_small 8 8); [lia|]. exact (H eq_refl). Qed.
Lemma fits_pch : forall p l, fits R_PCH l -> fits R_PCH (copy_bits l 0 p 8 8).
Proof. intros p l H _. apply (copy_small 8 8); [lia|]. exact (H eq_refl). Qed.
Lemma fits_free : forall r w, checked r = false -> fits r w.
Proof. intros r w H H'. congruence. Qed.

Local Opaque Call ToInt Int copy_bits bval get_used_bits bit lb lb2 lb3 bit_length Z.gtb Z.eqb alu_op fits.
Ltac g1 :=
  match goal with
  | |- guarded (Call _ _) => apply guarded_Call
  | |- guarded (ToInt _ _) => apply guarded_ToInt; intros ?
  | |- guarded (Int _ _) => apply guarded_Int; intros ?
  | |- guarded (if ?b then _ else _) => destruct b eqn:?
  | |- guarded (match ?b with Some _ => _ | None => _ end) => destruct b eqn:?
  | |- guarded (let '(_, _) := ?b in _) => destruct b eqn:?
  | |- forall _, _ => intros ?
  | |- _ /\ _ => split
  | |- True => exact I
  | |- fits _ _ => first [apply refused; assumption | apply fits_pc_h; assumption | apply fits_pc_l; assumption
                         | apply fits_pcl; assumption | apply fits_pch; assumption | apply fits_free; reflexivity | assumption]
  | |- guarded _ => progress cbn [guarded]
  end.
Ltac gd := repeat g1.

Lemma g_acumm : guarded run_acumm. Proof. unfold run_acumm. gd. Qed.
Lemma g_addsub : guarded run_addsub. Proof. unfold run_addsub. gd. Qed.
Lemma g_alu : guarded run_alu. Proof. unfold run_alu. gd. Qed.
Lemma g_fffc : guarded run_fffc. Proof. unfold run_fffc. gd. Qed.
Lemma g_flags : guarded run_flags. Proof. unfold run_flags. gd. Qed.
Lemma g_greg : guarded run_greg.
Proof. unfold run_greg. gd. Qed.
Lemma g_hl : guarded run_hl. Proof. unfold run_hl. gd. Qed.
Lemma g_mem : guarded run_mem. Proof. unfold run_mem. gd. Qed.
Lemma g_mxdir : guarded run_mxdir. Proof. unfold run_mxdir. gd. Qed.
Lemma g_mxfldx : guarded cll_run_mxfldx. Proof. unfold cll_run_mxfldx, run_mxfld7, run_mxfld0. gd. Qed.
Lemma g_mxreg : guarded run_mxreg. Proof. unfold run_mxreg. gd. Qed.
Lemma g_op2 : guarded run_op2. Proof. unfold run_op2. gd. Qed.
Lemma g_pc : guarded run_pc. Proof. unfold run_pc. gd. Qed.
Lemma g_sp : guarded run_sp. Proof. unfold run_sp. gd. Qed.
Lemma g_flagsinta : guarded cll_run_flagsinta. Proof. unfold cll_run_flagsinta. gd. Qed.
Lemma g_mxreg_jnr : guarded run_cu_mxreg_jnr. Proof. unfold run_cu_mxreg_jnr. gd. Qed.
Lemma g_seq_b_jnr : guarded run_cu_seq_b_jnr. Proof. unfold run_cu_seq_b_jnr. gd. Qed.
Lemma g_seq : guarded run_cu_seq. Proof. unfold run_cu_seq. gd. Qed.
Lemma g_rom : guarded run_cu_rom. Proof. unfold run_cu_rom. gd. Qed.
Lemma g_cu_0 : guarded run_cu_0. Proof. unfold run_cu_0, run_cu_dxflipflop. gd. Qed.
Lemma g_async : guarded run_asyncronus_components.
Proof. unfold run_asyncronus_components. gd; auto using g_addsub, g_mxdir, g_mxreg, g_mem, g_alu. Qed.
Lemma g_sync : forall p, guarded p -> guarded (run_sync_comp p).
Proof. intros. unfold run_sync_comp. apply guarded_Call; [exact H|]. apply guarded_Call; [exact g_async|exact I]. Qed.
Lemma g_af : guarded run_acumm_or_flags.
Proof.
  assert (guarded acumm_or_flags_once).
  { unfold acumm_or_flags_once.
    repeat (apply guarded_Call; [first [exact g_acumm|exact g_mxfldx|exact g_flags|exact g_flagsinta]|]). exact I. }
  unfold run_acumm_or_flags. apply guarded_Call; [exact H|]. apply guarded_Call; [exact H|exact I].
Qed.
Lemma g_tail : guarded run_cu_tail.
Proof.
  unfold run_cu_tail. repeat (apply guarded_Call; [auto using g_sync, g_fffc, g_greg, g_op2, g_hl, g_sp, g_pc, g_af|]). exact I.
Qed.
Lemma g_cu_1 : guarded run_cu_1.
Proof.
  unfold run_cu_1. repeat (apply guarded_Call; [auto using g_seq_b_jnr, g_mxreg_jnr, g_seq, g_rom, g_async|]).
  cbn [guarded]. intros w. destruct (bit w RICAR); cbn [guarded].
  - intros d. destruct (_ >? _) eqn:E; cbn [guarded]; auto. split; [apply refused; auto|]. intros; apply g_tail.
  - intros; apply g_tail.
Qed.
Lemma g_reset : guarded reset_control. Proof. cbn [reset_control guarded]. exact I. Qed.
Lemma g_set_mem : forall o v, guarded (set_memory_value o v). Proof. intros. unfold set_memory_value. gd. Qed.
Lemma g_set_pc : forall v, 0 <= v < 65536 -> guarded (set_register_pc v).
Proof.
  intros v H. unfold set_register_pc. cbn [guarded]. split; [|auto]. Local Transparent fits bit_length. intros _.
  rewrite bval_int_to_word, Z.mod_small by lia. exact (proj2 H).
Qed.

Definition all_fit (h : hstate) : Prop := forall r, fits r (hr h r).

Lemma hexec_fit : forall p h h', guarded p -> all_fit h -> hexec p h = Some h' -> all_fit h'.
Proof.
  induction p as [|b k IH|b k IH|b k IH|t w k IH|r k IH|r w k IH|o k IH|o v k IH|m k IH|];
    intros h h' G A E; cbn [guarded hexec] in *.
  - injection E as <-. exact A.
  - destruct (update_bus_data _ _); [|discriminate]. refine (IH _ h' G _ E); exact A.
  - destruct (get_bus h b); [|discriminate]. exact (IH _ _ h' (G _) A E).
  - destruct (get_bus h b); [|discriminate]. exact (IH _ _ h' (G _) A E).
  - destruct (publish_message_to _ _ _) as [[? ?]|]; [|discriminate]. refine (IH _ h' G _ E); exact A.
  - exact (IH _ _ h' (G _ (A r)) A E).
  - refine (IH _ h' (proj2 G) _ E). intros x. cbn [hr set_hr]. unfold rset.
    destruct (regid_eqb x r) eqn:Ex; [|apply A]. apply N.eqb_eq in Ex.
    replace x with r by (destruct x, r; try reflexivity; discriminate). apply G.
  - destruct (valid_offset o); [destruct (hm h); try discriminate|]; exact (IH _ _ h' (G _) A E).
  - destruct (valid_offset o); [destruct (hm h); try discriminate|discriminate]. refine (IH _ h' G _ E); exact A.
  - refine (IH _ h' G _ E); exact A.
  - discriminate.
Qed.

Lemma fits_zero : forall r, fits r zero_word.
Proof. intros r _. rewrite <- int_to_word_0, bval_int_to_word. destruct r; reflexivity. Qed.

Lemma lexec_fit : forall rnd c h h', all_fit h -> lexec rnd c h = Some h' -> all_fit h'.
Proof.
  intros rnd c h h' A E. destruct c; cbn [lexec] in E.
  - injection E as <-. exact A.
  - destruct (hm h); try discriminate; injection E as <-; exact A.
  - injection E as <-. intros x. cbn [hr set_hr]. unfold rset. destruct (regid_eqb x r); [apply fits_zero|apply A].
  - injection E as <-. exact A.
  - injection E as <-. exact A.
  - destruct (unsubscribe_for _ _) as [[? ?]|]; try discriminate; injection E as <-; exact A.
  - destruct (destroy_bus_data _ _); try discriminate; injection E as <-; exact A.
  - injection E as <-. exact A.
  - injection E as <-. exact A.
Qed.
Lemma lrun_fit : forall rnd l h h', all_fit h -> lrun rnd l h = Some h' -> all_fit h'.
Proof.
  induction l as [|c l IH]; intros h h' A E; cbn [lrun] in E; [injection E as <-; exact A|].
  destruct (lexec rnd c h) eqn:Ec; [|discriminate]. eauto using lexec_fit.
Qed.

Lemma clock_fit : forall n h h', all_fit h -> clock_loop n h = Some h' -> all_fit h'.
Proof.
  induction n as [|n IH]; intros h h' A E; cbn [clock_loop] in E; [discriminate|].
  destruct (hexec _ _) as [h2|] eqn:Eh; [|discriminate].
  assert (A2 : all_fit h2).
  { refine (hexec_fit _ _ _ _ _ Eh); [destruct (tick _); [apply g_cu_1|apply g_cu_0]|exact A]. }
  destruct (tick _); [injection E as <-; exact A2|eauto].
Qed.

Lemma ui_same : forall h h', call_update_ui h = Some h' -> h' = h.
Proof. unfold call_update_ui. intros h h'. destruct (ui h); congruence. Qed.

(** Only [set_register_pc] is restricted, to 16-bit values. *)
Definition pc_args (l : list call) : Prop := forall v, In (SetPc v) l -> 0 <= v < 65536.

Local Opaque init_list shutdown_list run_cu_1 run_cu_0 reset_control.
Lemma call_fit : forall c h h', (forall v, c = SetPc v -> 0 <= v < 65536) -> all_fit h -> do_call c h = Some h' -> all_fit h'.
Proof.
  intros c h h' Hc A E. destruct c; cbn [do_call] in E.
  - exact (lrun_fit _ _ _ _ A E).
  - exact (lrun_fit _ _ _ _ A E).
  - injection E as <-. exact A.
  - unfold api_run_clock_cycle in E. destruct (run_cu_clock_cycle h) eqn:Ec; [|discriminate].
    apply (clock_fit 2) in Ec; auto. destruct update; [apply ui_same in E|injection E as E]; subst; auto.
  - exact (hexec_fit _ _ _ g_reset A E).
  - unfold api_set_memory_value in E. destruct (hexec _ _) eqn:Ec; [|discriminate].
    apply ui_same in E. subst. exact (hexec_fit _ _ _ (g_set_mem o v) A Ec).
  - unfold api_set_register_pc in E. destruct (get_register _ _); [|discriminate].
    destruct (hexec _ _) eqn:Ec; [|discriminate]. apply ui_same in E. subst.
    exact (hexec_fit _ _ _ (g_set_pc v (Hc v eq_refl)) A Ec).
Qed.

Lemma calls_fit : forall l h h', pc_args l -> all_fit h -> run_calls l h = Some h' -> all_fit h'.
Proof.
  induction l as [|c l IH]; intros h h' Hl A E; cbn [run_calls] in E; [injection E as <-; exact A|].
  destruct (do_call c h) eqn:Ec; [|discriminate].
  apply (IH h0 h'); auto. { intros v Hv. apply Hl. cbn; auto. }
  apply (call_fit c h); auto. intros v ->. apply Hl. cbn; auto.
Qed.

Lemma w2i_bval : forall w v, word_to_int w = Some v -> v = bval w.
Proof.
  intros w v. unfold word_to_int. destruct (rev w) as [|b r] eqn:E; [discriminate|].
  rewrite w2i_fold by (destruct b; cbn; unfold INT_MAX; lia).
  assert (w = rev r ++ [b]) as ->. { rewrite <- (rev_involutive w), E. reflexivity. }
  Local Transparent bval. rewrite bval_app, rev_length. cbn [bval]. destruct (_ <=? _); [|discriminate].
  intros H. injection H as <-. ring.
Qed.

(** Whatever was stored in memory and however the calls were ordered, AC, B, C,
    D, E, RI, the two PC halves, PC and SP read back within their width. *)
Theorem C39_checked_registers : forall l h r v,
  (forall x, In (SetPc x) l -> 0 <= x < 65536) ->
  run_calls l boot = Some h -> In r [R_AC; R_B; R_C; R_D; R_E; R_RI; R_PCH; R_PCL; R_PC; R_SP] ->
  get_register_value r h = Some v -> 0 <= v < (if existsb (regid_eqb r) [R_PC; R_SP] then 65536 else 256).
Proof.
  intros l h r v Hl E Hr G.
  assert (A : all_fit h). { apply (calls_fit l boot h Hl); auto. intros x. apply fits_zero. }
  unfold get_register_value, get_register in G. destruct (existsb _ (wl h)); [|discriminate].
  apply w2i_bval in G. subst v. pose proof (bval_bound (hr h r)). split; [apply H|].
  specialize (A r). cbn [In] in Hr.
  repeat (destruct Hr as [<-|Hr]; [exact (A eq_refl)|]). destruct Hr.
Qed.

(** ** Running a concrete history
    [mcalls] evaluates a list of calls on the one-value-per-topic machine of
    [Machine.v]; by [HeapSim] what it computes is what the real state shows. *)
Fixpoint mclock (n : nat) (t : bool) (s : mstate) : option (bool * mstate) :=
  match n with
  | O => None
  | S f => match exec (if negb t then run_cu_1 else run_cu_0) s with
           | None => None
           | Some s' => if negb t then Some (negb t, s') else mclock f (negb t) s'
           end
  end.
Fixpoint mcalls (l : list call) (t : bool) (s : mstate) : option (bool * mstate) :=
  match l with
  | [] => Some (t, s)
  | RunClock _ :: l' => match mclock 2 t s with Some (t', s') => mcalls l' t' s' | None => None end
  | ResetControl :: l' => match exec reset_control s with Some s' => mcalls l' t s' | None => None end
  | SetMem o v :: l' => match exec (set_memory_value o v) s with Some s' => mcalls l' t s' | None => None end
  | SetPc v :: l' => match exec (set_register_pc v) s with Some s' => mcalls l' t s' | None => None end
  | _ :: _ => None
  end.

Lemma mclock_ok : forall n h s t s', sim h s -> mclock n (tick h) s = Some (t, s') ->
  exists h', clock_loop n h = Some h' /\ sim h' s' /\ tick h' = t /\ ui h' = ui h.
Proof.
  induction n as [|n IH]; intros h s t s' S E; cbn [mclock clock_loop] in *; [discriminate|].
  assert (S1 : sim (set_tick h (negb (tick h))) s). { destruct S. constructor; auto. }
  cbn [set_tick tick]. destruct (exec _ s) as [s2|] eqn:Ee; [|discriminate].
  destruct (hexec_sim (if negb (tick h) then run_cu_1 else run_cu_0) _ s s2
    ltac:(destruct (negb (tick h)); [apply wfp_cu_1|apply wfp_cu_0]) S1 Ee) as (h2 & E2 & S2 & F).
  rewrite E2. destruct F as (F1 & F2). cbn [set_tick tick ui] in F1, F2.
  destruct (negb (tick h)) eqn:Et.
  - injection E as <- <-. exists h2. auto.
  - rewrite <- F1 in E. destruct (IH h2 s2 t s' S2 E) as (h' & A & B & C & D). exists h'.
    split; auto. split; auto. split; auto. congruence.
Qed.

Local Opaque mclock exec api_init api_shutdown hexec.
Lemma mcalls_ok : forall l h s t s', sim h s -> ui h = true -> mcalls l (tick h) s = Some (t, s') ->
  exists h', run_calls l h = Some h' /\ sim h' s'.
Proof.
  induction l as [|c l IH]; intros h s t s' S U E; cbn [mcalls run_calls] in *.
  - injection E as <- <-. exists h. auto.
  - destruct c; [discriminate E|discriminate E|discriminate E|..]; cbn [do_call].
    + destruct (mclock 2 (tick h) s) as [[t2 s2]|] eqn:Ec; [|discriminate].
      destruct (mclock_ok 2 h s t2 s2 S Ec) as (h2 & E2 & S2 & T2 & U2).
      unfold api_run_clock_cycle, run_cu_clock_cycle. rewrite E2. unfold call_update_ui. rewrite U2, U.
      subst t2. destruct update; apply (IH h2 s2 t s'); congruence.
    + destruct (exec reset_control s) as [s2|] eqn:Ec; [|discriminate].
      destruct (hexec_sim _ _ _ _ wfp_reset S Ec) as (h2 & E2 & S2 & T2 & U2).
      unfold api_reset_control. rewrite E2. rewrite <- T2 in E. apply (IH h2 s2 t s'); congruence.
    + destruct (exec (set_memory_value o v) s) as [s2|] eqn:Ec; [|discriminate].
      destruct (hexec_sim _ _ _ _ (wfp_set_mem o v) S Ec) as (h2 & E2 & S2 & T2 & U2).
      unfold api_set_memory_value. rewrite E2. unfold call_update_ui. rewrite U2, U.
      rewrite <- T2 in E. apply (IH h2 s2 t s'); congruence.
    + destruct (exec (set_register_pc v) s) as [s2|] eqn:Ec; [|discriminate].
      destruct (hexec_sim _ _ _ _ (wfp_set_pc v) S Ec) as (h2 & E2 & S2 & T2 & U2).
      unfold api_set_register_pc, get_register.
      replace (existsb (regid_eqb R_PC) (wl h)) with true.
      2:{ symmetry. apply existsb_exists. exists R_PC. split; [apply (sim_watch _ _ S)|reflexivity]. }
      rewrite E2. unfold call_update_ui. rewrite U2, U.
      rewrite <- T2 in E. apply (IH h2 s2 t s'); congruence.
Qed.

Lemma shown : forall h s r, sim h s -> get_register_value r h = word_to_int (rg s r).
Proof.
  intros h s r S. unfold get_register_value, get_register.
  replace (existsb (regid_eqb r) (wl h)) with true.
  2:{ symmetry. apply existsb_exists. exists r. split; [apply (sim_watch _ _ S)|apply N.eqb_refl]. }
  rewrite (sim_reg _ _ S). reflexivity.
Qed.
Lemma shown_data : forall h s, sim h s -> get_data_bus h = word_to_int (nx s T_DATA).
Proof.
  intros h s S. destruct (sim_bus _ _ S (B K_LBUS T_DATA)) as (a & i & E1 & E2 & _).
  { apply in_buses. vm_compute. reflexivity. }
  unfold get_data_bus, get_bus. rewrite E1, E2. reflexivity.
Qed.

Local Opaque mcalls.
Lemma run_from_boot : forall l f,
  match mcalls l false (fresh (fun _ => 0) []) with Some (_, s) => f s = true | None => False end ->
  exists h s, run_calls (Init (fun _ => 0) :: SetUi true :: l) boot = Some h /\ sim h s /\ f s = true.
Proof.
  intros l f H. destruct (init_ok (fun _ => 0) boot sane0) as (h1 & E1 & S1 & F1 & F2).
  cbn [run_calls do_call]. rewrite E1.
  destruct (mcalls l false _) as [[t s]|] eqn:Em; [|destruct H].
  destruct (mcalls_ok l (set_ui h1 true) (fresh (fun _ => 0) (hl boot)) t s) as (h' & E & S').
  - destruct S1. constructor; auto.
  - reflexivity.
  - cbn [set_ui tick]. rewrite F1. exact Em.
  - exists h', s. auto.
Qed.

(** 2OP, H and L have no such check: after storing 300 in memory, an ADD with an
    immediate operand leaves 300 in 2OP and an LDA leaves it in H and in L. *)
Theorem C39_unchecked_refuted :
  (exists l h, run_calls l boot = Some h /\ get_register_value R_2OP h = Some 300) /\
  (exists l h, run_calls l boot = Some h /\ get_register_value R_H h = Some 300 /\ get_register_value R_L h = Some 300).
Proof.
  split.
  - destruct (run_from_boot ([SetMem 0 0x65; SetMem 1 300] ++ repeat (RunClock false) 4)
      (fun s => match word_to_int (rg s R_2OP) with Some v => v =? 300 | None => false end)) as (h & s & E & S & F).
    { vm_compute. reflexivity. }
    eexists; exists h. split; [exact E|]. rewrite (shown h s _ S). destruct (word_to_int _); [|discriminate].
    apply Z.eqb_eq in F. congruence.
  - destruct (run_from_boot ([SetMem 0 0x70; SetMem 1 300; SetMem 2 300] ++ repeat (RunClock false) 5)
      (fun s => match word_to_int (rg s R_H), word_to_int (rg s R_L) with
                | Some v, Some v' => (v =? 300) && (v' =? 300) | _, _ => false end)) as (h & s & E & S & F).
    { vm_compute. reflexivity. }
    eexists; exists h. split; [exact E|]. rewrite !(shown h s _ S).
    destruct (word_to_int _); [|discriminate]. destruct (word_to_int (rg s R_L)); [|discriminate].
    apply andb_true_iff in F. rewrite !Z.eqb_eq in F. split; f_equal; apply F.
Qed.

(** The 8-bit data bus is not protected either: [init] does not install the
    width checks of [init_buses], and the data bus shows 300. *)
Theorem C39_data_bus_refuted :
  (exists l h, run_calls l boot = Some h /\ get_data_bus h = Some 300) /\
  (forall rnd h, do_call (Init rnd) boot = Some h -> mids (ps h) = []).
Proof.
  split.
  - destruct (run_from_boot [SetMem 0 300; RunClock false; RunClock false]
      (fun s => match word_to_int (nx s T_DATA) with Some v => v =? 300 | None => false end)) as (h & s & E & S & F).
    { vm_compute. reflexivity. }
    eexists; exists h. split; [exact E|]. rewrite (shown_data h s S). destruct (word_to_int _); [|discriminate].
    apply Z.eqb_eq in F. congruence.
  - intros rnd h E. destruct (init_ok rnd boot sane0) as (h1 & E1 & S1 & _). cbn [do_call] in E.
    rewrite E1 in E. injection E as <-. apply (sn_mids _ (sim_sane _ _ S1)).
Qed.

(** ** Memory *)
(** A program whose own stores are bytes. *)
Fixpoint bytes_only (p : prog) : Prop :=
  match p with
  | Done | Undef => True
  | Upd _ k | Pub _ _ k | WrR _ _ k | Notice _ k => bytes_only k
  | Cur _ k | Nxt _ k | RdR _ k => forall w, bytes_only (k w)
  | LdM _ k => forall v, bytes_only (k v)
  | StM _ v k => 0 <= v <= 255 /\ bytes_only k
  end.
Lemma by_Call : forall p k, bytes_only p -> bytes_only k -> bytes_only (Call p k).
Proof. Local Transparent Call. induction p; cbn; intros k0 Hp Hk; intuition auto. Qed.
Lemma by_ToInt : forall w k, (forall z, bytes_only (k z)) -> bytes_only (ToInt w k).
Proof. Local Transparent ToInt. intros. unfold ToInt. destruct (word_to_int w); cbn; auto. Qed.
Lemma by_Int : forall z k, (forall x, bytes_only (k x)) -> bytes_only (Int z k).
Proof. Local Transparent Int. intros. unfold Int. destruct (in_int z); cbn; auto. Qed.
Lemma by_valid : forall v o, is_mem_value_valid v && valid_offset o = true -> 0 <= v <= 255.
Proof. intros v o H. apply andb_true_iff in H as (H & _). unfold is_mem_value_valid in H. lia. Qed.

Local Opaque Call ToInt Int is_mem_value_valid.
Ltac by1 :=
  match goal with
  | |- bytes_only (Call _ _) => apply by_Call
  | |- bytes_only (ToInt _ _) => apply by_ToInt; intros ?
  | |- bytes_only (Int _ _) => apply by_Int; intros ?
  | |- bytes_only (if ?b then _ else _) => destruct b eqn:?
  | |- bytes_only (match ?b with Some _ => _ | None => _ end) => destruct b eqn:?
  | |- bytes_only (let '(_, _) := ?b in _) => destruct b eqn:?
  | |- forall _, _ => intros ?
  | |- 0 <= _ <= 255 => eapply by_valid; eassumption
  | |- _ /\ _ => split
  | |- True => exact I
  | |- bytes_only _ => progress cbn [bytes_only]
  end.
Ltac byd := repeat by1.

Lemma by_async : bytes_only run_asyncronus_components.
Proof. unfold run_asyncronus_components, run_addsub, run_mxdir, run_mxreg, run_mem, run_alu. byd. Qed.
Lemma by_sync : forall p, bytes_only p -> bytes_only (run_sync_comp p).
Proof. intros. unfold run_sync_comp. apply by_Call; [exact H|]. apply by_Call; [exact by_async|exact I]. Qed.
Lemma by_af : bytes_only run_acumm_or_flags.
Proof.
  unfold run_acumm_or_flags, acumm_or_flags_once, run_acumm, cll_run_mxfldx, run_mxfld7, run_mxfld0, run_flags, cll_run_flagsinta. byd.
Qed.
Lemma by_tail : bytes_only run_cu_tail.
Proof.
  unfold run_cu_tail. repeat (apply by_Call; [apply by_sync || apply by_af|]); try exact I;
  unfold run_fffc, run_greg, run_op2, run_hl, run_sp, run_pc; byd; exact by_af.
Qed.
Local Transparent run_cu_1 run_cu_0.
Lemma by_cu_0 : bytes_only run_cu_0. Proof. unfold run_cu_0, run_cu_dxflipflop. byd. Qed.
Lemma by_cu_1 : bytes_only run_cu_1.
Proof.
  unfold run_cu_1. repeat (apply by_Call; [first [exact by_async|unfold run_cu_seq_b_jnr, run_cu_mxreg_jnr, run_cu_seq, run_cu_rom; byd]|]).
  cbn [bytes_only]. intros w. destruct (bit w RICAR); cbn [bytes_only].
  - intros d. destruct (_ >? _); cbn [bytes_only]; auto. intros; apply by_tail.
  - intros; apply by_tail.
Qed.
Local Opaque run_cu_1 run_cu_0.

Definition kept (h h' : hstate) : Prop :=
  forall o, get_memory_value o h' = get_memory_value o h \/ exists v, get_memory_value o h' = Some v /\ 0 <= v <= 255.
Lemma kept_trans : forall h1 h2 h3, kept h1 h2 -> kept h2 h3 -> kept h1 h3.
Proof. intros h1 h2 h3 A B o. destruct (B o) as [-> |]; auto. Qed.
Lemma kept_hm : forall h h', hm h' = hm h -> kept h h'.
Proof. intros h h' E o. left. unfold get_memory_value. rewrite E. reflexivity. Qed.

Local Transparent hexec.
Lemma hexec_kept : forall p h h', bytes_only p -> hexec p h = Some h' -> kept h h'.
Proof.
  induction p as [|b k IH|b k IH|b k IH|t w k IH|r k IH|r w k IH|o k IH|o v k IH|m k IH|];
    intros h h' G E; cbn [bytes_only hexec] in *.
  - injection E as <-. apply kept_hm. reflexivity.
  - destruct (update_bus_data _ _); [|discriminate]. eapply kept_trans; [|exact (IH _ h' G E)]. apply kept_hm. reflexivity.
  - destruct (get_bus h b); [|discriminate]. exact (IH _ _ h' (G _) E).
  - destruct (get_bus h b); [|discriminate]. exact (IH _ _ h' (G _) E).
  - destruct (publish_message_to _ _ _) as [[? ?]|]; [|discriminate].
    eapply kept_trans; [|exact (IH _ h' G E)]. apply kept_hm. reflexivity.
  - exact (IH _ _ h' (G _) E).
  - eapply kept_trans; [|exact (IH _ h' G E)]. apply kept_hm. reflexivity.
  - destruct (valid_offset o); [destruct (hm h); try discriminate|]; exact (IH _ _ h' (G _) E).
  - destruct (valid_offset o); [|discriminate]. destruct (hm h) eqn:Em; try discriminate.
    eapply kept_trans; [|exact (IH _ h' (proj2 G) E)]. intros x. unfold get_memory_value. cbn [hm set_hm]. rewrite Em.
    destruct (valid_offset x); auto. unfold mset. destruct (x =? o); [right|left; reflexivity]. exists v. split; [reflexivity|apply G].
  - eapply kept_trans; [|exact (IH _ h' G E)]. apply kept_hm. reflexivity.
  - discriminate.
Qed.
Local Opaque hexec.

(** Running the processor never writes an over-wide value into a cell, whatever
    the data bus, 2OP or the other cells hold: after any defined history, each
    cell keeps its value over a clock cycle or holds a byte afterwards. *)
Theorem C39_memory_bytes : forall l h u h' o v,
  run_calls l boot = Some h -> do_call (RunClock u) h = Some h' -> get_memory_value o h' = Some v ->
  get_memory_value o h = Some v \/ 0 <= v <= 255.
Proof.
  intros l h u h' o v _ E G. cbn [do_call] in E. unfold api_run_clock_cycle, run_cu_clock_cycle in E.
  assert (K : forall n h h2, clock_loop n h = Some h2 -> kept h h2).
  { induction n as [|n IH]; intros x y Ex; cbn [clock_loop] in Ex; [discriminate|].
    destruct (hexec _ _) as [h2|] eqn:Eh; [|discriminate].
    assert (A2 : kept x h2).
    { eapply kept_trans; [|refine (hexec_kept _ _ _ _ Eh); destruct (tick _); [apply by_cu_1|apply by_cu_0]]. apply kept_hm. reflexivity. }
    destruct (tick _); [injection Ex as <-; exact A2|]. eapply kept_trans; eauto. }
  destruct (clock_loop 2 h) as [h2|] eqn:Ec; [|discriminate]. specialize (K _ _ _ Ec).
  assert (h' = h2) as -> by (destruct u; [apply ui_same in E|injection E as E]; subst; auto).
  destruct (K o) as [Ek|(x & Ex & Hx)]; [left|right]; congruence.
Qed.

(** Non-vacuity: a defined history where 300 is fetched as an opcode; the load is refused
    (RI keeps 0x60, a notice is emitted). *)
Definition guard_calls : list call :=
  [SetPc 0; SetMem 0 0x60; SetMem 1 7; SetMem 2 300] ++ repeat (RunClock true) 8.
Example guard_nonvacuous : let l := Init (fun _ => 0) :: SetUi true :: guard_calls in
  pc_args l /\ exists h, run_calls l boot = Some h /\
  In (SetMem 2 300) l /\ get_register_value R_RI h = Some 0x60 /\ hl h <> [].
Proof.
  cbv zeta. destruct (run_from_boot guard_calls
      (fun s => match word_to_int (rg s R_RI), lg s with Some v, _ :: _ => v =? 0x60 | _, _ => false end)) as (h & s & E & S & F).
  { vm_compute. reflexivity. }
  split.
  { intros v Hv. assert (H : forallb (fun c => match c with SetPc x => (0 <=? x) && (x <? 65536) | _ => true end)
      (Init (fun _ => 0) :: SetUi true :: guard_calls) = true) by (vm_compute; reflexivity).
    rewrite forallb_forall in H. specialize (H _ Hv). lia. }
  exists h. split; [exact E|].
  split; [cbn; tauto|]. rewrite (shown h s _ S). rewrite (sim_log _ _ S).
  destruct (word_to_int _); [|discriminate]. destruct (lg s); [discriminate|]. apply Z.eqb_eq in F. split; congruence.
Qed.

Print Assumptions C39_checked_registers.
Print Assumptions C39_unchecked_refuted.
Print Assumptions C39_data_bus_refuted.
Print Assumptions guard_nonvacuous.
Print Assumptions C39_memory_bytes.
