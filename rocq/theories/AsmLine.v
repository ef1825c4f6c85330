(** * Which instruction a line is
    Relates the first regular expression of operations.json that accepts a line to
    the syntax of [AsmSpec.v]. *)
From Coq Require Import String ZArith NArith List Bool Lia ZifyBool ZifyN.
From Verif Require Import JsStr AsmTable Asm Isa AsmSpec AsmRe.
Import ListNotations.
Open Scope Z_scope.

Definition mnems : list str := map s2l
  ["MOV"; "ADD"; "SUB"; "CMP"; "AND"; "OR"; "XOR"; "INC"; "CMA"; "LDA"; "STA"; "STAX"; "LDAX"; "PUSH"; "POP"; "INISP";
   "BEQ"; "BC"; "JMP"; "LFA"; "SFA"; "CALL"; "RET"; "IRET"; "FIN"]%string.
Definition names : list str := map s2l ["RB"; "RC"; "RD"; "RE"; "AC"]%string.

Fixpoint cls (l : list str) (w : str) : nat :=
  match l with [] => O | x :: l' => if str_eqb x w then O else S (cls l' w) end.
Lemma cls_le : forall l w, (cls l w <= List.length l)%nat.
Proof. induction l as [|a l IH]; intros w; cbn; [lia|]. destruct (str_eqb a w); [lia|]. specialize (IH w). lia. Qed.
Lemma cls_nth : forall l w, (cls l w < List.length l)%nat -> nth (cls l w) l [] = w.
Proof.
  induction l as [|x l IH]; intros w H; cbn in *; [lia|]. destruct (str_eqb x w) eqn:E; [apply str_eqb_eq; auto|]. apply IH. lia.
Qed.
Lemma cls_in : forall l w, existsb (str_eqb w) l = true -> (cls l w < List.length l)%nat.
Proof.
  induction l as [|x l IH]; intros w H; cbn in *; [discriminate|]. destruct (str_eqb x w) eqn:E; [lia|].
  apply orb_true_iff in H. destruct H as [H|H]; [apply str_eqb_eq in H; subst; rewrite str_eqb_refl in E; discriminate|]. specialize (IH w H). lia.
Qed.
Lemma cls_lit : forall l lit w, existsb (str_eqb lit) l = true -> str_eqb w lit = Nat.eqb (cls l w) (cls l lit).
Proof.
  intros l lit w H. destruct (str_eqb w lit) eqn:E.
  - apply str_eqb_eq in E. subst. symmetry. apply Nat.eqb_refl.
  - symmetry. apply Nat.eqb_neq. intros Ec. apply cls_in in H. pose proof (cls_nth l lit H) as A.
    rewrite <- Ec in H, A. rewrite (cls_nth l w H) in A. subst. rewrite str_eqb_refl in E. discriminate.
Qed.

(** Classes of shapes and of regular expressions. *)
Inductive csh := C0 (m : nat) | C1 (m a : nat) (ne : bool) | C2 (m a : nat) (ne : bool) (b : nat) | CX.
Definition cshape (s : shp) : csh :=
  match s with
  | S0 w => C0 (cls mnems (upper w))
  | S1 w a => C1 (cls mnems (upper w)) (cls names (upper a)) (nonnil a)
  | S2 w a b => C2 (cls mnems (upper w)) (cls names (upper a)) (nonnil a) (cls names (upper b))
  | SX => CX
  end.
Definition carg (a : karg) (x : nat) (ne : bool) : bool :=
  match a with KLit l => Nat.eqb x (cls names l) | KWord => ne end.
Definition cmatch (k : kind) (c : csh) : bool :=
  match k, c with
  | K0 m, C0 w => Nat.eqb w (cls mnems m)
  | K1 m a, C1 w x ne => Nat.eqb w (cls mnems m) && carg a x ne
  | K2 m a b, C2 w x ne y => Nat.eqb w (cls mnems m) && carg a x ne && Nat.eqb y (cls names b)
  | _, _ => false
  end.
Definition known (l : list str) (w : str) : bool := existsb (str_eqb w) l.
Definition karg_known (a : karg) : bool := match a with KLit l => known names l | KWord => true end.
Definition kind_known (k : kind) : bool :=
  match k with
  | K0 m => known mnems m
  | K1 m a => known mnems m && karg_known a
  | K2 m a b => known mnems m && karg_known a && known names b
  end.
(** The captured groups when a regular expression accepts. *)
Definition groups (s : shp) : list str :=
  match s with S0 w => [w] | S1 w a => [w; a] | S2 w a b => [w; a; b] | SX => [] end.
Lemma kmatch_cls : forall k s, kind_known k = true -> kmatch k s = if cmatch k (cshape s) then Some (groups s) else None.
Proof.
  intros k s K.
  destruct k as [m|m a|m a b], s as [w|w x|w x y|]; cbn [kmatch cmatch cshape]; auto; cbn [kind_known] in K;
    repeat (apply andb_true_iff in K; destruct K as (K & ?)); unfold known in *.
  - rewrite (cls_lit mnems m) by auto. reflexivity.
  - rewrite (cls_lit mnems m) by auto. destruct a; cbn [arg_match carg karg_known] in *; unfold known in *; [rewrite (cls_lit names) by auto|]; reflexivity.
  - rewrite (cls_lit mnems m), (cls_lit names b) by auto. destruct a; cbn [arg_match carg karg_known] in *; unfold known in *; [rewrite (cls_lit names) by auto|]; reflexivity.
Qed.

Definition ekind (e : instruction) : kind := match ikind e with Some k => k | None => K0 [] end.
Definition kind_table : list (instruction * kind) := map (fun e => (e, ekind e)) operations.
Lemma kinds_known : forallb (fun e => kind_known (ekind e)) operations = true.
Proof. vm_compute. reflexivity. Qed.

Lemma ins_exec_cls : forall e s, In e operations -> single_line s ->
  ins_exec e s = if cmatch (ekind e) (cshape (shape s)) then Some (groups (shape s)) else None.
Proof.
  intros e s H L. destruct (ins_exec_shape e s H L) as (k & E & ->). unfold ekind. rewrite E. apply kmatch_cls.
  pose proof kinds_known as K. rewrite forallb_forall in K. specialize (K e H). unfold ekind in K. rewrite E in K. exact K.
Qed.

(** The first entry that accepts a class. *)
Definition hit (c : csh) : option instruction := find (fun e => cmatch (ekind e) c) operations.

(** The instruction of an entry. *)
Definition entry_op (e : instruction) : Z := parse_hex (s2l (HEX e)).
Definition entry_instr (e : instruction) : option instr := decode_documented (entry_op e).

(** The same for the syntax of the specification. *)
Definition cname (s : string) : nat := cls names (s2l s).
Definition cmnem (s : string) : nat := cls mnems (s2l s).
Definition sarg (a : arg) (x : nat) (ne : bool) : bool :=
  match a with Name s => Nat.eqb x (cname s) | Value8 => ne && Nat.eqb x 5 | Value16 => ne end.
Definition smatch (i : instr) (c : csh) : bool :=
  match syntax i, c with
  | Some (F0 m), C0 w => Nat.eqb w (cmnem m)
  | Some (F1 m a), C1 w x ne => Nat.eqb w (cmnem m) && sarg a x ne
  | Some (F2 m a d), C2 w x ne y => Nat.eqb w (cmnem m) && sarg a x ne && Nat.eqb y (cname d)
  | _, _ => false
  end.

Definition all_r8 := [RB; RC; RD; RE].
Definition all_alu := [ADD; SUB; CMP; AND; OR; XOR].
Definition all_instr : list instr :=
  flat_map (fun s => map (MOV_rr s) all_r8) all_r8 ++ map MOV_r_ac all_r8 ++ map MOV_ac_r all_r8 ++ [MOV_ac_ac] ++ map MOV_i_r all_r8 ++ [MOV_i_ac] ++
  flat_map (fun o => map (fun r => OP o (Reg r)) all_r8 ++ [OP o Acc; OP o Imm]) all_alu ++ map INC_r all_r8 ++
  [INC_ac; CMA; LDA; STA; LDAX; STAX; BEQ; BC_; JMP; LFA; SFA; INISP; PUSH; POP; CALL; RET; IRET; FIN; NOP; NOP_i].
Lemma all_instr_in : forall i, In i all_instr.
Proof.
  intros i. assert (R : forall r, In r all_r8) by (intros []; cbn; tauto). assert (A : forall o, In o all_alu) by (intros []; cbn; tauto).
  unfold all_instr. destruct i as [s d|s|d| |d| |o x|r| | | | | | | | | | | | | | | | | | | |];
  repeat rewrite in_app_iff; rewrite ?in_flat_map, ?in_map_iff; try (cbn [In]; tauto).
  - left. exists s. split; auto. apply in_map. auto.
  - right. left. eauto.
  - do 2 right. left. eauto.
  - do 4 right. left. eauto.
  - do 6 right. left. exists o. split; auto. apply in_or_app. destruct x; [left; apply in_map_iff; eauto|right; cbn; tauto|right; cbn; tauto].
  - do 7 right. left. eauto.
Qed.

Definition r8_num (r : r8) : nat := match r with RB => 0 | RC => 1 | RD => 2 | RE => 3 end.
Lemma instr_eq_dec : forall a b : instr, {a = b} + {a <> b}.
Proof. repeat decide equality. Defined.

Definition opt_instr_eqb (o : option instr) (i : instr) : bool := match o with Some j => if instr_eq_dec j i then true else false | None => false end.
(** Entry and specification agree on a class. *)
Definition agree (c : csh) : bool :=
  match hit c with
  | Some e => match entry_instr e with Some i => smatch i c | None => false end
  | None => true
  end &&
  forallb (fun i => negb (smatch i c) || match hit c with Some e => opt_instr_eqb (entry_instr e) i | None => false end) all_instr.
Definition class_list : list csh :=
  let ms := seq 0 26 in let ns := seq 0 6 in let bs := [true; false] in
  map C0 ms ++ flat_map (fun m => flat_map (fun a => map (C1 m a) bs) ns) ms ++
  flat_map (fun m => flat_map (fun a => flat_map (fun ne => map (C2 m a ne) ns) bs) ns) ms ++ [CX].
Lemma agree_all : forallb agree class_list = true.
Proof. vm_compute. reflexivity. Qed.
Lemma cshape_in : forall s, In (cshape s) class_list.
Proof.
  intros s. unfold class_list.
  assert (M : forall w, In (cls mnems w) (seq 0 26)). { intros w. apply in_seq. pose proof (cls_le mnems w) as H. change (List.length mnems) with 25%nat in H. lia. }
  assert (N : forall w, In (cls names w) (seq 0 6)). { intros w. apply in_seq. pose proof (cls_le names w) as H. change (List.length names) with 5%nat in H. lia. }
  assert (B : forall b, In b [true; false]) by (intros []; cbn; tauto).
  cbv zeta. repeat rewrite in_app_iff. destruct s as [w|w a|w a b|]; cbn [cshape].
  - left. apply in_map. auto.
  - right. left. apply in_flat_map. eexists. split; [apply M|]. apply in_flat_map. eexists. split; [apply N|]. apply in_map. auto.
  - right. right. left. apply in_flat_map. eexists. split; [apply M|]. apply in_flat_map. eexists. split; [apply N|].
    apply in_flat_map. eexists. split; [apply B|]. apply in_map. auto.
  - do 3 right. cbn. auto.
Qed.
Lemma hit_sound : forall s e, hit (cshape s) = Some e -> exists i, entry_instr e = Some i /\ smatch i (cshape s) = true.
Proof.
  intros s e H. pose proof agree_all as A. rewrite forallb_forall in A. specialize (A _ (cshape_in s)). unfold agree in A. rewrite H in A.
  apply andb_true_iff in A. destruct A as (A & _). destruct (entry_instr e) as [i|]; [|discriminate]. eauto.
Qed.
Lemma hit_complete : forall s i, smatch i (cshape s) = true -> exists e, hit (cshape s) = Some e /\ entry_instr e = Some i.
Proof.
  intros s i H. pose proof agree_all as A. rewrite forallb_forall in A. specialize (A _ (cshape_in s)). unfold agree in A.
  apply andb_true_iff in A. destruct A as (_ & A). rewrite forallb_forall in A. specialize (A i (all_instr_in i)). rewrite H in A. cbn [negb orb] in A.
  destruct (hit (cshape s)) as [e|]; [|discriminate]. exists e. split; auto. unfold opt_instr_eqb in A.
  destruct (entry_instr e); [|discriminate]. destruct (instr_eq_dec i0 i); [congruence|discriminate].
Qed.

(** ** [parts] in terms of shapes *)
Definition lit_ok (l : list str) (s : string) : bool := good_lit (s2l s) && known l (s2l s).
Definition arg_ok (a : arg) : bool := match a with Name s => lit_ok names s | _ => true end.
Definition form_ok (i : instr) : bool :=
  match syntax i with
  | None => true
  | Some (F0 m) => lit_ok mnems m
  | Some (F1 m a) => lit_ok mnems m && arg_ok a
  | Some (F2 m a d) => lit_ok mnems m && (arg_ok a && match a with Value16 => false | _ => true end) && lit_ok names d
  end.
Lemma form_ok_all : forall i, form_ok i = true.
Proof.
  assert (H : forallb form_ok all_instr = true) by (vm_compute; reflexivity).
  rewrite forallb_forall in H. intros i. apply H, all_instr_in.
Qed.

Lemma map_up_good : forall s, good_lit s = true -> map up s = s.
Proof.
  intros s H. unfold good_lit in H. apply andb_true_iff in H. destruct H as (_ & H). rewrite forallb_forall in H.
  rewrite <- (map_id s) at 2. apply map_ext_in. intros c Hc. apply is_upper_up. auto.
Qed.
Lemma caseless_iff : forall l m t, lit_ok l m = true -> (caseless m t <-> Nat.eqb (cls l (upper t)) (cls l (s2l m)) = true).
Proof.
  intros l m t H. unfold lit_ok in H. apply andb_true_iff in H. destruct H as (G & K). unfold caseless. rewrite (map_up_good (s2l m)) by auto.
  rewrite <- (cls_lit l (s2l m) (upper t) K). unfold upper. symmetry. apply str_eqb_eq.
Qed.
Lemma caseless_words : forall l m t, lit_ok l m = true -> caseless m t -> forall c, In c t -> is_word c = true.
Proof.
  intros l m t H E c Hc. unfold lit_ok in H. apply andb_true_iff in H. destruct H as (G & _). unfold caseless in E. rewrite (map_up_good (s2l m)) in E by auto.
  unfold good_lit in G. apply andb_true_iff in G. destruct G as (_ & G). rewrite forallb_forall in G.
  apply (up_upper_word (up c)); auto. apply G. rewrite <- E. apply in_map. auto.
Qed.
Lemma names_iff : forall x, is_name x <-> cls names (upper x) <> 5%nat.
Proof.
  intros x. unfold is_name.
  rewrite (caseless_iff names "RB"%string) by reflexivity. rewrite (caseless_iff names "RC"%string) by reflexivity.
  rewrite (caseless_iff names "RD"%string) by reflexivity. rewrite (caseless_iff names "RE"%string) by reflexivity.
  rewrite (caseless_iff names "AC"%string) by reflexivity. repeat rewrite Nat.eqb_eq.
  change (cls names (s2l "RB")) with 0%nat. change (cls names (s2l "RC")) with 1%nat. change (cls names (s2l "RD")) with 2%nat.
  change (cls names (s2l "RE")) with 3%nat. change (cls names (s2l "AC")) with 4%nat.
  pose proof (cls_le names (upper x)) as H. change (List.length names) with 5%nat in H. lia.
Qed.
Definition val_text (a : arg) (x : str) : str := match a with Name _ => [] | _ => x end.
Lemma nonnil_iff : forall s, nonnil s = true <-> s <> [].
Proof. intros [|c s]; cbn; split; congruence. Qed.
Lemma arg_text_iff : forall a t x, arg_ok a = true -> (forall c, In c x -> is_word c = true) ->
  (arg_text a t x <-> sarg a (cls names (upper x)) (nonnil x) = true /\ t = val_text a x).
Proof.
  intros a t x H W. destruct a as [s| |]; cbn [arg_text sarg val_text arg_ok] in *.
  - rewrite (caseless_iff names s x H). unfold cname. tauto.
  - rewrite names_iff, andb_true_iff, nonnil_iff, Nat.eqb_eq. unfold word. split.
    + intros (-> & (N & _) & E). split; auto. split; auto. destruct (Nat.eq_dec (cls names (upper x)) 5); tauto.
    + intros ((N & E) & ->). repeat split; auto.
  - rewrite nonnil_iff. unfold word. split; [intros (-> & N & _); auto|intros (N & ->); auto].
Qed.
Lemma arg_text_words : forall a t x, arg_ok a = true -> arg_text a t x -> forall c, In c x -> is_word c = true.
Proof.
  intros a t x K H. destruct a as [s| |]; cbn [arg_text] in H.
  - destruct H as (_ & H). apply (caseless_words names s); auto.
  - destruct H as (_ & (_ & H) & _). auto.
  - destruct H as (_ & _ & H). auto.
Qed.
Definition opnd (i : instr) (sh : shp) : str :=
  match value_kind i with None => [] | Some _ => nth 1 (groups sh) [] end.

Lemma ws_44 : is_ws 44 = false. Proof. reflexivity. Qed.
Lemma parts_iff : forall i t s, parts i t s <-> smatch i (cshape (shape s)) = true /\ t = opnd i (shape s).
Proof.
  intros i t s. pose proof (form_ok_all i) as K. unfold form_ok in K. unfold parts, smatch, opnd, value_kind.
  destruct (syntax i) as [[m|m a|m a d]|]; [| | |split; [tauto|intros (? & _); discriminate]].
  - (* F0 *)
    split.
    + intros (-> & C). pose proof (caseless_words _ _ _ K C) as W.
      assert (Es : shape s = S0 s). { unfold shape. rewrite <- (app_nil_r s) at 1. rewrite span_of by (auto; discriminate). reflexivity. }
      rewrite Es. cbn [cshape]. split; auto. apply (caseless_iff mnems m s K). exact C.
    + intros (C & ->). split; auto. unfold shape in C. destruct (span s) as [w r] eqn:Es. apply span_app in Es. destruct Es as (-> & _ & _).
      destruct r as [|x r].
      * cbn [cshape] in C. rewrite app_nil_r. apply (caseless_iff mnems m w K). exact C.
      * exfalso. destruct (is_ws x); [|discriminate]. destruct (span r) as [a r2]. destruct r2 as [|y r2]; [discriminate|].
        destruct (N.eqb y 44); [|discriminate]. cbv zeta in C. destruct (span (opt_ws r2)) as [b r6]. destruct r6; discriminate.
  - (* F1 *)
    apply andb_true_iff in K. destruct K as (Km & Ka). split.
    + intros (m' & c & x & -> & C & Wc & A).
      pose proof (caseless_words _ _ _ Km C) as W. pose proof (arg_text_words _ _ _ Ka A) as Wx.
      assert (Es : shape (m' ++ c :: x) = S1 m' x).
      { unfold shape. rewrite span_of by (auto; intros ? ? E; injection E as <- <-; apply ws_not_word; auto). rewrite Wc.
        rewrite <- (app_nil_r x) at 1. rewrite span_of by (auto; discriminate). reflexivity. }
      rewrite Es. cbn [cshape groups nth]. apply (arg_text_iff a t x Ka Wx) in A. destruct A as (A & ->). split.
      * apply andb_true_iff. split; auto. apply (caseless_iff mnems m m' Km). exact C.
      * destruct a; reflexivity.
    + intros (C & ->). unfold shape in *. destruct (span s) as [w r] eqn:Es. apply span_app in Es. destruct Es as (-> & Ww & _).
      destruct r as [|x r]; [discriminate|]. destruct (is_ws x) eqn:Ex; [|discriminate].
      destruct (span r) as [v r2] eqn:Es2. apply span_app in Es2. destruct Es2 as (-> & Wv & _).
      destruct r2 as [|y r2].
      * cbn [cshape] in C. apply andb_true_iff in C. destruct C as (C & A). exists w, x, v. rewrite app_nil_r. split; auto. split; [|split; auto].
        -- apply (caseless_iff mnems m w Km). exact C.
        -- apply (arg_text_iff a _ v Ka Wv). split; auto. cbn [groups nth]. destruct a; reflexivity.
      * exfalso. destruct (N.eqb y 44); [|discriminate]. cbv zeta in C. destruct (span (opt_ws r2)) as [b r6]. destruct r6; discriminate.
  - (* F2 *)
    apply andb_true_iff in K. destruct K as (K & Kd). apply andb_true_iff in K. destruct K as (Km & Ka). apply andb_true_iff in Ka. destruct Ka as (Ka & K16). split.
    + intros (m' & c & x & sp & d' & -> & C & Wc & A & Hsp & D).
      pose proof (caseless_words _ _ _ Km C) as W. pose proof (arg_text_words _ _ _ Ka A) as Wx. pose proof (caseless_words _ _ _ Kd D) as Wd.
      assert (Es : shape (m' ++ c :: x ++ 44%N :: sp ++ d') = S2 m' x d').
      { unfold shape. rewrite span_of by (auto; intros ? ? E; injection E as <- <-; apply ws_not_word; auto). rewrite Wc.
        rewrite span_of by (auto; intros ? ? E; injection E as <- <-; reflexivity). rewrite N.eqb_refl. cbv zeta.
        assert (Eo : opt_ws (sp ++ d') = d').
        { destruct Hsp as [->|(c' & -> & Hc')]; cbn [app opt_ws].
          - destruct d' as [|z d']; auto. cbn [opt_ws]. rewrite (word_not_ws z) by (apply Wd; cbn; auto). reflexivity.
          - rewrite Hc'. reflexivity. }
        rewrite Eo. rewrite <- (app_nil_r d') at 1. rewrite span_of by (auto; discriminate). reflexivity. }
      rewrite Es. cbn [cshape groups nth]. apply (arg_text_iff a t x Ka Wx) in A. destruct A as (A & ->). split.
      * rewrite !andb_true_iff. repeat split; auto; [apply (caseless_iff mnems m m' Km)|apply (caseless_iff names d d' Kd)]; assumption.
      * destruct a; try reflexivity. discriminate.
    + intros (C & ->). unfold shape in *. destruct (span s) as [w r] eqn:Es. apply span_app in Es. destruct Es as (-> & Ww & _).
      destruct r as [|x r]; [discriminate|]. destruct (is_ws x) eqn:Ex; [|discriminate].
      destruct (span r) as [v r2] eqn:Es2. apply span_app in Es2. destruct Es2 as (-> & Wv & _).
      destruct r2 as [|y r2]; [discriminate|]. destruct (N.eqb_spec y 44) as [->|]; [|discriminate]. cbv zeta in *.
      destruct (span (opt_ws r2)) as [b r6] eqn:Es3. apply span_app in Es3. destruct Es3 as (Eo & Wb & _).
      destruct r6; [|discriminate]. rewrite app_nil_r in Eo. cbn [cshape] in C. rewrite !andb_true_iff in C. destruct C as ((C & A) & D).
      assert (Hr : exists sp, r2 = sp ++ b /\ (sp = [] \/ exists c', sp = [c'] /\ is_ws c' = true)).
      { destruct r2 as [|z r2]; cbn [opt_ws] in Eo; [exists []; subst b; auto|]. destruct (is_ws z) eqn:Ez.
        - exists [z]. subst r2. split; auto. right. eauto.
        - exists []. subst b. auto. }
      destruct Hr as (sp & -> & Hsp). exists w, x, v, sp, b. split; auto.
      split; [apply (caseless_iff mnems m w Km); exact C|]. split; auto. split; [|split; auto; apply (caseless_iff names d b Kd); exact D].
      apply (arg_text_iff a _ v Ka Wv). split; auto. cbn [groups nth]. destruct a; try reflexivity. discriminate.
Qed.
