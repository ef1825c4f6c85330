(** * Theorems: the documentation's solutions solve its exercises (C83) *)
From Coq Require Import String ZArith NArith List Bool Lia ZifyBool ZifyN.
From Verif Require Import Prog Isa Api ApiFacts Usage Front IsaFacts Reach PropsApi PropsIsa PropsLife PropsRun Shown IsaRun Buttons PropsButtons.
From Verif Require Import JsStr AsmTable Asm AsmSpec AsmRe AsmLine AsmFacts AsmExec AsmProg AsmErr PropsAsm Disasm DisasmFacts PropsDisasm PropsLoad Editor PropsEditor PropsExamples Source PropsSource.
From Verif Require Import Settings TextIo PropsTextIo Exercises.
Import ListNotations.
Open Scope list_scope.
Open Scope Z_scope.

(** ** What it means to solve an exercise *)
(** The button under the solution opens the simulator, with anything stored in the
    browser; the editor shows the solution, the user presses Save, [h] being the machine,
    and sets PC to 0. *)
Definition tried (sol : str) (h h2 : hstate) (s0 : arch) : Prop :=
  (forall st, exists c, opened_later (fst (editor_start (docs_query sol) st)) = Some c /\ exists h1, press_save c h = Some h1 /\ acts [SetPcTo 0] (h1, None) = Some (h2, None)) /\
  shows h2 s0 /\ valid s0 /\ PC s0 = 0 /\
  (forall r, r <> R_PC -> get_register_value r h2 = get_register_value r h) /\
  (forall x, 32 <= x < 65536 -> get_memory_value x h2 = get_memory_value x h).
(** "Run program", in either mode, ends with the aim met. *)
Definition runs_to (h2 : hstate) (P : arch -> Prop) : Prop :=
  exists h' t, P t /\ shows h' t /\ exists w0, forall w im, (w0 <= w)%nat -> acts (PressProgram im :: repeat Wake w) (h2, None) = Some (h', None).
Definition solves (sol : string) (a : aim) : Prop :=
  forall k h, live k h true -> exists h2 s0, tried (s2l sol) h h2 s0 /\ runs_to h2 (a s0).
(** "Run instruction", pressed often enough, takes the machine to address [x], the lines
    before the jump having been performed. *)
Definition jumps_to (sol : string) (x : Z) : Prop :=
  forall k h, live k h true -> exists h2 s0, tried (s2l sol) h h2 s0 /\
    exists n h' t, shows h' t /\ PC t = x /\ exists w0, forall w, (w0 <= w)%nat -> acts (instruction_presses n w) (h2, None) = Some (h', None).

(** ** From the text to the run *)
Definition whole (codes : list (option code)) : list code := somes (codes ++ [Some fin_code]).
Lemma ascii_proper : forall t, forallb (fun c => (c <? 128)%N) t = true -> proper_text t.
Proof.
  intros t H. exists t. split.
  - apply Forall_forall. intros c Hc. rewrite forallb_forall in H. specialize (H c Hc). unfold scalar. lia.
  - induction t as [|c t IH]; [reflexivity|]. cbn [forallb flat_map] in *. apply andb_true_iff in H. destruct H as (H1 & H2). rewrite <- IH by exact H2.
    unfold units. destruct (N.ltb_spec c 0x10000); [reflexivity|lia].
Qed.
Lemma try_with : forall sol lines codes k h, text_of lines = s2l sol -> s2l sol <> [] -> forallb (fun c => (c <? 128)%N) (s2l sol) = true -> ends_with_fin (s2l sol) = false ->
  program (lines ++ [fin_line]) (codes ++ [Some fin_code]) 0 -> total (whole codes) <= 32 -> live k h true ->
  exists h2 s0, tried (s2l sol) h h2 s0 /\
    (forall n s, performs (whole codes) 0 n s0 s -> exists h', shows h' s /\ exists w0, forall w, (w0 <= w)%nat -> acts (instruction_presses n w) (h2, None) = Some (h', None)) /\
    (forall n s f, performs (whole codes) 0 n s0 s -> line_at (whole codes) 0 (PC s) = Some f -> ins f = FIN -> PC s < 65535 -> runs_to h2 (fun t => t = put_pc (PC s + 1) s)).
Proof.
  intros sol lines codes k h Et Ne Asc Ef P Tl L. rewrite <- Et in *.
  destruct (C77_opened lines codes (fun _ => None) Ne (ascii_proper _ Asc) Ef P) as (E0 & c & Ec & _).
  assert (Same : forall st, fst (editor_start (docs_query (text_of lines)) st) = text_of (lines ++ [fin_line])) by (intros st; apply (C77_opened lines codes st Ne (ascii_proper _ Asc) Ef P)).
  rewrite E0 in Ec.
  destruct (C71_as_written (text_of (lines ++ [fin_line])) [] _ _ c k h P eq_refl ltac:(rewrite Ec; reflexivity) L) as (h1 & h2 & s0 & Sv & Ac & Sh & V & Pc & Rg & Mm & K1 & K2).
  exists h2, s0. split.
  { split. { intros st. rewrite Same. exists c. split; [exact Ec|]. exists h1. split; [exact Sv|exact Ac]. }
    split; [exact Sh|]. split; [exact V|]. split; [exact Pc|]. split; [exact Rg|]. intros x Hx. apply Mm. unfold whole in Tl. lia. }
  split; [exact K1|]. intros n s f Pf Hf Ff Hlt. destruct (K2 n s f Pf Hf Ff Hlt) as (h' & S' & W). exists h', (put_pc (PC s + 1) s). auto.
Qed.
Lemma solve_with : forall sol lines codes (a : aim), text_of lines = s2l sol -> s2l sol <> [] -> forallb (fun c => (c <? 128)%N) (s2l sol) = true -> ends_with_fin (s2l sol) = false ->
  program (lines ++ [fin_line]) (codes ++ [Some fin_code]) 0 -> total (whole codes) <= 32 ->
  (forall s0, valid s0 -> PC s0 = 0 -> exists n s, performs (whole codes) 0 n s0 s /\ line_at (whole codes) 0 (PC s) = Some fin_code /\ PC s < 65535 /\ a s0 (put_pc (PC s + 1) s)) -> solves sol a.
Proof.
  intros sol lines codes a Et Ne Asc Ef P Tl K k h L. destruct (try_with sol lines codes k h Et Ne Asc Ef P Tl L) as (h2 & s0 & T & _ & R). exists h2, s0. split; [exact T|].
  destruct T as (_ & _ & V & Pc & _). destruct (K s0 V Pc) as (n & s & Pf & Hf & Hlt & Ha). destruct (R n s fin_code Pf Hf eq_refl Hlt) as (h' & t & -> & X). exists h', (put_pc (PC s + 1) s). auto.
Qed.
Lemma jump_with : forall sol lines codes x, text_of lines = s2l sol -> s2l sol <> [] -> forallb (fun c => (c <? 128)%N) (s2l sol) = true -> ends_with_fin (s2l sol) = false ->
  program (lines ++ [fin_line]) (codes ++ [Some fin_code]) 0 -> total (whole codes) <= 32 ->
  (forall s0, valid s0 -> PC s0 = 0 -> exists n s, performs (whole codes) 0 n s0 s /\ PC s = x) -> jumps_to sol x.
Proof.
  intros sol lines codes x Et Ne Asc Ef P Tl K k h L. destruct (try_with sol lines codes k h Et Ne Asc Ef P Tl L) as (h2 & s0 & T & R & _). exists h2, s0. split; [exact T|].
  destruct T as (_ & _ & V & Pc & _). destruct (K s0 V Pc) as (n & s & Pf & Hx). destruct (R n s Pf) as (h' & S' & W). exists n, h', s. auto.
Qed.
Ltac solution_program := split; [cbn [app]; lines_literal|split; [cbn [app]; repeat (constructor; [line_plain|]); constructor|split; [|split; [discriminate|split; [lia|vm_compute; discriminate]]]];
  let c := fresh in let Hin := fresh in intros c Hin; cbn [somes app] in Hin |- *; let L := fresh in set (L := map lab _); cbn [In] in Hin;
  repeat (destruct Hin as [<-|Hin]; [split; [|let X := fresh in let Y := fresh in intros (X & Y); try discriminate X; discriminate Y]; first [exact I|literal_value]|]); destruct Hin].
Ltac store_kept := let x := fresh in let H1 := fresh in let H2 := fresh in intros x (H1 & H2); assert (x < 32) by (eapply Z.lt_le_trans; [exact H2|vm_compute; discriminate]);
  match goal with |- _ = M ?s x => let m := eval cbn [M] in (M s) in change ((if x =? 0x1324 then 255 else m x) = m x) end; destruct (Z.eqb_spec x 0x1324); [lia|reflexivity].
Ltac line_done := eapply P_line; [vm_compute; reflexivity|discriminate|vm_compute; discriminate|first [intros x _; vm_compute; reflexivity|store_kept]|
  match goal with |- performs ?p ?a ?n ?x ?y => let x' := eval vm_compute in x in change (performs p a n x' y) end].

(** ** C83 *)
Theorem C83_solutions : Forall (fun x => solves (fst x) (snd x)) solutions.
Proof.
  unfold solutions.
  constructor. { apply (solve_with _ [s2l "MOV 05, AC"; s2l "ADD 02"] [Some (mkCode [] MOV_i_ac (s2l "05")); Some (mkCode [] (OP ADD Imm) (s2l "02"))]); [reflexivity|discriminate|reflexivity|reflexivity|solution_program|vm_compute; discriminate|].
    intros [ac fc fz b c d e pc sp m lg] V Pc. cbn [PC] in Pc. subst pc. exists 2%nat. eexists. split; [do 2 line_done; apply P_none|]. split; [vm_compute; reflexivity|]. split; [vm_compute; reflexivity|]. cbn [fst snd]. try (split; vm_compute; reflexivity); vm_compute; reflexivity. }
  constructor. { apply (solve_with _ [s2l "MOV 05, AC"; s2l "MOV 02, RB"; s2l "ADD RB"] [Some (mkCode [] MOV_i_ac (s2l "05")); Some (mkCode [] (MOV_i_r RB) (s2l "02")); Some (mkCode [] (OP ADD (Reg RB)) [])]); [reflexivity|discriminate|reflexivity|reflexivity|solution_program|vm_compute; discriminate|].
    intros [ac fc fz b c d e pc sp m lg] V Pc. cbn [PC] in Pc. subst pc. exists 3%nat. eexists. split; [do 3 line_done; apply P_none|]. split; [vm_compute; reflexivity|]. split; [vm_compute; reflexivity|]. cbn [fst snd]. try (split; vm_compute; reflexivity); vm_compute; reflexivity. }
  constructor. { apply (solve_with _ [s2l "MOV 14, AC"; s2l "MOV 15, RB"; s2l "AND RB"] [Some (mkCode [] MOV_i_ac (s2l "14")); Some (mkCode [] (MOV_i_r RB) (s2l "15")); Some (mkCode [] (OP AND (Reg RB)) [])]); [reflexivity|discriminate|reflexivity|reflexivity|solution_program|vm_compute; discriminate|].
    intros [ac fc fz b c d e pc sp m lg] V Pc. cbn [PC] in Pc. subst pc. exists 3%nat. eexists. split; [do 3 line_done; apply P_none|]. split; [vm_compute; reflexivity|]. split; [vm_compute; reflexivity|]. cbn [fst snd]. try (split; vm_compute; reflexivity); vm_compute; reflexivity. }
  constructor. { apply (solve_with _ [s2l "MOV 14, AC"; s2l "AND 15"] [Some (mkCode [] MOV_i_ac (s2l "14")); Some (mkCode [] (OP AND Imm) (s2l "15"))]); [reflexivity|discriminate|reflexivity|reflexivity|solution_program|vm_compute; discriminate|].
    intros [ac fc fz b c d e pc sp m lg] V Pc. cbn [PC] in Pc. subst pc. exists 2%nat. eexists. split; [do 2 line_done; apply P_none|]. split; [vm_compute; reflexivity|]. split; [vm_compute; reflexivity|]. cbn [fst snd]. try (split; vm_compute; reflexivity); vm_compute; reflexivity. }
  constructor. { apply (solve_with _ [s2l "MOV FF, AC"; s2l "CMA"] [Some (mkCode [] MOV_i_ac (s2l "FF")); Some (mkCode [] CMA [])]); [reflexivity|discriminate|reflexivity|reflexivity|solution_program|vm_compute; discriminate|].
    intros [ac fc fz b c d e pc sp m lg] V Pc. cbn [PC] in Pc. subst pc. exists 2%nat. eexists. split; [do 2 line_done; apply P_none|]. split; [vm_compute; reflexivity|]. split; [vm_compute; reflexivity|]. cbn [fst snd]. try (split; vm_compute; reflexivity); vm_compute; reflexivity. }
  constructor. { apply (solve_with _ [s2l "MOV 05, AC"; s2l "MOV 05, RB"; s2l "CMP RB"] [Some (mkCode [] MOV_i_ac (s2l "05")); Some (mkCode [] (MOV_i_r RB) (s2l "05")); Some (mkCode [] (OP CMP (Reg RB)) [])]); [reflexivity|discriminate|reflexivity|reflexivity|solution_program|vm_compute; discriminate|].
    intros [ac fc fz b c d e pc sp m lg] V Pc. cbn [PC] in Pc. subst pc. exists 3%nat. eexists. split; [do 3 line_done; apply P_none|]. split; [vm_compute; reflexivity|]. split; [vm_compute; reflexivity|]. cbn [fst snd]. try (split; vm_compute; reflexivity); vm_compute; reflexivity. }
  constructor. { apply (solve_with _ [s2l "MOV 05, AC"; s2l "CMP 05"] [Some (mkCode [] MOV_i_ac (s2l "05")); Some (mkCode [] (OP CMP Imm) (s2l "05"))]); [reflexivity|discriminate|reflexivity|reflexivity|solution_program|vm_compute; discriminate|].
    intros [ac fc fz b c d e pc sp m lg] V Pc. cbn [PC] in Pc. subst pc. exists 2%nat. eexists. split; [do 2 line_done; apply P_none|]. split; [vm_compute; reflexivity|]. split; [vm_compute; reflexivity|]. cbn [fst snd]. try (split; vm_compute; reflexivity); vm_compute; reflexivity. }
  constructor. { apply (solve_with _ [s2l "INC AC"] [Some (mkCode [] INC_ac [])]); [reflexivity|discriminate|reflexivity|reflexivity|solution_program|vm_compute; discriminate|].
    intros [ac fc fz b c d e pc sp m lg] V Pc. cbn [PC] in Pc. subst pc. exists 1%nat. eexists. split; [do 1 line_done; apply P_none|]. split; [vm_compute; reflexivity|]. split; [vm_compute; reflexivity|]. cbn [fst snd]. try (split; vm_compute; reflexivity); vm_compute; reflexivity. }
  constructor. { apply (solve_with _ [s2l "INISP 8563"] [Some (mkCode [] INISP (s2l "8563"))]); [reflexivity|discriminate|reflexivity|reflexivity|solution_program|vm_compute; discriminate|].
    intros [ac fc fz b c d e pc sp m lg] V Pc. cbn [PC] in Pc. subst pc. exists 1%nat. eexists. split; [do 1 line_done; apply P_none|]. split; [vm_compute; reflexivity|]. split; [vm_compute; reflexivity|]. cbn [fst snd]. try (split; vm_compute; reflexivity); vm_compute; reflexivity. }
  constructor. { apply (solve_with _ [s2l "LDA 1324"; s2l "MOV AC, RB"] [Some (mkCode [] LDA (s2l "1324")); Some (mkCode [] (MOV_ac_r RB) [])]); [reflexivity|discriminate|reflexivity|reflexivity|solution_program|vm_compute; discriminate|].
    intros [ac fc fz b c d e pc sp m lg] V Pc. cbn [PC] in Pc. subst pc. exists 2%nat. eexists. split; [do 2 line_done; apply P_none|]. split; [vm_compute; reflexivity|]. split; [vm_compute; reflexivity|]. cbn [fst snd]. try (split; vm_compute; reflexivity); vm_compute; reflexivity. }
  constructor. { apply (solve_with _ [s2l "MOV 13, RD"; s2l "MOV 24, RE"; s2l "LDAX"; s2l "MOV AC, RB"] [Some (mkCode [] (MOV_i_r RD) (s2l "13")); Some (mkCode [] (MOV_i_r RE) (s2l "24")); Some (mkCode [] LDAX []); Some (mkCode [] (MOV_ac_r RB) [])]); [reflexivity|discriminate|reflexivity|reflexivity|solution_program|vm_compute; discriminate|].
    intros [ac fc fz b c d e pc sp m lg] V Pc. cbn [PC] in Pc. subst pc. exists 4%nat. eexists. split; [do 4 line_done; apply P_none|]. split; [vm_compute; reflexivity|]. split; [vm_compute; reflexivity|]. cbn [fst snd]. try (split; vm_compute; reflexivity); vm_compute; reflexivity. }
  constructor. { apply (solve_with _ [s2l "MOV 01, AC"; s2l "CMP 02 # FC = 1"; s2l "LFA"] [Some (mkCode [] MOV_i_ac (s2l "01")); Some (mkCode [] (OP CMP Imm) (s2l "02")); Some (mkCode [] LFA [])]); [reflexivity|discriminate|reflexivity|reflexivity|solution_program|vm_compute; discriminate|].
    intros [ac fc fz b c d e pc sp m lg] V Pc. cbn [PC] in Pc. subst pc. exists 3%nat. eexists. split; [do 3 line_done; apply P_none|]. split; [vm_compute; reflexivity|]. split; [vm_compute; reflexivity|]. cbn [fst snd]. try (split; vm_compute; reflexivity); vm_compute; reflexivity. }
  constructor. { apply (solve_with _ [s2l "MOV 0A, RB"; s2l "MOV RB, AC"] [Some (mkCode [] (MOV_i_r RB) (s2l "0A")); Some (mkCode [] (MOV_r_ac RB) [])]); [reflexivity|discriminate|reflexivity|reflexivity|solution_program|vm_compute; discriminate|].
    intros [ac fc fz b c d e pc sp m lg] V Pc. cbn [PC] in Pc. subst pc. exists 2%nat. eexists. split; [do 2 line_done; apply P_none|]. split; [vm_compute; reflexivity|]. split; [vm_compute; reflexivity|]. cbn [fst snd]. try (split; vm_compute; reflexivity); vm_compute; reflexivity. }
  constructor. { apply (solve_with _ [s2l "MOV 14, AC"; s2l "MOV 15, RB"; s2l "OR RB"] [Some (mkCode [] MOV_i_ac (s2l "14")); Some (mkCode [] (MOV_i_r RB) (s2l "15")); Some (mkCode [] (OP OR (Reg RB)) [])]); [reflexivity|discriminate|reflexivity|reflexivity|solution_program|vm_compute; discriminate|].
    intros [ac fc fz b c d e pc sp m lg] V Pc. cbn [PC] in Pc. subst pc. exists 3%nat. eexists. split; [do 3 line_done; apply P_none|]. split; [vm_compute; reflexivity|]. split; [vm_compute; reflexivity|]. cbn [fst snd]. try (split; vm_compute; reflexivity); vm_compute; reflexivity. }
  constructor. { apply (solve_with _ [s2l "MOV 14, AC"; s2l "OR 15"] [Some (mkCode [] MOV_i_ac (s2l "14")); Some (mkCode [] (OP OR Imm) (s2l "15"))]); [reflexivity|discriminate|reflexivity|reflexivity|solution_program|vm_compute; discriminate|].
    intros [ac fc fz b c d e pc sp m lg] V Pc. cbn [PC] in Pc. subst pc. exists 2%nat. eexists. split; [do 2 line_done; apply P_none|]. split; [vm_compute; reflexivity|]. split; [vm_compute; reflexivity|]. cbn [fst snd]. try (split; vm_compute; reflexivity); vm_compute; reflexivity. }
  constructor. { apply (solve_with _ [s2l "MOV 81, AC"; s2l "SFA"] [Some (mkCode [] MOV_i_ac (s2l "81")); Some (mkCode [] SFA [])]); [reflexivity|discriminate|reflexivity|reflexivity|solution_program|vm_compute; discriminate|].
    intros [ac fc fz b c d e pc sp m lg] V Pc. cbn [PC] in Pc. subst pc. exists 2%nat. eexists. split; [do 2 line_done; apply P_none|]. split; [vm_compute; reflexivity|]. split; [vm_compute; reflexivity|]. cbn [fst snd]. try (split; vm_compute; reflexivity); vm_compute; reflexivity. }
  constructor. { apply (solve_with _ [s2l "MOV FF, AC"; s2l "STA 1324"] [Some (mkCode [] MOV_i_ac (s2l "FF")); Some (mkCode [] STA (s2l "1324"))]); [reflexivity|discriminate|reflexivity|reflexivity|solution_program|vm_compute; discriminate|].
    intros [ac fc fz b c d e pc sp m lg] V Pc. cbn [PC] in Pc. subst pc. exists 2%nat. eexists. split; [do 2 line_done; apply P_none|]. split; [vm_compute; reflexivity|]. split; [vm_compute; reflexivity|]. cbn [fst snd]. try (split; vm_compute; reflexivity); vm_compute; reflexivity. }
  constructor. { apply (solve_with _ [s2l "MOV 13, RD"; s2l "MOV 24, RE"; s2l "MOV FF, AC"; s2l "STAX"] [Some (mkCode [] (MOV_i_r RD) (s2l "13")); Some (mkCode [] (MOV_i_r RE) (s2l "24")); Some (mkCode [] MOV_i_ac (s2l "FF")); Some (mkCode [] STAX [])]); [reflexivity|discriminate|reflexivity|reflexivity|solution_program|vm_compute; discriminate|].
    intros [ac fc fz b c d e pc sp m lg] V Pc. cbn [PC] in Pc. subst pc. exists 4%nat. eexists. split; [do 4 line_done; apply P_none|]. split; [vm_compute; reflexivity|]. split; [vm_compute; reflexivity|]. cbn [fst snd]. try (split; vm_compute; reflexivity); vm_compute; reflexivity. }
  constructor. { apply (solve_with _ [s2l "MOV 05, AC"; s2l "SUB 02"] [Some (mkCode [] MOV_i_ac (s2l "05")); Some (mkCode [] (OP SUB Imm) (s2l "02"))]); [reflexivity|discriminate|reflexivity|reflexivity|solution_program|vm_compute; discriminate|].
    intros [ac fc fz b c d e pc sp m lg] V Pc. cbn [PC] in Pc. subst pc. exists 2%nat. eexists. split; [do 2 line_done; apply P_none|]. split; [vm_compute; reflexivity|]. split; [vm_compute; reflexivity|]. cbn [fst snd]. try (split; vm_compute; reflexivity); vm_compute; reflexivity. }
  constructor. { apply (solve_with _ [s2l "MOV 05, AC"; s2l "MOV 02, RB"; s2l "SUB RB"] [Some (mkCode [] MOV_i_ac (s2l "05")); Some (mkCode [] (MOV_i_r RB) (s2l "02")); Some (mkCode [] (OP SUB (Reg RB)) [])]); [reflexivity|discriminate|reflexivity|reflexivity|solution_program|vm_compute; discriminate|].
    intros [ac fc fz b c d e pc sp m lg] V Pc. cbn [PC] in Pc. subst pc. exists 3%nat. eexists. split; [do 3 line_done; apply P_none|]. split; [vm_compute; reflexivity|]. split; [vm_compute; reflexivity|]. cbn [fst snd]. try (split; vm_compute; reflexivity); vm_compute; reflexivity. }
  constructor. { apply (solve_with _ [s2l "MOV 14, AC"; s2l "MOV 15, RB"; s2l "XOR RB"] [Some (mkCode [] MOV_i_ac (s2l "14")); Some (mkCode [] (MOV_i_r RB) (s2l "15")); Some (mkCode [] (OP XOR (Reg RB)) [])]); [reflexivity|discriminate|reflexivity|reflexivity|solution_program|vm_compute; discriminate|].
    intros [ac fc fz b c d e pc sp m lg] V Pc. cbn [PC] in Pc. subst pc. exists 3%nat. eexists. split; [do 3 line_done; apply P_none|]. split; [vm_compute; reflexivity|]. split; [vm_compute; reflexivity|]. cbn [fst snd]. try (split; vm_compute; reflexivity); vm_compute; reflexivity. }
  constructor. { apply (solve_with _ [s2l "MOV 14, AC"; s2l "XOR 15"] [Some (mkCode [] MOV_i_ac (s2l "14")); Some (mkCode [] (OP XOR Imm) (s2l "15"))]); [reflexivity|discriminate|reflexivity|reflexivity|solution_program|vm_compute; discriminate|].
    intros [ac fc fz b c d e pc sp m lg] V Pc. cbn [PC] in Pc. subst pc. exists 2%nat. eexists. split; [do 2 line_done; apply P_none|]. split; [vm_compute; reflexivity|]. split; [vm_compute; reflexivity|]. cbn [fst snd]. try (split; vm_compute; reflexivity); vm_compute; reflexivity. }
  constructor.
Qed.
Theorem C83_jumps : Forall (fun x => jumps_to (fst x) (snd x)) jumps.
Proof.
  unfold jumps.
  constructor. { apply (jump_with _ [s2l "MOV 06, RB"; s2l "MOV 05, AC"; s2l "SUB RB"; s2l "BC 212"] [Some (mkCode [] (MOV_i_r RB) (s2l "06")); Some (mkCode [] MOV_i_ac (s2l "05")); Some (mkCode [] (OP SUB (Reg RB)) []); Some (mkCode [] BC_ (s2l "212"))]); [reflexivity|discriminate|reflexivity|reflexivity|solution_program|vm_compute; discriminate|].
    intros [ac fc fz b c d e pc sp m lg] V Pc. cbn [PC] in Pc. subst pc. exists 4%nat. eexists. split; [do 4 line_done; apply P_none|]. vm_compute. reflexivity. }
  constructor. { apply (jump_with _ [s2l "MOV 05, AC"; s2l "CMP 05"; s2l "BEQ 100"] [Some (mkCode [] MOV_i_ac (s2l "05")); Some (mkCode [] (OP CMP Imm) (s2l "05")); Some (mkCode [] BEQ (s2l "100"))]); [reflexivity|discriminate|reflexivity|reflexivity|solution_program|vm_compute; discriminate|].
    intros [ac fc fz b c d e pc sp m lg] V Pc. cbn [PC] in Pc. subst pc. exists 3%nat. eexists. split; [do 3 line_done; apply P_none|]. vm_compute. reflexivity. }
  constructor. { apply (jump_with _ [s2l "JMP 928"] [Some (mkCode [] JMP (s2l "928"))]); [reflexivity|discriminate|reflexivity|reflexivity|solution_program|vm_compute; discriminate|].
    intros [ac fc fz b c d e pc sp m lg] V Pc. cbn [PC] in Pc. subst pc. exists 1%nat. eexists. split; [do 1 line_done; apply P_none|]. vm_compute. reflexivity. }
  constructor.
Qed.
(** The solution of the POP exercise reads another cell, 0x8563 instead of 0x8523 ... *)
Theorem C83_pop : solves pop_solution (fun s t => AC t = M s 0x8563).
Proof.
  apply (solve_with _ [s2l "INISP 8563"; s2l "POP"] [Some (mkCode [] INISP (s2l "8563")); Some (mkCode [] POP [])]); [reflexivity|discriminate|reflexivity|reflexivity|solution_program|vm_compute; discriminate|].
  intros [ac fc fz b c d e pc sp m lg] V Pc. cbn [PC] in Pc. subst pc. exists 2%nat. eexists. split; [do 2 line_done; apply P_none|]. split; [vm_compute; reflexivity|]. split; [vm_compute; reflexivity|]. reflexivity.
Qed.
(** ... so it fails whenever the two differ. *)
Theorem C83_pop_refuted : forall k h, live k h true -> get_memory_value 0x8523 h <> get_memory_value 0x8563 h ->
  exists h2 s0, tried (s2l pop_solution) h h2 s0 /\ runs_to h2 (fun t => AC t <> M s0 0x8523).
Proof.
  intros k h L N. destruct (C83_pop k h L) as (h2 & s0 & T & h' & t & Ht & R). exists h2, s0. split; [exact T|]. exists h', t. split; [|exact R].
  rewrite Ht. destruct T as (_ & Sh & _ & _ & _ & Mm). destruct Sh as (_ & _ & _ & _ & _ & _ & _ & _ & _ & Sm & _). rewrite <- !Mm, !Sm in N by lia. congruence.
Qed.
(** The solution of the PUSH exercise, with the stack away from the program. *)
Theorem C83_push : forall k h sp, live k h true -> get_register_value R_SP h = Some sp -> 11 <= sp ->
  exists h2 s0, tried (s2l push_solution) h h2 s0 /\ runs_to h2 (fun t => SP t = sp - 3 /\ M t (sp - 1) = 1 /\ M t (sp - 2) = 2 /\ M t (sp - 3) = 3).
Proof.
  intros k h sp L Hs Hsp. destruct (try_with push_solution [s2l "MOV 01, AC"; s2l "PUSH"; s2l "INC AC"; s2l "PUSH"; s2l "INC AC"; s2l "PUSH"] [Some (mkCode [] MOV_i_ac (s2l "01")); Some (mkCode [] PUSH []); Some (mkCode [] INC_ac []); Some (mkCode [] PUSH []); Some (mkCode [] INC_ac []); Some (mkCode [] PUSH [])] k h) as (h2 & s0 & T & _ & R); [reflexivity|discriminate|reflexivity|reflexivity|solution_program|vm_compute; discriminate|exact L|]. exists h2, s0. split; [exact T|].
  destruct T as (_ & Sh & V & Pc & Rg & _). assert (Es : SP s0 = sp). { destruct Sh as (_ & _ & _ & _ & _ & _ & _ & _ & Ss & _). rewrite Rg, Hs in Ss by discriminate. congruence. }
  destruct s0 as [ac fc fz b c d e pc sp0 m lg]. cbn [PC SP] in Pc, Es. subst pc sp0.
  set (p := whole _) in R.
  assert (Pf : performs p 0 6 (mkArch ac fc fz b c d e 0 sp m lg) (mkArch 3 false false b c d e 7 (sp - 3) (fun x => if x =? sp - 3 then 3 else if x =? sp - 2 then 2 else if x =? sp - 1 then 1 else m x) lg)).
  { assert (Push : forall a q o u n' f1 f2 m1, 9 <= q -> line_at p 0 o = Some (mkCode [] PUSH []) -> o + 1 <= 65535 ->
      performs p 0 n' (mkArch a f1 f2 b c d e (o + 1) (q - 1) (fun x => if x =? q - 1 then a else m1 x) lg) u -> performs p 0 (S n') (mkArch a f1 f2 b c d e o q m1 lg) u).
    { intros a q o u n' f1 f2 m1 Hq Hl Ho Pf.
      assert (Dl : do_line p 0 (mkCode [] PUSH []) (mkArch a f1 f2 b c d e o q m1 lg) = mkArch a f1 f2 b c d e (o + 1) (q - 1) (fun x => if x =? q - 1 then a else m1 x) lg).
      { unfold do_line. cbn [ins perform exec_instr size value_kind syntax put_pc PC AC]. unfold push, sp_down. cbn [put_pc SP]. replace (q =? 0) with false by lia. reflexivity. }
      eapply P_line; [exact Hl|discriminate|exact Ho| |rewrite Dl; exact Pf]. intros x Hx. rewrite Dl. cbn [M]. change (0 + total p) with 8 in Hx. destruct (Z.eqb_spec x (q - 1)); [lia|reflexivity]. }
    line_done. apply Push; [lia|reflexivity|lia|]. change (2 + 1) with 3. 
    eapply P_line; [reflexivity|discriminate|cbn; lia|intros x _; reflexivity|]. change (do_line _ _ _ _) with (mkArch 2 false false b c d e 4 (sp - 1) (fun x => if x =? sp - 1 then 1 else m x) lg).
    apply Push; [lia|reflexivity|lia|]. change (4 + 1) with 5. replace (sp - 1 - 1) with (sp - 2) by lia.
    eapply P_line; [reflexivity|discriminate|cbn; lia|intros x _; reflexivity|]. change (do_line _ _ _ _) with (mkArch 3 false false b c d e 6 (sp - 2) (fun x => if x =? sp - 2 then 2 else if x =? sp - 1 then 1 else m x) lg).
    apply Push; [lia|reflexivity|lia|]. change (6 + 1) with 7. replace (sp - 2 - 1) with (sp - 3) by lia. apply P_none. }
  destruct (R 6%nat _ fin_code Pf) as (h' & t & -> & X); [reflexivity|reflexivity|cbn; lia|]. exists h', (put_pc 8 (mkArch 3 false false b c d e 7 (sp - 3) (fun x => if x =? sp - 3 then 3 else if x =? sp - 2 then 2 else if x =? sp - 1 then 1 else m x) lg)). split; [|exact X].
  cbn [put_pc SP M]. rewrite !Z.eqb_refl. replace (sp - 1 =? sp - 3) with false by lia. replace (sp - 1 =? sp - 2) with false by lia. replace (sp - 2 =? sp - 3) with false by lia. auto.
Qed.
(** On a page just opened SP is 0: the three numbers are written to cell 0, over the program,
    and only the last is left. *)
Lemma run_low : forall sol lines codes k h, text_of lines = s2l sol -> s2l sol <> [] -> forallb (fun c => (c <? 128)%N) (s2l sol) = true -> ends_with_fin (s2l sol) = false ->
  program (lines ++ [fin_line]) (codes ++ [Some fin_code]) 0 -> total (whole codes) <= 32 -> live k h true ->
  exists h2 s0 bytes, tried (s2l sol) h h2 s0 /\ image (whole codes) 0 (whole codes) bytes /\ code_at (M s0) 0 bytes /\
    forall t, goes s0 t -> Usage.opcode t = 255 -> PC t < 65535 -> runs_to h2 (fun u => u = put_pc (PC t + 1) t).
Proof.
  intros sol lines codes k h Et Ne Asc Ef P Tl L. destruct (try_with sol lines codes k h Et Ne Asc Ef P Tl L) as (h2 & s0 & T & _). exists h2, s0.
  pose proof T as (Op & Sh & V & Pc & _ & _). rewrite <- Et in *.
  assert (E0 : fst (editor_start (docs_query (text_of lines)) (fun _ => None)) = text_of (lines ++ [fin_line])) by (apply (C77_opened lines codes _ Ne (ascii_proper _ Asc) Ef P)).
  destruct (Op (fun _ => None)) as (c & Ec & h1 & Sv & Ac). rewrite E0 in Ec.
  destruct (live_up k h true L) as (_ & z & U). destruct (up_obs h z U) as (O & _).
  destruct (C64_program (text_of (lines ++ [fin_line])) [] _ _ c k h _ P eq_refl ltac:(rewrite Ec; reflexivity) L O) as (Can & h1' & bytes & Sv' & Im & Ho & Tl' & _). rewrite Sv in Sv'. injection Sv' as <-.
  destruct (C64_save _ [] c c k h _ (or_introl Ec) eq_refl L O) as (h1' & Sv' & (k1 & L1) & _ & X). rewrite Sv in Sv'. injection Sv' as <-. destruct (X Can) as (_ & Y & Rg & Nx).
  cbn [acts act] in Ac. destruct (do_call (SetPc 0) h1) as [h2'|] eqn:Ep; [|discriminate Ac]. injection Ac as ->.
  destruct (C35_only_pc k1 h1 0 L1 ltac:(lia)) as (h2' & Ep' & Q1 & Q2 & Q3 & _ & Q5 & _). rewrite Ep in Ep'. injection Ep' as <-.
  assert (L2 : live (k1 ++ [SetPc 0]) h2 true). { destruct L1 as (Pr & R). split; [econstructor; [exact Pr|constructor; lia]|]. rewrite run_calls_app, R. cbn [run_calls]. rewrite Ep. reflexivity. }
  assert (Bd : boundary h2). { split; [congruence|]. rewrite Q1. intros Z0. discriminate Z0. }
  assert (Tb : total (whole codes) <= 65536) by lia.
  exists bytes. split; [exact T|]. split; [exact Im|]. split.
  { intros i Hi. rewrite <- (Ho i Hi). unfold seen. destruct Sh as (_ & _ & _ & _ & _ & _ & _ & _ & _ & Sm & _). unfold whole in Tb. rewrite <- Q3, Sm by lia. reflexivity. }
  intros t G Ot Pt. destruct (goes_end s0 t G Ot Pt) as (n & Fn & En). destruct (C62_modes n _ h2 s0 L2 Bd Sh Fn) as (h' & (w0 & K) & S' & _). rewrite En in S'.
  exists h', (put_pc (PC t + 1) t). split; [reflexivity|]. split; [exact S'|]. exists w0. intros w im Hw. apply K. exact Hw.
Qed.
Theorem C83_push_refuted : forall k h, live k h true -> get_register_value R_SP h = Some 0 ->
  exists h2 s0, tried (s2l push_solution) h h2 s0 /\ runs_to h2 (fun t => SP t = 0 /\ forall x, M t x = if x =? 0 then 3 else M s0 x).
Proof.
  intros k h L Hs. destruct (run_low push_solution [s2l "MOV 01, AC"; s2l "PUSH"; s2l "INC AC"; s2l "PUSH"; s2l "INC AC"; s2l "PUSH"] [Some (mkCode [] MOV_i_ac (s2l "01")); Some (mkCode [] PUSH []); Some (mkCode [] INC_ac []); Some (mkCode [] PUSH []); Some (mkCode [] INC_ac []); Some (mkCode [] PUSH [])] k h) as (h2 & s0 & bytes & T & Im & Ca & R); [reflexivity|discriminate|reflexivity|reflexivity|solution_program|vm_compute; discriminate|exact L|]. exists h2, s0. split; [exact T|].
  destruct T as (_ & Sh & V & Pc & Rg & _). assert (Es : SP s0 = 0). { destruct Sh as (_ & _ & _ & _ & _ & _ & _ & _ & Ss & _). rewrite Rg, Hs in Ss by discriminate. congruence. }
  apply (image_is _ _ _ _ [0x64; 1; 0xC1; 0x4B; 0xC1; 0x4B; 0xC1; 0xFF]) in Im; [|intros c0 Hc0; cbn in Hc0; repeat (destruct Hc0 as [<-|Hc0]; [discriminate|]); destruct Hc0|vm_compute; reflexivity]. subst bytes.
  destruct s0 as [ac fc fz b c d e pc sp m lg]. cbn [PC SP] in Pc, Es. subst pc sp. cbn [M] in Ca.
  assert (K : forall i, (i < 8)%nat -> m (Z.of_nat i) = nth i [0x64; 1; 0xC1; 0x4B; 0xC1; 0x4B; 0xC1; 0xFF] 0) by (intros i Hi; rewrite <- (Ca i Hi); f_equal).
  pose proof (K 0%nat ltac:(lia)) as K0. pose proof (K 1%nat ltac:(lia)) as K1. pose proof (K 2%nat ltac:(lia)) as K2. pose proof (K 3%nat ltac:(lia)) as K3. pose proof (K 4%nat ltac:(lia)) as K4. pose proof (K 5%nat ltac:(lia)) as K5. pose proof (K 6%nat ltac:(lia)) as K6. pose proof (K 7%nat ltac:(lia)) as K7. clear K Ca.
  cbn [nth] in *. change (Z.of_nat 0) with 0 in *. change (Z.of_nat 1) with 1 in *. change (Z.of_nat 2) with 2 in *. change (Z.of_nat 3) with 3 in *. change (Z.of_nat 4) with 4 in *. change (Z.of_nat 5) with 5 in *. change (Z.of_nat 6) with 6 in *. change (Z.of_nat 7) with 7 in *.
  assert (G : reach (mkArch ac fc fz b c d e 0 0 m lg) (fun t => PC t = 7 /\ Usage.opcode t = 255 /\ SP t = 0 /\ forall x, M t x = if x =? 0 then 3 else m x)).
  { Ltac one K i := apply reach_step; [unfold Usage.opcode; cbn; rewrite K; discriminate|]; erewrite (step_known _ _ i); [|cbn; exact K|reflexivity|cbn; lia].
    one K0 MOV_i_ac. cbn. unfold with_imm, imm. cbn. rewrite K1.
    one K2 PUSH. cbn. one K3 INC_ac. cbn. one K4 PUSH. cbn. one K5 INC_ac. cbn. one K6 PUSH. cbn.
    eexists. split; [apply goes_refl|]. unfold Usage.opcode. cbn. split; [reflexivity|]. split; [exact K7|]. split; [reflexivity|]. intros x. destruct x; reflexivity. }
  destruct G as (t & G & P1 & P2 & P3 & P4). destruct (R t G P2 ltac:(lia)) as (h' & u & -> & X). exists h', (put_pc (PC t + 1) t). split; [|exact X]. split; [exact P3|exact P4].
Qed.
(** The hypotheses are met by a page just opened, and by one with two cells that differ. *)
Example C83_fresh : exists k h, live k h true /\ get_register_value R_SP h = Some 0 /\ get_memory_value 0x8523 h <> get_memory_value 0x8563 h.
Proof.
  destruct (every_state_reachable (mkArch 7 false false 1 2 3 4 200 0 (fun i => if i =? 0x8523 then 1 else 0) [])) as (l & h & L & Bd & S). { repeat split; cbn; try lia; destruct (_ =? _); lia. } { reflexivity. }
  destruct S as (_ & _ & _ & _ & _ & _ & _ & _ & Ss & Sm & _). exists l, h. split; [exact L|]. split; [exact Ss|]. rewrite !Sm by lia. discriminate.
Qed.
(** CMP.mdx:13-26, 34, 83, 103: after the comparison with [x], ZERO is 1 when AC = x, CARRY is 1
    when x is greater, both are 0 when AC is greater. *)
Theorem C83_compare : forall a h' x n, executes a h' -> takes 0x1C 0x47 0x67 a x n -> PC a + n <= 65535 ->
  exists zero carry, get_register_value R_FZ h' = Some (Z.b2z zero) /\ get_register_value R_FC h' = Some (Z.b2z carry) /\
    (zero = true <-> AC a = x) /\ (carry = true <-> AC a < x) /\ (carry = false /\ zero = false <-> x < AC a).
Proof.
  intros a h' x n X T Hp. pose proof (C03_cmp a h' x n X T Hp) as (_ & S2 & S3 & _). exists (AC a =? x), (AC a <? x). split; [exact S3|]. split; [exact S2|]. lia.
Qed.
(** LFA.mdx:20-23: with both flags set AC becomes 0x81. *)
Theorem C83_flags : forall a h', executes a h' -> Usage.opcode a = 0x81 -> PC a < 65535 -> FZ a = true -> FC a = true -> get_register_value R_AC h' = Some 0x81.
Proof. intros a h' X Ho Hp Hz Hc. pose proof (C11_lfa a h' X Ho Hp) as (S1 & _). rewrite Hz, Hc in S1. exact S1. Qed.
(** SFA.mdx:21-22 says that ZERO takes the most significant bit of AC and CARRY the least: it is the
    other way round (as the drawing below that text shows). *)
Theorem C83_sfa_refuted : forall a h', executes a h' -> Usage.opcode a = 0x82 -> PC a < 65535 -> AC a = 0x80 ->
  get_register_value R_FZ h' = Some 0 /\ get_register_value R_FC h' = Some 1.
Proof. intros a h' X Ho Hp Ha. pose proof (C11_sfa a h' X Ho Hp) as (_ & S2 & S3 & _). rewrite Ha in S2, S3. auto. Qed.
Example C83_flags_nonvacuous : exists a h' b h'', executes a h' /\ Usage.opcode a = 0x82 /\ PC a < 65535 /\ AC a = 0x80 /\ executes b h'' /\ takes 0x1C 0x47 0x67 b 9 2 /\ PC b + 2 <= 65535 /\ AC b = 7.
Proof.
  set (a := mkArch 0x80 false false 1 2 3 4 200 0 (fun i => if i =? 200 then 0x82 else 0) []). set (b := mkArch 7 false false 1 2 3 4 200 0 (fun i => if i =? 200 then 0x67 else 9) []).
  destruct (executes_nonvacuous a) as (h' & X); [repeat split; cbn; try lia; destruct (_ =? _); lia|reflexivity|]. destruct (executes_nonvacuous b) as (h'' & Y); [repeat split; cbn; try lia; destruct (_ =? _); lia|reflexivity|].
  exists a, h', b, h''. split; [exact X|]. split; [reflexivity|]. split; [cbn; lia|]. split; [reflexivity|]. split; [exact Y|]. split; [|split; [cbn; lia|reflexivity]]. right; right. auto.
Qed.
Print Assumptions C83_compare.
Print Assumptions C83_flags.
Print Assumptions C83_sfa_refuted.
Print Assumptions C83_solutions.
Print Assumptions C83_jumps.
Print Assumptions C83_pop.
Print Assumptions C83_pop_refuted.
Print Assumptions C83_push.
Print Assumptions C83_push_refuted.
