(** * C113_ends: a case
    A program that calls twice a routine with a jump over a line. *)
From Coq Require Import String ZArith NArith List Bool Lia ZifyBool ZifyN.
From Verif Require Import Prog Isa Access Api Usage Front ApiFacts IsaFacts Reach PropsApi PropsIsa PropsRun IsaRun PropsLife.
From Verif Require Import JsStr AsmTable Asm AsmSpec AsmRe AsmLine AsmFacts AsmExec AsmProg AsmErr PropsAsm PropsDisasm PropsLoad PropsExamples PropsSpelling.
From Verif Require Import PropsRepro PropsRelocate Relocate PropsMoved PropsAnywhere PropsOwnLines PropsForward PropsBalanced PropsRoutines PropsRoutinesEnd.
Import ListNotations.
Open Scope list_scope.
Open Scope Z_scope.

Definition jmp_lines : list str := [s2l "MOV 05, AC"; s2l "CALL TF"; s2l "CALL TF"; s2l "FIN"; s2l "TF PUSH"; s2l "CMP RB"; s2l "BEQ TX"; s2l "MOV 07, AC"; s2l "TX POP"; s2l "RET"].
Definition jmp_codes : list (option code) :=
  [Some (mkCode [] MOV_i_ac (s2l "05")); Some (mkCode [] CALL (s2l "TF")); Some (mkCode [] CALL (s2l "TF")); Some (mkCode [] FIN []); Some (mkCode (s2l "TF") PUSH []); Some (mkCode [] (OP CMP (Reg RB)) []);
   Some (mkCode [] BEQ (s2l "TX")); Some (mkCode [] MOV_i_ac (s2l "07")); Some (mkCode (s2l "TX") POP []); Some (mkCode [] RET [])].
Definition jmp_rt (i : nat) : nat := nth i [0; 0; 0; 0; 1; 1; 1; 1; 1; 1]%nat 0%nat.
Definition jmp_dep (i : nat) : Z := nth i [0; 0; 0; 0; 0; 1; 1; 1; 1; 0] 0.
Definition jmp_need (k : nat) : Z := nth k [3; 1] 0.
Lemma jmp_program : program jmp_lines jmp_codes 256.
Proof.
  split; [split; [discriminate|]; intros l Hl; unfold jmp_lines in Hl; cbn [In] in Hl; repeat (destruct Hl as [<-|Hl]; [no_newline|]); destruct Hl|].
  split; [unfold jmp_lines, jmp_codes; do 4 (constructor; [line_plain|]); constructor; [line_label "PUSH"%string|]; do 3 (constructor; [line_plain|]); constructor; [line_label "POP"%string|]; constructor; [line_plain|]; constructor|].
  split; [intros c Hin; unfold jmp_codes in *; cbn [somes] in *; set (L := map lab _); cbn [In] in Hin; value_checks|].
  split; [discriminate|split; [lia|]]. unfold jmp_codes. cbn [somes total fold_right ins]. cbv [AsmSpec.size value_kind syntax]. lia.
Qed.
Lemma jmp_names : forall n j, names (somes jmp_codes) n j -> n = s2l "TF" \/ n = s2l "TX" -> (n = s2l "TF" /\ j = 4%nat) \/ (n = s2l "TX" /\ j = 8%nat).
Proof.
  intros n j (q & c & r & Ep & Lc & _ & <-). revert q c r Ep Lc. change (each (somes jmp_codes) (fun i c => lab c = n -> n = s2l "TF" \/ n = s2l "TX" -> (n = s2l "TF" /\ i = 4%nat) \/ (n = s2l "TX" /\ i = 8%nat))).
  unfold jmp_codes. cbn [somes]. repeat (apply each_cons; [cbn [lab]; intros <-; first [intros _; left; split; reflexivity|intros _; right; split; reflexivity|intros [X|X]; discriminate X]|]). apply each_nil.
Qed.
Lemma jmp_structured : structured (somes jmp_codes) jmp_rt jmp_dep jmp_need.
Proof.
  split.
  - split; reflexivity.
  - change (each (somes jmp_codes) (fun i c => 0 <= jmp_dep i <= jmp_need (jmp_rt i) /\ 0 <= jmp_dep i + growth (ins c) <= jmp_need (jmp_rt i))). unfold jmp_codes. cbn [somes]. repeat (apply each_cons; [cbn; lia|]). apply each_nil.
  - change (each (somes jmp_codes) (fun i c => ins c <> FIN -> ins c <> JMP -> ins c <> RET -> jmp_rt (S i) = jmp_rt i /\ jmp_dep (S i) = jmp_dep i + growth (ins c))). unfold jmp_codes. cbn [somes].
    repeat (apply each_cons; [intros N1 N2 N3; first [split; reflexivity|destruct (N1 eq_refl)|destruct (N3 eq_refl)]|]). apply each_nil.
  - change (each (somes jmp_codes) (fun i c => ins c = JMP \/ ins c = BEQ \/ ins c = BC_ -> forall j, names (somes jmp_codes) (val c) j -> jmp_rt j = jmp_rt i /\ jmp_dep j = jmp_dep i)).
    pose proof jmp_names as Sn. revert Sn. generalize (names (somes jmp_codes)). intros Q Sn. unfold jmp_codes. cbn [somes].
    repeat (apply each_cons; [first [(intros [X|[X|X]]; discriminate X)|(intros _; cbn [val]; intros j Hj; destruct (Sn _ j Hj ltac:(auto)) as [(Y & ->)|(Y & ->)]; first [discriminate Y|(split; reflexivity)])]|]). apply each_nil.
  - change (each (somes jmp_codes) (fun i c => ins c = CALL -> forall j, names (somes jmp_codes) (val c) j -> jmp_rt j <> 0%nat /\ jmp_dep j = 0 /\ jmp_dep i + 2 + jmp_need (jmp_rt j) <= jmp_need (jmp_rt i))).
    pose proof jmp_names as Sn. revert Sn. generalize (names (somes jmp_codes)). intros Q Sn. unfold jmp_codes. cbn [somes].
    repeat (apply each_cons; [intros X; first [discriminate X|(cbn [val]; intros j Hj; destruct (Sn _ j Hj ltac:(auto)) as [(Y & ->)|(Y & ->)]; first [discriminate Y|(split; [discriminate|]; split; [reflexivity|]; cbn; lia)])]|]). apply each_nil.
  - change (each (somes jmp_codes) (fun i c => ins c = RET -> jmp_rt i <> 0%nat /\ jmp_dep i = 0)). unfold jmp_codes. cbn [somes]. repeat (apply each_cons; [intros X; first [discriminate X|(split; [discriminate|reflexivity])]|]). apply each_nil.
Qed.
Lemma jmp_forwards : forwards (somes jmp_codes).
Proof.
  intros q c r Ep J. unfold jmp_codes in Ep. cbn [somes] in Ep.
  do 10 (destruct q as [|? q]; [cbn [app] in Ep; injection Ep; intros; subst; cbn [ins] in J; first [(destruct J as [J|[J|J]]; discriminate J)|(cbn [app map lab val In]; intros X; repeat (destruct X as [X|X]; [discriminate X|]); exact X)]|cbn [app] in Ep; injection Ep as ? Ep; subst]).
  destruct q; discriminate Ep.
Qed.
Example C113_ends_case : program jmp_lines jmp_codes 256 /\ 256 + total (somes jmp_codes) <= 65535 /\ (forall c, In c (somes jmp_codes) -> routine_line 256 (total (somes jmp_codes)) (200 - jmp_need 0) 200 c) /\ ends_well (somes jmp_codes) /\
  structured (somes jmp_codes) jmp_rt jmp_dep jmp_need /\ forwards (somes jmp_codes) /\ jmp_need 0 <= 200 <= 65535 /\ exists l h s, live l h true /\ boundary h /\ shows h s /\ get_register_value R_SP h = Some 200 /\ 200 <= 256.
Proof.
  split; [exact jmp_program|]. change (total (somes jmp_codes)) with 18. split; [lia|].
  split. { intros c Hc. unfold jmp_codes in Hc. cbn [somes In] in Hc. repeat (destruct Hc as [<-|Hc]; [unfold routine_line; cbn [ins val]; first [exact I|reflexivity]|]). destruct Hc. }
  split; [exists (removelast (somes jmp_codes)), (mkCode [] RET []); split; [reflexivity|right; right; reflexivity]|]. split; [exact jmp_structured|]. split; [exact jmp_forwards|]. split; [cbn; lia|].
  set (s := mkArch 254 false false 9 0 0 0 0 200 (fun _ => 0) []). destruct (C14_nonvacuous s) as (l & h & L & Bd & Sh); [repeat split; cbn; lia|reflexivity|]. exists l, h, s. do 3 (split; [assumption|]). split; [apply Sh|lia].
Qed.
Print Assumptions C113_ends_case.
