(** * The exercises of the documentation and their solutions
    docs/src/pages/es/instructions: at the end of most pages an exercise ("Comprueba tus
    conocimientos") and one or more solutions, each with a button that opens it in the
    simulator (docs/src/components/Solution/index.tsx, Code/Code.tsx:67-72).  Beside each
    solution, as written there, what the exercise asks of the machine: [s] before the
    run and [t] after it.  PUSH.mdx and POP.mdx are treated apart in [PropsExercises.v]. *)
From Coq Require Import String ZArith List.
From Verif Require Import Isa.
Import ListNotations.
Open Scope Z_scope.

Definition aim := arch -> arch -> Prop.
Definition solutions : list (string * aim) := [
  (* ADD.mdx:80-86 *)
  ("MOV 05, AC
ADD 02"%string, fun s t => AC t = 0x5 + 0x2);
  (* ADD.mdx:80-86 *)
  ("MOV 05, AC
MOV 02, RB
ADD RB"%string, fun s t => AC t = 0x5 + 0x2);
  (* AND.mdx:74-80 *)
  ("MOV 14, AC
MOV 15, RB
AND RB"%string, fun s t => AC t = Z.land 0x15 0x14);
  (* AND.mdx:74-80 *)
  ("MOV 14, AC
AND 15"%string, fun s t => AC t = Z.land 0x15 0x14);
  (* CMA.mdx:36-42 *)
  ("MOV FF, AC
CMA"%string, fun s t => AC t = 0x00);
  (* CMP.mdx:115-121 *)
  ("MOV 05, AC
MOV 05, RB
CMP RB"%string, fun s t => FZ t = true /\ FC t = false);
  (* CMP.mdx:115-121 *)
  ("MOV 05, AC
CMP 05"%string, fun s t => FZ t = true /\ FC t = false);
  (* INC.mdx:59-63 *)
  ("INC AC"%string, fun s t => AC t = (AC s + 1) mod 256);
  (* INISP.mdx:43-47 *)
  ("INISP 8563"%string, fun s t => SP t = 0x8563);
  (* LDA.mdx:44-50 *)
  ("LDA 1324
MOV AC, RB"%string, fun s t => B t = M s 0x1324);
  (* LDAX.mdx:39-45 *)
  ("MOV 13, RD
MOV 24, RE
LDAX
MOV AC, RB"%string, fun s t => B t = M s 0x1324);
  (* LFA.mdx:48-54 *)
  ("MOV 01, AC
CMP 02 # FC = 1
LFA"%string, fun s t => AC t = 0x80);
  (* MOV.mdx:97-101 *)
  ("MOV 0A, RB
MOV RB, AC"%string, fun s t => B t = 0xA /\ AC t = 0xA);
  (* OR.mdx:74-80 *)
  ("MOV 14, AC
MOV 15, RB
OR RB"%string, fun s t => AC t = Z.lor 0x15 0x14);
  (* OR.mdx:74-80 *)
  ("MOV 14, AC
OR 15"%string, fun s t => AC t = Z.lor 0x15 0x14);
  (* SFA.mdx:47-53 *)
  ("MOV 81, AC
SFA"%string, fun s t => FZ t = true /\ FC t = true);
  (* STA.mdx:42-48 *)
  ("MOV FF, AC
STA 1324"%string, fun s t => M t 0x1324 = 0xFF);
  (* STAX.mdx:37-43 *)
  ("MOV 13, RD
MOV 24, RE
MOV FF, AC
STAX"%string, fun s t => M t 0x1324 = 0xFF);
  (* SUB.mdx:80-86 *)
  ("MOV 05, AC
SUB 02"%string, fun s t => AC t = 0x5 - 0x2);
  (* SUB.mdx:80-86 *)
  ("MOV 05, AC
MOV 02, RB
SUB RB"%string, fun s t => AC t = 0x5 - 0x2);
  (* XOR.mdx:74-80 *)
  ("MOV 14, AC
MOV 15, RB
XOR RB"%string, fun s t => AC t = Z.lxor 0x15 0x14);
  (* XOR.mdx:74-80 *)
  ("MOV 14, AC
XOR 15"%string, fun s t => AC t = Z.lxor 0x15 0x14)
].
(** Solutions that jump to an address outside the program. *)
Definition jumps : list (string * Z) := [
  (* BC.mdx:39-54 *)
  ("MOV 06, RB
MOV 05, AC
SUB RB
BC 212"%string, 0x212);
  (* BEQ.mdx:39-45 *)
  ("MOV 05, AC
CMP 05
BEQ 100"%string, 0x100);
  (* JMP.mdx:30-34 *)
  ("JMP 928"%string, 0x928)
].
(** PUSH.mdx:34-40: "store the numbers from 1 to 3 in a stack". *)
Definition push_solution : string := "MOV 01, AC
PUSH
INC AC
PUSH
INC AC
PUSH"%string.
(** POP.mdx:34-40: "store in the accumulator the value at address 0x8523". *)
Definition pop_solution : string := "INISP 8563
POP"%string.
