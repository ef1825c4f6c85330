(** * Microcode ROM and next-state truth table
    Transcribed mechanically from [mpp-cpu/src/lib/components/cu/rom.c] and
    [seq.c]; the comment on each row gives its source line. *)
From Coq Require Import ZArith List.
Import ListNotations.
Open Scope Z_scope.

(** [const int ROM[45][31]], rom.c:40-89 ([X] is 0 there, rom.c:20).  Column
    [i] drives control-bus bit [30 - i] (rom.c:126-128). *)
Definition CU_SIGNAL_ROWS_COUNT : Z := 45.
Definition CU_SIGNAL_COLS_COUNT : nat := 31.
Definition ROM : list (list Z) := [
  (* S0 rom.c:41 *) [0;0;0;0;0;0;0;1;0;1;0;1;0;0;0;0;0;1;1;0;0;0;0;0;0;0;0;0;0;0;0];
  (* S1 rom.c:42 *) [0;0;0;0;0;0;0;0;0;1;0;0;0;0;0;0;0;0;0;0;0;0;0;0;0;0;0;0;0;0;0];
  (* S2 rom.c:43 *) [0;0;0;0;0;0;0;0;0;1;1;0;0;0;0;0;0;0;0;0;0;1;0;0;0;0;0;0;0;0;0];
  (* S3 rom.c:44 *) [1;1;0;0;1;0;0;0;0;1;0;0;0;0;1;0;0;0;0;1;0;0;0;0;0;0;0;0;0;0;0];
  (* S4 rom.c:45 *) [1;1;0;0;0;0;0;0;0;1;0;0;0;0;1;0;0;0;0;0;1;0;0;0;0;0;0;0;0;0;0];
  (* S5 rom.c:46 *) [0;0;0;0;0;0;0;0;0;1;0;0;0;0;1;0;0;0;0;0;1;0;1;1;0;0;0;0;0;0;0];
  (* S6 rom.c:47 *) [0;0;1;0;0;0;0;0;0;1;0;0;0;0;1;0;0;0;0;0;1;0;1;1;0;0;0;0;0;0;0];
  (* S7 rom.c:48 *) [0;0;1;0;0;0;0;0;0;1;0;0;0;0;0;0;0;0;0;0;0;0;1;1;0;0;0;0;0;0;0];
  (* S8 rom.c:49 *) [1;1;1;0;0;0;0;0;0;1;0;0;0;0;1;0;0;0;0;1;0;0;1;1;0;0;0;0;0;0;0];
  (* S9 rom.c:50 *) [0;1;0;0;0;0;0;0;0;1;0;0;0;0;1;0;0;0;0;0;1;0;1;1;0;0;0;0;0;0;0];
  (* S10 rom.c:51 *) [0;1;1;0;0;0;0;0;0;1;0;0;0;0;1;0;0;0;0;0;1;0;1;1;0;0;0;0;0;0;0];
  (* S11 rom.c:52 *) [1;0;0;0;0;0;0;0;0;1;0;0;0;0;1;0;0;0;0;0;1;0;1;1;0;0;0;0;0;0;0];
  (* S12 rom.c:53 *) [0;0;0;0;0;0;0;0;0;1;0;0;0;1;0;0;0;0;0;0;0;1;0;0;0;0;0;0;0;0;0];
  (* S13 rom.c:54 *) [1;1;1;0;0;0;0;0;0;1;0;0;0;0;1;0;0;0;0;0;1;0;1;1;0;0;0;0;0;0;0];
  (* S14 rom.c:55 *) [1;0;1;0;0;0;0;0;0;1;0;0;0;0;1;0;0;0;0;0;1;0;1;1;0;0;0;0;0;0;0];
  (* S15 rom.c:56 *) [0;0;0;0;0;0;0;1;0;1;0;1;0;0;0;0;0;0;1;0;0;1;0;0;0;0;0;0;0;0;0];
  (* S16 rom.c:57 *) [0;0;0;0;0;0;0;1;0;1;0;1;0;0;0;0;0;0;1;0;0;0;0;0;1;0;0;0;0;0;0];
  (* S17 rom.c:58 *) [0;0;0;0;0;0;0;1;0;1;0;1;0;0;0;0;0;0;1;0;0;0;0;0;0;1;0;0;0;0;0];
  (* S18 rom.c:59 *) [0;0;0;0;0;1;0;0;0;1;0;1;0;0;0;0;0;0;0;0;0;1;0;0;0;0;0;0;0;0;0];
  (* S19 rom.c:60 *) [1;1;0;0;0;1;0;0;0;0;0;0;0;0;1;0;0;0;0;0;0;0;0;0;0;0;0;0;0;0;0];
  (* S20 rom.c:61 *) [0;0;0;0;0;1;0;0;0;1;0;0;0;0;0;0;0;0;1;0;0;0;0;0;0;0;0;0;0;0;0];
  (* S21 rom.c:62 *) [0;0;0;1;0;0;0;0;0;1;1;0;0;0;0;0;0;0;0;0;0;0;0;0;1;0;0;0;0;0;0];
  (* S22 rom.c:63 *) [0;0;0;1;1;0;0;0;0;1;1;0;0;0;0;0;0;0;0;0;0;0;0;0;0;1;0;0;0;0;0];
  (* S23 rom.c:64 *) [0;0;0;0;0;0;0;0;0;1;0;0;1;0;0;0;0;0;0;0;1;0;0;0;0;0;0;0;0;0;0];
  (* S24 rom.c:65 *) [0;0;0;0;0;0;0;0;0;1;0;0;0;1;0;0;0;0;0;0;0;0;0;1;0;0;0;0;0;0;0];
  (* S25 rom.c:66 *) [0;0;0;0;0;0;0;0;0;1;0;0;0;0;0;0;0;0;0;0;0;0;0;0;0;0;0;0;0;1;0];
  (* S26 rom.c:67 *) [0;0;0;0;0;0;1;1;1;1;0;0;0;0;0;0;0;0;0;0;0;0;0;0;0;0;0;0;1;0;0];
  (* S27 rom.c:68 *) [0;0;0;0;0;0;1;0;0;0;0;0;1;0;0;0;0;0;0;0;0;0;0;0;0;0;0;0;0;0;0];
  (* S28 rom.c:69 *) [0;0;0;0;0;0;1;0;0;0;0;0;0;0;0;1;0;0;0;0;0;0;0;0;0;0;0;0;0;0;0];
  (* S29 rom.c:70 *) [0;0;0;0;0;0;1;0;0;0;0;0;0;0;0;0;1;0;0;0;0;0;0;0;0;0;0;0;0;0;0];
  (* S30 rom.c:71 *) [0;0;0;0;0;1;1;0;0;1;0;0;0;0;0;0;0;0;1;0;0;0;0;0;0;0;0;0;0;0;0];
  (* S31 rom.c:72 *) [0;0;0;0;0;0;1;1;0;1;0;0;0;0;0;0;0;0;0;0;0;0;0;0;0;0;0;0;1;0;0];
  (* S32 rom.c:73 *) [0;0;0;0;0;0;1;0;0;1;0;1;0;0;0;0;0;0;0;0;0;0;0;0;0;0;0;1;0;0;0];
  (* S33 rom.c:74 *) [0;0;0;0;0;0;1;0;0;1;0;1;0;0;0;0;0;0;0;0;0;0;0;0;0;0;1;0;0;0;0];
  (* S34 rom.c:75 *) [0;0;0;0;0;0;1;0;0;1;0;1;0;0;0;0;0;0;0;0;0;0;0;1;0;0;0;0;0;0;0];
  (* S35 rom.c:76 *) [0;0;0;0;0;0;0;0;0;1;0;0;0;0;0;0;0;0;0;0;0;0;0;0;0;0;0;0;0;0;1];
  (* S36 rom.c:77 *) [0;0;0;0;0;0;1;0;0;0;0;0;0;1;0;0;0;0;0;0;0;0;0;0;0;0;0;0;0;0;0];
  (* S37 rom.c:78 *) [0;0;0;0;0;0;1;0;0;1;0;1;0;0;0;0;0;0;0;0;1;0;0;0;0;0;0;0;0;0;0];
  (* S38 rom.c:79 *) [0;0;0;0;0;1;0;0;0;1;0;0;0;0;0;0;0;0;0;0;0;0;0;0;0;0;0;0;1;0;0];
  (* S39 rom.c:82 *) [1;1;0;0;0;0;0;0;0;1;0;0;0;0;1;0;0;0;0;1;0;0;0;0;0;0;0;0;0;0;0];
  (* S40 rom.c:83 *) [0;0;0;0;0;0;1;1;1;1;0;0;0;0;0;0;0;0;0;0;0;0;0;0;0;0;0;0;1;0;0];
  (* S41 rom.c:84 *) [0;0;0;0;0;0;1;1;0;1;0;0;0;0;0;0;0;0;0;0;0;0;0;0;0;0;0;0;1;0;0];
  (* S42 rom.c:85 *) [0;0;0;0;0;0;1;1;1;1;0;0;0;0;0;0;0;0;0;0;0;0;0;0;0;0;0;0;1;0;0];
  (* S43 rom.c:86 *) [0;0;0;0;0;0;1;1;0;1;0;0;0;0;0;0;0;0;0;0;0;0;0;0;0;0;0;0;1;0;0];
  (* S44 rom.c:87 *) [1;1;0;0;0;0;0;0;0;1;0;0;0;0;1;0;0;0;0;1;0;0;0;0;0;0;0;0;0;0;0]
].

(** [static int truth_table[100][24]], seq.c:25-126.  Columns: 0 state label,
    1-6 q5..q0, 7-14 c7..c0, 15 fz, 16 fc (-1 is the wildcard X, seq.c:23),
    17-22 d5..d0, 23 label of the next state (the labels, enumerated in
    states.h:12-60, are not read by the code). *)
Definition truth_table : list (list Z) := [
  (* seq.c:26 *) [0;0;0;0;0;0;0;-1;-1;-1;-1;-1;-1;-1;-1;-1;-1;0;0;0;0;0;1;1];
  (* seq.c:27 *) [1;0;0;0;0;0;1;0;0;-1;-1;-1;-1;-1;-1;-1;-1;0;0;0;0;1;0;2];
  (* seq.c:28 *) [1;0;0;0;0;0;1;0;1;0;0;-1;-1;-1;-1;-1;-1;0;0;1;1;0;0;12];
  (* seq.c:29 *) [1;0;0;0;0;0;1;0;1;1;0;-1;-1;-1;-1;-1;-1;0;0;1;1;1;1;15];
  (* seq.c:30 *) [1;0;0;0;0;0;1;1;0;-1;1;-1;-1;-1;-1;-1;-1;0;1;0;1;0;1;21];
  (* seq.c:31 *) [1;0;0;0;0;0;1;0;1;1;1;0;0;-1;-1;-1;-1;0;1;0;0;0;0;16];
  (* seq.c:32 *) [1;0;0;0;0;0;1;1;1;0;0;0;0;1;1;-1;-1;0;1;0;0;0;0;16];
  (* seq.c:33 *) [1;0;0;0;0;0;1;1;1;0;0;0;1;0;0;-1;-1;0;1;0;0;0;0;16];
  (* seq.c:34 *) [1;0;0;0;0;0;1;0;1;1;1;0;1;0;0;-1;-1;0;1;0;0;0;0;16];
  (* seq.c:35 *) [1;0;0;0;0;0;1;1;0;0;0;0;0;0;0;-1;-1;0;0;1;1;1;0;14];
  (* seq.c:36 *) [1;0;0;0;0;0;1;1;0;0;0;0;0;0;1;-1;-1;0;1;0;1;1;1;23];
  (* seq.c:37 *) [1;0;0;0;0;0;1;1;0;0;0;0;0;1;0;-1;-1;0;1;1;0;0;0;24];
  (* seq.c:38 *) [1;0;0;0;0;0;1;1;1;0;0;0;0;0;1;-1;-1;0;1;1;0;1;0;26];
  (* seq.c:39 *) [1;0;0;0;0;0;1;1;1;0;0;0;1;0;1;-1;-1;1;0;0;0;0;0;32];
  (* seq.c:40 *) [1;0;0;0;0;0;1;1;1;0;0;0;0;0;0;-1;-1;1;0;0;0;0;0;32];
  (* seq.c:41 *) [1;0;0;0;0;0;1;1;1;0;0;0;0;1;0;-1;-1;1;0;0;1;0;1;37];
  (* seq.c:42 *) [2;0;0;0;0;1;0;-1;-1;0;0;-1;-1;-1;-1;-1;-1;0;0;0;0;1;1;3];
  (* seq.c:43 *) [2;0;0;0;0;1;0;-1;-1;0;1;0;0;-1;-1;-1;-1;0;0;0;1;0;0;4];
  (* seq.c:44 *) [2;0;0;0;0;1;0;-1;-1;0;1;1;0;-1;-1;-1;-1;0;0;0;1;1;0;6];
  (* seq.c:45 *) [2;0;0;0;0;1;0;-1;-1;0;1;1;1;-1;-1;-1;-1;0;0;0;1;1;1;7];
  (* seq.c:46 *) [2;0;0;0;0;1;0;-1;-1;1;0;0;0;-1;-1;-1;-1;0;0;1;0;0;1;9];
  (* seq.c:47 *) [2;0;0;0;0;1;0;-1;-1;1;0;0;1;-1;-1;-1;-1;0;0;1;0;1;0;10];
  (* seq.c:48 *) [2;0;0;0;0;1;0;-1;-1;1;0;1;0;-1;-1;-1;-1;0;0;1;0;1;1;11];
  (* seq.c:49 *) [2;0;0;0;0;1;0;-1;-1;1;0;1;1;-1;-1;-1;-1;0;0;1;0;0;0;8];
  (* seq.c:50 *) [2;0;0;0;0;1;0;-1;-1;1;1;-1;-1;-1;-1;-1;-1;0;0;0;1;0;1;5];
  (* seq.c:51 *) [3;0;0;0;0;1;1;-1;-1;-1;-1;-1;-1;-1;-1;-1;-1;0;0;0;0;0;0;0];
  (* seq.c:52 *) [4;0;0;0;1;0;0;-1;-1;-1;-1;-1;-1;-1;-1;-1;-1;0;0;0;0;0;0;0];
  (* seq.c:53 *) [5;0;0;0;1;0;1;-1;-1;-1;-1;-1;-1;-1;-1;-1;-1;0;0;0;0;0;0;0];
  (* seq.c:54 *) [6;0;0;0;1;1;0;-1;-1;-1;-1;-1;-1;-1;-1;-1;-1;0;0;0;0;0;0;0];
  (* seq.c:55 *) [7;0;0;0;1;1;1;-1;-1;-1;-1;-1;-1;-1;-1;-1;-1;0;0;0;0;0;0;0];
  (* seq.c:56 *) [8;0;0;1;0;0;0;-1;-1;-1;-1;-1;-1;-1;-1;-1;-1;0;0;0;0;0;0;0];
  (* seq.c:57 *) [9;0;0;1;0;0;1;-1;-1;-1;-1;-1;-1;-1;-1;-1;-1;0;0;0;0;0;0;0];
  (* seq.c:58 *) [10;0;0;1;0;1;0;-1;-1;-1;-1;-1;-1;-1;-1;-1;-1;0;0;0;0;0;0;0];
  (* seq.c:59 *) [11;0;0;1;0;1;1;-1;-1;-1;-1;-1;-1;-1;-1;-1;-1;0;0;0;0;0;0;0];
  (* seq.c:60 *) [12;0;0;1;1;0;0;-1;-1;-1;0;0;0;-1;-1;-1;-1;1;0;1;1;0;0;44];
  (* seq.c:61 *) [12;0;0;1;1;0;0;-1;-1;-1;0;0;1;0;0;-1;-1;0;0;0;1;0;0;4];
  (* seq.c:62 *) [12;0;0;1;1;0;0;-1;-1;-1;0;0;1;0;1;-1;-1;0;0;0;1;0;1;5];
  (* seq.c:63 *) [12;0;0;1;1;0;0;-1;-1;-1;0;0;1;1;0;-1;-1;0;0;0;1;1;0;6];
  (* seq.c:64 *) [12;0;0;1;1;0;0;-1;-1;-1;0;0;1;1;1;-1;-1;0;0;0;1;1;1;7];
  (* seq.c:65 *) [12;0;0;1;1;0;0;-1;-1;-1;0;1;-1;0;0;-1;-1;0;0;1;0;0;1;9];
  (* seq.c:66 *) [12;0;0;1;1;0;0;-1;-1;-1;0;1;-1;0;1;-1;-1;0;0;1;0;1;0;10];
  (* seq.c:67 *) [12;0;0;1;1;0;0;-1;-1;-1;0;1;-1;1;0;-1;-1;0;0;1;0;1;1;11];
  (* seq.c:68 *) [12;0;0;1;1;0;0;-1;-1;-1;0;1;-1;1;1;-1;-1;0;0;1;1;0;1;13];
  (* seq.c:69 *) [12;0;0;1;1;0;0;-1;-1;-1;1;-1;-1;-1;-1;-1;-1;0;1;0;0;1;1;19];
  (* seq.c:70 *) [13;0;0;1;1;0;1;-1;-1;-1;-1;-1;-1;-1;-1;-1;-1;0;0;0;0;0;0;0];
  (* seq.c:71 *) [14;0;0;1;1;1;0;-1;-1;-1;-1;-1;-1;-1;-1;-1;-1;0;0;0;0;0;0;0];
  (* seq.c:72 *) [15;0;0;1;1;1;1;0;1;1;0;0;0;-1;-1;-1;-1;1;0;0;1;1;1;39];
  (* seq.c:73 *) [15;0;0;1;1;1;1;-1;-1;-1;-1;0;1;0;0;-1;-1;0;0;0;1;0;0;4];
  (* seq.c:74 *) [15;0;0;1;1;1;1;-1;-1;-1;-1;0;1;0;1;-1;-1;0;0;0;1;0;1;5];
  (* seq.c:75 *) [15;0;0;1;1;1;1;-1;-1;-1;-1;0;1;1;0;-1;-1;0;0;0;1;1;0;6];
  (* seq.c:76 *) [15;0;0;1;1;1;1;-1;-1;-1;-1;0;1;1;1;-1;-1;0;0;0;1;1;1;7];
  (* seq.c:77 *) [15;0;0;1;1;1;1;-1;-1;-1;-1;1;-1;0;0;-1;-1;0;0;1;0;0;1;9];
  (* seq.c:78 *) [15;0;0;1;1;1;1;-1;-1;-1;-1;1;-1;0;1;-1;-1;0;0;1;0;1;0;10];
  (* seq.c:79 *) [15;0;0;1;1;1;1;-1;-1;-1;-1;1;-1;1;0;-1;-1;0;0;1;0;1;1;11];
  (* seq.c:80 *) [16;0;1;0;0;0;0;-1;-1;-1;-1;-1;-1;-1;-1;-1;-1;0;1;0;0;0;1;17];
  (* seq.c:81 *) [17;0;1;0;0;0;1;-1;-1;-1;-1;-1;0;0;0;-1;-1;0;1;0;0;1;0;18];
  (* seq.c:82 *) [17;0;1;0;0;0;1;-1;-1;-1;-1;-1;0;0;1;-1;-1;0;0;1;1;0;0;12];
  (* seq.c:83 *) [17;0;1;0;0;0;1;0;1;1;1;0;0;1;0;1;-1;0;1;0;1;0;0;20];
  (* seq.c:84 *) [17;0;1;0;0;0;1;0;1;1;1;0;0;1;1;-1;1;0;1;0;1;0;0;20];
  (* seq.c:85 *) [17;0;1;0;0;0;1;0;1;1;1;0;1;0;0;-1;-1;0;1;0;1;0;0;20];
  (* seq.c:86 *) [17;0;1;0;0;0;1;1;1;0;0;0;0;1;1;-1;-1;1;0;0;1;1;0;38];
  (* seq.c:87 *) [17;0;1;0;0;0;1;1;1;0;0;0;1;0;0;-1;-1;0;1;1;0;1;0;26];
  (* seq.c:88 *) [17;0;1;0;0;0;1;-1;-1;-1;-1;-1;0;1;0;0;-1;0;0;0;0;0;0;0];
  (* seq.c:89 *) [17;0;1;0;0;0;1;-1;-1;-1;-1;-1;0;1;1;-1;0;0;0;0;0;0;0;0];
  (* seq.c:90 *) [18;0;1;0;0;1;0;-1;-1;-1;-1;-1;-1;-1;-1;-1;-1;0;0;0;1;0;0;4];
  (* seq.c:91 *) [19;0;1;0;0;1;1;-1;-1;-1;-1;-1;-1;-1;-1;-1;-1;0;0;0;0;0;0;0];
  (* seq.c:92 *) [20;0;1;0;1;0;0;-1;-1;-1;-1;-1;-1;-1;-1;-1;-1;0;0;0;0;0;0;0];
  (* seq.c:93 *) [21;0;1;0;1;0;1;-1;-1;-1;-1;-1;-1;-1;-1;-1;-1;0;1;0;1;1;0;22];
  (* seq.c:94 *) [21;0;1;0;1;1;0;-1;-1;0;-1;-1;-1;-1;-1;-1;-1;0;0;1;1;0;0;12];
  (* seq.c:95 *) [22;0;1;0;1;1;0;-1;-1;1;-1;-1;-1;-1;-1;-1;-1;0;1;0;0;1;0;18];
  (* seq.c:96 *) [23;0;1;0;1;1;1;-1;-1;-1;-1;-1;-1;-1;-1;-1;-1;0;0;0;0;0;0;0];
  (* seq.c:97 *) [24;0;1;1;0;0;0;-1;-1;-1;-1;-1;-1;-1;-1;-1;-1;0;0;0;0;0;0;0];
  (* seq.c:98 *) [25;0;1;1;0;0;1;1;1;0;0;0;1;1;0;-1;-1;0;1;1;0;1;0;26];
  (* seq.c:99 *) [26;0;1;1;0;1;0;1;1;0;0;0;0;0;1;-1;-1;1;0;0;1;0;0;36];
  (* seq.c:100 *) [26;0;1;1;0;1;0;1;1;0;0;0;1;0;0;-1;-1;0;1;1;1;0;0;28];
  (* seq.c:101 *) [26;0;1;1;0;1;0;1;1;0;0;0;1;1;0;-1;-1;0;1;1;1;0;1;27];
  (* seq.c:102 *) [27;0;1;1;1;0;1;1;1;0;0;0;1;1;0;-1;-1;1;0;1;0;0;0;40];
  (* seq.c:103 *) [28;0;1;1;1;0;0;1;1;0;0;0;1;0;0;-1;-1;1;0;1;0;0;0;40];
  (* seq.c:104 *) [28;0;1;1;1;0;0;1;1;0;0;0;1;1;0;-1;-1;1;0;1;0;1;0;42];
  (* seq.c:105 *) [29;0;1;1;1;0;1;1;1;0;0;0;1;0;0;-1;-1;0;1;0;1;0;0;20];
  (* seq.c:106 *) [29;0;1;1;1;0;1;1;1;0;0;0;1;1;0;-1;-1;0;1;1;1;1;0;30];
  (* seq.c:107 *) [30;0;1;1;1;1;0;1;1;0;0;0;1;1;0;-1;-1;0;0;0;0;0;0;0];
  (* seq.c:108 *) [31;0;1;1;1;1;1;1;1;0;0;0;1;0;1;-1;-1;1;0;0;0;0;1;33];
  (* seq.c:109 *) [31;0;1;1;1;1;1;1;1;0;0;0;0;0;0;-1;-1;1;0;0;0;0;1;33];
  (* seq.c:110 *) [32;1;0;0;0;0;0;1;1;0;0;0;1;0;1;-1;-1;0;1;1;1;1;1;31];
  (* seq.c:111 *) [32;1;0;0;0;0;0;1;1;0;0;0;0;0;0;-1;-1;0;1;1;1;1;1;31];
  (* seq.c:112 *) [33;1;0;0;0;0;1;1;1;0;0;0;1;0;1;-1;-1;1;0;1;0;0;1;41];
  (* seq.c:113 *) [33;1;0;0;0;0;1;1;1;0;0;0;0;0;0;-1;-1;1;0;1;0;0;1;41];
  (* seq.c:114 *) [34;1;0;0;0;1;0;1;1;0;0;0;0;0;0;-1;-1;1;0;1;0;1;1;43];
  (* seq.c:115 *) [35;1;0;0;0;1;1;1;1;0;0;0;0;0;0;-1;-1;0;0;0;0;0;0;0];
  (* seq.c:116 *) [36;1;0;0;1;0;0;1;1;0;0;0;0;0;1;-1;-1;0;0;0;0;0;0;0];
  (* seq.c:117 *) [37;1;0;0;1;0;1;1;1;0;0;0;0;1;0;-1;-1;0;1;1;1;1;1;31];
  (* seq.c:118 *) [38;1;0;0;1;1;0;1;1;0;0;0;0;1;1;-1;-1;0;0;0;0;0;0;0];
  (* seq.c:119 *) [40;1;0;1;0;0;0;1;1;0;0;0;1;0;0;-1;-1;0;1;1;1;0;1;29];
  (* seq.c:120 *) [40;1;0;1;0;0;0;1;1;0;0;0;1;1;0;-1;-1;0;1;1;1;0;0;28];
  (* seq.c:121 *) [41;1;0;1;0;0;1;1;1;0;0;0;1;0;1;-1;-1;0;0;0;0;0;0;0];
  (* seq.c:122 *) [41;1;0;1;0;0;1;1;1;0;0;0;0;0;0;-1;-1;1;0;0;0;1;0;34];
  (* seq.c:123 *) [42;1;0;1;0;1;0;1;1;0;0;0;1;1;0;-1;-1;0;1;1;1;0;1;29];
  (* seq.c:124 *) [43;1;0;1;0;1;1;1;1;0;0;0;0;0;0;-1;-1;1;0;0;0;1;1;35];
  (* seq.c:125 *) [44;1;0;1;1;0;0;-1;-1;-1;0;0;0;-1;-1;-1;-1;0;0;0;0;0;0;0]
].
