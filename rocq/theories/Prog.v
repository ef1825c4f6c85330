(** * The statement language of the component code
    The component functions of [mpp-cpu/src/lib/components] are sequences of a
    few kinds of statements: reading or updating a static [Bus_t *], publishing
    on a topic, reading/writing a static [Register], reading/writing a memory
    cell, reporting an error notice.  [prog] is that language; the functions
    themselves are transcribed in [Components.v].  Two meanings are given to
    it: over one value per topic ([Machine.v]) and over heap, pointers and the
    subscription list ([Api.v]). *)
From Coq Require Import ZArith List Bool.
From Verif Require Import Word.
Import ListNotations.
Open Scope Z_scope.

(** [PubSubTopic], pubsub.h:13-60 (same order, shorter names). *)
Inductive topic : Set :=
| T_NONE | T_DATA | T_DIR1 | T_DIR2
| T_PCO | T_SPO | T_HLO | T_FFFCO
| T_ACO | T_OP2O
| T_ALUFC | T_ALUFZ
| T_SELREG
| T_MX7 | T_MX0
| T_FLAGS
| T_RIO
| T_JOINER
| T_Q5 | T_Q4 | T_Q3 | T_Q2 | T_Q1 | T_Q0
| T_D0 | T_D1 | T_D2 | T_D3 | T_D4 | T_D5
| T_JNR1 | T_JNR2 | T_JNR3 | T_JNR4
| T_CONTROL.

(** The C files that own static [Bus_t *] variables. *)
Inductive comp : Set :=
| K_MEM | K_MXDIR | K_ADDSUB | K_SP | K_PC | K_HL | K_ALU | K_ACUMM | K_OP2
| K_MXREG | K_GREG | K_MXFLDX | K_MXFLD7 | K_MXFLD0 | K_FLAGS | K_FLAGSINTA
| K_CU | K_SEQJNR | K_MXREGJNR | K_SEQ | K_DFF | K_ROM
| K_LMEM | K_LCU | K_LBUS.

(** A static bus variable is named by its file and the topic it is subscribed
    to (no file has two bus variables on one topic). *)
Inductive busid : Set := B (c : comp) (t : topic).
Definition topic_of (b : busid) : topic := match b with B _ t => t end.
Definition comp_of (b : busid) : comp := match b with B c _ => c end.

(** The static [Register] variables; also [WatcherType], watcher.h:15-31. *)
Inductive regid : Set :=
| R_AC | R_FC | R_FZ | R_B | R_C | R_D | R_E | R_H | R_L | R_2OP
| R_PCH | R_PCL | R_PC | R_SP | R_RI.

(** [.bit_length] initialisers of the registers: constants.h:27-37. *)
Definition bit_length (r : regid) : Z :=
  match r with
  | R_FC | R_FZ => 1
  | R_PC | R_SP => 16
  | _ => 8
  end.

(** The [.message] strings passed to [throw_error] (all NOTICE_ERROR). *)
Inductive msg : Set :=
| E_RI | E_ACUMM | E_NOREG | E_GREG | E_MEMGET | E_MEMSET | E_MX
| E_PCH | E_PCL | E_PC | E_SP.

(** Decidable equality through numbering. *)
Definition topic_num (t : topic) : N :=
  match t with
  | T_NONE => 0 | T_DATA => 1 | T_DIR1 => 2 | T_DIR2 => 3 | T_PCO => 4 | T_SPO => 5
  | T_HLO => 6 | T_FFFCO => 7 | T_ACO => 8 | T_OP2O => 9 | T_ALUFC => 10
  | T_ALUFZ => 11 | T_SELREG => 12 | T_MX7 => 13 | T_MX0 => 14 | T_FLAGS => 15
  | T_RIO => 16 | T_JOINER => 17 | T_Q5 => 18 | T_Q4 => 19 | T_Q3 => 20
  | T_Q2 => 21 | T_Q1 => 22 | T_Q0 => 23 | T_D0 => 24 | T_D1 => 25 | T_D2 => 26
  | T_D3 => 27 | T_D4 => 28 | T_D5 => 29 | T_JNR1 => 30 | T_JNR2 => 31
  | T_JNR3 => 32 | T_JNR4 => 33 | T_CONTROL => 34
  end.
Definition comp_num (c : comp) : N :=
  match c with
  | K_MEM => 0 | K_MXDIR => 1 | K_ADDSUB => 2 | K_SP => 3 | K_PC => 4 | K_HL => 5
  | K_ALU => 6 | K_ACUMM => 7 | K_OP2 => 8 | K_MXREG => 9 | K_GREG => 10
  | K_MXFLDX => 11 | K_MXFLD7 => 12 | K_MXFLD0 => 13 | K_FLAGS => 14
  | K_FLAGSINTA => 15 | K_CU => 16 | K_SEQJNR => 17 | K_MXREGJNR => 18
  | K_SEQ => 19 | K_DFF => 20 | K_ROM => 21 | K_LMEM => 22 | K_LCU => 23 | K_LBUS => 24
  end.
Definition regid_num (r : regid) : N :=
  match r with
  | R_AC => 0 | R_FC => 1 | R_FZ => 2 | R_B => 3 | R_C => 4 | R_D => 5 | R_E => 6
  | R_H => 7 | R_L => 8 | R_2OP => 9 | R_PCH => 10 | R_PCL => 11 | R_PC => 12
  | R_SP => 13 | R_RI => 14
  end.
Definition topic_eqb (a b : topic) : bool := N.eqb (topic_num a) (topic_num b).
Definition comp_eqb (a b : comp) : bool := N.eqb (comp_num a) (comp_num b).
Definition regid_eqb (a b : regid) : bool := N.eqb (regid_num a) (regid_num b).
Definition busid_eqb (a b : busid) : bool :=
  comp_eqb (comp_of a) (comp_of b) && topic_eqb (topic_of a) (topic_of b).

(** Statements.  [Done] is "return from the function". *)
Inductive prog : Type :=
| Done                                        (* return; *)
| Upd (b : busid) (k : prog)                  (* update_bus_data(b), electronic/bus.c:51 *)
| Cur (b : busid) (k : Word -> prog)          (* read b->current_value *)
| Nxt (b : busid) (k : Word -> prog)          (* read b->next_value *)
| Pub (t : topic) (w : Word) (k : prog)       (* publish_message_to(t, w), pubsub.c:124 *)
| RdR (r : regid) (k : Word -> prog)          (* read r.value *)
| WrR (r : regid) (w : Word) (k : prog)       (* r.value = w *)
| LdM (o : Z) (k : option Z -> prog)          (* get_value_by_offset(o): NULL or ->value, mem.c:76-82 *)
| StM (o : Z) (v : Z) (k : prog)              (* get_value_by_offset(o)->value = v *)
| Notice (m : msg) (k : prog)                 (* throw_error with a NOTICE_ERROR, error.c:49 *)
| Undef.                                      (* undefined behaviour *)

(** Calling a function and continuing after it returns. *)
Fixpoint Call (p k : prog) : prog :=
  match p with
  | Done => k
  | Upd b p' => Upd b (Call p' k)
  | Cur b f => Cur b (fun w => Call (f w) k)
  | Nxt b f => Nxt b (fun w => Call (f w) k)
  | Pub t w p' => Pub t w (Call p' k)
  | RdR r f => RdR r (fun w => Call (f w) k)
  | WrR r w p' => WrR r w (Call p' k)
  | LdM o f => LdM o (fun v => Call (f v) k)
  | StM o v p' => StM o v (Call p' k)
  | Notice m p' => Notice m (Call p' k)
  | Undef => Undef
  end.

(** Using the result of [word_to_int]; undefined if it is undefined. *)
Definition ToInt (w : Word) (k : Z -> prog) : prog :=
  match word_to_int w with Some z => k z | None => Undef end.

(** A C [int] arithmetic result; signed overflow is undefined. *)
Definition Int (z : Z) (k : Z -> prog) : prog := if in_int z then k z else Undef.

Notation "c ;; k" := (c k) (at level 100, k at level 200, right associativity, only parsing).
Notation "x <- c ;; k" := (c (fun x => k))
  (at level 100, c at next level, k at level 200, right associativity, only parsing).

(** Control-bus bit positions, constants.h:53-83. *)
Definition EOI : nat := 0.      Definition INTAIN : nat := 1.
Definition SPCAR : nat := 2.    Definition PCLCAR : nat := 3.
Definition PCHCAR : nat := 4.   Definition LCAR : nat := 5.
Definition HCAR : nat := 6.     Definition FLCAR : nat := 7.
Definition SELFL : nat := 8.    Definition OP2CAR : nat := 9.
Definition ACCAR : nat := 10.   Definition REGCAR : nat := 11.
Definition PCCAR : nat := 12.   Definition RICAR : nat := 13.
Definition PCLBUS : nat := 14.  Definition PCHBUS : nat := 15.
Definition ALUBUS : nat := 16.  Definition ACBUS : nat := 17.
Definition FLBUS : nat := 18.   Definition MEMBUS : nat := 19.
Definition REGBUS : nat := 20.  Definition LE : nat := 21.
Definition ID_0 : nat := 22.    Definition ID_1 : nat := 23.
Definition SELDIR_0 : nat := 24. Definition SELDIR_1 : nat := 25.
Definition MXREG_0 : nat := 26. Definition MXREG_1 : nat := 27.
Definition SELALU_0 : nat := 28. Definition SELALU_1 : nat := 29.
Definition SELALU_2 : nat := 30.
