(** * Specification: what a program does, read from its text
    The instructions are taken from the source lines, not from memory: [line_at] is
    the line written at an address, [perform] what an instruction does with the
    value written beside it.  Independent of opcodes, of their encoding and of
    fetching; [arch] and the effects on it are those of [Isa.v], the lines and
    their values those of [AsmSpec.v]. *)
From Coq Require Import ZArith NArith List Bool.
From Verif Require Import Isa JsStr AsmSpec.
Import ListNotations.
Open Scope Z_scope.

(** The line whose instruction is at address [x], the first being at [a]. *)
Fixpoint line_at (p : list code) (a x : Z) : option code :=
  match p with
  | [] => None
  | c :: p' => if x =? a then Some c else line_at p' (a + size (ins c)) x
  end.
(** The value written: a number, or the address of the line with that label. *)
Definition worth (p : list code) (a : Z) (t : str) : Z :=
  match hd_error t with Some 84%N => address p a t | _ => numeral_value t end.
(** What the instruction does with the value [v], PC being already at the next line. *)
Definition perform (i : instr) (v : Z) (s : arch) : arch :=
  match i with
  | MOV_i_r d => put d v s
  | MOV_i_ac => put_ac v s
  | OP o Imm => alu_step o v s
  | LDA => put_ac (M s v) s
  | STA => write v (AC s) s
  | JMP => put_pc v s
  | BEQ => if FZ s then put_pc v s else s
  | BC_ => if FC s then put_pc v s else s
  | INISP => put_sp v s
  | CALL => put_pc v (push (PC s mod 256) (push (PC s / 256) s))
  | _ => exec_instr i s
  end.
Definition do_line (p : list code) (a : Z) (c : code) (s : arch) : arch :=
  perform (ins c) (worth p a (val c)) (put_pc (PC s + size (ins c)) s).
(** [n] lines are performed, none of them FIN, none past the last address, and none
    changes the cells in which the program itself is stored. *)
Inductive performs (p : list code) (a : Z) : nat -> arch -> arch -> Prop :=
| P_none : forall s, performs p a 0 s s
| P_line : forall n s c u, line_at p a (PC s) = Some c -> ins c <> FIN -> PC s + size (ins c) <= 65535 ->
    (forall x, a <= x < a + total p -> M (do_line p a c s) x = M s x) ->
    performs p a n (do_line p a c s) u -> performs p a (S n) s u.
