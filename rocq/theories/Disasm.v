(** * Model of the disassembly view, mpp-front/src/lib/debugger/index.ts
    [m] is [execute("get_memory_value", _)]. *)
From Coq Require Import String ZArith NArith List Bool.
From Verif Require Import JsStr AsmTable Api.
Import ListNotations.
Open Scope list_scope.
Open Scope Z_scope.

(** [FindOperationValue], index.ts:4-7. *)
Record listed := mkListed { l_text : str; l_from : Z; l_to : Z }.

(** [v.toString(16).toUpperCase()], index.ts:68, 73, 74. *)
Definition hex_upper_text (v : Z) : str := upper (to_hex v).
(** [replaceInm], index.ts:65-70. *)
Definition replace_inm (m : Z -> Z) (offset : Z) (operation : str) : str :=
  replace_first (s2l "inm") (hex_upper_text (m (offset + 1))) operation.
(** [replaceDir], index.ts:72-76. *)
Definition replace_dir (m : Z -> Z) (offset : Z) (operation : str) : str :=
  replace_first (s2l "dir") (hex_upper_text (m (offset + 1)) ++ hex_upper_text (m (offset + 2))) operation.
(** [doReplacements], index.ts:61-63, with [replacementFunctions], index.ts:14. *)
Definition do_replacements (m : Z -> Z) (offset : Z) (operation : str) : str :=
  replace_dir m offset (replace_inm m offset operation).
(** [findOperation], index.ts:48-59 ([FILL_NO_OP] is true, index.ts:13). *)
Definition find_operation (m : Z -> Z) (init_offset mem_value : Z) : listed :=
  match find (fun o => parse_hex (s2l (HEX o)) =? mem_value) operations with
  | None => mkListed (s2l "-") init_offset init_offset
  | Some op => mkListed (do_replacements m init_offset (s2l (NEMO op))) init_offset (init_offset + ALLOC op - 1)
  end.
(** The loop, index.ts:32-43: every pass adds an operation, so the first condition
    only makes the body run once.  [None]: [fuel] does not suffice. *)
Fixpoint deduct_loop (fuel : nat) (m : Z -> Z) (init_offset to_off : Z) : option (list listed) :=
  match fuel with
  | O => None
  | S f =>
      let op := find_operation m init_offset (m init_offset) in
      if l_to op + 1 <? to_off then option_map (cons op) (deduct_loop f m (l_to op + 1) to_off)
      else Some [op]
  end.
Inductive deduct_result := Throws | Hangs | Lists (l : list listed).
(** [deductOperationOf], index.ts:18-46. *)
Definition deduct (m : Z -> Z) (from_off to_off : Z) : deduct_result :=
  if to_off <? from_off then Throws
  else
    let from := if from_off <? 0 then 0 else from_off in
    let to := if get_memory_size <? to_off then get_memory_size else to_off in
    match deduct_loop (S (Z.to_nat (to - from))) m from to with Some l => Lists l | None => Hangs end.
(** The highlighted line, pages/CPUTable/components/DebuggerNode/index.tsx:59-66:
    the first one whose range contains the address. *)
Definition pointed (mem_offset : Z) (l : list listed) : option listed :=
  find (fun o => (l_from o <=? mem_offset) && (mem_offset <=? l_to o)) l.
