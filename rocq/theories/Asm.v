(** * Model of the assembler, mpp-front/src/lib/traslator/index.ts
    Left out here: column numbers of the editor markers (in Marks.v) and the
    constant error message. *)
From Coq Require Import String ZArith NArith List Bool.
From Verif Require Import JsStr AsmTable.
Import ListNotations.
Open Scope Z_scope.

Definition T_CHAR : N := 84.   (* ETI_START_NAME, index.ts:39 *)
Definition HASH : N := 35.     (* COMMENT_LINE_START, index.ts:40 *)
Definition SPACE : N := 32.
Definition NEWLINE : N := 10.

(** [checkCommentLine], index.ts:49-55. *)
Definition check_comment_line (line : str) : str :=
  match index_of HASH line with
  | Some k => trim_end (firstn k line)
  | None => line
  end.

(** [line.split(" ")]: the first word and the rest joined again (index.ts:120-122
    and 175-177). *)
Definition first_word (line : str) : str := hd [] (split SPACE line).
Definition after_first_word (line : str) : str := join SPACE (tl (split SPACE line)).

(** [new RegExp(instruction.REGEX, "gim").exec(line)]. *)
Definition ins_exec (i : instruction) (line : str) : option (list str) := re_exec (new_regexp (REGEX i)) line.

(** [pre], index.ts:114-130: every [setEtiquetas.push].  Every regular expression
    of the table has a group, so [result.length > 1] holds for every match. *)
Definition pre (lines : list str) : list str :=
  flat_map (fun line =>
    flat_map (fun i => match ins_exec i (after_first_word line) with
                       | Some _ => [first_word line]
                       | None => []
                       end) operations) lines.

(** [checkIsHex], index.ts:198-205. *)
Definition check_is_hex (word : str) : bool :=
  forallb (fun c => match digit c with Some _ => true | None => false end) word.

(** The operand part of [translate], index.ts:217-241 and 247-271 (the two copies
    are the same). *)
Definition translate_operand (set_etiquetas : list str) (i : instruction) (inm_or_dir : str) : list str :=
  let op := s2l (HEX i) in
  let is_dir := includes (s2l "dir") (s2l (NEMO i)) in
  let is_inm := includes (s2l "inm") (s2l (NEMO i)) in
  match inm_or_dir with
  | [] => []
  | c :: _ =>
      if N.eqb c T_CHAR
      then (if existsb (str_eqb inm_or_dir) set_etiquetas then [op; inm_or_dir] else [])
      else if negb (check_is_hex inm_or_dir) then []
      else let hex := parse_hex inm_or_dir in
           if is_dir && (hex >? 0xffff) then []
           else if is_inm && (hex >? 0xff) then []
           else if is_dir
           then let new_hex := pad_start 4 (to_hex hex) in [op; firstn 2 new_hex; skipn 2 new_hex]
           else let new_hex := pad_start 2 (to_hex hex) in [op; firstn 2 new_hex]
  end.
(** [translate], index.ts:207-274. *)
Definition translate (set_etiquetas : list str) (i : instruction) (ops : list str) : list str :=
  match ops with
  | [_] => [s2l (HEX i)]
  | [_; o] | [_; o; _] => if GRUPO i <? 4 then [s2l (HEX i)] else translate_operand set_etiquetas i o
  | _ => []
  end.

(** [RegexResponse], index.ts:160-165, with [originalOffset]. *)
Record row := mkRow { r_line : str; r_result : list str; r_eti : str; r_ins : instruction; r_off : nat }.

(** [executeRegex], index.ts:169-196. *)
Fixpoint execute_regex_from (l : list instruction) (set_etiquetas : list str) (line : str) (off : nat) : option row :=
  match l with
  | [] => None
  | i :: l' =>
      match ins_exec i line with
      | Some ops => Some (mkRow line (translate set_etiquetas i ops) [] i off)
      | None =>
          match ins_exec i (after_first_word line) with
          | Some ops => if starts_with [T_CHAR] (first_word line)
                        then Some (mkRow line (translate set_etiquetas i ops) (first_word line) i off)
                        else None
          | None => execute_regex_from l' set_etiquetas line off
          end
      end
  end.
Definition execute_regex := execute_regex_from operations.

(** [calculateEtiquetasPos], index.ts:281-311: for every row with a label, in
    order, the label and [initDir] plus the [ALLOC] of the rows before it.  (The
    code recomputes the sum for every label and compares rows by identity.) *)
Fixpoint eti_positions (rows : list row) (dir : Z) : list (str * Z) :=
  match rows with
  | [] => []
  | r :: rows' =>
      let rest := eti_positions rows' (dir + ALLOC (r_ins r)) in
      match r_eti r with [] => rest | e => (e, dir) :: rest end
  end.
Definition find_eti (pos : list (str * Z)) (w : str) : option Z :=
  option_map snd (find (fun p => str_eqb (fst p) w) pos).

(** index.ts:144-151: upper-case, padded, cut in pieces of two. *)
Fixpoint pairs (s : str) : list str :=
  match s with
  | [] => []
  | [a] => [[a]]
  | a :: b :: r => [a; b] :: pairs r
  end.
Definition eti_dir_hex (dir : Z) : str := pad_start 4 (upper (to_hex dir)).

(** The inner loop of [post], index.ts:139-156, from position [j]: the row's new
    result and how often [results.splice(i, 1)] was executed; [None] if [fuel]
    does not suffice. *)
Fixpoint post_row (fuel : nat) (pos : list (str * Z)) (j : nat) (res : list str) (drops : nat) : option (list str * nat) :=
  match fuel with
  | O => None
  | S f =>
      match nth_error res j with
      | None => Some (res, drops)
      | Some r =>
          match find_eti pos r with
          | Some dir => post_row f pos (S j) (firstn j res ++ skipn (S j) res ++ pairs (eti_dir_hex dir)) drops
          | None => post_row f pos (S j) res (if check_is_hex r then drops else S drops)
          end
      end
  end.
Definition post_fuel (pos : list (str * Z)) (res : list str) : nat :=
  (List.length res + list_sum (map (fun p => S (List.length (eti_dir_hex (snd p)))) pos) + 1)%nat.
(** The outer loop of [post], index.ts:135-157.  Deleting row [i] moves the next
    row to position [i], and the loop goes on at [i + 1]: that row is not visited. *)
Fixpoint post_rows (fuel : nat) (pos : list (str * Z)) (rows : list row) : option (list row) :=
  match fuel with
  | O => None
  | S f =>
      match rows with
      | [] => Some []
      | r :: rest =>
          match post_row (post_fuel pos (r_result r)) pos 1 (r_result r) 0 with
          | None => None
          | Some (res, O) =>
              option_map (cons (mkRow (r_line r) res (r_eti r) (r_ins r) (r_off r))) (post_rows f pos rest)
          | Some (_, S d) =>
              match skipn d rest with
              | [] => Some []
              | r2 :: rest2 => option_map (cons r2) (post_rows f pos rest2)
              end
          end
      end
  end.

(** The loop of [parseInput], index.ts:69-99: errors (line numbers) and rows.  The
    branch for comments at index.ts:73-86 is not modelled: [lines] has no [#] left
    ([check_comment_line] cut them), so it is never taken and [comments] is always
    empty. *)
Fixpoint parse_lines (set_etiquetas : list str) (i : nat) (lines : list str) : list nat * list row :=
  match lines with
  | [] => ([], [])
  | line :: lines' =>
      let '(errors, rows) := parse_lines set_etiquetas (S i) lines' in
      match line with
      | [] => (errors, rows)
      | _ => match execute_regex set_etiquetas line i with
             | Some r => match r_result r with [] => (i :: errors, rows) | _ => (errors, r :: rows) end
             | None => (i :: errors, rows)
             end
      end
  end.

Definition input_lines (text : str) : list str :=
  map check_comment_line (map trim (split NEWLINE text)).

Record output := mkOut { errors : list nat; results : list row; positions : list (str * Z) }.
(** [parseInput], index.ts:57-112. *)
Definition parse_input (text : str) (init_dir : Z) : option output :=
  let lines := input_lines text in
  let '(errs, rows) := parse_lines (pre lines) 0 lines in
  let pos := eti_positions rows init_dir in
  option_map (fun rs => mkOut errs rs pos) (post_rows (S (List.length rows)) pos rows).

(** What the editor passes on, pages/Coder/components/CodeEditor.tsx:66-82: the
    results joined and split again at line ends; [None] if there is an error or
    nothing to save. *)
Definition new_translation (o : output) : option (list str) :=
  match errors o, concat (map r_result (results o)) with
  | _ :: _, _ | _, [] => None
  | [], slots => Some slots
  end.
(** The values stored by [handleSaveToMemory], pages/Coder/index.tsx:32-36. *)
Definition slot_values (slots : list str) : list Z := map parse_hex slots.
