(** * Model of the number boxes, mpp-front/src/components/NumberBaseInput.tsx
    with constants/bases.ts.  Numbers are integers; a typed number above 2^53 - 1,
    which JavaScript would round, has no outcome.  Left out: what is drawn. *)
From Coq Require Import String ZArith NArith List Bool.
From Verif Require Import JsStr.
Import ListNotations.
Open Scope Z_scope.

(** constants/bases.ts:1-19. *)
Inductive base := DEC | HEX | BIN.
Definition radix (b : base) : Z := match b with DEC => 10 | HEX => 16 | BIN => 2 end.

(** [Number(number).toString(radix).toUpperCase()], lines 12-18. *)
Fixpoint digits_of (fuel : nat) (r v : Z) : str :=
  match fuel with
  | O => []
  | S f => if v <? r then [hex_digit v] else digits_of f r (v / r) ++ [hex_digit (v mod r)]
  end.
Definition to_radix (r v : Z) : str :=
  if v <? 0 then 45%N :: digits_of (S (Z.to_nat (Z.log2 (- v)))) r (- v) else digits_of (S (Z.to_nat (Z.log2 v))) r v.
Definition get_formatted (v : Z) (b : base) : str := upper (to_radix (radix b) v).

Definition is_digit (r : Z) (c : N) : bool := match digit c with Some d => d <? r | None => false end.
Fixpoint span (f : N -> bool) (s : str) : str * str :=
  match s with
  | c :: s' => if f c then let '(a, b) := span f s' in (c :: a, b) else ([], s)
  | [] => ([], [])
  end.
(** [validateNumberBase], lines 20-25: the expressions of constants/bases.ts:7, 12, 17. *)
Definition validate (t : str) (b : base) : bool :=
  match b with
  | DEC => let '(d, rest) := span (is_digit 10) t in
           match d with
           | [] => false
           | _ => match rest with
                  | [] => true
                  | c :: rest' => N.eqb c 46 && forallb (is_digit 10) rest'
                  end
           end
  | HEX | BIN => match t with [] => false | _ => forallb (is_digit (radix b)) t end
  end.
(** [parseInt(text, radix)] of a text that starts with a digit: the leading digits. *)
Definition parse_int (r : Z) (t : str) : Z :=
  fold_left (fun a c => r * a + match digit c with Some d => d | None => 0 end) (fst (span (is_digit r) t)) 0.

(** The property [number], which the owner keeps, and the component's state
    [base], [formatted], [isValid] (lines 48-52). *)
Record numbox := mkBox { number : Z; nbase : base; formatted : str; is_valid : bool }.
Definition new_box (n : Z) (b : base) : numbox := mkBox n b (get_formatted n b) (validate (get_formatted n b) b).

(** [onValueChange], lines 69-85; [onChange] makes the owner pass the new number
    back, and the effect of lines 54-57 formats it again. *)
Definition typed (max : option Z) (t : str) (x : numbox) : option numbox :=
  if validate t (nbase x)
  then let num := parse_int (radix (nbase x)) t in
       if 2 ^ 53 - 1 <? num then None
       else let num := match max with Some m => if negb (m =? 0) && (m <? num) then m else num | None => num end in
            Some (mkBox num (nbase x) (get_formatted num (nbase x)) true)
  else Some (mkBox (number x) (nbase x) t false).
(** [handleBaseChange], lines 59-67. *)
Definition choose_base (b : base) (x : numbox) : numbox := mkBox (number x) b (get_formatted (number x) b) (is_valid x).
(** The owner passes another number: lines 54-57. *)
Definition pass_number (n : Z) (x : numbox) : numbox :=
  if n =? number x then x else mkBox n (nbase x) (get_formatted n (nbase x)) (is_valid x).

Inductive box_event := Typed (t : str) | ChooseBase (b : base) | PassNumber (n : Z).
Definition box_act (max : option Z) (e : box_event) (x : numbox) : option numbox :=
  match e with
  | Typed t => typed max t x
  | ChooseBase b => Some (choose_base b x)
  | PassNumber n => Some (pass_number n x)
  end.
Fixpoint box_acts (max : option Z) (l : list box_event) (x : numbox) : option numbox :=
  match l with
  | [] => Some x
  | e :: l' => match box_act max e x with Some x' => box_acts max l' x' | None => None end
  end.
