(** * Model: number helpers of the core and the page's [sleep]
    [mpp-cpu/src/lib/utils.c] ([get_bit] is in [Word.v], [random_int] in [Api.v]),
    [mpp-front/src/lib/utils.ts:1-15].  [None] is undefined behaviour. *)
From Coq Require Import ZArith List Bool Lia.
Import ListNotations.
Open Scope Z_scope.

(** ** Digits *)
Definition INT_MAX : Z := 2147483647.
Definition INT_MIN : Z := -2147483648.
(** utils.c:16-24.  The loop is run for at most [fuel] rounds; C divides toward zero. *)
Fixpoint count_digits (fuel : nat) (number count : Z) : option Z :=
  if number =? 0 then Some count else
  match fuel with O => None | S f => count_digits f (Z.quot number 10) (count + 1) end.
Definition get_num_digits (number : Z) : option Z := count_digits 11 number 0.
(** Integral part of the decimal logarithm.  Simplified: [(int)log10(x)] is taken to be
    exact for whole numbers below 2^31. *)
Fixpoint log10_loop (fuel : nat) (x : Z) : Z := if x <? 10 then 0 else match fuel with O => 0 | S f => 1 + log10_loop f (x / 10) end.
Definition log10 (x : Z) : option Z := if x <? 1 then None else Some (log10_loop 11 x).
(** The characters of [%d] (as codes), for a number that is not negative. *)
Fixpoint print_d (fuel : nat) (n : Z) : list Z :=
  match fuel with O => [] | S f => (if n <? 10 then [] else print_d f (n / 10)) ++ [48 + n mod 10] end.
(** utils.c:31-36.  [num + 1] overflows for INT_MAX; converting -infinity or NaN to
    [int] is undefined.  [snprintf] keeps one character less than its size. *)
Definition num_to_str (num : Z) : option (list Z) :=
  if INT_MAX <=? num then None else
  match log10 (num + 1) with
  | Some lg => let num_len := lg + 1 + 1 in Some (firstn (Z.to_nat (num_len - 1)) (print_d 11 num))
  | None => None
  end.

(** ** [sleep] *)
(** One call of [sleep]: whether its promise is resolved, its timer pending, its
    listener attached, its signal aborted. *)
Record sleeper := mkSleeper { resolved : bool; pending : bool; attached : bool; aborted : bool }.
(** utils.ts:1-15. *)
Definition sleep (ms : Z) (already : bool) : sleeper :=
  if ms =? 0 then mkSleeper true false false already
  else if already then mkSleeper true false false true
  else mkSleeper false true true false.
(** The timer's callback (utils.ts:8-11), if it is still pending; an abort of the
    signal (utils.ts:4-7), which runs the listener if attached. *)
Inductive sevent := Due | Abort.
Definition sleep_step (e : sevent) (s : sleeper) : sleeper :=
  match e with
  | Due => if pending s then mkSleeper true false false (aborted s) else s
  | Abort => if aborted s then s else mkSleeper (resolved s || attached s) (pending s && negb (attached s)) false true
  end.
Definition sleep_steps (l : list sevent) (s : sleeper) : sleeper := fold_left (fun s e => sleep_step e s) l s.
