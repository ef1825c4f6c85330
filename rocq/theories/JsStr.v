(** * JavaScript strings and the regular expressions of the assembler
    A JavaScript string is a sequence of UTF-16 code units; here a list of [N].
    These are the ECMAScript built-ins that mpp-front/src/lib/traslator/index.ts
    and mpp-front/src/lib/debugger/index.ts call, for the arguments they are
    called with. *)
From Coq Require Import String Ascii ZArith NArith List Bool.
Import ListNotations.
Open Scope Z_scope.

Definition str := list N.
Fixpoint s2l (s : string) : str :=
  match s with EmptyString => [] | String c r => N_of_ascii c :: s2l r end.

Fixpoint str_eqb (a b : str) : bool :=
  match a, b with
  | [], [] => true
  | x :: a', y :: b' => N.eqb x y && str_eqb a' b'
  | _, _ => false
  end.

(** WhiteSpace and LineTerminator of the language: what [trim] removes and what
    [\s] matches. *)
Definition is_ws (c : N) : bool :=
  existsb (N.eqb c)
    [9; 10; 11; 12; 13; 32; 160; 0x1680; 0x2000; 0x2001; 0x2002; 0x2003; 0x2004; 0x2005; 0x2006; 0x2007;
     0x2008; 0x2009; 0x200a; 0x2028; 0x2029; 0x202f; 0x205f; 0x3000; 0xfeff]%N.
(** LineTerminator: where [^] and [$] match under the flag [m]. *)
Definition is_lt (c : N) : bool := existsb (N.eqb c) [10; 13; 0x2028; 0x2029]%N.
(** [\w]. *)
Definition is_word (c : N) : bool :=
  (((48 <=? c) && (c <=? 57)) || ((65 <=? c) && (c <=? 90)) || ((97 <=? c) && (c <=? 122)) || (c =? 95))%N.

(** [String.prototype.split] with a one-character separator. *)
Fixpoint split (sep : N) (s : str) : list str :=
  match s with
  | [] => [[]]
  | x :: r => if N.eqb x sep then [] :: split sep r
              else match split sep r with
                   | [] => [[x]]
                   | w :: ws => (x :: w) :: ws
                   end
  end.
(** [Array.prototype.join] with a one-character separator. *)
Fixpoint join (sep : N) (l : list str) : str :=
  match l with
  | [] => []
  | [w] => w
  | w :: ws => w ++ sep :: join sep ws
  end.
Fixpoint trim_start (s : str) : str :=
  match s with [] => [] | x :: r => if is_ws x then trim_start r else s end.
Definition trim_end (s : str) : str := rev (trim_start (rev s)).
Definition trim (s : str) : str := trim_end (trim_start s).
(** [indexOf] of one character; [None] is -1. *)
Fixpoint index_of (c : N) (s : str) : option nat :=
  match s with
  | [] => None
  | x :: r => if N.eqb x c then Some O else option_map S (index_of c r)
  end.
(** [indexOf] of a string; [None] is -1. *)
Fixpoint starts_with (p s : str) : bool :=
  match p, s with
  | [], _ => true
  | x :: p', y :: s' => N.eqb x y && starts_with p' s'
  | _, [] => false
  end.
Fixpoint index_of_str (p s : str) : option nat :=
  if starts_with p s then Some O
  else match s with [] => None | _ :: r => option_map S (index_of_str p r) end.
Definition includes (p s : str) : bool := match index_of_str p s with Some _ => true | None => false end.
(** [replace] of the first occurrence by a replacement without [$]. *)
Fixpoint replace_first (p by_ s : str) : str :=
  if starts_with p s then by_ ++ skipn (length p) s
  else match s with [] => [] | x :: r => x :: replace_first p by_ r end.

(** Upper case of ASCII letters.  For the comparisons made here this is also the
    [Canonicalize] of case-insensitive matching: a code unit of 128 or more is
    never canonicalised to an ASCII character. *)
Definition up (c : N) : N := if ((97 <=? c) && (c <=? 122))%N then (c - 32)%N else c.
Definition upper (s : str) : str := map up s.

(** Hexadecimal digits: [parseInt(l, 16)] of a one-character string, [None] for NaN. *)
Definition digit (c : N) : option Z :=
  if ((48 <=? c) && (c <=? 57))%N then Some (Z.of_N c - 48)
  else if ((65 <=? c) && (c <=? 70))%N then Some (Z.of_N c - 55)
  else if ((97 <=? c) && (c <=? 102))%N then Some (Z.of_N c - 87)
  else None.
(** [parseInt(s, 16)] of a string of hexadecimal digits.  (JavaScript rounds from
    2^53 on; such values are only compared with 0xffff or 0xff.) *)
Definition parse_hex (s : str) : Z :=
  fold_left (fun a c => 16 * a + match digit c with Some d => d | None => 0 end) s 0.
(** [v.toString(16)]. *)
Definition hex_digit (d : Z) : N := Z.to_N (if d <? 10 then 48 + d else 87 + d).
Fixpoint hex_digits (fuel : nat) (v : Z) (acc : str) : str :=
  match fuel with
  | O => acc
  | S f => let acc' := hex_digit (v mod 16) :: acc in
           if v / 16 =? 0 then acc' else hex_digits f (v / 16) acc'
  end.
Definition to_hex (v : Z) : str :=
  if v <? 0 then 45%N :: hex_digits (S (Z.to_nat (Z.log2 (- v)))) (- v) []
  else hex_digits (S (Z.to_nat (Z.log2 v))) v [].
(** [padStart(n, "0")]. *)
Definition pad_start (n : nat) (s : str) : str := repeat 48%N (n - length s) ++ s.

(** ** Regular expressions
    The fragment used in operations.json: [^], [$], [\s], [\s?], literal
    characters, groups [(LITERAL)] and [(\w{1,})]. *)
Inductive item :=
| Bol | Eol | Sp | OptSp | Lit (c : N) | CapLit (w : str) | CapWord.

Open Scope string_scope.
(** The characters up to a closing parenthesis. *)
Fixpoint group (s : string) : str * string :=
  match s with
  | EmptyString => ([], EmptyString)
  | String ")" r => ([], r)
  | String c r => let '(w, r') := group r in (N_of_ascii c :: w, r')
  end.
Fixpoint re_parse (fuel : nat) (s : string) : list item :=
  match fuel with
  | O => []
  | S f =>
    match s with
    | EmptyString => []
    | String "^" r => Bol :: re_parse f r
    | String "$" r => Eol :: re_parse f r
    | String "\" (String "s" (String "?" r)) => OptSp :: re_parse f r
    | String "\" (String "s" r) => Sp :: re_parse f r
    | String "(" (String "\" (String "w" (String "{" (String "1" (String "," (String "}" (String ")" r))))))) =>
        CapWord :: re_parse f r
    | String "(" r => let '(w, r') := group r in CapLit w :: re_parse f r'
    | String c r => Lit (N_of_ascii c) :: re_parse f r
    end
  end.
Definition new_regexp (s : string) : list item := re_parse (S (String.length s)) s.
Close Scope string_scope.

(** Case-insensitive comparison with a literal (flag [i]). *)
Definition ceq (c x : N) : bool := N.eqb (up c) (up x).
Fixpoint strip (w s : str) (prev : option N) : option (str * str * option N) :=
  match w with
  | [] => Some ([], s, prev)
  | c :: w' => match s with
               | [] => None
               | x :: s' => if ceq c x
                            then match strip w' s' (Some x) with
                                 | Some (m, r, p) => Some (x :: m, r, p)
                                 | None => None
                                 end
                            else None
               end
  end.
Fixpoint run (s : str) : nat :=
  match s with x :: r => if is_word x then S (run r) else O | [] => O end.

(** The lengths a word group can take, the longest first. *)
Fixpoint try_word (f : option N -> str -> option (list str)) (s : str) (n : nat) : option (list str) :=
  match n with
  | O => None
  | S n' => match f (Some (nth n' s 0%N)) (skipn n s) with
            | Some c => Some (firstn n s :: c)
            | None => try_word f s n'
            end
  end.

(** Backtracking match at a position; [prev] is the character before it.  The
    result is the list of captured groups. *)
Fixpoint re_match (items : list item) (prev : option N) (s : str) : option (list str) :=
  match items with
  | [] => Some []
  | Bol :: k => match prev with
                | None => re_match k prev s
                | Some c => if is_lt c then re_match k prev s else None
                end
  | Eol :: k => match s with
                | [] => re_match k prev s
                | c :: _ => if is_lt c then re_match k prev s else None
                end
  | Sp :: k => match s with
               | x :: r => if is_ws x then re_match k (Some x) r else None
               | [] => None
               end
  | OptSp :: k => match s with
                  | x :: r => if is_ws x
                              then match re_match k (Some x) r with
                                   | Some c => Some c
                                   | None => re_match k prev s
                                   end
                              else re_match k prev s
                  | [] => re_match k prev s
                  end
  | Lit c :: k => match s with
                  | x :: r => if ceq c x then re_match k (Some x) r else None
                  | [] => None
                  end
  | CapLit w :: k => match strip w s prev with
                     | Some (m, r, p) => option_map (cons m) (re_match k p r)
                     | None => None
                     end
  | CapWord :: k => try_word (re_match k) s (run s)
  end.
(** [new RegExp(r, "gim").exec(s)]: the leftmost match, without the element 0. *)
Fixpoint re_search (items : list item) (prev : option N) (s : str) : option (list str) :=
  match re_match items prev s with
  | Some c => Some c
  | None => match s with [] => None | x :: r => re_search items (Some x) r end
  end.
Definition re_exec (items : list item) (s : str) : option (list str) := re_search items None s.
