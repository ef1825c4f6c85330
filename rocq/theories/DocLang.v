(** * Model of the language of a documentation page and of its contributors
    docs/src/languages.ts, docs/src/components/Header/LanguageSelect.tsx,
    docs/src/components/Footer/AvatarList.astro. *)
From Coq Require Import String ZArith NArith List Bool.
From Verif Require Import JsStr.
Import ListNotations.
Open Scope N_scope.

Definition small (c : N) : bool := (97 <=? c) && (c <=? 122).
Definition capital (c : N) : bool := (65 <=? c) && (c <=? 90).
(** [langPathRegex], languages.ts:5, after its first slash: the captured group and what
    follows the second slash.  Taking as much as there is at every step is what the
    regular expression does: with less taken the next character is not the one wanted. *)
Definition lang_at (s : str) : option (str * str) :=
  match s with
  | a :: b :: r =>
      if small a && small b then
        let '(hyphen, r) := match r with x :: r' => if x =? 45 then ([x], r') else ([], r) | [] => ([], r) end in
        let '(caps, r) := match r with
                          | x :: y :: r' => if capital x then if capital y then ([x; y], r') else ([x], y :: r') else ([], r)
                          | [x] => if capital x then ([x], []) else ([], r)
                          | [] => ([], r)
                          end in
        match r with
        | x :: rest => if x =? 47 then Some (a :: b :: hyphen ++ caps, rest) else None
        | [] => None
        end
      else None
  | _ => None
  end.
(** The first match: what is before it, the group, what is after it. *)
Fixpoint lang_match (s : str) : option (str * str * str) :=
  match s with
  | [] => None
  | x :: s' =>
      match (if x =? 47 then lang_at s' else None) with
      | Some (code, rest) => Some ([], code, rest)
      | None => match lang_match s' with Some (before, code, rest) => Some (x :: before, code, rest) | None => None end
      end
  end.
(** [getLanguageFromURL], languages.ts:7-10. *)
Definition get_language (pathname : str) : str :=
  match lang_match pathname with Some (_, code, _) => code | None => s2l "es" end.
(** The [onChange] of the selector, LanguageSelect.tsx:30-35: the new pathname. *)
Definition change_language (newLang pathname : str) : str :=
  let actualDest := match lang_match pathname with Some (before, _, rest) => before ++ 47 :: rest | None => pathname end in
  let actualDest := if str_eqb actualDest [47] then s2l "/introduction" else actualDest in
  47 :: newLang ++ actualDest.

(** ** AvatarList.astro:43-61 *)
Record person := mkPerson { login : str; id : Z }.
(** [Map.prototype.set]: a key that is there keeps its place. *)
Fixpoint map_set (p : person) (m : list person) : list person :=
  match m with
  | [] => [p]
  | q :: m' => if (id q =? id p)%Z then p :: m' else q :: map_set p m'
  end.
(** [removeDups], lines 43-56; [None] in the list: [author] is null, as GitHub answers
    for a commit of somebody unknown to it, and reading its [id] throws. *)
Fixpoint remove_dups (commits : list (option person)) (m : list person) : option (list person) :=
  match commits with
  | [] => Some m
  | None :: _ => None
  | Some p :: commits' => remove_dups commits' (map_set p m)
  end.
(** [recentContributors] and [additionalContributors], lines 58-61. *)
Definition contributors (commits : list (option person)) : option (list person * Z) :=
  match remove_dups commits [] with
  | None => None
  | Some unique => let recent := firstn 3 unique in Some (recent, Z.of_nat (length unique) - Z.of_nat (length recent))%Z
  end.
