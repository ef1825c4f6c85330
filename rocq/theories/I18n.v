(** * Model: the texts of the pages in the chosen language
    [mpp-front/src/lib/i18n/index.ts], [mpp-front/src/components/i18n.tsx].
    Simplified: a text is represented by the table and the key it is found under;
    the [options] and [format] arguments, which no page passes, are left out; effects
    run with the rendering that causes them. *)
From Coq Require Import String List Bool Arith.
From Verif Require Import I18nTable.
Import ListNotations.
Open Scope string_scope.
Open Scope list_scope.

Inductive table := T_eu | T_en | T_es.
(** index.ts:29-40. *)
Definition language_data (l : string) : table :=
  if String.eqb l "eu" then T_eu else if String.eqb l "en" then T_en else if String.eqb l "es" then T_es else T_en.
Definition keys (t : table) : list string := match t with T_eu => keys_eu | T_en => keys_en | T_es => keys_es end.
(** A text found in a table, or [undefined]. *)
Definition text := option (table * string).
(** index.ts:42-45. *)
Definition loc (k l : string) : text :=
  if existsb (String.eqb k) (keys (language_data l)) then Some (language_data l, k) else None.

(** A listener: the component that registered it, and the key its closure captured. *)
Record listener := mkListener { owner : nat; captured : string }.
(** One mounted component: its number, the key it is given, the text it shows. *)
Record shown_text := mkText { num : nat; given : string; shows : text }.
(** index.ts:13-18: listeners and active language; the mounted components. *)
Record texts := mkTexts { lang : string; listeners : list listener; mounted : list shown_text }.

(** index.ts:51-53. *)
Definition on_change (c : listener) (l : list listener) : list listener := l ++ [c].
(** [indexOf]: closures are compared by identity, one per owner. *)
Fixpoint index_of (n : nat) (l : list listener) : option nat :=
  match l with
  | [] => None
  | c :: l' => if Nat.eqb (owner c) n then Some 0 else option_map S (index_of n l')
  end.
Fixpoint remove_at (i : nat) (l : list listener) : list listener :=
  match l, i with [], _ => [] | _ :: l', 0 => l' | c :: l', S i' => c :: remove_at i' l' end.
(** index.ts:53-55; [splice(-1, 1)] removes the last one. *)
Definition remover (n : nat) (l : list listener) : list listener :=
  match index_of n l with Some i => remove_at i l | None => remove_at (length l - 1) l end.
(** i18n.tsx:13-16,42-45: a listener sets the text of its own component, if it is
    still mounted. *)
Definition set_text (n : nat) (x : text) (m : list shown_text) : list shown_text :=
  map (fun s => if Nat.eqb (num s) n then mkText (num s) (given s) x else s) m.
(** index.ts:20-23. *)
Definition notify (l : string) (ls : list listener) (m : list shown_text) : list shown_text :=
  fold_left (fun m c => set_text (owner c) (loc (captured c) l) m) ls m.

Inductive tevent := Mount (n : nat) (k : string) | Give (n : nat) (k : string) | Unmount (n : nat) | SetLanguage (l : string).
(** i18n.tsx:4-21 (and 33-52): mounting runs both effects, a new key runs the first
    one only, unmounting removes the listener. *)
Definition happen_text (e : tevent) (t : texts) : texts :=
  match e with
  | Mount n k => mkTexts (lang t) (on_change (mkListener n k) (listeners t)) (mounted t ++ [mkText n k (loc k (lang t))])
  | Give n k => mkTexts (lang t) (listeners t)
      (map (fun s => if Nat.eqb (num s) n then (if String.eqb (given s) k then s else mkText n k (loc k (lang t))) else s) (mounted t))
  | Unmount n => mkTexts (lang t) (remover n (listeners t)) (filter (fun s => negb (Nat.eqb (num s) n)) (mounted t))
  | SetLanguage l => mkTexts l (listeners t) (notify l (listeners t) (mounted t))
  end.
Fixpoint happen_texts (l : list tevent) (t : texts) : texts :=
  match l with [] => t | e :: l' => happen_texts l' (happen_text e t) end.
Definition no_texts (l : string) : texts := mkTexts l [] [].
