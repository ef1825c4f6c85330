(** * Model: the menu, the edit link, the theme and the transpiler page of the
    documentation (docs/src) *)
From Coq Require Import ZArith List Bool String Ascii.
Import ListNotations.
Open Scope string_scope.

(** ** The menu on the left *)
(** An element of [SIDEBAR[lang]], docs/src/config.ts:22-82: a header or a link. *)
Inductive entry := Header (text : string) | Link (text link : string).
(** A section of the menu: its title and its links. *)
Definition section : Type := string * list (string * string).
(** [col[col.length - 1].children.push(item)], LeftSidebar.astro:19; [None]: there
    is no section to push to (a TypeError). *)
Fixpoint push_last (x : string * string) (col : list section) : option (list section) :=
  match col with
  | [] => None
  | [(t, ch)] => Some [(t, (ch ++ [x])%list)]
  | s :: col' => option_map (cons s) (push_last x col')
  end.
(** The function given to [reduce], LeftSidebar.astro:8-22; [i] is its third argument. *)
Definition grouped (col : option (list section)) (i : nat) (item : entry) : option (list section) :=
  match col with
  | None => None
  | Some col =>
    let col := match i, item with O, Link _ _ => (col ++ [("", [])])%list | _, _ => col end in
    match item with
    | Header t => Some (col ++ [(t, [])])%list
    | Link t l => push_last (t, l) col
    end
  end.
Fixpoint reduce_from (i : nat) (col : option (list section)) (l : list entry) : option (list section) :=
  match l with [] => col | x :: l' => reduce_from (S i) (grouped col i x) l' end.
(** [sidebarSections], LeftSidebar.astro:8-22. *)
Definition sections (l : list entry) : option (list section) := reduce_from 0 (Some []) l.

(** [replace(/\..*/, '')], MainLayout.astro:12: [.] does not match a line break. *)
Definition is_break (c : ascii) : bool := (Ascii.eqb c "010" || Ascii.eqb c "013")%bool%char.
Fixpoint rest_of_line (s : string) : string :=
  match s with EmptyString => EmptyString | String c r => if is_break c then s else rest_of_line r end.
Fixpoint cut_dot (s : string) : string :=
  match s with EmptyString => EmptyString | String c r => if Ascii.eqb c "." then rest_of_line r else String c (cut_dot r) end.
(** [currentPage], MainLayout.astro:12. *)
Definition current_page (pathname : string) : string := cut_dot pathname.
(** [slice(1)], LeftSidebar.astro:5. *)
Definition slice1 (s : string) : string := match s with EmptyString => EmptyString | String _ r => r end.
(** [aria-current], LeftSidebar.astro:36. *)
Definition is_current (pathname link : string) : bool := String.eqb (slice1 (current_page pathname)) link.

(** ** The link to the source of the page *)
(** [replace(/\/$/, '')], MainLayout.astro:14. *)
Fixpoint drop_slash (s : string) : string :=
  match s with
  | EmptyString => EmptyString
  | String c EmptyString => if Ascii.eqb c "/" then EmptyString else s
  | String c r => String c (drop_slash r)
  end.
(** [split('.').pop()], MainLayout.astro:13: what follows the last dot, or all. *)
Fixpoint last_part (s : string) (acc : string) : string :=
  match s with EmptyString => acc | String c r => if Ascii.eqb c "." then last_part r r else last_part r acc end.
Definition extension (file : string) : string := last_part file file.
(** [currentFile] and [githubEditUrl], MainLayout.astro:14-15; GITHUB_EDIT_URL,
    config.ts:12. *)
Definition edit_url (pathname file : string) : string :=
  "https://github.com/nullxx/mpp/tree/master/docs/" ++ "src/pages" ++ drop_slash (current_page pathname) ++ "." ++ extension file.

(** ** The theme *)
(** What the browser keeps: [stored] is [localStorage.getItem('theme')], [prefers]
    the answer to [(prefers-color-scheme: dark)], [dark] whether the root element
    has the class [theme-dark], [on] the theme each hydrated pair of buttons holds
    ([useState]), by the order in which they appeared, and [ticked] the radio button that is checked
    (they all have the name [theme-toggle], so at most one is). *)
Record site := mkSite { stored : option string; prefers : bool; dark : bool; on : list string; ticked : option (nat * string) }.
(** A text that is not empty is true. *)
Definition truthy (o : option string) : option string := match o with Some "" => None | x => x end.
(** The script in the head, HeadCommon.astro:30-36. *)
Definition head_script (st : option string) (p : bool) : bool :=
  match truthy st with Some t => String.eqb t "dark" | None => p end.
(** Opening a page. *)
Definition open_page (s : site) : site := mkSite (stored s) (prefers s) (head_script (stored s) (prefers s)) [] None.
(** The initial state of the buttons, ThemeToggleButton.tsx:34-45. *)
Definition initial_theme (st : option string) (p : bool) : string :=
  match truthy st with Some t => t | None => if p then "dark" else "light" end.
(** The effect, ThemeToggleButton.tsx:47-54. *)
Definition effect (theme : string) : bool := negb (String.eqb theme "light").
Definition known (t : string) : bool := String.eqb t "light" || String.eqb t "dark".
(** A pair of buttons appears ([client:visible], MoreMenu.astro:36): its state, its
    effect, and its radio button that is checked, ThemeToggleButton.tsx:58-77. *)
Definition hydrate (s : site) : site :=
  let t := initial_theme (stored s) (prefers s) in
  mkSite (stored s) (prefers s) (effect t) (on s ++ [t]) (if known t then Some (List.length (on s), t) else ticked s).
Fixpoint put (i : nat) (t : string) (l : list string) : list string :=
  match i, l with
  | O, _ :: l' => t :: l'
  | S i', x :: l' => x :: put i' t l'
  | _, [] => []
  end.
(** A click on the radio button [t] of pair [i]: no event if it is checked already;
    [onChange], ThemeToggleButton.tsx:71-74; the effect runs only if the state changes. *)
Definition click (i : nat) (t : string) (s : site) : site :=
  match nth_error (on s) i with
  | None => s
  | Some old =>
    match ticked s with
    | Some (j, u) => if ((Nat.eqb i j && String.eqb t u)%bool) then s
      else mkSite (Some t) (prefers s) (if String.eqb old t then dark s else effect t) (put i t (on s)) (Some (i, t))
    | None => mkSite (Some t) (prefers s) (if String.eqb old t then dark s else effect t) (put i t (on s)) (Some (i, t))
    end
  end.
(** What can happen: a page is opened, a pair of buttons appears, one is clicked,
    the preference of the system changes. *)
Inductive happening := Opens | Appears | Clicks (i : nat) (t : string) | Prefers (p : bool).
Definition happens (e : happening) (s : site) : site :=
  match e with
  | Opens => open_page s
  | Appears => hydrate s
  | Clicks i t => if known t then click i t s else s
  | Prefers p => mkSite (stored s) p (dark s) (on s) (ticked s)
  end.
(** The first visit. *)
Definition visit (st : option string) (p : bool) : site := open_page (mkSite st p false [] None).

(** ** The transpiler page *)
(** The state of [Transpiler], Transpiler.tsx:7-8. *)
Record page (R E : Type) := mkPage { result : R; error : option E }.
Arguments mkPage {R E}. Arguments result {R E}. Arguments error {R E}.
(** The parser is in an empty submodule: any function that gives a result or throws. *)
Definition parser (R E : Type) : Type := string -> R + E.
(** The first render: [useState(parseCode(code, 0))]; [None]: the page is not shown. *)
Definition first {R E} (parse : parser R E) (code : string) : option (page R E) :=
  match parse code with inl r => Some (mkPage r None) | inr _ => None end.
(** [onChange], Transpiler.tsx:20-29: the states after each setter. *)
Definition change {R E} (parse : parser R E) (value : string) (p : page R E) : list (page R E) :=
  match parse value with
  | inl r => [mkPage r (error p); mkPage r None]
  | inr e => [mkPage (result p) (Some e)]
  end.
Definition changed {R E} (parse : parser R E) (value : string) (p : page R E) : page R E := last (change parse value p) p.
(** What is drawn, Transpiler.tsx:12-16, 32: the error, or the result. *)
Definition drawn {R E} (p : page R E) : R + E := match error p with Some e => inr e | None => inl (result p) end.
(** The tables, Transpiler.tsx:50-71, 84-98: [filter] to the rows that have a name,
    then those whose index is the [findIndex] of their name.  Formatting of the
    address is left out. *)
Fixpoint find_index (n : string) (l : list (string * Z)) : nat :=
  match l with [] => O | (m, _) :: l' => if String.eqb m n then O else S (find_index n l') end.
Definition table (l : list (option (string * Z))) : list (string * Z) :=
  let self := flat_map (fun o => match o with Some x => [x] | None => [] end) l in
  map snd (filter (fun ix => Nat.eqb (fst ix) (find_index (fst (snd ix)) self)) (combine (seq 0 (List.length self)) self)).
