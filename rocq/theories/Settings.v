(** * Model: stored settings and the settings drawer
    [mpp-front/src/lib/storage.ts], [pages/CPUTable/components/Settings.tsx], and the
    places that read settings: [lib/i18n/index.ts:17-18],
    [pages/CPUTable/components/RunButtons.tsx:74-78,108-112,194-198,219-233],
    [pages/CPUTable/index.tsx:73-81].
    Simplified: nothing else writes the browser's storage (several tabs: Tabs.v; no clearing
    by hand); the stored texts are represented by the values they parse to. *)
From Coq Require Import ZArith NArith QArith List Bool.
From Verif Require Import JsStr.
Import ListNotations.
Open Scope list_scope.

(** JavaScript numbers a number field can hold: a finite number or NaN (the value of
    [valueAsNumber] of an empty or malformed field). *)
Inductive num := NaN | Fin (q : Q).
Inductive value := V_num (n : num) | V_str (s : str) | V_bool (b : bool) | V_null.
(** Settings.tsx:16-22, CodeEditor.tsx:37: the keys. *)
Inductive key := K_cycle | K_base | K_language | K_onboarding | K_measure | K_code.
Definition key_eqb (a b : key) : bool :=
  match a, b with
  | K_cycle, K_cycle | K_base, K_base | K_language, K_language | K_onboarding, K_onboarding
  | K_measure, K_measure | K_code, K_code => true
  | _, _ => false
  end.
Definition storage := key -> option value.
Definition empty_storage : storage := fun _ => None.
(** [JSON.parse(JSON.stringify(v))]: NaN becomes null. *)
Definition json (v : value) : value := match v with V_num NaN => V_null | _ => v end.
(** storage.ts:1-10 (the state update is made by the callers below). *)
Definition set_stored (k : key) (v : value) (st : storage) : storage :=
  fun k' => if key_eqb k k' then Some (json v) else st k'.
(** storage.ts:12-17. *)
Definition get_stored (k : key) (d : value) (st : storage) : value * storage :=
  match st k with
  | Some V_null | None => (d, set_stored k d st)
  | Some v => (v, st)
  end.
(** Settings.tsx:24-30. *)
Definition s_HEX : str := [72; 69; 88]%N.
Definition s_es : str := [101; 115]%N.
Definition default (k : key) : value :=
  match k with
  | K_cycle => V_num (Fin 500)
  | K_base => V_str s_HEX
  | K_language => V_str s_es
  | K_onboarding => V_num (Fin 1)
  | K_measure => V_num (Fin 1)
  | K_code => V_str []
  end.
(** JavaScript truth, [!v] and [v === 0]. *)
Definition truthy (v : value) : bool :=
  match v with
  | V_num NaN => false
  | V_num (Fin q) => negb (Qeq_bool q 0)
  | V_str s => match s with [] => false | _ => true end
  | V_bool b => b
  | V_null => false
  end.
Definition is_zero (v : value) : bool := match v with V_num (Fin q) => Qeq_bool q 0 | _ => false end.

(** One page: the storage, the texts' language, the states of the drawer's five
    controls, RunButtons' [isRuningInmediate], whether the tour is open, whether the
    table has been shown ([hidden] false), whether the drawer is open. *)
Record page := mkPage {
  stored : storage; active : value; box : value; base_sel : value; lang_sel : value;
  tour_switch : value; measure_switch : value; immediate : bool; tour : bool; shown : bool; drawer : bool }.

(** Loading the page with navigator language [nav]: the i18n module (index.ts:17-18),
    then the drawer's [useState]s (Settings.tsx:56-81), then RunButtons' effect
    (RunButtons.tsx:219-228). *)
Definition load (nav : str) (st : storage) : page :=
  let (la, st) := get_stored K_language (V_str nav) st in
  let (cy, st) := get_stored K_cycle (default K_cycle) st in
  let (ba, st) := get_stored K_base (default K_base) st in
  let (ln, st) := get_stored K_language (default K_language) st in
  let (ob, st) := get_stored K_onboarding (default K_onboarding) st in
  let (me, st) := get_stored K_measure (default K_measure) st in
  let (c2, st) := get_stored K_cycle (default K_cycle) st in
  mkPage st la cy ba ln ob me (is_zero c2) false false false.
(** CPUTable/index.tsx:73-81, once [hidden] has become false. *)
Definition ready (p : page) : page :=
  if shown p then p else
  let (w, st) := get_stored K_onboarding (default K_onboarding) (stored p) in
  mkPage (if truthy w then set_stored K_onboarding (V_bool (negb (truthy w))) st else st)
    (active p) (box p) (base_sel p) (lang_sel p) (tour_switch p) (measure_switch p) (immediate p) (truthy w) true (drawer p).
(** Settings.tsx:93-104; bounds of the field at 157-158; the only change listener is
    RunButtons.tsx:225-228. *)
Definition type_cycle (n : num) (p : page) : page :=
  let accept := mkPage (set_stored K_cycle (V_num n) (stored p)) (active p) (V_num n) (base_sel p) (lang_sel p)
    (tour_switch p) (measure_switch p) (is_zero (V_num n)) (tour p) (shown p) (drawer p) in
  match n with
  | NaN => accept
  | Fin q => if negb (Qle_bool q 5000) then p else if negb (Qle_bool 0 q) then p else accept
  end.
(** Settings.tsx:106-110. *)
Definition pick_base (b : str) (p : page) : page :=
  mkPage (set_stored K_base (V_str b) (stored p)) (active p) (box p) (V_str b) (lang_sel p)
    (tour_switch p) (measure_switch p) (immediate p) (tour p) (shown p) (drawer p).
(** Settings.tsx:112-119 with [setLanguage] of i18n/index.ts:20-23. *)
Definition pick_language (l : str) (p : page) : page :=
  mkPage (set_stored K_language (V_str l) (stored p)) (V_str l) (box p) (base_sel p) (V_str l)
    (tour_switch p) (measure_switch p) (immediate p) (tour p) (shown p) (drawer p).
(** Settings.tsx:121-129. *)
Definition switch_tour (c : bool) (p : page) : page :=
  let st := set_stored K_onboarding (V_bool c) (stored p) in
  let st := if c then set_stored K_onboarding (V_bool (negb c)) st else st in
  mkPage st (active p) (box p) (base_sel p) (lang_sel p)
    (if c then V_bool (negb c) else V_bool c) (measure_switch p) (immediate p) c (shown p) (negb c).
(** Settings.tsx:131-134. *)
Definition switch_measure (c : bool) (p : page) : page :=
  mkPage (set_stored K_measure (V_bool c) (stored p)) (active p) (box p) (base_sel p) (lang_sel p)
    (tour_switch p) (V_bool c) (immediate p) (tour p) (shown p) (drawer p).
Definition with_stored (st : storage) (p : page) : page :=
  mkPage st (active p) (box p) (base_sel p) (lang_sel p) (tour_switch p) (measure_switch p) (immediate p) (tour p) (shown p) (drawer p).
(** RunButtons.tsx:75-78,109-112: the wait between two cycles of a run started now. *)
Definition run_wait (p : page) : value * page :=
  let (v, st) := get_stored K_cycle (default K_cycle) (stored p) in (v, with_stored st p).
(** RunButtons.tsx:195-200: whether the time of a run that ends now is shown. *)
Definition run_measure (p : page) : bool * page :=
  let (v, st) := get_stored K_measure (default K_measure) (stored p) in (truthy v, with_stored st p).
(** MemoryNode.tsx:59-64: the base of the memory values drawn now. *)
Definition memory_base (p : page) : value * page :=
  let (v, st) := get_stored K_base (default K_base) (stored p) in (v, with_stored st p).
(** CodeEditor.tsx:61 and 37: the text being edited. *)
Definition keep_code (t : str) (p : page) : page := with_stored (set_stored K_code (V_str t) (stored p)) p.

(** What can happen to the pages of one browser, one after the other.  [Reload] leaves
    the page and loads it again; [Ready] is the end of the welcome screen. *)
Inductive sevent :=
| Reload (nav : str) | Ready | TypeCycle (n : num) | PickBase (b : str) | PickLanguage (l : str)
| SwitchTour (c : bool) | SwitchMeasure (c : bool) | StartRun | EndRun | DrawMemory | KeepCode (t : str) | CloseTour.
Definition happen (e : sevent) (p : page) : page :=
  match e with
  | Reload nav => load nav (stored p)
  | Ready => ready p
  | TypeCycle n => type_cycle n p
  | PickBase b => pick_base b p
  | PickLanguage l => pick_language l p
  | SwitchTour c => switch_tour c p
  | SwitchMeasure c => switch_measure c p
  | StartRun => snd (run_wait p)
  | EndRun => snd (run_measure p)
  | DrawMemory => snd (memory_base p)
  | KeepCode t => keep_code t p
  | CloseTour => mkPage (stored p) (active p) (box p) (base_sel p) (lang_sel p) (tour_switch p) (measure_switch p) (immediate p) false (shown p) (drawer p)
  end.
Fixpoint happens (l : list sevent) (p : page) : page :=
  match l with [] => p | e :: l' => happens l' (happen e p) end.
(** The first visit of a browser, with an empty storage. *)
Definition first_visit (nav : str) : page := load nav empty_storage.
