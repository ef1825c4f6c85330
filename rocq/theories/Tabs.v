(** * Model and specification: the simulator open in several tabs (C102)
    The tabs of a browser share one [localStorage] (storage.ts:1-17); each has its own
    React state.  The code listens to no [storage] event of the browser: its own listeners
    (Settings.tsx:32-53) live in one page and are called by the drawer of that page, so a
    tab sees a change made by another when it next reads the key.  Simplified: actions of
    different tabs happen one at a time. *)
From Coq Require Import ZArith NArith QArith List Bool.
From Verif Require Import JsStr Settings.
Import ListNotations.
Open Scope list_scope.

Definition put {A} (i : nat) (v : A) (f : nat -> A) : nat -> A := fun j => if Nat.eqb j i then v else f j.

(** ** Model *)
Record browser := mkBrowser { shared : storage; tab : nat -> option page }.
Inductive tevent := Open (i : nat) (nav : str) | Close (i : nat) | Do (i : nat) (e : sevent).
(** The page of an open tab, with the storage it would read now. *)
Definition page_of (b : browser) (i : nat) : option page := option_map (with_stored (shared b)) (tab b i).
Definition tstep (b : browser) (e : tevent) : browser :=
  match e with
  | Open i nav => let p := load nav (shared b) in mkBrowser (stored p) (put i (Some p) (tab b))
  | Close i => mkBrowser (shared b) (put i None (tab b))
  | Do i e =>
      match page_of b i with
      | None => b
      | Some p => let p' := happen e p in mkBrowser (stored p') (put i (Some p') (tab b))
      end
  end.
Definition tabs (l : list tevent) : browser := fold_left tstep l (mkBrowser empty_storage (fun _ => None)).

(** ** Specification: the settings in force for everybody, and those each tab shows *)
Record face := mkFace { f_lang : str; f_base : str; f_cycle : Q; f_measure : bool; f_code : str }.
(** One choice.  A number out of range is refused; an emptied field means 500. *)
Definition choose (e : sevent) (f : face) : face :=
  match e with
  | PickLanguage x => mkFace x (f_base f) (f_cycle f) (f_measure f) (f_code f)
  | PickBase b => mkFace (f_lang f) b (f_cycle f) (f_measure f) (f_code f)
  | TypeCycle NaN => mkFace (f_lang f) (f_base f) 500 (f_measure f) (f_code f)
  | TypeCycle (Fin q) => if Qle_bool 0 q && Qle_bool q 5000 then mkFace (f_lang f) (f_base f) q (f_measure f) (f_code f) else f
  | SwitchMeasure c => mkFace (f_lang f) (f_base f) (f_cycle f) c (f_code f)
  | KeepCode t => mkFace (f_lang f) (f_base f) (f_cycle f) (f_measure f) t
  | _ => f
  end.
(** In force for everybody (nothing before the first tab is opened); the choices of each
    open tab on top of what was in force when it was loaded; whether the tour has been
    offered or its switch used, in whatever tab. *)
Record faces := mkFaces { everybody : option face; mine : nat -> option face; toured_somewhere : bool }.
Definition fstep (s : faces) (e : tevent) : faces :=
  match e with
  | Open i nav =>
      let f := match everybody s with Some f => f | None => mkFace nav s_HEX 500 true [] end in
      mkFaces (Some f) (put i (Some f) (mine s)) (toured_somewhere s)
  | Close i => mkFaces (everybody s) (put i None (mine s)) (toured_somewhere s)
  | Do i e =>
      match mine s i with
      | None => s
      | Some f =>
          match e with
          | Reload _ => mkFaces (everybody s) (put i (everybody s) (mine s)) (toured_somewhere s)
          | _ => mkFaces (option_map (choose e) (everybody s)) (put i (Some (choose e f)) (mine s))
                   (toured_somewhere s || match e with Ready | SwitchTour _ => true | _ => false end)
          end
      end
  end.
Definition told (l : list tevent) : faces := fold_left fstep l (mkFaces None (fun _ => None) false).
