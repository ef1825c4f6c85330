(** * Model of the start of the page
    mpp-front/src/App.tsx, with [connectBackend] of Connect.v.  React draws with the states
    set so far and then runs the effects whose values changed.  Simplified: the callbacks
    of [then] and [catch] run together with the end of the promise they wait for. *)
From Coq Require Import ZArith List Bool.
From Verif Require Import Prog Api Connect.
Import ListNotations.
Open Scope Z_scope.

(** The core; the values given last to [setCoreLoaded] and [setReady] and those of the last
    drawing (App.tsx:44-45); the times when timers were set (line 49); the time, in ms. *)
Record apage := mkApp {
  conn : Connect.page; set_loaded : bool; set_ready : bool; core_loaded : bool; is_ready : bool; timers : list Z; now : Z }.
Definition app0 : apage := mkApp page0 false false false false [] 0.

Inductive aevent :=
| Mount                     (* the first effects, App.tsx:47-60 *)
| Loaded                    (* the module of one call has been loaded *)
| Failed                    (* the module of one call cannot be loaded: lib/core/index.ts:258 throws *)
| Start (rnd : Z -> Z)      (* the rest of that call, with its [then] or [catch] *)
| Draw                      (* React draws, App.tsx:47-50 and 62-72 *)
| Pass (d : Z)              (* [d] milliseconds pass *)
| Timer                     (* the oldest timer runs, if it is due *)
| Use (c : call).           (* a call of the table, which is only there when drawn, line 65 *)

Definition with_conn (c : Connect.page) (a : apage) : apage :=
  mkApp c (set_loaded a) (set_ready a) (core_loaded a) (is_ready a) (timers a) (now a).
Definition loaded_is (b : bool) (a : apage) : apage :=
  mkApp (conn a) b (set_ready a) (core_loaded a) (is_ready a) (timers a) (now a).
(** [None] is undefined behaviour in the core. *)
Definition conn_do (e : conn_event) (a : apage) : option apage :=
  match conn_act e (conn a) with Some c => Some (with_conn c a) | None => None end.
Definition app_act (e : aevent) (a : apage) : option apage :=
  match e with
  | Mount =>                                     (* App.tsx:53-59; a core already there: lib/core/index.ts:274-277 *)
      match core (conn a) with
      | Some _ => Some (loaded_is true a)
      | None => conn_do Connect a
      end
  | Loaded => conn_do Connect.Ready a
  | Failed =>                                    (* App.tsx:57-59 *)
      match loading (conn a) with
      | O => Some a
      | S n => Some (loaded_is false (with_conn (mkPage (core (conn a)) n (loaded (conn a))) a))
      end
  | Start rnd =>
      match loaded (conn a), core (conn a) with
      | O, _ => Some a
      | S _, None => match conn_do (Continue rnd) a with Some a' => Some (loaded_is false a') | None => None end
      | S _, Some _ => match conn_do (Continue rnd) a with Some a' => Some (loaded_is true a') | None => None end
      end
  | Draw =>                                      (* the effect of lines 47-50 runs when [coreLoaded] changed *)
      Some (mkApp (conn a) (set_loaded a) (set_ready a) (set_loaded a) (set_ready a)
             (if set_loaded a && negb (core_loaded a) then timers a ++ [now a] else timers a) (now a))
  | Pass d => Some (mkApp (conn a) (set_loaded a) (set_ready a) (core_loaded a) (is_ready a) (timers a) (now a + d))
  | Timer =>                                     (* line 49 *)
      match timers a with
      | [] => Some a
      | t :: r => if t + 1000 <=? now a then Some (mkApp (conn a) (set_loaded a) true (core_loaded a) (is_ready a) r (now a)) else Some a
      end
  | Use c => if core_loaded a then conn_do (Connect.Use c) a else Some a
  end.
Fixpoint app_acts (l : list aevent) (a : apage) : option apage :=
  match l with
  | [] => Some a
  | e :: l' => match app_act e a with Some a' => app_acts l' a' | None => None end
  end.
(** What is drawn, App.tsx:64-69: the welcome screen, the table, whether it is hidden. *)
Definition welcome (a : apage) : bool := negb (is_ready a).
Definition table (a : apage) : bool := core_loaded a.
Definition table_hidden (a : apage) : bool := negb (is_ready a).
