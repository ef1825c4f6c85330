(** * Model of the loading of the core and of the page's subscriptions
    mpp-front/src/lib/core/index.ts.  Left out: the console, and the toasts that
    show what the core prints. *)
From Coq Require Import ZArith List Bool.
From Verif Require Import Prog Api.
Import ListNotations.
Open Scope Z_scope.

(** [mppCore] (line 7), and how many calls of [connectBackend] wait for their module
    (line 258), and for their turn after it was loaded (line 279).  Every load gives
    a new module with its own memory; the one it replaces is lost. *)
Record page := mkPage { core : option hstate; loading : nat; loaded : nat }.
Definition page0 : page := mkPage None 0 0.

Inductive conn_event :=
| Connect                   (* [connectBackend] up to its first await, lines 274-279 *)
| Ready                     (* a module was loaded: the rest of [loadInstance], lines 258-270 *)
| Continue (rnd : Z -> Z)   (* the rest of [connectBackend], lines 280-288; [rnd]: results of rand *)
| Disconnect                (* [disconnectBackend], lines 291-299 *)
| Use (c : call).           (* a call through [getCore] or [execute], lines 301-310 *)

(** [None] is undefined behaviour in the core.  A thrown error leaves everything as it is. *)
Definition conn_act (e : conn_event) (p : page) : option page :=
  match e with
  | Connect => Some (match core p with
                     | Some _ => p
                     | None => mkPage None (S (loading p)) (loaded p)
                     end)
  | Ready => Some (match loading p with
                   | O => p
                   | S n => mkPage (Some boot) n (S (loaded p))
                   end)
  | Continue rnd =>
      match loaded p with
      | O => Some p
      | S n => match core p with
               | None => Some (mkPage None (loading p) n)        (* "MppCore not loaded" *)
               | Some h => match run_calls [Init rnd; SetUi true] h with
                           | Some h' => Some (mkPage (Some h') (loading p) n)
                           | None => None
                           end
               end
      end
  | Disconnect =>
      match core p with
      | None => Some p
      | Some h => match do_call Shutdown h with
                  | Some _ => Some (mkPage None (loading p) (loaded p))
                  | None => None
                  end
      end
  | Use c =>
      match core p with
      | None => Some p                                           (* "MppCore not loaded" *)
      | Some h => match do_call c h with
                  | Some h' => Some (mkPage (Some h') (loading p) (loaded p))
                  | None => None
                  end
      end
  end.
Fixpoint conn_acts (l : list conn_event) (p : page) : option page :=
  match l with
  | [] => Some p
  | e :: l' => match conn_act e p with Some p' => conn_acts l' p' | None => None end
  end.

(** ** [uiUpdatesSubscriptions], lines 9, 312-322: a JavaScript set, in order of
    insertion.  Callbacks are numbered; simplified: a callback does not subscribe
    or unsubscribe anything while it runs (those of the page do not). *)
Definition subscribe (f : nat) (s : list nat) : list nat := if existsb (Nat.eqb f) s then s else s ++ [f].
Definition unsubscribe (f : nat) (s : list nat) : list nat := filter (fun g => negb (Nat.eqb f g)) s.
(** The calls made by [notifyUpdateToSubscribers]. *)
Definition notify (s : list nat) : list nat := s.
Inductive sub_event := Subscribe (f : nat) | Unsubscribe (f : nat).
Definition sub_act (e : sub_event) (s : list nat) : list nat :=
  match e with Subscribe f => subscribe f s | Unsubscribe f => unsubscribe f s end.
Definition sub_acts (l : list sub_event) : list nat := fold_left (fun s e => sub_act e s) l [].
