(** * Model: the logger and error reporting
    [mpp-cpu/src/lib/logger.c], [mpp-cpu/src/lib/error.c].
    Simplified: the time stamp, the file and the line are left out of a printed line;
    a message is an identifier (format and arguments are passed through unchanged);
    callbacks do not call the logger.  [None] is undefined behaviour. *)
From Coq Require Import ZArith List Bool.
Import ListNotations.
Open Scope Z_scope.

(** logger.c:24-39: the static state; a slot is free when its function is NULL. *)
Record slot := mkSlot { fn : option nat; udata : Z; slot_level : Z }.
Record logger := mkLogger { lock_fn : option nat; lock_udata : Z; level : Z; quiet : bool; slots : list slot }.
(** logger.c:24: MAX_CALLBACKS. *)
Definition max_callbacks : nat := 32.
(** logger.c:33-39: zero-initialised. *)
Definition logger0 : logger := mkLogger None 0 0 false (repeat (mkSlot None 0 0) max_callbacks).
(** What the outside sees. *)
Inductive output :=
| Printed (lv : Z) (msg : Z)                      (* a line on stderr *)
| Passed (f : nat) (u : Z) (lv : Z) (msg : Z)     (* a callback called *)
| Locked (f : nat) (b : bool) (u : Z)             (* the lock function called *)
| Perror (msg : Z).                               (* perror on stderr *)
(** logger.c:83-90. *)
Definition log_set_lock (f : option nat) (u : Z) (g : logger) : logger := mkLogger f u (level g) (quiet g) (slots g).
Definition log_set_level (lv : Z) (g : logger) : logger := mkLogger (lock_fn g) (lock_udata g) lv (quiet g) (slots g).
Definition log_set_quiet (q : bool) (g : logger) : logger := mkLogger (lock_fn g) (lock_udata g) (level g) q (slots g).
(** logger.c:92-100: the first free slot. *)
Fixpoint fill (s : slot) (l : list slot) : option (list slot) :=
  match l with
  | [] => None
  | x :: l' => match fn x with None => Some (s :: l') | Some _ => option_map (cons x) (fill s l') end
  end.
Definition log_add_callback (f : option nat) (u lv : Z) (g : logger) : Z * logger :=
  match fill (mkSlot f u lv) (slots g) with
  | Some l => (0, mkLogger (lock_fn g) (lock_udata g) (level g) (quiet g) l)
  | None => (-1, g)
  end.
(** logger.c:69-79. *)
Definition locking (b : bool) (g : logger) : list output :=
  match lock_fn g with Some f => [Locked f b (lock_udata g)] | None => [] end.
(** logger.c:41,46-58: [level_strings] has six entries. *)
Definition print (lv msg : Z) : option (list output) :=
  if (0 <=? lv) && (lv <=? 5) then Some [Printed lv msg] else None.
(** logger.c:135-143: up to the first free slot. *)
Fixpoint call_all (lv msg : Z) (l : list slot) : list output :=
  match l with
  | [] => []
  | x :: l' => match fn x with
               | None => []
               | Some f => (if slot_level x <=? lv then [Passed f (udata x) lv msg] else []) ++ call_all lv msg l'
               end
  end.
(** logger.h:31. *)
Definition LOG_INFO := 2.
Definition LOG_ERROR := 4.
Definition LOG_FATAL := 5.
(** logger.c:112-146; [debug]: compiled with DEBUG defined. *)
Definition log_log (debug : bool) (lv msg : Z) (g : logger) : option (list output) :=
  if negb debug && (negb (lv =? LOG_INFO) && negb (lv =? LOG_ERROR)) then Some [] else
  match (if negb (quiet g) && (level g <=? lv) then print lv msg else Some []) with
  | Some p => Some (locking true g ++ p ++ call_all lv msg (slots g) ++ locking false g)
  | None => None
  end.
(** error.h, error.c:17-51.  A NULL message is the identifier 0 of "An error ocurred";
    [true] in the result: the process exits. *)
Inductive error_type := FATAL_ERROR | NOTICE_ERROR | OTHER_ERROR.
Definition text_of (m : option Z) : Z := match m with Some x => x | None => 0 end.
Definition throw_error (debug : bool) (ty : error_type) (show_errno : bool) (m : option Z) (g : logger) : option (list output * bool) :=
  match ty with
  | FATAL_ERROR => option_map (fun o => (o, true)) (if show_errno then Some [Perror (text_of m)] else log_log debug LOG_FATAL (text_of m) g)
  | NOTICE_ERROR => option_map (fun o => (o, false)) (if show_errno then Some [Perror (text_of m)] else log_log debug LOG_ERROR (text_of m) g)
  | OTHER_ERROR => Some ([], false)
  end.
(** The calls a program makes to set the logger up. *)
Inductive lcall := SetLock (f : option nat) (u : Z) | SetLevel (lv : Z) | SetQuiet (q : bool) | AddCallback (f : option nat) (u lv : Z).
Definition lstep (c : lcall) (g : logger) : logger :=
  match c with
  | SetLock f u => log_set_lock f u g
  | SetLevel lv => log_set_level lv g
  | SetQuiet q => log_set_quiet q g
  | AddCallback f u lv => snd (log_add_callback f u lv g)
  end.
Definition lsteps (l : list lcall) : logger := fold_left (fun g c => lstep c g) l logger0.
