(** * Model of the run buttons in time
    mpp-front/src/pages/CPUTable/components/RunButtons.tsx with mpp-front/src/lib/utils.ts:1-15,
    statement by statement, with the clock, the stored cycle time, the Stop button's
    [disabled] and the "running too long" question.
    JavaScript runs one event at a time.  A loop gives way at each [await]; an [await] of
    [sleep(0)] (utils.ts:2) goes on before any other event of the page is handled.
    Simplified: the cycle time is a whole number of milliseconds; the effect of lines
    215-217 only repeats what lines 79, 88, 113 and 193 have done or are about to do. *)
From Coq Require Import ZArith List Bool.
From Verif Require Import Prog Api Front.
Import ListNotations.
Open Scope Z_scope.

(** What [new Date().getTime()] answers at lines 107, 126, 175, 181, 182 and 191. *)
Record clock := mkClock { t_start : Z; t_now : Z; t_refused : Z; t_check : Z; t_resume : Z; t_end : Z }.
(** line 22. *)
Definition max_time : Z := 10 * 1000.

(** The [await] a program's run waits at. *)
Inductive wait :=
| Toast                 (* line 104 *)
| Between               (* line 124 *)
| Asking (now : Z)      (* line 130; [now] of line 126 *)
| Dismissing (now : Z). (* line 180 *)
(** The variables of [handleRunProgram]: [isRuningInmediate] as it was when the button
    was pressed, [cycleTime], [start], [lastCheck], [_running.current], [stoping]. *)
Record prun := mkRun { p_im : bool; p_cycle : Z; p_start : Z; p_check : Z; p_going : bool; p_stoping : bool; p_wait : wait }.
Inductive task := Prun (p : prun) | Irun (cycle : Z) (going : bool).

(** What can be observed, in order. *)
Inductive obs :=
| Started (t : Z) (im : bool)   (* line 107 *)
| Cycled (ui : bool)            (* a clock cycle, drawn on the page or not: lines 70, 82, 120 *)
| Looked (t : Z)                (* line 126 *)
| Redrawn                       (* lines 128, 187 *)
| Asked (t : Z)                 (* lines 130-172 *)
| Refused (t : Z)               (* line 175 *)
| Resumed (check t : Z)         (* lines 181, 182 *)
| Ended (t : Z)                 (* line 191 *)
| Time (x : Z).                 (* line 202 *)

(** The core, the stored cycle time and "measure" switch, [isRuningInmediate] (line 65),
    the run in progress ([running], line 63), what was observed. *)
Record rstate := mkR { core : hstate; cycle : Z; immediate : bool; measure : bool; running : option task; log : list obs }.
Definition with_run (h : hstate) (r : option task) (l : list obs) (s : rstate) : rstate :=
  mkR h (cycle s) (immediate s) (measure s) r (log s ++ l).

(** lines 186-205. *)
Definition finish (h : hstate) (p : prun) (c : clock) (l : list obs) (s : rstate) : rstate :=
  with_run h None (l ++ (if p_im p then [Redrawn] else []) ++ [Ended (t_end c)] ++
    (if measure s then [Time (t_end c - p_start p)] else [])) s.
(** lines 119-124, up to the [await]. *)
Definition turn (h : hstate) (p : prun) (c : clock) (l : list obs) (s : rstate) : option rstate :=
  if negb (p_going p) then Some (finish h p c l s) else
  match do_call (RunClock (negb (p_im p))) h with
  | None => None
  | Some h1 =>
    if p_stoping p then Some (finish h1 p c (l ++ [Cycled (negb (p_im p))]) s) else
    match get_register_value R_RI h1 with
    | None => None
    | Some v => Some (with_run h1 (Some (Prun (mkRun (p_im p) (p_cycle p) (p_start p) (p_check p) true (v =? max_representable) Between)))
                        (l ++ [Cycled (negb (p_im p))]) s)
    end
  end.
(** lines 107-124. *)
Definition begin (im : bool) (c : clock) (s : rstate) : option rstate :=
  turn (core s) (mkRun im (cycle s) (t_start c) (t_start c) true false Between) c [Started (t_start c) im] s.
(** lines 126-130, and round the loop. *)
Definition look (p : prun) (c : clock) (s : rstate) : option rstate :=
  if (t_now c - p_check p >? max_time) && p_im p
  then Some (with_run (core s) (Some (Prun (mkRun (p_im p) (p_cycle p) (p_start p) (p_check p) (p_going p) (p_stoping p) (Asking (t_now c)))))
               [Looked (t_now c); Redrawn; Asked (t_now c)] s)
  else turn (core s) p c [Looked (t_now c)] s.
(** lines 180-182, and round the loop. *)
Definition resume (p : prun) (now : Z) (c : clock) (s : rstate) : option rstate :=
  turn (core s) (mkRun (p_im p) (p_cycle p) (p_start p + (t_resume c - now)) (t_check c) (p_going p) (p_stoping p) Between) c
    [Resumed (t_check c) (t_resume c)] s.
(** lines 174-178, 186-205. *)
Definition refuse (p : prun) (now : Z) (c : clock) (s : rstate) : rstate :=
  finish (core s) (mkRun (p_im p) (p_cycle p) (p_start p + (t_refused c - now)) (p_check p) (p_going p) true Between) c [Refused (t_refused c)] s.
(** lines 81-89. *)
Definition iturn (h : hstate) (ct : Z) (going : bool) (s : rstate) : option rstate :=
  if negb going then Some (with_run h None [] s) else
  match do_call (RunClock true) h with
  | None => None
  | Some h1 => match get_next_state h1 with
               | None => None
               | Some q => Some (with_run h1 (if q =? 0 then None else Some (Irun ct true)) [Cycled true] s)
               end
  end.

Inductive revent :=
| PressProgram (c : clock) | PressInstruction | PressState
| Elapse (c : clock)                  (* the [sleep] waited at is over by itself *)
| PressStop (c : clock)
| Answer (continue : bool) (c : clock)
| SetCycle (n : Z)                    (* the settings drawer of this page, with the listener of line 228 *)
| SetMeasure (b : bool)
| OtherTab (n : Z)                    (* the settings drawer of another tab of the same browser *)
| Save (bytes : list Z) | SetPcTo (x : Z).
Definition set_going (p : prun) (g : bool) : prun := mkRun (p_im p) (p_cycle p) (p_start p) (p_check p) g (p_stoping p) (p_wait p).

(** A disabled button does nothing: lines 247, 257, 267, 275. *)
Definition ract (e : revent) (s : rstate) : option rstate :=
  match e, running s with
  | PressProgram c, None =>
      if immediate s then Some (with_run (core s) (Some (Prun (mkRun true 0 0 0 true false Toast))) [] s)   (* lines 92-104 *)
      else begin false c s
  | PressInstruction, None => iturn (core s) (cycle s) true s
  | PressState, None => match do_call (RunClock true) (core s) with Some h => Some (with_run h None [Cycled true] s) | None => None end
  | Elapse c, Some (Prun p) =>
      match p_wait p with
      | Toast => begin (p_im p) c s
      | Between => look p c s
      | Asking _ => Some s
      | Dismissing now => resume p now c s
      end
  | Elapse c, Some (Irun ct g) => iturn (core s) ct g s
  | PressStop c, Some (Prun p) =>                     (* lines 208-213: the sleep waited at is over *)
      if immediate s then Some s else
      match p_wait p with
      | Toast => begin (p_im p) c s
      | Between => look (set_going p false) c s
      | Asking _ => Some (with_run (core s) (Some (Prun (set_going p false))) [] s)
      | Dismissing now => resume (set_going p false) now c s
      end
  | PressStop c, Some (Irun ct _) => if immediate s then Some s else iturn (core s) ct false s
  | Answer b c, Some (Prun p) =>
      match p_wait p with
      | Asking now => if b then Some (with_run (core s) (Some (Prun (mkRun (p_im p) (p_cycle p) (p_start p) (p_check p) (p_going p) (p_stoping p) (Dismissing now)))) [] s)
                      else Some (refuse p now c s)
      | _ => Some s
      end
  | SetCycle n, _ => Some (mkR (core s) n (n =? 0) (measure s) (running s) (log s))
  | SetMeasure b, _ => Some (mkR (core s) (cycle s) (immediate s) b (running s) (log s))
  | OtherTab n, _ => Some (mkR (core s) n (immediate s) (measure s) (running s) (log s))
  | Save bytes, _ => match save_to_memory 0 bytes (core s) with Some h => Some (with_run h (running s) [] s) | None => None end
  | SetPcTo x, _ => match do_call (SetPc x) (core s) with Some h => Some (with_run h (running s) [] s) | None => None end
  | _, _ => Some s
  end.
Fixpoint racts (es : list revent) (s : rstate) : option rstate :=
  match es with
  | [] => Some s
  | e :: es' => match ract e s with Some s' => racts es' s' | None => None end
  end.

(** The page waits at [sleep(0)]: nothing else is handled before it goes on. *)
Definition frozen (s : rstate) : bool :=
  match running s with
  | Some (Prun p) => match p_wait p with Between => p_cycle p =? 0 | _ => false end
  | Some (Irun ct _) => ct =? 0
  | None => false
  end.
Definition is_elapse (e : revent) : bool := match e with Elapse _ => true | _ => false end.
(** What the browser may deliver. *)
Definition possible (e : revent) (s : rstate) : bool := negb (frozen s) || is_elapse e.
(** The page at the start, lines 219-224. *)
Definition rstart (h : hstate) (n : Z) (m : bool) : rstate := mkR h n (n =? 0) m None [].
(** [story s es s']: the events [es], each possible when it comes, lead from [s] to [s']. *)
Inductive story (s : rstate) : list revent -> rstate -> Prop :=
| St_nil : story s [] s
| St_event : forall es s1 e s2, story s es s1 -> possible e s1 = true -> ract e s1 = Some s2 -> story s (es ++ [e]) s2.
