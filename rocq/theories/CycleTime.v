(** * Model: the time of a clock cycle, as measured and as shown
    mpp-cpu/src/lib/components/cu/cu.c:62-74, mpp-cpu/src/linker/cu.c:139-143,
    mpp-front/src/pages/CPUTable/components/RunButtons.tsx:23, 70, 82, 120,
    mpp-front/src/pages/CPUTable/components/CycleTimeNode/index.tsx.
    Simplified: the numbers are rational instead of floating point. *)
From Coq Require Import ZArith QArith List Bool.
From Verif Require Import Prog Api Front View Buttons Screen.
Import ListNotations.
Open Scope list_scope.

(** CLOCKS_PER_SEC of the compiled core. *)
Definition clocks_per_sec : positive := 1000000.
(** What [clock()] answers at cu.c:63 and cu.c:69 during one call. *)
Record readings := mkReadings { r_start : Z; r_end : Z }.
(** cu.c:70; the result of [run_clock_cycle], linker/cu.c:142. *)
Definition seconds (r : readings) : Q := ((r_end r - r_start r) # clocks_per_sec)%Q.

(** [clockCycleTime] (RunButtons.tsx:23) and [lastCycleTime] (CycleTimeNode/index.tsx:16). *)
Record timer := mkTimer { cycle_time : Q; last_cycle : Q }.
(** RunButtons.tsx:23; index.tsx:16. *)
Definition timer0 : timer := mkTimer (-1)%Q (-1)%Q.
(** [onUIUpdate], index.tsx:18-20. *)
Definition on_update (t : timer) : timer := mkTimer (cycle_time t) (cycle_time t * 1000)%Q.
(** One call or notification.  The callback runs inside the call (linker/cu.c:141); its
    result is assigned when the call has returned (RunButtons.tsx:70, 82, 120). *)
Definition time_cause (r : readings) (e : event) (t : timer) : timer :=
  match e with
  | Call (RunClock u) => let t := if u then on_update t else t in mkTimer (seconds r) (last_cycle t)
  | _ => if tells e then on_update t else t
  end.
(** index.tsx:53: the text of the bar; index.tsx:44-46: its tooltip, [None] is no tooltip. *)
Definition bar_text (t : timer) : Q := last_cycle t.
Definition tooltip (t : timer) : option Q := if Qeq_bool (last_cycle t) (-1)%Q then None else Some (last_cycle t).

(** What was done: a cycle with its readings, drawn or not; a notification outside a cycle. *)
Inductive done := Ran (r : readings) (drawn : bool) | Drawn.
Definition done_by (r : readings) (e : event) : list done :=
  match e with
  | Call (RunClock u) => [Ran r u]
  | _ => if tells e then [Drawn] else []
  end.

(** The core with the run in progress ([Buttons.v]), the timer, and what was done. *)
Record tstate := mkT { at_ : ustate; time : timer; history : list done }.
Inductive tevent :=
| TUser (u : uevent) (r : readings)     (* every event causes at most one cycle: its readings *)
| TLong.                                (* the "running too long" dialog: RunButtons.tsx:128 *)
Definition tact (e : tevent) (s : tstate) : option tstate :=
  match e with
  | TUser u r =>
    let l := causes u (snd (at_ s)) in
    match act u (at_ s) with
    | Some s' => Some (mkT s' (fold_left (fun t e => time_cause r e t) l (time s)) (history s ++ flat_map (done_by r) l))
    | None => None
    end
  | TLong => match snd (at_ s) with
             | Some (mkLoop (Program true) _ _) => Some (mkT (at_ s) (on_update (time s)) (history s ++ [Drawn]))
             | _ => Some s
             end
  end.
Fixpoint tacts (l : list tevent) (s : tstate) : option tstate :=
  match l with [] => Some s | e :: l' => match tact e s with Some s' => tacts l' s' | None => None end end.
(** The page appears with the core [h]. *)
Definition topen (h : hstate) : tstate := mkT (h, None) timer0 [].
