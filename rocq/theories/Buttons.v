(** * Model of the run buttons, with everything that may happen between two cycles
    mpp-front/src/pages/CPUTable/components/RunButtons.tsx, mpp-front/src/pages/Coder/index.tsx.
    JavaScript runs one event at a time: a loop gives way at each [await sleep],
    and between two iterations the user may press Stop or use the editor.
    Simplified: in immediate mode ([cycleTime] 0) the loop gives way only before
    its first cycle and when the "running too long" dialog is open; here it may
    give way after any cycle, which adds schedules and removes none.  The Stop
    button of that dialog (lines 149-158, 174-178) is [PressStop].  Notifications
    are in [View.v]. *)
From Coq Require Import ZArith List Bool.
From Verif Require Import Prog Api Front.
Import ListNotations.
Open Scope Z_scope.

(** [Starting]: in the sleep of line 104, before the loop of immediate mode. *)
Inductive kind := Program (immediate : bool) | Instruction | Starting.
(** The loop in progress: [_running.current] (line 64) and [stoping] (line 116). *)
Record loop := mkLoop { lkind : kind; going : bool; stoping : bool }.
(** The core, and the loop if one is in progress ([running], line 63). *)
Definition ustate := (hstate * option loop)%type.

(** One pass through the body of [while (_running.current)]: lines 120-124
    (program) and 82-85 (instruction). *)
Definition iterate (k : kind) (st : bool) (h : hstate) : option ustate :=
  match match k with Starting => Program true | _ => k end with
  | Program im =>
    match do_call (RunClock (negb im)) h with
    | None => None
    | Some h1 => if st then Some (h1, None)
                 else match get_register_value R_RI h1 with
                      | None => None
                      | Some v => Some (h1, Some (mkLoop (Program im) true (v =? max_representable)))
                      end
    end
  | Instruction =>
    match do_call (RunClock true) h with
    | None => None
    | Some h1 => match get_next_state h1 with
                 | None => None
                 | Some q => Some (h1, if q =? 0 then None else Some (mkLoop Instruction true false))
                 end
    end
  | Starting => None   (* never: replaced above *)
  end.

Inductive uevent :=
| PressProgram (immediate : bool)     (* lines 91-123 *)
| PressInstruction                    (* lines 74-85 *)
| PressState                          (* lines 68-72 *)
| Wake                                (* the sleep of line 85, 104 or 124 ends *)
| PressStop                           (* lines 208-213 *)
| Save (bytes : list Z)               (* Coder/index.tsx:29-38; the offset is 0, CodeEditor.tsx:66, 186 *)
| SetPcTo (x : Z).                    (* CodeEditor.tsx:123-125 *)

(** A disabled button does nothing: lines 247, 257, 267 ([running]), 275. *)
Definition act (e : uevent) (s : ustate) : option ustate :=
  let '(h, lo) := s in
  match e, lo with
  | PressProgram false, None => iterate (Program false) false h
  | PressProgram true, None => Some (h, Some (mkLoop Starting true false))   (* line 104 *)
  | PressInstruction, None => iterate Instruction false h
  | PressState, None => match do_call (RunClock true) h with Some h1 => Some (h1, None) | None => None end
  | Wake, Some l => if going l then iterate (lkind l) (stoping l) h else Some (h, None)
  | PressStop, Some (mkLoop Starting _ _) => Some (h, lo)   (* line 113 sets [_running.current] to true again *)
  | PressStop, Some l => Some (h, Some (mkLoop (lkind l) false (stoping l)))
  | Save bytes, _ => match save_to_memory 0 bytes h with Some h1 => Some (h1, lo) | None => None end
  | SetPcTo x, _ => match do_call (SetPc x) h with Some h1 => Some (h1, lo) | None => None end
  | _, _ => Some (h, lo)
  end.
Fixpoint acts (es : list uevent) (s : ustate) : option ustate :=
  match es with
  | [] => Some s
  | e :: es' => match act e s with Some s' => acts es' s' | None => None end
  end.
