(** * Model: the whole page while the buttons are used
    The run buttons and the editor ([Buttons.v]) make calls to the core; the core and the
    buttons notify the widgets ([View.v]).  Here the two are put together, with what the
    memory box (mpp-front/src/pages/CPUTable/components/MemoryNode.tsx) and the debugger
    (components/DebuggerNode/index.tsx) have drawn: both read memory only when they are drawn,
    and keep that until they are drawn again.
    Simplified: a widget given the value it has is not drawn again (React may draw it once
    more; that is a [Redraw]); the notifications during one event draw in their order. *)
From Coq Require Import String ZArith NArith List Bool.
From Verif Require Import JsStr Prog Api Front Disasm NumBox View Buttons.
Import ListNotations.
Open Scope list_scope.
Open Scope Z_scope.

(** ** DebuggerNode/index.tsx:123-127, 47-66 *)
(** [searchValue]; the box with [offsetPadding]; the rows drawn last. *)
Record panel := mkPanel { p_at : Z; p_box : numbox; p_rows : deduct_result }.
(** [execute("get_memory_value", _)]. *)
Definition core_memory (h : hstate) (o : Z) : Z := match get_memory_value o h with Some v => v | None => -1 end.
(** Lines 59-62. *)
Definition draw_panel (h : hstate) (p_at : Z) (b : numbox) : panel :=
  mkPanel p_at b (deduct (core_memory h) (p_at - number b) (p_at + number b)).
(** Line 16. *)
Definition max_padding : Z := 50.
(** The panel when the page appears, lines 124-126. *)
Definition panel0 (h : hstate) : panel := draw_panel h 0 (new_box 10 DEC).

(** ** The screen *)
Record screen := mkScreen {
  core : hstate; running : option loop;
  widgets : view;
  memory_rows : list (Z * Z * bool);    (* drawn by MemoryComponent *)
  debugger : panel }.
Definition draw_memory (h : hstate) (v : view) : option (list (Z * Z * bool)) := mem_rows h (v_search v).

(** The calls and notifications an event of [Buttons.v] causes, in order: RunButtons.tsx:70,
    82, 120, 187 (lines 128 and 149-158 are [Too_long] and [PressStop]); Coder/index.tsx:30-36;
    CodeEditor.tsx:123-125. *)
Definition causes (e : uevent) (lo : option loop) : list event :=
  match e, lo with
  | PressProgram false, None => [Call (RunClock true)]
  | PressInstruction, None => [Call (RunClock true)]
  | PressState, None => [Call (RunClock true)]
  | Wake, Some (mkLoop Starting true _) => [Call (RunClock false)]
  | Wake, Some (mkLoop Instruction true _) => [Call (RunClock true)]
  | Wake, Some (mkLoop (Program im) true st) => Call (RunClock (negb im)) :: if im && st then [Notify] else []
  | Wake, Some (mkLoop (Program true) false _) => [Notify]
  | Save bytes, _ => Call ResetControl :: map Call (store_from 0 bytes)
  | SetPcTo x, _ => [Call (SetPc x)]
  | _, _ => []
  end.
(** Whether the widgets are told: those with [createUpdateUICallback]'s callback. *)
Definition tells (e : event) : bool := match e with Call c => notifies c | Notify => true | _ => false end.
(** One of these calls, on the page: the widgets, MemoryNode.tsx:100-104 and
    DebuggerNode/index.tsx:130-133. *)
Definition cause (e : event) (s : screen) : option screen :=
  match happen e (core s, widgets s) with
  | None => None
  | Some (h, v) =>
    if tells e
    then match get_register_value R_PC h, draw_memory h v with
         | Some x, Some m => Some (mkScreen h (running s) v m (draw_panel h x (p_box (debugger s))))
         | _, _ => None
         end
    else Some (mkScreen h (running s) v (memory_rows s) (debugger s))
  end.
Fixpoint all_causes (es : list event) (s : screen) : option screen :=
  match es with [] => Some s | e :: r => match cause e s with Some s' => all_causes r s' | None => None end end.

Inductive sevent :=
| User (e : uevent)
| Too_long                 (* the "running too long" dialog opens: RunButtons.tsx:127-128 *)
| Look (n : Z)             (* a number typed into the memory box: MemoryNode.tsx:114-117 *)
| Clear_states             (* StateTransition/index.tsx:69-74 *)
| Padding (b : box_event)  (* the box of the debugger: DebuggerNode/index.tsx:143-150 *)
| Redraw.                  (* the diagram draws both nodes again *)

Definition sact (e : sevent) (s : screen) : option screen :=
  match e with
  | User u =>
    match act u (core s, running s), all_causes (causes u (running s)) s with
    | Some (_, lo), Some s' => Some (mkScreen (core s') lo (widgets s') (memory_rows s') (debugger s'))
    | _, _ => None
    end
  | Too_long => match running s with Some (mkLoop (Program true) _ _) => cause Notify s | _ => Some s end
  | Look n =>
    if n =? v_search (widgets s) then Some s else
    match happen (Search n) (core s, widgets s) with
    | Some (h, v) => match draw_memory h v with Some m => Some (mkScreen h (running s) v m (debugger s)) | None => None end
    | None => None
    end
  | Clear_states => cause Clear s
  | Padding b =>
    match box_act (Some max_padding) b (p_box (debugger s)) with
    | None => None
    | Some x =>
      if (number x =? number (p_box (debugger s))) && (radix (nbase x) =? radix (nbase (p_box (debugger s))))
      then Some (mkScreen (core s) (running s) (widgets s) (memory_rows s) (mkPanel (p_at (debugger s)) x (p_rows (debugger s))))
      else Some (mkScreen (core s) (running s) (widgets s) (memory_rows s) (draw_panel (core s) (p_at (debugger s)) x))
    end
  | Redraw =>
    match draw_memory (core s) (widgets s) with
    | Some m => Some (mkScreen (core s) (running s) (widgets s) m (draw_panel (core s) (p_at (debugger s)) (p_box (debugger s))))
    | None => None
    end
  end.
(** The page appears, App.tsx:56-66 after lib/core/index.ts: the core is ready. *)
Definition screen0 (h : hstate) : option screen :=
  match draw_memory h view0 with Some m => Some (mkScreen h None view0 m (panel0 h)) | None => None end.
