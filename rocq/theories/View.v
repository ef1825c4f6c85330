(** * Model of the diagram on the main page
    mpp-front/src/pages/CPUTable/components/{RegisterNode,BusNode,LoadableNode,
    MemoryNode,FlagsNode,ALUNode}.tsx, StateTransition/index.tsx,
    hook/useUpdateEdges.ts, constants/{nodes,edges}.tsx and the notification of
    lib/core/index.ts:320-330.
    Every widget subscribes one [onUIUpdate]; a notification calls them all.  The
    edges a node finds are the objects of its first render (useUpdateEdges.ts:17,
    75), changed in place, so all nodes act on one list of edges, as here.
    Left out: layout, the blob of FlagsNode.tsx:17-38 (it depends on when React
    runs the updater functions), the debugger (Disasm.v), the cycle-time node,
    the text of numbers.  State setters take effect at once; React
    batches them, in order, so the state after the last one is the same.
    [None]: a getter is undefined. *)
From Coq Require Import ZArith List Bool String.
From Verif Require Import Word Prog Tables Components Machine Api.
Import ListNotations.
Open Scope list_scope.
Open Scope Z_scope.

(** ** constants/nodes.tsx *)
(** The exported functions named in [getFunction]. *)
Inductive getter := G_reg (r : regid) | G_state | G_data | G_ctl (pos : nat).
Definition call_getter (g : getter) (h : hstate) : option Z :=
  match g with
  | G_reg r => get_register_value r h
  | G_state => get_state h
  | G_data => get_data_bus h
  | G_ctl pos => get_control_bus pos h
  end.
(** [id], [data.getFunction], [data.controlBusBitLoad], [data.controlBusBitRelease]. *)
Record node := mkNode { n_id : string; n_get : option getter;
                        n_load : option (string * getter); n_release : option (string * getter) }.
(** constants/nodes.tsx:3-324, the nodes of types registerNode, loadableNode,
    memoryNode and busNode. *)
Definition nodes : list node :=
 [ mkNode "registers-bank" None (Some ("REGCAR", G_ctl REGCAR)) (Some ("REGBUS", G_ctl REGBUS));
   mkNode "rb" (Some (G_reg R_B)) None None;
   mkNode "rc" (Some (G_reg R_C)) None None;
   mkNode "rd" (Some (G_reg R_D)) None None;
   mkNode "re" (Some (G_reg R_E)) None None;
   mkNode "acum" (Some (G_reg R_AC)) (Some ("ACCAR", G_ctl ACCAR)) (Some ("ACBUS", G_ctl ACBUS));
   mkNode "2op" (Some (G_reg R_2OP)) (Some ("2OPCAR", G_ctl OP2CAR)) None;
   mkNode "pc" (Some (G_reg R_PC)) (Some ("PCCAR", G_ctl PCCAR)) None;
   mkNode "sp" (Some (G_reg R_SP)) (Some ("SPCAR", G_ctl SPCAR)) None;
   mkNode "h" (Some (G_reg R_H)) (Some ("HCAR", G_ctl HCAR)) None;
   mkNode "l" (Some (G_reg R_L)) (Some ("LCAR", G_ctl LCAR)) None;
   mkNode "8" None None None;
   mkNode "ri" (Some (G_reg R_RI)) (Some ("RICAR", G_ctl RICAR)) None;
   mkNode "8b" (Some G_state) None None;
   mkNode "memory" None None (Some ("MEMBUS", G_ctl MEMBUS));
   mkNode "databus" (Some G_data) None None ]%string.

(** ** constants/edges.tsx *)
(** The label is a text, followed by ": " and a number once it has been updated. *)
Record edge := mkEdge { e_id : string; e_source : string; e_target : string;
                        e_label : option (string * option Z); e_animated : bool; e_red : bool }.
(** constants/edges.tsx:3-310. *)
Definition edges0 : list edge :=
 [ mkEdge "databus-ri" "databus" "ri" None false false;
   mkEdge "databus-registersbank" "databus" "registers-bank" None false false;
   mkEdge "registersbank-databus" "registers-bank" "databus" None false false;
   mkEdge "databus-memory" "databus" "memory" None true false;
   mkEdge "memory-databus" "memory" "databus" None false false;
   mkEdge "databus-pc" "databus" "pc" None false false;
   mkEdge "databus-acum" "databus" "acum" None false false;
   mkEdge "acum-databus" "acum" "databus" None false false;
   mkEdge "databus-sp" "databus" "sp" None false false;
   mkEdge "databus-2op" "databus" "2op" None false false;
   mkEdge "databus-h" "databus" "h" None false false;
   mkEdge "databus-7" "databus" "l" None false false;
   mkEdge "acum-alu" "acum" "alu" (Some ("A"%string, None)) false false;
   mkEdge "2op-alu" "2op" "alu" (Some ("B"%string, None)) false false;
   mkEdge "alu-flagsfz" "alu" "flags" (Some ("FZ"%string, None)) false false;
   mkEdge "alu-flagsfc" "alu" "flags" (Some ("FC"%string, None)) false false ]%string.

(** ** hook/useUpdateEdges.ts:19-67 *)
(** [allEdges.map((edge) => edge.id === e.id ? e : edge)], lines 38-43 and 58-63. *)
Definition put_edge (e : edge) (l : list edge) : list edge :=
  map (fun x => if String.eqb (e_id x) (e_id e) then e else x) l.
(** lines 20-46; the boolean is false after the early return of line 26. *)
Definition update_load (n : node) (h : hstate) (l : list edge) : option (list edge * bool) :=
  match n_load n with
  | None => Some (l, true)
  | Some (lab, g) =>
    match call_getter g h with
    | None => None
    | Some v =>
      match find (fun e => String.eqb (e_target e) (n_id n)) l with
      | None => Some (l, false)
      | Some e => Some (put_edge (mkEdge (e_id e) (e_source e) (e_target e) (Some (lab, Some v)) (v =? 1) (v =? 1)) l, true)
      end
    end
  end.
(** lines 48-66. *)
Definition update_release (n : node) (h : hstate) (l : list edge) : option (list edge) :=
  match n_release n with
  | None => Some l
  | Some (lab, g) =>
    match call_getter g h with
    | None => None
    | Some v =>
      match find (fun e => String.eqb (e_source e) (n_id n)) l with
      | None => Some l
      | Some e => Some (put_edge (mkEdge (e_id e) (e_source e) (e_target e) (Some (lab, Some v)) (e_animated e) (e_red e)) l)
      end
    end
  end.
Definition update_edges (n : node) (h : hstate) (l : list edge) : option (list edge) :=
  match update_load n h l with
  | Some (l', true) => update_release n h l'
  | Some (l', false) => Some l'
  | None => None
  end.

(** ** StateTransition *)
Record entry := mkEntry { en_state : Z; en_op : string }.
(** StateTransition/constants.json, whole file. *)
Definition state_details : list entry :=
 [ mkEntry 0 "RI ← (PC), PC + 1";
   mkEntry 1 "DECODE";
   mkEntry 2 "2OP ← RF";
   mkEntry 3 "RD ← 2OP";
   mkEntry 4 "AC ← 2OP";
   mkEntry 5 "AC ← AC+2OP";
   mkEntry 6 "AC ← AC-2OP";
   mkEntry 7 "AC-2OP";
   mkEntry 8 "RD ← 2OP+1";
   mkEntry 9 "AC ← AC and 2OP";
   mkEntry 10 "AC ← AC or 20P";
   mkEntry 11 "AC ← AC ⨁ 20P";
   mkEntry 12 "20P ← AC";
   mkEntry 13 "AC ← 20P + 1";
   mkEntry 14 "AC ← not(AC)";
   mkEntry 15 "20P ← (PC), PC+ PC+1";
   mkEntry 16 "H ← (PC), PC ← PC+1";
   mkEntry 17 "L ← (PC), PC ← PC+1";
   mkEntry 18 "20P ← (HL)";
   mkEntry 19 "(HL) ← 20P";
   mkEntry 20 "PC ← HL";
   mkEntry 21 "H ← D";
   mkEntry 22 "L ← E";
   mkEntry 23 "AC ← Flags";
   mkEntry 24 "Flags ← AC";
   mkEntry 25 "INTA_IN ← 1";
   mkEntry 26 "SP ← SP-1";
   mkEntry 27 "(SP) ← Flags";
   mkEntry 28 "(SP) ← PCH";
   mkEntry 29 "(SP) ← PCL";
   mkEntry 30 "PC ← Dir INT";
   mkEntry 31 "SP ← SP+1";
   mkEntry 32 "PCL ← (SP)";
   mkEntry 33 "PCH ← (SP)";
   mkEntry 34 "Flags ← (SP)";
   mkEntry 35 "EOI ← 1";
   mkEntry 36 "(SP) ← AC";
   mkEntry 37 "AC ← (SP)";
   mkEntry 38 "SP ← HL";
   mkEntry 39 "RD ← 2OP";
   mkEntry 40 "SP ← SP-1";
   mkEntry 41 "SP ← SP+1";
   mkEntry 42 "SP ← SP-1";
   mkEntry 43 "SP ← SP+1";
   mkEntry 43 "RD ← 2OP" ]%string.
(** [maxItems], StateTransition/index.tsx:20. *)
Definition max_items : nat := 2.
(** [onUIUpdate], StateTransition/index.tsx:38-67.  The function subscribed is the
    one of the first render (the effect at lines 76-82 has no dependencies), in
    which [prevCurrentState] and [prevNextState] are undefined (usePrev.ts:8), so
    lines 42-43 never return.  Reading [stateDetails] past its end gives
    undefined, which would make the next render throw: [None]. *)
Definition push_states (cur next : Z) (l : list entry) : option (list entry) :=
  let arr := if (max_items <=? List.length l)%nat then skipn (List.length l - max_items) l else l in
  match nth_error state_details (Z.to_nat next), nth_error state_details (Z.to_nat cur) with
  | Some en, Some ec => Some (if (List.length l =? 0)%nat then arr ++ [ec; en] else arr ++ [en])
  | _, _ => None
  end.

(** ** ALUNode.tsx:12-21 *)
(** [SelAluOp[selAlu]]. *)
Definition sel_alu_op (v : Z) : option string :=
  nth_error ["SUM"; "SUB"; "AND"; "OR"; "XOR"; "NOT"; "TRANSPARENT"; "INCREMENT"]%string (Z.to_nat v).

(** ** The page *)
Record view := mkView {
  v_value : string -> Z;          (* value of each RegisterNode and BusNode *)
  v_blob : string -> bool;        (* changed *)
  v_edges : list edge;
  v_fz : bool; v_fc : bool;       (* FlagsNode *)
  v_alu : Z;                      (* ALUNode selAlu *)
  v_search : Z; v_le : Z;         (* MemoryNode searchValue, LE *)
  v_states : list entry           (* StateTransition states *)
}.
(** Initial states: RegisterNode.tsx:17-18, BusNode.tsx:15-16, FlagsNode.tsx:13-14,
    ALUNode.tsx:26, MemoryNode.tsx:93-95, StateTransition/index.tsx:23. *)
Definition view0 : view :=
  mkView (fun _ => 0) (fun _ => false) edges0 false false 0 0 1 [].

(** [onUIUpdate] of one node: RegisterNode.tsx:22-38 (BusNode.tsx:18-34) and
    useUpdateEdges.ts. *)
Definition update_node (n : node) (h : hstate) (v : view) : option view :=
  match match n_get n with
        | None => Some v
        | Some g => match call_getter g h with
                    | None => None
                    | Some out => Some (mkView (fun i => if String.eqb i (n_id n) then out else v_value v i)
                                              (fun i => if String.eqb i (n_id n) then negb (v_value v i =? out) else v_blob v i)
                                              (v_edges v) (v_fz v) (v_fc v) (v_alu v) (v_search v) (v_le v) (v_states v))
                    end
        end with
  | None => None
  | Some w => match update_edges n h (v_edges w) with
              | None => None
              | Some l => Some (mkView (v_value w) (v_blob w) l (v_fz w) (v_fc w) (v_alu w) (v_search w) (v_le w) (v_states w))
              end
  end.
Fixpoint update_nodes (ns : list node) (h : hstate) (v : view) : option view :=
  match ns with
  | [] => Some v
  | n :: ns' => match update_node n h v with Some w => update_nodes ns' h w | None => None end
  end.
(** [onUIUpdate] of FlagsNode.tsx:17-38, ALUNode.tsx:28-31, MemoryNode.tsx:100-104
    and StateTransition. *)
Definition update_others (h : hstate) (v : view) : option view :=
  match get_register_value R_FZ h, get_register_value R_FC h, get_control_bus_selalu h,
        get_memory_dir_bus h, get_control_bus LE h, get_next_state h, get_state h with
  | Some z, Some c, Some a, Some m, Some e, Some n, Some q =>
    match push_states q n (v_states v) with
    | Some l => Some (mkView (v_value v) (v_blob v) (v_edges v) (negb (z =? 0)) (negb (c =? 0)) a m e l)
    | None => None
    end
  | _, _, _, _, _, _, _ => None
  end.
(** [notifyUpdateToSubscribers], lib/core/index.ts:320-322. *)
Definition refresh (h : hstate) (v : view) : option view :=
  match update_nodes nodes h v with Some w => update_others h w | None => None end.

(** What happens on the page: a call to the core (the callback registered by
    [createUpdateUICallback], lib/core/index.ts:324-330, runs when the call invokes
    it: linker/cu.c:141, linker/mem.c:65, linker/registers.c:103); a notification
    of RunButtons.tsx:128, 187; a number typed into the memory box
    (MemoryNode.tsx:114-117); the clear button (StateTransition/index.tsx:69-74). *)
Inductive event := Call (c : call) | Notify | Search (num : Z) | Clear.
Definition notifies (c : call) : bool :=
  match c with RunClock u => u | SetMem _ _ => true | SetPc _ => true | _ => false end.
Definition page := (hstate * view)%type.
Definition happen (e : event) (p : page) : option page :=
  let '(h, v) := p in
  match e with
  | Call c => match do_call c h with
              | None => None
              | Some h' => if notifies c then match refresh h' v with Some v' => Some (h', v') | None => None end
                           else Some (h', v)
              end
  | Notify => match refresh h v with Some v' => Some (h, v') | None => None end
  | Search num => Some (h, mkView (v_value v) (v_blob v) (v_edges v) (v_fz v) (v_fc v) (v_alu v) num (v_le v) (v_states v))
  | Clear => Some (h, mkView (v_value v) (v_blob v) (v_edges v) (v_fz v) (v_fc v) (v_alu v) (v_search v) (v_le v) [])
  end.
Fixpoint happens (es : list event) (p : page) : option page :=
  match es with
  | [] => Some p
  | e :: es' => match happen e p with Some p' => happens es' p' | None => None end
  end.

(** ** MemoryNode.tsx:20-90 *)
(** How the compiled core receives a JavaScript integer for an [int] parameter. *)
Definition to_int32 (z : Z) : Z := (z + 2 ^ 31) mod 2 ^ 32 - 2 ^ 31.
(** The three rows (address, value), the highlighted one marked; a row whose value
    is -1 is not rendered (line 31).  Numbers above 2^53 are left out. *)
Definition mem_row (h : hstate) (a : Z) (hi : bool) : option (list (Z * Z * bool)) :=
  match get_memory_value (to_int32 a) h with
  | None => None
  | Some x => Some (if x =? -1 then [] else [(a, x, hi)])
  end.
Definition mem_rows (h : hstate) (offset : Z) : option (list (Z * Z * bool)) :=
  match mem_row h (offset - 1) false, mem_row h offset true, mem_row h (offset + 1) false with
  | Some a, Some b, Some c => Some (a ++ b ++ c)
  | _, _, _ => None
  end.
