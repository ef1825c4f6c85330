(** * Static variables, life cycle and exported functions (linker/, components/)
    The whole program state: the pubsub heap, the static [Bus_t *] and
    [PubSubSubscription *] variables, the registers, the memory array, the
    watcher list, the clock tick, the update-UI pointer, the error log.
    [None] is undefined behaviour.
    Not modelled here: [srand]/[time] and the debug log lines of init/shutdown
    (linker.c:36-37, 48), the elapsed time returned by [run_clock_cycle], and
    whatever the update-UI callback does (it is only required to be non-NULL; it
    is assumed not to call back into the functions that change state). *)
From Coq Require Import ZArith List Bool.
From Verif Require Import Word Prog Tables Components Machine LinkedList PubSub.
Import ListNotations.
Open Scope Z_scope.

(** [mem.values], mem.c:23: NULL, freed, or an array of [mem_size] cells. *)
Inductive memory := NoMem | FreedMem | Mem (f : Z -> Z).

Record hstate := mkH {
  ps : pstate;                      (* buses and subscriptions *)
  bp : busid -> option nat;         (* static Bus_t * variables *)
  sp : busid -> option nat;         (* static PubSubSubscription * variables *)
  hr : regid -> Word;               (* static Register variables *)
  hm : memory;                      (* mem.values *)
  wl : list regid;                  (* list at watcher.c:21 [head]; a RegisterWatcher is named by its register *)
  tick : bool;                      (* last_clock_tick, clock.c:11 *)
  ui : bool;                        (* update_ui != NULL, linker.c:28 *)
  hl : list msg                     (* notices, newest first *)
}.

Definition set_ps (h : hstate) x := mkH x (bp h) (sp h) (hr h) (hm h) (wl h) (tick h) (ui h) (hl h).
Definition set_bp (h : hstate) x := mkH (ps h) x (sp h) (hr h) (hm h) (wl h) (tick h) (ui h) (hl h).
Definition set_sp (h : hstate) x := mkH (ps h) (bp h) x (hr h) (hm h) (wl h) (tick h) (ui h) (hl h).
Definition set_hr (h : hstate) x := mkH (ps h) (bp h) (sp h) x (hm h) (wl h) (tick h) (ui h) (hl h).
Definition set_hm (h : hstate) x := mkH (ps h) (bp h) (sp h) (hr h) x (wl h) (tick h) (ui h) (hl h).
Definition set_wl (h : hstate) x := mkH (ps h) (bp h) (sp h) (hr h) (hm h) x (tick h) (ui h) (hl h).
Definition set_tick (h : hstate) x := mkH (ps h) (bp h) (sp h) (hr h) (hm h) (wl h) x (ui h) (hl h).
Definition set_ui (h : hstate) x := mkH (ps h) (bp h) (sp h) (hr h) (hm h) (wl h) (tick h) x (hl h).
Definition set_hl (h : hstate) x := mkH (ps h) (bp h) (sp h) (hr h) (hm h) (wl h) (tick h) (ui h) x.

(** Program start: static storage is zero-initialised, pointers are NULL. *)
Definition boot : hstate :=
  mkH ps0 (fun _ => None) (fun _ => None) (fun _ => zero_word) NoMem [] false false [].

Definition get_bus (h : hstate) (b : busid) : option bus :=
  match bp h b with Some a => hb (ps h) a | None => None end.

(** The statements of the component code over the heap. *)
Fixpoint hexec (p : prog) (h : hstate) : option hstate :=
  match p with
  | Done => Some h
  | Upd b k => match update_bus_data (bp h b) (ps h) with
               | Some p' => hexec k (set_ps h p')
               | None => None
               end
  | Cur b k => match get_bus h b with Some x => hexec (k (bcur x)) h | None => None end
  | Nxt b k => match get_bus h b with Some x => hexec (k (bnxt x)) h | None => None end
  | Pub t w k => match publish_message_to t w (ps h) with
                 | Some (p', _) => hexec k (set_ps h p')
                 | None => None
                 end
  | RdR r k => hexec (k (hr h r)) h
  | WrR r w k => hexec k (set_hr h (rset (hr h) r w))
  | LdM o k => if valid_offset o
               then match hm h with Mem f => hexec (k (Some (f o))) h | _ => None end
               else hexec (k None) h
  | StM o v k => if valid_offset o
                 then match hm h with Mem f => hexec k (set_hm h (Mem (mset f o v))) | _ => None end
                 else None
  | Notice m k => hexec k (set_hl h (m :: hl h))
  | Undef => None
  end.

(** ** Life-cycle statements *)
Inductive lstmt : Set :=
| FillMem               (* fill_memory(), mem.c:38-50 *)
| FreeMem               (* unfill_memory(), mem.c:52 *)
| Zero (r : regid)      (* initialize_word(&r.value, 0) *)
| Create (b : busid)    (* b = create_bus_data() *)
| Sub (b : busid)       (* b_subscription = subscribe_to(topic of b, b) *)
| Unsub (b : busid)     (* unsubscribe_for(b_subscription) *)
| Destroy (b : busid)   (* destroy_bus_data(b) *)
| Watch (r : regid)     (* register_watcher(&r_watcher), watcher.c:22-34 *)
| Unwatch (r : regid).  (* unregister_watcher(&r_watcher), watcher.c:36-39 *)

(** [random_int(0, 255)], utils.c:26-29, called at mem.c:45, where [r] is what
    [rand()] returned. *)
Definition random_int (r min max : Z) : Z := Z.rem r max + min.

Fixpoint remove_reg (r : regid) (l : list regid) : list regid :=
  match l with
  | [] => []
  | x :: l' => if regid_eqb x r then l' else x :: remove_reg r l'
  end.

(** [rnd i] is what [rand()] returns when cell [i] is filled. *)
Definition lexec (rnd : Z -> Z) (c : lstmt) (h : hstate) : option hstate :=
  match c with
  | FillMem => Some (set_hm h (Mem (fun i => random_int (rnd i) 0 255)))
  | FreeMem => match hm h with
               | NoMem => Some h
               | FreedMem => None
               | Mem _ => Some (set_hm h FreedMem)
               end
  | Zero r => Some (set_hr h (rset (hr h) r zero_word))
  | Create b => let '(p, a) := create_bus_data (ps h) in
                Some (set_bp (set_ps h p) (bset (bp h) b (Some a)))
  | Sub b => let '(p, i) := subscribe_to (topic_of b) (bp h b) (ps h) in
             Some (set_sp (set_ps h p) (bset (sp h) b (Some i)))
  | Unsub b => match unsubscribe_for (sp h b) (ps h) with
               | Some (p, _) => Some (set_ps h p)
               | None => None
               end
  | Destroy b => match destroy_bus_data (bp h b) (ps h) with
                 | Some p => Some (set_ps h p)
                 | None => None
                 end
  | Watch r => Some (set_wl h (wl h ++ [r]))
  | Unwatch r => Some (set_wl h (remove_reg r (wl h)))
  end.
Fixpoint lrun (rnd : Z -> Z) (l : list lstmt) (h : hstate) : option hstate :=
  match l with
  | [] => Some h
  | c :: l' => match lexec rnd c h with Some h' => lrun rnd l' h' | None => None end
  end.

Definition creates c ts := map (fun t => Create (B c t)) ts.
Definition subs c ts := map (fun t => Sub (B c t)) ts.
Definition unsubs c ts := map (fun t => Unsub (B c t)) ts.
Definition destroys c ts := map (fun t => Destroy (B c t)) ts.
Definition Qs := [T_Q5; T_Q4; T_Q3; T_Q2; T_Q1; T_Q0].
Definition Ds := [T_D5; T_D4; T_D3; T_D2; T_D1; T_D0].

(** mem.c:54-74 *)
Definition init_mem := FillMem :: creates K_MEM [T_DATA; T_DIR2; T_CONTROL] ++ subs K_MEM [T_DATA; T_DIR2; T_CONTROL].
Definition shutdown_mem := FreeMem :: unsubs K_MEM [T_DATA; T_DIR2; T_CONTROL] ++ destroys K_MEM [T_DATA; T_DIR2; T_CONTROL].
(** mxdir.c:33-58 *)
Definition init_mxdir := creates K_MXDIR [T_PCO; T_SPO; T_HLO; T_FFFCO; T_CONTROL] ++ subs K_MXDIR [T_PCO; T_SPO; T_HLO; T_FFFCO; T_CONTROL].
Definition shutdown_mxdir := unsubs K_MXDIR [T_PCO; T_SPO; T_HLO; T_FFFCO; T_CONTROL] ++ destroys K_MXDIR [T_PCO; T_SPO; T_HLO; T_FFFCO; T_CONTROL].
(** addsub.c:56-68 *)
Definition init_addsub := creates K_ADDSUB [T_DIR2; T_CONTROL] ++ subs K_ADDSUB [T_DIR2; T_CONTROL].
Definition shutdown_addsub := unsubs K_ADDSUB [T_DIR2; T_CONTROL] ++ destroys K_ADDSUB [T_DIR2; T_CONTROL].
(** sp.c:33-50 *)
Definition init_sp := Zero R_SP :: creates K_SP [T_DIR1; T_CONTROL] ++ subs K_SP [T_DIR1; T_CONTROL] ++ [Watch R_SP].
Definition shutdown_sp := Unwatch R_SP :: unsubs K_SP [T_DIR1; T_CONTROL] ++ destroys K_SP [T_DIR1; T_CONTROL].
(** pc.c:41-70 *)
Definition init_pc := [Zero R_PCH; Zero R_PCL; Zero R_PC] ++ creates K_PC [T_DIR1; T_DATA; T_CONTROL]
  ++ subs K_PC [T_DIR1; T_DATA; T_CONTROL] ++ [Watch R_PCH; Watch R_PCL; Watch R_PC].
Definition shutdown_pc := [Unwatch R_PCH; Unwatch R_PCL; Unwatch R_PC] ++ unsubs K_PC [T_DIR1; T_DATA; T_CONTROL]
  ++ destroys K_PC [T_DIR1; T_DATA; T_CONTROL].
(** hl.c:37-59 *)
Definition init_hl := [Zero R_H; Zero R_L] ++ creates K_HL [T_DATA; T_CONTROL] ++ subs K_HL [T_DATA; T_CONTROL] ++ [Watch R_H; Watch R_L].
Definition shutdown_hl := [Unwatch R_H; Unwatch R_L] ++ unsubs K_HL [T_DATA; T_CONTROL] ++ destroys K_HL [T_DATA; T_CONTROL].
(** alu.c:136-152 *)
Definition init_alu := creates K_ALU [T_ACO; T_OP2O; T_CONTROL] ++ subs K_ALU [T_ACO; T_OP2O; T_CONTROL].
Definition shutdown_alu := unsubs K_ALU [T_ACO; T_OP2O; T_CONTROL] ++ destroys K_ALU [T_ACO; T_OP2O; T_CONTROL].
(** acumm.c:33-51 *)
Definition init_acumm := Zero R_AC :: creates K_ACUMM [T_DATA; T_CONTROL] ++ subs K_ACUMM [T_DATA; T_CONTROL] ++ [Watch R_AC].
Definition shutdown_acumm := Unwatch R_AC :: unsubs K_ACUMM [T_DATA; T_CONTROL] ++ destroys K_ACUMM [T_DATA; T_CONTROL].
(** op2.c:31-49 *)
Definition init_op2 := Zero R_2OP :: creates K_OP2 [T_DATA; T_CONTROL] ++ subs K_OP2 [T_DATA; T_CONTROL] ++ [Watch R_2OP].
Definition shutdown_op2 := Unwatch R_2OP :: unsubs K_OP2 [T_DATA; T_CONTROL] ++ destroys K_OP2 [T_DATA; T_CONTROL].
(** mxreg.c:30-45 (the control bus and its subscription are not released) *)
Definition init_mxreg := creates K_MXREG [T_JNR1; T_JNR2; T_CONTROL] ++ subs K_MXREG [T_JNR1; T_JNR2; T_CONTROL].
Definition shutdown_mxreg := unsubs K_MXREG [T_JNR1; T_JNR2] ++ destroys K_MXREG [T_JNR1; T_JNR2].
(** greg.c:41-72 *)
Definition init_greg := [Zero R_B; Zero R_C; Zero R_D; Zero R_E] ++ creates K_GREG [T_DATA; T_SELREG; T_CONTROL]
  ++ subs K_GREG [T_DATA; T_SELREG; T_CONTROL] ++ [Watch R_B; Watch R_C; Watch R_D; Watch R_E].
Definition shutdown_greg := [Unwatch R_B; Unwatch R_C; Unwatch R_D; Unwatch R_E] ++ unsubs K_GREG [T_DATA; T_SELREG; T_CONTROL]
  ++ destroys K_GREG [T_DATA; T_SELREG; T_CONTROL].
(** mxfld7.c:27-35, mxfld0.c:25-33, controllers/mxfldx.c:38-57 *)
Definition init_mxfld7 := [Create (B K_MXFLD7 T_ALUFC); Sub (B K_MXFLD7 T_ALUFC)].
Definition shutdown_mxfld7 := [Unsub (B K_MXFLD7 T_ALUFC); Destroy (B K_MXFLD7 T_ALUFC)].
Definition init_mxfld0 := [Create (B K_MXFLD0 T_ALUFZ); Sub (B K_MXFLD0 T_ALUFZ)].
Definition shutdown_mxfld0 := [Unsub (B K_MXFLD0 T_ALUFZ); Destroy (B K_MXFLD0 T_ALUFZ)].
Definition cll_init_mxfldx := creates K_MXFLDX [T_DATA; T_CONTROL] ++ subs K_MXFLDX [T_DATA; T_CONTROL] ++ init_mxfld7 ++ init_mxfld0.
Definition cll_shutdown_mxfldx := unsubs K_MXFLDX [T_DATA; T_CONTROL] ++ destroys K_MXFLDX [T_DATA; T_CONTROL] ++ shutdown_mxfld7 ++ shutdown_mxfld0.
(** flags.c:37-63 *)
Definition init_flags := [Zero R_FC; Zero R_FZ] ++ creates K_FLAGS [T_MX7; T_MX0; T_CONTROL] ++ subs K_FLAGS [T_MX7; T_MX0; T_CONTROL] ++ [Watch R_FC; Watch R_FZ].
Definition shutdown_flags := [Unwatch R_FC; Unwatch R_FZ] ++ unsubs K_FLAGS [T_MX7; T_MX0; T_CONTROL] ++ destroys K_FLAGS [T_MX7; T_MX0; T_CONTROL].
(** controllers/flagsinta.c:29-42 *)
Definition cll_init_flagsinta := creates K_FLAGSINTA [T_FLAGS; T_CONTROL] ++ subs K_FLAGSINTA [T_FLAGS; T_CONTROL].
Definition cll_shutdown_flagsinta := unsubs K_FLAGSINTA [T_FLAGS; T_CONTROL] ++ destroys K_FLAGSINTA [T_FLAGS; T_CONTROL].
(** cu/seq_fgs_jnr.c:26-31, 50-55 *)
Definition init_cu_seq_b_jnr := creates K_SEQJNR [T_RIO; T_FLAGS] ++ subs K_SEQJNR [T_RIO; T_FLAGS].
Definition shutdown_cu_seq_b_jnr := unsubs K_SEQJNR [T_RIO; T_FLAGS] ++ destroys K_SEQJNR [T_RIO; T_FLAGS].
(** cu/mxreg_jnr.c:18-21, 39-43 *)
Definition init_cu_mxreg_jnr := [Create (B K_MXREGJNR T_RIO); Sub (B K_MXREGJNR T_RIO)].
Definition shutdown_cu_mxreg_jnr := [Unsub (B K_MXREGJNR T_RIO); Destroy (B K_MXREGJNR T_RIO)].
(** cu/seq.c:144-160, 241-257 *)
Definition init_cu_seq := creates K_SEQ (T_JOINER :: Qs) ++ subs K_SEQ (Qs ++ [T_JOINER]).
Definition shutdown_cu_seq := unsubs K_SEQ (T_JOINER :: Qs) ++ destroys K_SEQ (Qs ++ [T_JOINER]).
(** cu/dxflipflop.c:30-43, 61-75 *)
Definition init_cu_dxflipflop := creates K_DFF Ds ++ subs K_DFF Ds.
Definition shutdown_cu_dxflipflop := unsubs K_DFF Ds ++ destroys K_DFF Ds.
(** cu/rom.c:91-105, 140-154 *)
Definition init_cu_rom := creates K_ROM Qs ++ subs K_ROM Qs.
Definition shutdown_cu_rom := unsubs K_ROM Qs ++ destroys K_ROM Qs.
(** cu/cu.c:76-110 *)
Definition init_cu := Zero R_RI :: creates K_CU [T_DATA; T_FLAGS; T_CONTROL] ++ subs K_CU [T_DATA; T_FLAGS; T_CONTROL]
  ++ [Watch R_RI] ++ init_cu_seq_b_jnr ++ init_cu_mxreg_jnr ++ init_cu_seq ++ init_cu_dxflipflop ++ init_cu_rom.
Definition shutdown_cu := Unwatch R_RI :: shutdown_cu_seq_b_jnr ++ shutdown_cu_mxreg_jnr ++ shutdown_cu_seq
  ++ shutdown_cu_dxflipflop ++ shutdown_cu_rom
  ++ unsubs K_CU [T_DATA; T_FLAGS; T_CONTROL] ++ destroys K_CU [T_DATA; T_FLAGS; T_CONTROL].
(** linker/mem.c:25-33 *)
Definition init_linker_mem := [Create (B K_LMEM T_DIR2); Sub (B K_LMEM T_DIR2)].
Definition shutdown_linker_mem := [Unsub (B K_LMEM T_DIR2); Destroy (B K_LMEM T_DIR2)].
(** linker/cu.c:48-106 *)
Definition init_linker_cu := creates K_LCU (Qs ++ Ds) ++ subs K_LCU (Qs ++ Ds).
Definition shutdown_linker_cu := unsubs K_LCU (Qs ++ Ds) ++ destroys K_LCU (Qs ++ Ds).
(** linker/bus.c:16-30 *)
Definition init_linker_bus := creates K_LBUS [T_CONTROL; T_DATA] ++ subs K_LBUS [T_CONTROL; T_DATA].
Definition shutdown_linker_bus := unsubs K_LBUS [T_CONTROL; T_DATA] ++ destroys K_LBUS [T_CONTROL; T_DATA].
(** components.c:30-66 ([init_fffc]/[shutdown_fffc], fffc.c:17-18, are empty) *)
Definition init_components := init_mem ++ init_mxdir ++ init_addsub ++ init_sp ++ init_pc ++ init_hl ++ init_alu
  ++ init_acumm ++ init_op2 ++ init_mxreg ++ init_greg ++ cll_init_mxfldx ++ init_flags ++ cll_init_flagsinta ++ init_cu.
Definition shutdown_components := shutdown_mem ++ shutdown_mxdir ++ shutdown_addsub ++ shutdown_sp ++ shutdown_pc
  ++ shutdown_hl ++ shutdown_alu ++ shutdown_acumm ++ shutdown_op2 ++ shutdown_mxreg ++ shutdown_greg
  ++ cll_shutdown_mxfldx ++ shutdown_flags ++ cll_shutdown_flagsinta ++ shutdown_cu.
(** linker.c:35-53 *)
Definition init_list := init_components ++ init_linker_mem ++ init_linker_cu ++ init_linker_bus.
Definition shutdown_list := shutdown_linker_cu ++ shutdown_linker_mem ++ shutdown_linker_bus ++ shutdown_components.

(** ** Exported functions *)
(** [get_register], watcher.c:41-51: NULL when no watcher of that type is registered. *)
Definition get_register (r : regid) (h : hstate) : option Word :=
  if existsb (regid_eqb r) (wl h) then Some (hr h r) else None.

(** [init], linker.c:35-42. *)
Definition api_init (rnd : Z -> Z) (h : hstate) : option hstate := lrun rnd init_list h.
(** [shutdown], linker.c:47-53. *)
Definition api_shutdown (h : hstate) : option hstate := lrun (fun _ => 0) shutdown_list h.
(** [get_update_ui_fn()()], linker.c:60: calling NULL is undefined. *)
Definition call_update_ui (h : hstate) : option hstate := if ui h then Some h else None.

(** [run_cu_clock_cycle], cu/cu.c:62-74 with [get_clock_tick], clock.c:13-16.
    The tick alternates, so the loop ends in its second iteration at the latest:
    two units of fuel are enough. *)
Fixpoint clock_loop (fuel : nat) (h : hstate) : option hstate :=
  match fuel with
  | O => None
  | S f =>
    let h1 := set_tick h (negb (tick h)) in
    match hexec (if tick h1 then run_cu_1 else run_cu_0) h1 with
    | None => None
    | Some h2 => if tick h1 then Some h2 else clock_loop f h2
    end
  end.
Definition run_cu_clock_cycle (h : hstate) : option hstate := clock_loop 2 h.
(** [run_clock_cycle], linker/cu.c:139-143. *)
Definition api_run_clock_cycle (update : bool) (h : hstate) : option hstate :=
  match run_cu_clock_cycle h with
  | Some h' => if update then call_update_ui h' else Some h'
  | None => None
  end.
(** [reset_control], linker/cu.c:160-181. *)
Definition api_reset_control (h : hstate) : option hstate := hexec reset_control h.
(** [set_memory_value], linker/mem.c:63-66. *)
Definition api_set_memory_value (o v : Z) (h : hstate) : option hstate :=
  match hexec (set_memory_value o v) h with Some h' => call_update_ui h' | None => None end.
(** [set_register_pc], linker/registers.c:98-104. *)
Definition api_set_register_pc (v : Z) (h : hstate) : option hstate :=
  match get_register R_PC h with
  | None => None
  | Some _ => match hexec (set_register_pc v) h with Some h' => call_update_ui h' | None => None end
  end.

(** [get_register_*], linker/registers.c:23-93. *)
Definition get_register_value (r : regid) (h : hstate) : option Z :=
  match get_register r h with Some w => word_to_int w | None => None end.
(** [get_memory_value], linker/mem.c:52-58. *)
Definition get_memory_value (o : Z) (h : hstate) : option Z :=
  if valid_offset o then match hm h with Mem f => Some (f o) | _ => None end else Some (-1).
(** [get_memory_size], [get_memory_value_size_bits], linker/mem.c:38-47. *)
Definition get_memory_size : Z := 64 * 1024 * 8 / 8.
Definition get_memory_value_size_bits : Z := 8.
(** [get_memory_dir_bus], linker/mem.c:71. *)
Definition get_memory_dir_bus (h : hstate) : option Z :=
  match get_bus h (B K_LMEM T_DIR2) with Some b => word_to_int (bnxt b) | None => None end.
(** [get_data_bus], linker/bus.c:35. *)
Definition get_data_bus (h : hstate) : option Z :=
  match get_bus h (B K_LBUS T_DATA) with Some b => word_to_int (bnxt b) | None => None end.
(** [get_control_bus_*], linker/bus.c:40-95. *)
Definition get_control_bus (pos : nat) (h : hstate) : option Z :=
  match get_bus h (B K_LBUS T_CONTROL) with Some b => Some (Z.b2z (bit (bnxt b) pos)) | None => None end.
(** [get_control_bus_selalu], linker/bus.c:100-109. *)
Definition get_control_bus_selalu (h : hstate) : option Z :=
  match get_bus h (B K_LBUS T_CONTROL) with
  | Some b => word_to_int (lb3 (bnxt b) SELALU_0 SELALU_1 SELALU_2)
  | None => None
  end.
Definition read6 (h : hstate) (t5 t4 t3 t2 t1 t0 : topic) : option Z :=
  match get_bus h (B K_LCU t5), get_bus h (B K_LCU t4), get_bus h (B K_LCU t3),
        get_bus h (B K_LCU t2), get_bus h (B K_LCU t1), get_bus h (B K_LCU t0) with
  | Some b5, Some b4, Some b3, Some b2, Some b1, Some b0 =>
    word_to_int (state_word (bnxt b5) (bnxt b4) (bnxt b3) (bnxt b2) (bnxt b1) (bnxt b0))
  | _, _, _, _, _, _ => None
  end.
(** [get_state], linker/cu.c:108-120, 148-150. *)
Definition get_state (h : hstate) : option Z := read6 h T_Q5 T_Q4 T_Q3 T_Q2 T_Q1 T_Q0.
(** [get_next_state], linker/cu.c:122-134, 155. *)
Definition get_next_state (h : hstate) : option Z := read6 h T_D5 T_D4 T_D3 T_D2 T_D1 T_D0.

(** ** Histories of calls *)
Inductive call :=
| Init (rnd : Z -> Z)         (* init(); rnd = results of rand() *)
| Shutdown                    (* shutdown() *)
| SetUi (nonnull : bool)      (* linker_set_update_ui(f), linker.c:58 *)
| RunClock (update : bool)    (* run_clock_cycle(update) *)
| ResetControl                (* reset_control() *)
| SetMem (o v : Z)            (* set_memory_value(o, v) *)
| SetPc (v : Z).              (* set_register_pc(v) *)

Definition do_call (c : call) (h : hstate) : option hstate :=
  match c with
  | Init rnd => api_init rnd h
  | Shutdown => api_shutdown h
  | SetUi b => Some (set_ui h b)
  | RunClock u => api_run_clock_cycle u h
  | ResetControl => api_reset_control h
  | SetMem o v => api_set_memory_value o v h
  | SetPc v => api_set_register_pc v h
  end.
Fixpoint run_calls (l : list call) (h : hstate) : option hstate :=
  match l with
  | [] => Some h
  | c :: l' => match do_call c h with Some h' => run_calls l' h' | None => None end
  end.
