{"id": "C01", "title": "MOV copies the documented source to the documented destination", "statement": "Starting between two instructions, running clock cycles until get_next_state() is 0 again executes MOV (register to register, register to AC, AC to register, AC to AC, immediate to register, immediate to AC): the destination register reads back as the source value, PC moves past the instruction, and every other programmer register, both flags, SP and every memory cell are unchanged.", "quantifier": "every machine state reachable through the public API that sits between two instructions (every register, flag, memory and bus content), every memory content and every operand value", "why_tests_cant": "2^(8*65536) memories times all register contents; a test fixes one of them, and stale bus values left by earlier instructions make the state space history dependent", "anchors": ["mpp-cpu/src/lib/components/cu/cu.c:run_cu", "mpp-cpu/src/lib/components/cu/rom.c:ROM,run_cu_rom", "mpp-cpu/src/lib/components/cu/seq.c:truth_table,run_cu_seq", "mpp-cpu/src/linker/cu.c:run_clock_cycle,get_next_state", "mpp-cpu/src/lib/components/greg.c:run_greg", "mpp-cpu/src/lib/components/op2.c:run_op2", "docs/src/pages/es/instructions/MOV.mdx"]}
{"id": "C02", "title": "ADD adds modulo 256 and sets carry and zero", "statement": "Executing ADD (register, AC or immediate) from between two instructions leaves AC = (AC + X) mod 256, FC = 1 exactly when AC + X > 255, FZ = 1 exactly when the stored result is 0, PC past the instruction, and nothing else that the programmer can see changed.", "quantifier": "every machine state reachable through the public API that sits between two instructions (every register, flag, memory and bus content), every memory content and every operand value", "why_tests_cant": "2^(8*65536) memories times all register contents; a test fixes one of them, and stale bus values left by earlier instructions make the state space history dependent", "anchors": ["mpp-cpu/src/lib/components/cu/cu.c:run_cu", "mpp-cpu/src/lib/components/cu/rom.c:ROM,run_cu_rom", "mpp-cpu/src/lib/components/cu/seq.c:truth_table,run_cu_seq", "mpp-cpu/src/linker/cu.c:run_clock_cycle,get_next_state", "mpp-cpu/src/lib/components/alu.c:run_alu", "mpp-cpu/src/lib/components/flags.c:run_flags", "docs/src/pages/es/instructions/ADD.mdx"]}
{"id": "C03", "title": "SUB subtracts modulo 256 and CMP sets only the flags", "statement": "SUB leaves AC = (AC - X) mod 256; CMP leaves AC alone; both set FC = 1 exactly when AC < X and FZ = 1 exactly when AC = X; nothing else that the programmer can see changes except PC.", "quantifier": "every machine state reachable through the public API that sits between two instructions (every register, flag, memory and bus content), every memory content and every operand value", "why_tests_cant": "2^(8*65536) memories times all register contents; a test fixes one of them, and stale bus values left by earlier instructions make the state space history dependent", "anchors": ["mpp-cpu/src/lib/components/cu/cu.c:run_cu", "mpp-cpu/src/lib/components/cu/rom.c:ROM,run_cu_rom", "mpp-cpu/src/lib/components/cu/seq.c:truth_table,run_cu_seq", "mpp-cpu/src/linker/cu.c:run_clock_cycle,get_next_state", "mpp-cpu/src/lib/components/alu.c:run_alu", "docs/src/pages/es/instructions/SUB.mdx", "docs/src/pages/es/instructions/CMP.mdx"]}
{"id": "C04", "title": "AND, OR, XOR and CMA are bitwise on 8 bits and clear carry", "statement": "AND/OR/XOR/CMA leave in AC, for every bit position, the boolean combination of the operands' bits at that position; FC becomes 0, FZ tells whether the result is 0, nothing else visible changes except PC.", "quantifier": "every machine state reachable through the public API that sits between two instructions (every register, flag, memory and bus content), every memory content and every operand value", "why_tests_cant": "2^(8*65536) memories times all register contents; a test fixes one of them, and stale bus values left by earlier instructions make the state space history dependent", "anchors": ["mpp-cpu/src/lib/components/cu/cu.c:run_cu", "mpp-cpu/src/lib/components/cu/rom.c:ROM,run_cu_rom", "mpp-cpu/src/lib/components/cu/seq.c:truth_table,run_cu_seq", "mpp-cpu/src/linker/cu.c:run_clock_cycle,get_next_state", "mpp-cpu/src/lib/components/alu.c:run_alu"]}
{"id": "C05", "title": "INC increments modulo 256", "statement": "INC r / INC AC leave (old + 1) mod 256 in the named register, FZ = result is 0, FC = 0 (even on the 255 to 0 wrap), everything else visible unchanged except PC.", "quantifier": "every machine state reachable through the public API that sits between two instructions (every register, flag, memory and bus content), every memory content and every operand value", "why_tests_cant": "2^(8*65536) memories times all register contents; a test fixes one of them, and stale bus values left by earlier instructions make the state space history dependent", "anchors": ["mpp-cpu/src/lib/components/cu/cu.c:run_cu", "mpp-cpu/src/lib/components/cu/rom.c:ROM,run_cu_rom", "mpp-cpu/src/lib/components/cu/seq.c:truth_table,run_cu_seq", "mpp-cpu/src/linker/cu.c:run_clock_cycle,get_next_state", "mpp-cpu/src/lib/components/alu.c:run_alu", "mpp-cpu/src/lib/components/greg.c:run_greg"]}
{"id": "C06", "title": "LDA and STA access exactly the addressed cell", "statement": "LDA dir leaves AC = memory[dir]; STA dir leaves memory[dir] = AC and no other cell changed, where dir is the big-endian operand; flags and other registers unchanged.", "quantifier": "every machine state reachable through the public API that sits between two instructions (every register, flag, memory and bus content), every memory content and every operand value", "why_tests_cant": "2^(8*65536) memories times all register contents; a test fixes one of them, and stale bus values left by earlier instructions make the state space history dependent; the simulator writes memory several times per cycle with stale data before the right value", "anchors": ["mpp-cpu/src/lib/components/cu/cu.c:run_cu", "mpp-cpu/src/lib/components/cu/rom.c:ROM,run_cu_rom", "mpp-cpu/src/lib/components/cu/seq.c:truth_table,run_cu_seq", "mpp-cpu/src/linker/cu.c:run_clock_cycle,get_next_state", "mpp-cpu/src/lib/components/mem.c:run_mem", "mpp-cpu/src/lib/components/hl.c:run_hl"]}
{"id": "C07", "title": "LDAX and STAX address memory through RD:RE", "statement": "LDAX leaves AC = memory[256*RD+RE]; STAX leaves memory[256*RD+RE] = AC, no other cell changed; flags and other registers unchanged.", "quantifier": "every machine state reachable through the public API that sits between two instructions (every register, flag, memory and bus content), every memory content and every operand value", "why_tests_cant": "2^(8*65536) memories times all register contents; a test fixes one of them, and stale bus values left by earlier instructions make the state space history dependent", "anchors": ["mpp-cpu/src/lib/components/cu/cu.c:run_cu", "mpp-cpu/src/lib/components/cu/rom.c:ROM,run_cu_rom", "mpp-cpu/src/lib/components/cu/seq.c:truth_table,run_cu_seq", "mpp-cpu/src/linker/cu.c:run_clock_cycle,get_next_state", "mpp-cpu/src/lib/components/mem.c:run_mem", "mpp-cpu/src/lib/components/mxreg.c:run_mxreg"]}
{"id": "C08", "title": "Jumps go to the operand exactly when their condition holds", "statement": "JMP dir sets PC = dir; BEQ dir sets PC = dir iff FZ = 1 and otherwise falls through; BC dir likewise on FC; no other programmer-visible register, flag or memory cell changes.", "quantifier": "every machine state reachable through the public API that sits between two instructions (every register, flag, memory and bus content), every memory content and every operand value", "why_tests_cant": "2^(8*65536) memories times all register contents; a test fixes one of them, and stale bus values left by earlier instructions make the state space history dependent", "anchors": ["mpp-cpu/src/lib/components/cu/cu.c:run_cu", "mpp-cpu/src/lib/components/cu/rom.c:ROM,run_cu_rom", "mpp-cpu/src/lib/components/cu/seq.c:truth_table,run_cu_seq", "mpp-cpu/src/linker/cu.c:run_clock_cycle,get_next_state", "mpp-cpu/src/lib/components/pc.c:run_pc", "mpp-cpu/src/lib/components/cu/seq_fgs_jnr.c:run_cu_seq_b_jnr"]}
{"id": "C09", "title": "INISP, PUSH and POP implement a downward pre-decrement stack", "statement": "INISP dir sets SP = dir; PUSH decrements SP then stores AC at the new SP; POP loads AC from SP then increments SP; nothing else visible changes except PC.", "quantifier": "every machine state reachable through the public API that sits between two instructions (every register, flag, memory and bus content), every memory content and every operand value", "why_tests_cant": "2^(8*65536) memories times all register contents; a test fixes one of them, and stale bus values left by earlier instructions make the state space history dependent", "anchors": ["mpp-cpu/src/lib/components/cu/cu.c:run_cu", "mpp-cpu/src/lib/components/cu/rom.c:ROM,run_cu_rom", "mpp-cpu/src/lib/components/cu/seq.c:truth_table,run_cu_seq", "mpp-cpu/src/linker/cu.c:run_clock_cycle,get_next_state", "mpp-cpu/src/lib/components/sp.c:run_sp", "mpp-cpu/src/lib/components/mem.c:run_mem"]}
{"id": "C10", "title": "CALL pushes the return address and RET pops it", "statement": "CALL dir pushes the high then the low byte of the address of the following instruction and jumps to dir; RET loads PC from the two bytes at SP and adds 2 to SP.", "quantifier": "every machine state reachable through the public API that sits between two instructions (every register, flag, memory and bus content), every memory content and every operand value", "why_tests_cant": "2^(8*65536) memories times all register contents; a test fixes one of them, and stale bus values left by earlier instructions make the state space history dependent", "anchors": ["mpp-cpu/src/lib/components/cu/cu.c:run_cu", "mpp-cpu/src/lib/components/cu/rom.c:ROM,run_cu_rom", "mpp-cpu/src/lib/components/cu/seq.c:truth_table,run_cu_seq", "mpp-cpu/src/linker/cu.c:run_clock_cycle,get_next_state", "mpp-cpu/src/lib/components/pc.c:run_pc", "mpp-cpu/src/lib/components/sp.c:run_sp"]}
{"id": "C11", "title": "LFA, SFA and IRET transfer the flag byte", "statement": "LFA leaves AC = 128*FC + FZ; SFA sets FC from bit 7 and FZ from bit 0 of AC; IRET pops PC like RET and then pops a byte whose bits 7 and 0 become FC and FZ.", "quantifier": "every machine state reachable through the public API that sits between two instructions (every register, flag, memory and bus content), every memory content and every operand value", "why_tests_cant": "2^(8*65536) memories times all register contents; a test fixes one of them, and stale bus values left by earlier instructions make the state space history dependent", "anchors": ["mpp-cpu/src/lib/components/cu/cu.c:run_cu", "mpp-cpu/src/lib/components/cu/rom.c:ROM,run_cu_rom", "mpp-cpu/src/lib/components/cu/seq.c:truth_table,run_cu_seq", "mpp-cpu/src/linker/cu.c:run_clock_cycle,get_next_state", "mpp-cpu/src/lib/components/controllers/flagsinta.c:cll_run_flagsinta", "mpp-cpu/src/lib/components/flags.c:run_flags", "mpp-cpu/src/lib/components/mxfld7.c:run_mxfld7", "mpp-cpu/src/lib/components/mxfld0.c:run_mxfld0"]}
{"id": "C12", "title": "FIN and undocumented opcodes", "statement": "FIN changes only PC and RI. Every one of the 256 opcode values has a defined effect: an opcode without an assembler mnemonic either behaves exactly like a documented one or changes nothing the programmer sees except PC.", "quantifier": "every machine state reachable through the public API that sits between two instructions (every register, flag, memory and bus content), every memory content and every operand value; all 256 opcode bytes", "why_tests_cant": "2^(8*65536) memories times all register contents; a test fixes one of them, and stale bus values left by earlier instructions make the state space history dependent", "anchors": ["mpp-cpu/src/lib/components/cu/cu.c:run_cu", "mpp-cpu/src/lib/components/cu/rom.c:ROM,run_cu_rom", "mpp-cpu/src/lib/components/cu/seq.c:truth_table,run_cu_seq", "mpp-cpu/src/linker/cu.c:run_clock_cycle,get_next_state", "mpp-front/src/lib/traslator/operations.json"]}
{"id": "C13", "title": "Every instruction finishes in a bounded, data-independent-except-branches number of clock cycles", "statement": "From between two instructions, for every opcode byte (documented or not), get_next_state() returns to 0 after at least 2 and at most 9 clock cycles, and the number depends only on the opcode and, for BEQ/BC, on the tested flag.", "quantifier": "every machine state reachable through the public API that sits between two instructions (every register, flag, memory and bus content), every memory content and every operand value", "why_tests_cant": "a hang would only appear for one opcode/flag/history combination", "anchors": ["mpp-cpu/src/lib/components/cu/cu.c:run_cu", "mpp-cpu/src/lib/components/cu/rom.c:ROM,run_cu_rom", "mpp-cpu/src/lib/components/cu/seq.c:truth_table,run_cu_seq", "mpp-cpu/src/linker/cu.c:run_clock_cycle,get_next_state"]}
{"id": "C14", "title": "Whole programs run as on the reference instruction set", "statement": "For every number n, running n instructions from any reachable between-instructions state leaves exactly the registers, flags and memory that n steps of the instruction-set specification produce, including for programs that modify themselves.", "quantifier": "all n, all initial states and memories (hence all programs)", "why_tests_cant": "programs are unbounded and a discrepancy may need a long history", "anchors": ["mpp-cpu/src/lib/components/cu/cu.c:run_cu", "mpp-cpu/src/lib/components/cu/rom.c:ROM,run_cu_rom", "mpp-cpu/src/lib/components/cu/seq.c:truth_table,run_cu_seq", "mpp-cpu/src/linker/cu.c:run_clock_cycle,get_next_state"]}
{"id": "C15", "title": "The control unit never leaves its 45 microstates", "statement": "After any history of API calls, get_state() and get_next_state() are in 0..44, so the microcode ROM is never indexed out of bounds even though its range check admits index 45.", "quantifier": "all histories of API calls with in-range arguments", "why_tests_cant": "needs all reachable combinations of state, opcode and flags over unbounded histories", "anchors": ["mpp-cpu/src/lib/components/cu/rom.c:run_cu_rom", "mpp-cpu/src/lib/components/cu/seq.c:run_cu_seq", "mpp-cpu/src/linker/cu.c:get_state"]}
{"id": "C16", "title": "The next-state choice is determined by state, opcode and flags", "statement": "For every control state, opcode byte and flag combination the first matching row of the sequencer's truth table fixes the next state; where none matches the next state is 0, the start of a new instruction. At most one row matches, except INISP in state 17 with carry clear, where two rows match with different next states and only their order decides, and the undocumented opcode 0xC6 in state 29, which is never reached (finding: the code's comment that there is only one match is false). State labels in three rows differ from their bit columns (finding).", "quantifier": "all 64 states x 256 opcodes x 4 flag values", "why_tests_cant": "the code comments that it 'should' be only one match and never checks", "anchors": ["mpp-cpu/src/lib/components/cu/seq.c:truth_table,run_cu_seq"]}
{"id": "C17", "title": "No undefined behaviour through the public API", "statement": "No sequence of API calls that initialises before use, registers the UI callback and passes in-range arguments ever dereferences a null or freed pointer, indexes an array out of bounds or overflows a signed integer.", "quantifier": "all call histories, all memories, all programs being executed", "why_tests_cant": "memory errors depend on histories (init/shutdown cycles, executed programs)", "anchors": ["mpp-cpu/src/linker/linker.c:init,shutdown", "mpp-cpu/src/linker/mem.c", "mpp-cpu/src/linker/registers.c", "mpp-cpu/src/linker/cu.c", "mpp-cpu/src/lib/pubsub.c"]}
{"id": "C18", "title": "Register and memory values stay within their widths", "statement": "After any history of API calls with in-range arguments, AC, B, C, D, E, H, L, 2OP, PCH, PCL, RI are in 0..255, PC and SP in 0..65535, FC and FZ in 0..1, and every memory cell in 0..255.", "quantifier": "all call histories", "why_tests_cant": "overflow handling differs per register and depends on data reaching the buses", "anchors": ["mpp-cpu/src/linker/registers.c", "mpp-cpu/src/lib/components/acumm.c:run_acumm", "mpp-cpu/src/lib/components/mem.c:run_mem"]}
{"id": "C19", "title": "PC at the last address", "statement": "Fetching a byte at address 0xFFFF never moves PC out of range: the increment is refused and PC stays at 0xFFFF. It does not wrap to 0 as a 16-bit counter would (finding).", "quantifier": "every machine state reachable through the public API that sits between two instructions (every register, flag, memory and bus content), every memory content and every operand value", "why_tests_cant": "only a handful of states out of all show it", "anchors": ["mpp-cpu/src/lib/components/pc.c:run_pc", "mpp-cpu/src/lib/components/addsub.c:run_addsub"]}
{"id": "C20", "title": "SP at the ends of memory", "statement": "PUSH with SP = 0 leaves SP = 0 and overwrites memory[0]; POP/RET with SP = 0xFFFF leave SP = 0xFFFF: SP saturates at both ends and does not wrap (finding), and never leaves 0..65535.", "quantifier": "every machine state reachable through the public API that sits between two instructions (every register, flag, memory and bus content), every memory content and every operand value", "why_tests_cant": "only boundary states show it", "anchors": ["mpp-cpu/src/lib/components/sp.c:run_sp", "mpp-cpu/src/lib/components/addsub.c:run_addsub"]}
{"id": "C21", "title": "The stack is last-in first-out", "statement": "For every list of bytes that fits below SP, pushing them in order and then popping as many yields them in reverse order, with SP back where it was and no memory cell outside the stack area changed.", "quantifier": "all byte lists, all SP with room, all memories outside the program", "why_tests_cant": "unbounded lists", "anchors": ["mpp-cpu/src/lib/components/cu/cu.c:run_cu", "mpp-cpu/src/lib/components/cu/rom.c:ROM,run_cu_rom", "mpp-cpu/src/lib/components/cu/seq.c:truth_table,run_cu_seq", "mpp-cpu/src/linker/cu.c:run_clock_cycle,get_next_state"]}
{"id": "C22", "title": "A subroutine returns to its call site", "statement": "If a CALL is executed, and later a RET is executed with SP back at the value CALL left and the two pushed cells untouched, then PC is the address after the CALL and SP its value before it.", "quantifier": "all addresses, all stack positions with room, all bodies between CALL and RET that respect the stack", "why_tests_cant": "the body is arbitrary code", "anchors": ["mpp-cpu/src/lib/components/cu/cu.c:run_cu", "mpp-cpu/src/lib/components/cu/rom.c:ROM,run_cu_rom", "mpp-cpu/src/lib/components/cu/seq.c:truth_table,run_cu_seq", "mpp-cpu/src/linker/cu.c:run_clock_cycle,get_next_state"]}
{"id": "C23", "title": "Only arithmetic, compare, logic, INC, CMA, SFA and IRET change the flags", "statement": "For every other opcode FC and FZ after the instruction equal FC and FZ before it.", "quantifier": "every machine state reachable through the public API that sits between two instructions (every register, flag, memory and bus content), every memory content and every operand value", "why_tests_cant": "2^(8*65536) memories times all register contents; a test fixes one of them, and stale bus values left by earlier instructions make the state space history dependent", "anchors": ["mpp-cpu/src/lib/components/flags.c:run_flags", "mpp-cpu/src/lib/components/cu/rom.c:ROM"]}
{"id": "C24", "title": "Only STA, STAX, PUSH and CALL change memory", "statement": "Executing any other opcode leaves all 65536 cells unchanged; these four change at most the cell(s) they address.", "quantifier": "every machine state reachable through the public API that sits between two instructions (every register, flag, memory and bus content), every memory content and every operand value", "why_tests_cant": "run_mem writes to memory whenever the write line is low, several times per cycle, with whatever is on the buses", "anchors": ["mpp-cpu/src/lib/components/mem.c:run_mem", "mpp-cpu/src/lib/components/cu/rom.c:ROM"]}
{"id": "C25", "title": "Integer/word conversion round-trips", "statement": "word_to_int(int_to_word(v)) = v for every v representable without the sign bit, int_to_word(word_to_int(w)) = w for every word without the sign bit, and word_to_int is undefined exactly when bit 31 is set.", "quantifier": "all 32-bit integers and all 32-bit words", "why_tests_cant": "2^32 values", "anchors": ["mpp-cpu/src/lib/definitions.c:word_to_int,int_to_word"]}
{"id": "C26", "title": "get_used_bits is the width of the value", "statement": "For every non-negative v and every n, get_used_bits(int_to_word(v)) <= n iff v < 2^n; negative numbers use all 32 bits.", "quantifier": "all integers v and widths n", "why_tests_cant": "2^32 values", "anchors": ["mpp-cpu/src/lib/definitions.c:get_used_bits"]}
{"id": "C27", "title": "Publishing delivers to exactly the current subscribers of the topic", "statement": "After any history of subscribe/unsubscribe/publish calls, publish returns the number of live subscriptions to that topic, every bus with a live subscription to it holds the published value, and no other bus changes.", "quantifier": "all histories of pub/sub calls, all topics and values", "why_tests_cant": "histories are unbounded", "anchors": ["mpp-cpu/src/lib/pubsub.c:subscribe_to,publish_message_to"]}
{"id": "C28", "title": "Unsubscribing is exact and final", "statement": "unsubscribe_for removes exactly the given subscription, returns true exactly when it was still subscribed, and the subscription never receives again.", "quantifier": "all histories", "why_tests_cant": "histories are unbounded", "anchors": ["mpp-cpu/src/lib/pubsub.c:unsubscribe_for", "mpp-cpu/src/lib/linkedlist.c:delete_node_from_value"]}
{"id": "C29", "title": "A middleware that rejects a value blocks delivery", "statement": "publish returns -1 and changes no bus iff some middleware registered for that topic rejects the value; otherwise delivery is as if no middleware existed. With init_buses, values wider than 8 (16) bits never reach the data (address) bus - but nothing in the program calls init_buses (finding).", "quantifier": "all middleware lists, all values and histories", "why_tests_cant": "middlewares are arbitrary functions", "anchors": ["mpp-cpu/src/lib/pubsub.c:add_topic_middleware,publish_message_to", "mpp-cpu/src/lib/electronic/bus.c:init_buses"]}
{"id": "C30", "title": "Removing a middleware", "statement": "After rm_topic_middleware the middleware should no longer be consulted. In fact the call writes past the array and leaves a dangling pointer that the next publish reads (finding).", "quantifier": "all middleware histories", "why_tests_cant": "undefined behaviour may look fine in a test", "anchors": ["mpp-cpu/src/lib/pubsub.c:rm_topic_middleware"]}
{"id": "C31", "title": "The linked list behaves as a sequence", "statement": "push_ll_node appends, get_node_from_value finds the first occurrence with its neighbours, delete_node_from_value removes exactly the first occurrence and frees exactly that node, and no call touches a freed node.", "quantifier": "all lists, all values, all histories", "why_tests_cant": "pointer structures of unbounded length", "anchors": ["mpp-cpu/src/lib/linkedlist.c"]}
{"id": "C32", "title": "The register registry returns the registered register", "statement": "get_register(t) returns the register of the earliest registered and not yet unregistered watcher of type t, and NULL iff there is none.", "quantifier": "all histories of register/unregister calls", "why_tests_cant": "histories are unbounded", "anchors": ["mpp-cpu/src/lib/watcher.c"]}
{"id": "C33", "title": "Memory reads see the last memory write", "statement": "get_memory_value(o) returns the value most recently given to set_memory_value(o, v) or stored by the program at o, and -1 for offsets outside 0..65535; writing one cell changes no other.", "quantifier": "all histories, all offsets and values", "why_tests_cant": "65536 cells and unbounded histories", "anchors": ["mpp-cpu/src/linker/mem.c:get_memory_value,set_memory_value"]}
{"id": "C34", "title": "set_memory_value rejects bad arguments", "statement": "set_memory_value should refuse offsets outside memory and values wider than 8 bits. It dereferences NULL for the former and stores the latter (finding).", "quantifier": "all offsets and values", "why_tests_cant": "unit tests use valid arguments", "anchors": ["mpp-cpu/src/linker/mem.c:set_memory_value"]}
{"id": "C35", "title": "set_register_pc redirects execution", "statement": "After set_register_pc(v) with v in 0..65535 between two instructions, get_register_pc() is v, the next instruction is fetched from v, and no other register, flag or memory cell changes - in particular PCH/PCL are stale until the next fetch (finding).", "quantifier": "all states and v", "why_tests_cant": "all histories before the call", "anchors": ["mpp-cpu/src/linker/registers.c:set_register_pc"]}
{"id": "C36", "title": "reset_control restarts at an instruction boundary", "statement": "Called at any point, including in the middle of an instruction, reset_control() makes the next clock cycle fetch the opcode at PC; registers, flags and memory are untouched.", "quantifier": "all reachable states, including mid-instruction", "why_tests_cant": "all microstates times all data", "anchors": ["mpp-cpu/src/linker/cu.c:reset_control"]}
{"id": "C37", "title": "init after shutdown gives a fresh machine", "statement": "After any history, shutdown(); init() yields a machine whose observable behaviour is that of a freshly started one with the same random memory. Shutdown leaves exactly one subscription behind per init/shutdown cycle (finding: leak).", "quantifier": "all histories and all later call sequences", "why_tests_cant": "unbounded init/shutdown histories", "anchors": ["mpp-cpu/src/linker/linker.c:init,shutdown", "mpp-cpu/src/lib/components/mxreg.c:shutdown_mxreg"]}
{"id": "C38", "title": "One call of run_clock_cycle is exactly one microstate", "statement": "Each run_clock_cycle() returns, performs exactly one rising edge, and executes the microstate that get_next_state() announced before the call.", "quantifier": "all histories", "why_tests_cant": "needs all reachable states", "anchors": ["mpp-cpu/src/lib/components/cu/cu.c:run_cu_clock_cycle", "mpp-cpu/src/lib/clock.c:get_clock_tick"]}
{"id": "C39", "title": "Over-wide values are kept out of registers", "statement": "Even if over-wide values were stored with set_memory_value, AC, B..E, RI, PCH, PCL stay within 8 bits and PC, SP within 16, whatever the order of API calls, because loads are refused. 2OP, H, L and the data bus have no such check and can hold over-wide values (finding: init never installs the checks of init_buses). Running the processor never writes an over-wide value into a memory cell: after a clock cycle each cell is unchanged or holds a byte.", "quantifier": "all histories with arbitrary 31-bit values written to memory", "why_tests_cant": "requires all data paths", "anchors": ["mpp-cpu/src/lib/components/acumm.c:run_acumm", "mpp-cpu/src/lib/components/op2.c:run_op2", "mpp-cpu/src/lib/components/hl.c:run_hl"]}
{"id": "C40", "title": "'Run instruction' executes exactly one instruction", "statement": "The UI loop that runs clock cycles until get_next_state() is 0 terminates, and started between two instructions it executes exactly one instruction; started in the middle of one it completes it.", "quantifier": "all reachable states", "why_tests_cant": "all states", "anchors": ["mpp-front/src/pages/CPUTable/components/RunButtons.tsx:handleRunInstruction"]}
{"id": "C41", "title": "'Run program' stops right after the first FIN", "statement": "Started between two instructions, the UI loop stops iff the program reaches a FIN instruction, and then exactly after executing it, ready for the next instruction; operand or data bytes equal to 0xFF do not stop it.", "quantifier": "all programs and initial states", "why_tests_cant": "termination for every program", "anchors": ["mpp-front/src/pages/CPUTable/components/RunButtons.tsx:handleRunProgram"]}
{"id": "C42", "title": "Saving a program places exactly its bytes", "statement": "Saving translated bytes at an offset stores byte i at offset+i, leaves every other cell alone and restarts the control unit.", "quantifier": "all byte lists and offsets that fit", "why_tests_cant": "all lengths and offsets", "anchors": ["mpp-front/src/pages/Coder/index.tsx:handleSaveToMemory"]}
{"id": "C43", "title": "Every documented instruction assembles to its opcode and operands", "statement": "For every instruction of the reference table and every operand value, the line written in the documented syntax (any letter case, any hexadecimal spelling of the operand in range, any surrounding white space and comment) assembles without error to its opcode followed by the operand bytes, high byte first. One spelling is taken: where a byte is expected AC is the accumulator, so the byte 0xAC has to be written 0AC (finding).", "quantifier": "all instructions, all operand values, all spellings", "why_tests_cant": "operand values and spellings are unbounded", "anchors": ["mpp-front/src/lib/traslator/index.ts:parseInput,executeRegex,translate", "mpp-front/src/lib/traslator/operations.json"]}
{"id": "C44", "title": "Labels resolve to the address of the labelled line", "statement": "In every program made of well-formed lines with distinct labels, each jump/call/address operand naming a label is replaced by start address plus the total size of the preceding instructions, forward and backward references alike.", "quantifier": "all programs, all label placements", "why_tests_cant": "programs are unbounded", "anchors": ["mpp-front/src/lib/traslator/index.ts:calculateEtiquetasPos,post"]}
{"id": "C45", "title": "The translation of a line has the size the table says", "statement": "Each translated instruction should occupy ALLOC bytes, so label addresses are right. False when a label is used where an immediate is expected: 3 bytes are emitted where 2 are counted and no error is reported (finding).", "quantifier": "all programs", "why_tests_cant": "the interaction needs a particular mix of label and immediate", "anchors": ["mpp-front/src/lib/traslator/index.ts:translate,post"]}
{"id": "C46", "title": "Ill-formed lines are reported", "statement": "In a text without stray line ends, a line that is neither blank nor a comment nor an instruction with a good operand yields exactly one syntax error at that line and produces no bytes, and no other line yields one; comments, white space and blank lines produce neither bytes nor errors and never change the translation of other lines; assembling always terminates. False for a line with a carriage return inside, whose other part is not looked at, and a reference to a label of an ill-formed line is dropped without an error of its own (findings).", "quantifier": "all texts", "why_tests_cant": "texts are unbounded", "anchors": ["mpp-front/src/lib/traslator/index.ts:parseInput,checkCommentLine"]}
{"id": "C47", "title": "The disassembly view partitions memory", "statement": "For every memory content and window, the listed operations have contiguous, non-overlapping ranges starting at the window start and covering the window; each line's text and length are those of the documented instruction whose opcode is stored at its first address, or \"-\" and one byte if the opcode is undocumented. After executing the (non-transferring) instruction of a line the PC is at the next line. Undocumented opcodes that take two bytes break this (finding).", "quantifier": "all memories and windows", "why_tests_cant": "all memory contents", "anchors": ["mpp-front/src/lib/debugger/index.ts:deductOperationOf,findOperation,doReplacements"]}
{"id": "C48", "title": "Disassembling assembled code shows the source operands", "statement": "The text listed for an instruction, typed into the editor, assembles to the same bytes, unless it is an immediate 0xAC (listed like the accumulator) or an address with non-zero high byte and low byte below 0x10: address bytes are printed without zero padding, so different addresses print alike (finding).", "quantifier": "all operand values", "why_tests_cant": "65536 addresses", "anchors": ["mpp-front/src/lib/debugger/index.ts:replaceDir,replaceInm"]}
{"id": "C49", "title": "The shipped multiplication example multiplies", "statement": "Assembling the shipped example MULTIPLICATION with any two byte operands b and c in the two marked places, at any program counter where it fits and does not cover the stack cell it uses (1233), saving it and running it with the run button, terminates and leaves AC = b*c mod 256, for every b and c in 0..255 (c = 0 counts as 256 rounds and also gives 0).", "quantifier": "all operand pairs and spellings, all load addresses where it fits, all live machine states, all random choices of the run loop", "why_tests_cant": "65536 runs of data-dependent length at tens of thousands of addresses over unbounded prior histories", "anchors": ["mpp-front/src/pages/Coder/constants/examples.json"]}
{"id": "C50", "title": "Multiplexers and gates", "statement": "run_4x1_mx/run_2x1_mx return the selected input and -1 for any other selector. OR returns the bitwise or of an array of any length. AND starts from 1, so it returns 1 exactly when every element has its lowest bit set and 0 otherwise, and is not a bitwise and (finding; nothing calls it).", "quantifier": "all selectors, inputs, arrays", "why_tests_cant": "unbounded arrays", "anchors": ["mpp-cpu/src/lib/electronic/multiplexer.c", "mpp-cpu/src/lib/electronic/and.c"]}
{"id": "C51", "title": "No error notices in normal operation", "statement": "A clock cycle prints an error notice only when PC or SP would leave 0..65535; with in-range API arguments no other notice is ever produced.", "quantifier": "all histories", "why_tests_cant": "all states", "anchors": ["mpp-cpu/src/lib/error.c:throw_error", "mpp-cpu/src/lib/components/pc.c:run_pc", "mpp-cpu/src/lib/components/sp.c:run_sp"]}
{"id": "C52", "title": "The random initial memory is valid", "statement": "After init every memory cell holds a byte; 255 never occurs because of the modulus used (finding).", "quantifier": "all random sequences", "why_tests_cant": "random", "anchors": ["mpp-cpu/src/lib/components/mem.c:fill_memory", "mpp-cpu/src/lib/utils.c:random_int"]}
{"id": "C53", "title": "Microstates do what the documentation table says", "statement": "For each microstate 0..44, one clock cycle performs exactly the documented register transfer and changes no other register or memory cell.", "quantifier": "all data values in every microstate", "why_tests_cant": "2^(8*65536) memories times all register contents; a test fixes one of them, and stale bus values left by earlier instructions make the state space history dependent", "anchors": ["docs/src/pages/es/instructions/states.json", "mpp-front/src/pages/CPUTable/components/StateTransition/constants.json", "mpp-cpu/src/lib/components/cu/cu.c:run_cu", "mpp-cpu/src/lib/components/cu/rom.c:ROM,run_cu_rom", "mpp-cpu/src/lib/components/cu/seq.c:truth_table,run_cu_seq", "mpp-cpu/src/linker/cu.c:run_clock_cycle,get_next_state"]}
{"id": "C54", "title": "Every valid machine state can be reached through the API", "statement": "For every assignment of bytes to AC, B..E, memory, of 16-bit values to PC and SP and of the two flags there is a sequence of API calls from program start after which the getters show exactly these values at an instruction boundary.", "quantifier": "all valid programmer-visible states", "why_tests_cant": "the state space has about 2^524000 elements; without it the theorems quantifying over reachable states could be vacuous", "anchors": ["mpp-cpu/src/linker/mem.c:set_memory_value", "mpp-cpu/src/linker/registers.c:set_register_pc", "mpp-cpu/src/linker/cu.c:run_clock_cycle"]}
{"id": "C55", "title": "The debugger highlights the instruction at the program counter", "statement": "For every memory, program counter and window size exactly one line is highlighted, the one containing the program counter; it starts at the program counter whenever the lines listed from the window start reach it. If the window starts inside an instruction another instruction can be highlighted (finding).", "quantifier": "all memories, program counters and window sizes", "why_tests_cant": "all memory contents and alignments", "anchors": ["mpp-front/src/pages/CPUTable/components/DebuggerNode/index.tsx:DebuggerComponent", "mpp-front/src/lib/debugger/index.ts:deductOperationOf"]}
{"id": "C56", "title": "The other shipped examples do what their titles say", "statement": "Assembled, saved and run from any program counter where they fit: SUM ACC UNTIL AC=5 terminates with AC = 5; SEARCH IN BUFFER FOR '05' terminates with D,E holding the first address from 00FE on whose cell is 05 (at most 0102); CALL FUNCTION with any byte operands b and c terminates with D = b+c mod 256 and the stack pointer back at 0123.", "quantifier": "all load addresses, all live machine states and memory contents, all operand pairs", "why_tests_cant": "depends on arbitrary prior memory contents and load address; termination over unbounded loop", "anchors": ["mpp-front/src/pages/Coder/constants/examples.json"]}
{"id": "C57", "title": "The bus getters tell the truth about the cycle", "statement": "After any history and a clock cycle: the twelve control-line getters and get_control_bus_selalu return the signals of the microstate shown by get_state; get_memory_dir_bus returns PC, SP, HL or 65532 as the microstate selects; get_data_bus returns the value of the unit driving the bus, or its previous value if none does. A register whose load line is 0 has not changed; with LE at 1 no memory cell changed, with LE at 0 exactly the cell on the address bus received the value on the data bus. reset_control clears the control lines, set_memory_value/set_register_pc leave all buses alone, init zeroes them. A register whose load line is 1 holds the data bus value, except (finding) after AC+2OP, AC-2OP, XOR, NOT (the bus shows the ALU applied once more) and after the operand/opcode fetches (the bus shows the next byte).", "quantifier": "all API histories, all microstates, all register and memory contents", "why_tests_cant": "needs every reachable state and all operand values", "anchors": ["mpp-cpu/src/linker/bus.c", "mpp-cpu/src/linker/mem.c:get_memory_dir_bus", "mpp-cpu/src/lib/components/cu/rom.c:ROM"]}
{"id": "C58", "title": "The state-transition list shows the microstates executed and the next one", "statement": "Starting from an empty list, after any number n>=1 of consecutive notified clock cycles the list shows, marked as executed, the last two microstates get_state went through (one if n=1), followed by the microstate get_next_state announces. After any notifying event whatsoever the last item is the next microstate and there are at most three items. The items carry the microstate's number for 0..43. Findings: microstate 44 is labelled 43, and a memory write alone makes the list show a microstate as executed that never ran.", "quantifier": "all page histories, all numbers of cycles, all machine states", "why_tests_cant": "unbounded runs over arbitrary histories of calls and page events", "anchors": ["mpp-front/src/pages/CPUTable/components/StateTransition/index.tsx:onUIUpdate", "mpp-front/src/pages/CPUTable/components/StateTransition/constants.json"]}
{"id": "C59", "title": "The diagram shows the machine", "statement": "After every event that notifies the page (clock cycle with update, memory write, setting PC, end of an immediate run) each register box, the state box, the data bus, the flags and the ALU show what the getters return, and a register box pulses exactly when the number in it changed. After a clock cycle every arrow between the data bus and a box carries the value of its control line in the microstate just executed and arrows into boxes move exactly when that line is 1; the ALU names the microstate's operation; the memory box shows the address used and whether memory was written; a pulsing register has its arrow moving. No event makes a getter undefined. Before the first notification no box pulses and all show 0. Findings: PC pulses without its arrow in microstates 32/33 (RET); reset_control leaves the page stale.", "quantifier": "all histories of page events after opening the page, all machine states", "why_tests_cant": "ranges over all histories, microstates and register contents", "anchors": ["mpp-front/src/hook/useUpdateEdges.ts", "mpp-front/src/pages/CPUTable/components/RegisterNode.tsx", "mpp-front/src/pages/CPUTable/components/ALUNode.tsx", "mpp-front/src/pages/CPUTable/constants/nodes.tsx", "mpp-front/src/pages/CPUTable/constants/edges.tsx", "mpp-front/src/lib/core/index.ts:notifyUpdateToSubscribers"]}
{"id": "C60", "title": "The memory box shows the cell asked for and its neighbours", "statement": "For every number a below 2^32-1 the memory box shows exactly the rows a-1, a, a+1 that are addresses (0..65535), each with the content of that cell, row a highlighted. Finding: the box accepts larger numbers, and 2^32 is shown with the contents of cells 0 and 1.", "quantifier": "all page histories, all machine states, all numbers typed", "why_tests_cant": "all addresses and memory contents", "anchors": ["mpp-front/src/pages/CPUTable/components/MemoryNode.tsx:MemoryComponent", "mpp-cpu/src/linker/mem.c:get_memory_value"]}
{"id": "C62", "title": "The run buttons are safe and exact in every order, with every interruption", "statement": "However the run-program, run-instruction, run-state and stop buttons, the editor's save and its set-PC button are used, in any order and at any moment between two clock cycles, every action is defined and leaves the core in a state reachable by allowed calls. The four run buttons only take the machine forward along its single run: whenever it is between two instructions it shows the result of some number of whole instructions. Stop runs no further cycle, except when it is pressed in the 100 ms before an immediate run begins, where it is forgotten (a defect, proved); run-instruction after Stop completes the interrupted instruction. A program stopped and resumed any number of times, in any mixture of modes, ends exactly where an uninterrupted run ends, right after its first FIN, provided no stop falls while FIN is in the instruction register; if one does, resuming runs one cycle of the instruction after FIN (a defect, proved).", "quantifier": "every schedule of button presses, timer wake-ups, saves and PC changes, from every reachable state, for every memory content", "why_tests_cant": "the schedules are unbounded and a stop may fall between any two cycles of any program", "anchors": ["mpp-front/src/pages/CPUTable/components/RunButtons.tsx: handleRunState, handleRunInstruction, handleRunProgram, handleStopRunning", "mpp-front/src/pages/Coder/index.tsx: handleSaveToMemory", "mpp-front/src/pages/Coder/components/CodeEditor.tsx: handlePCChange", "mpp-front/src/lib/utils.ts: sleep"]}
{"id": "C61", "title": "Number boxes show and read numbers faithfully in every base", "statement": "A number box shows every non-negative number by its one plain numeral (no leading zero) in the chosen base. Typing an acceptable text sets the number it denotes, capped at the maximum; typing anything else leaves the number unchanged and marks the box. After any sequence of typings, base changes and new numbers the box never shows a numeral of a number other than its own, and typing the shown text again changes nothing. Finding: the mark stays after the text was replaced by choosing a base or by a new number.", "quantifier": "every text, every number below 2^53, every base, every sequence of events", "why_tests_cant": "texts, numbers and histories are unbounded", "anchors": ["mpp-front/src/components/NumberBaseInput.tsx: getFormatted, validateNumberBase, onValueChange, handleBaseChange", "mpp-front/src/constants/bases.ts: bases"]}
{"id": "C63", "title": "Loading and closing the core is safe in every order", "statement": "In every schedule of connecting, modules arriving, disconnecting and using the core, every call into the core is defined, and whenever no connection is half-way the page has no core or one that was initialised and has the page's callback. Connecting a connected page changes nothing; disconnecting and connecting again gives a freshly initialised core whatever happened before. Finding: two overlapping connections (React strict mode) replace the core after the page began to use it, and what was stored is lost.", "quantifier": "every schedule of events, every result of rand, every use allowed to the page", "why_tests_cant": "the schedules are unbounded and interleave with module loading", "anchors": ["mpp-front/src/lib/core/index.ts: connectBackend, disconnectBackend, loadInstance, execute, getCore", "mpp-cpu/src/linker/linker.c: init, shutdown"]}
{"id": "C64", "title": "Save is enabled exactly for programs that assemble, and stores exactly them", "statement": "After any sequence of edits the Save button is enabled exactly if the text now in the editor assembles without errors to something that fits in memory. Pressing it from any state of the machine is defined, stores exactly the assembled bytes from address 0 on, changes no other cell and no register and makes the machine ready to fetch; while disabled nothing happens. For a well-formed program these bytes are exactly its instructions; a text with a line that is no instruction, comment or blank cannot be saved. Finding: if the editor appears together with the page, Save is enabled for a text from the URL that does not assemble (pressing it stores nothing).", "quantifier": "every text, every sequence of edits, every reachable machine state", "why_tests_cant": "texts and edit histories are unbounded", "anchors": ["mpp-front/src/pages/Coder/index.tsx: handleSaveToMemory, onNewTranslation", "mpp-front/src/pages/Coder/components/CodeEditor.tsx: onChange, onChangeInitOffset"]}
{"id": "C65", "title": "A program given in the URL gets a final FIN", "statement": "A well-formed program given in the URL that does not end in FIN and a white-space character gets one more line FIN, and the bytes saved are those of the program followed by the byte of FIN; a text ending in FIN (in any case) and a white-space character is left as it is. Finding: a comment with that ending is taken for FIN, so such a program is saved without one.", "quantifier": "every text in the URL", "why_tests_cant": "all programs", "anchors": ["mpp-front/src/pages/Coder/components/CodeEditor.tsx: CodeEditor"]}
{"id": "C66", "title": "An update notifies every subscriber once", "statement": "After any sequence of subscriptions and unsubscriptions a notification calls exactly the callbacks that were subscribed and not unsubscribed since, each of them once.", "quantifier": "every sequence of subscriptions and unsubscriptions", "why_tests_cant": "sequences are unbounded", "anchors": ["mpp-front/src/lib/core/index.ts: subscribeToUIUpdates, unsubscribeToUIUpdates, notifyUpdateToSubscribers"]}
{"id": "C67", "title": "The documented factorial program computes factorials", "statement": "The factorial program of the documentation, with any 8-bit number n from 1 to 255 in the place of 3, opened from its link, saved at any address that keeps its 53 bytes apart from the 767 bytes under EEEE, and run with the run button, ends with n! modulo 256 in the accumulator and the stack pointer back at EEEE. Finding: for n = 0 it ends with 0, although the documented function returns 1.", "quantifier": "every number text, load address and previous machine state", "why_tests_cant": "256 numbers, 65536 addresses, all previous contents of registers and memory", "anchors": ["docs/src/pages/es/examples/factorial.mdx", "mpp-front/src/pages/Coder/components/CodeEditor.tsx", "mpp-front/src/pages/Coder/index.tsx"]}
{"id": "C68", "title": "The documented 'malicious function' runs for ever on a bounded stack", "statement": "The program of the documentation whose function returns to its own call never reaches FIN from any load address apart from its stack: the run button's loop does not end, the call is executed again and again, each time with the stack pointer at EEEE, and no memory cell other than the four below EEEE has changed then. Its helper, called with a return address on the stack, subtracts 1 from the 16-bit number in D and E for every value, keeps B, C and the memory but for two stack cells, and returns.", "quantifier": "every load address, previous machine state, number of rounds and value of D:E", "why_tests_cant": "an infinite run cannot be tested; 65536 values and all states", "anchors": ["docs/src/pages/es/examples/malicious-function.mdx"]}
{"id": "C69", "title": "The documented multiplication that starts from 0 multiplies", "statement": "The improved multiplication program of the documentation, with any two bytes b and c, opened from its link, saved and run, ends with b*c modulo 256 in the accumulator, also for c = 0.", "quantifier": "every pair of number texts, load address apart from the stack cell, previous machine state", "why_tests_cant": "65536 pairs times all states", "anchors": ["docs/src/pages/es/examples/multiplication.mdx"]}
{"id": "C70", "title": "The documented microprograms are those executed", "statement": "For every documented instruction, with any operands, flags and machine state, the microstates get_state() reports after each clock cycle of the instruction are those listed in its documentation page. Findings: CALL and RET pass through microstates 40 and 41 where the pages list 26 and 31 (with the same micro-operation), and OR with a register passes through 2 where the page lists 12 (another operation).", "quantifier": "every opcode, flag value and reachable machine state", "why_tests_cant": "all machine states", "anchors": ["docs/src/pages/es/instructions/*.mdx", "mpp-cpu/src/lib/components/cu/seq.c: truth_table, run_cu_seq"]}
{"id": "C71", "title": "A program typed, saved and run does what its text says", "statement": "Type a well-formed program in the editor, after any other texts, press Save and set PC to its start. Whatever the machine did before, pressing 'run instruction' n times does exactly what the first n lines reached say (read from the source text, labels standing for the address of the line that carries them), and 'run program', in immediate or stepwise mode, does what the lines say up to the first FIN reached and stops there; other memory cells and registers keep their values until a line changes them. Hypotheses: no line performed overwrites the program itself or runs past the last address.", "quantifier": "every well-formed program text, every number of steps, every previous editor content and machine history", "why_tests_cant": "texts, machine states and run lengths are unbounded", "anchors": ["mpp-front/src/lib/traslator/index.ts", "mpp-front/src/pages/Coder/index.tsx: handleSaveToMemory", "mpp-front/src/pages/CPUTable/components/RunButtons.tsx", "mpp-cpu/src/lib/components/cu/cu.c"]}
{"id": "C72", "title": "Settings survive reloads, apply at once and stay in range", "statement": "After any sequence of page loads, choices in the settings drawer, runs and edits, what the page uses is the user's last choice: the wait between cycles is the last number typed between 0 and 5000 (500 at first or once the field is emptied), runs are immediate exactly when it is 0, memory values use the last base picked (HEX at first), run times are shown according to the last switch, the language is the last picked (at first the browser's), the program text is the last kept; the drawer shows these values after every load. Numbers out of range change nothing. The tour opens by itself on the first visit and on no later one. Findings: an emptied box shows nothing while 500 ms is used; the tour switch does not tell what the next visit does.", "quantifier": "every sequence of loads, choices, runs and edits of one browser", "why_tests_cant": "histories are unbounded and cross page loads", "anchors": ["mpp-front/src/lib/storage.ts: setStoredValue, getStoredValue", "mpp-front/src/pages/CPUTable/components/Settings.tsx", "mpp-front/src/pages/CPUTable/components/RunButtons.tsx: cycleTime, isRuningInmediate", "mpp-front/src/pages/CPUTable/index.tsx: onboarding effect"]}
{"id": "C73", "title": "Every text is shown in the chosen language", "statement": "However texts are mounted and unmounted and the language changed, every mounted text with a fixed key is shown in the language chosen last (English for a language without a table), there is exactly one language listener per mounted text, and every key used has a text in all three tables, except the one shown while memory is written. Findings: a text whose key changed shows, after a language change, the text of its first key (status 'stopped' while running); calling a listener's remover twice removes another listener; memory.writting has no text.", "quantifier": "every sequence of mounts, unmounts, re-renders and language changes; every key and language", "why_tests_cant": "the interleavings are unbounded", "anchors": ["mpp-front/src/lib/i18n/index.ts", "mpp-front/src/components/i18n.tsx: I18n, useI18n", "mpp-front/src/lib/i18n/{en,es,eu}.json"]}
{"id": "C74", "title": "The logger delivers each message once to everyone entitled to it", "statement": "After any set-up calls, a message is printed once if the logger is not quiet and its level reaches the one set, and passed once and in order of registration to each of the first 32 callbacks whose level it reaches, with the lock held; the release build does this for INFO and ERROR and drops the rest; registering fails exactly from the 33rd callback on; notices are reported; fatal errors end the process. Finding: in the release build a fatal error ends it silently.", "quantifier": "every sequence of set-up calls, level and message", "why_tests_cant": "set-ups are unbounded sequences", "anchors": ["mpp-cpu/src/lib/logger.c: log_log, log_add_callback, log_set_level, log_set_quiet, log_set_lock", "mpp-cpu/src/lib/error.c: throw_error"]}
{"id": "C75", "title": "Digit counts and decimal texts are exact", "statement": "get_num_digits(n) is the number of decimal digits of every int except 0, and num_to_str(n) is the full decimal text, without leading zeros, of every number from 0 to INT_MAX - 1. Findings: 0 is given no digit; num_to_str is undefined for negative numbers and INT_MAX.", "quantifier": "every 32-bit int", "why_tests_cant": "4 billion inputs", "anchors": ["mpp-cpu/src/lib/utils.c: get_num_digits, num_to_str"]}
{"id": "C76", "title": "A wait ends exactly once, at the timer or at Stop", "statement": "A wait of 0 ms or with an aborted signal is over at once; any other is over exactly when the timer or the abort comes, whichever is first, and leaves neither timer nor listener behind, whatever comes later.", "quantifier": "every schedule of timer and abort events", "why_tests_cant": "schedules are unbounded", "anchors": ["mpp-front/src/lib/utils.ts: sleep"]}
{"id": "C77", "title": "A program arrives unchanged through a link or a file", "statement": "The 'test this code' link of the documentation opens the editor with exactly the program shown there (completed with FIN if it lacks one), and a program saved to a file and opened again is the same text, whatever characters its comments contain. In a file a text is read whole whatever bytes come before it, broken characters included. Findings: half of a surrogate pair is replaced in a link; a leading byte-order mark is lost in a file.", "quantifier": "every program text (every sequence of UTF-16 code units)", "why_tests_cant": "texts are unbounded and any character may occur in a comment; percent, plus, ampersand, non-ASCII and surrogate pairs take different paths in the codecs", "anchors": ["docs/src/components/Code/Code.tsx: openCode", "mpp-front/src/pages/Coder/index.tsx: initialCode", "mpp-front/src/lib/utils.ts: useTextFile", "mpp-front/src/pages/Coder/components/CodeEditor.tsx"]}
{"id": "C78", "title": "The editor keeps the user's draft between visits", "statement": "Visiting the editor without a program in the address shows the last text that was in it, through any history of changes and visits. Findings: following a link replaces the draft for good; changes made to a linked program are lost when its page is reloaded.", "quantifier": "every history of changes and visits", "why_tests_cant": "histories are unbounded", "anchors": ["mpp-front/src/pages/Coder/components/CodeEditor.tsx: initCode, setStoredValue", "mpp-front/src/lib/storage.ts: getStoredValue, setStoredValue"]}
{"id": "C79", "title": "Completion offers exactly the words of the language", "statement": "The words offered for what has been typed are exactly the mnemonics, registers and numbers that start with it, each once, and every number offered can be used as an address as it stands. Findings: a small letter completes nothing although the assembler reads small letters; labels are never offered.", "quantifier": "every prefix and every word", "why_tests_cant": "all strings are possible prefixes", "anchors": ["mpp-front/src/pages/Coder/Completer.js"]}
{"id": "C80", "title": "The changelog lists every item of the release once", "statement": "Left alone, the list of changes ends with every item of the release exactly once, whatever the order of the network's answers; nothing else is ever listed and the page waits only while an answer is outstanding. Findings: items are listed in the order of the answers; clicking a tab early lists items twice, loses items for good, or leaves an old error on the screen.", "quantifier": "every list of items and every schedule of clicks and answers", "why_tests_cant": "schedules of clicks and answers are unbounded", "anchors": ["mpp-front/src/pages/CPUTable/components/Changelog/index.tsx"]}
{"id": "C81", "title": "The editor colours the words of a program for what they are", "statement": "Every line is shown with all its characters in order, and in every line of a program the label, instruction, registers, numbers and comment have the colour of what the assembler reads them as. Findings: numbers that are also names (BC, ACB0) are coloured as names; a comment that touches a label is coloured as part of the label.", "quantifier": "every line of text; every line of a program with any label, operands, spaces and comment", "why_tests_cant": "lines are unbounded and the order of the colouring rules matters", "anchors": ["mpp-front/src/pages/Coder/MppMode.js"]}
{"id": "C82", "title": "The page shows the machine", "statement": "Whatever the user has done with the run buttons, the editor, the memory box and the debugger, in any order, every register box, the flags, the memory box and the debugger's listing show the machine as it is now, and the debugger always has a listing in which exactly one row holds the program counter. The exception is the middle of an immediate run, when the page stands still until the run ends or takes too long. The microstate box is right too, unless an empty program was saved. Finding: saving an empty program resets the control unit without redrawing, so the microstate box goes on showing the old state.", "quantifier": "every history of presses, saves, timer wake-ups, searches, padding changes and redraws, and every random initial memory", "why_tests_cant": "histories are unbounded and each step may leave another part of the page out of date", "anchors": ["mpp-front/src/pages/CPUTable/components/RunButtons.tsx", "mpp-front/src/pages/Coder/index.tsx", "mpp-front/src/pages/CPUTable/components/DebuggerNode/index.tsx", "mpp-front/src/pages/CPUTable/components/MemoryNode.tsx", "mpp-front/src/lib/core/index.ts: notifyUpdateToSubscribers"]}
{"id": "C83", "title": "The documentation's solutions solve its exercises", "statement": "Opening a solution of the documentation's exercises with its button, saving it and running it gives what the exercise asks for, on a machine in any state and with anything stored in the browser: the register, flag or cell asked for has the value asked for, or the machine jumps to the address asked for. The explanations of CMP and LFA hold for all values. Findings: the solution of the POP exercise reads cell 0x8563 instead of 0x8523; the solution of the PUSH exercise works only if SP is at least 11, and on a page just opened (SP = 0) it writes the three numbers over the first byte of the program and keeps only the last; the text of SFA swaps ZERO and CARRY.", "quantifier": "all 27 solutions, every state of the machine before the solution is saved, every content of the browser's storage, both modes of running", "why_tests_cant": "the machine's memory, registers and control state are arbitrary when the solution is opened", "anchors": ["docs/src/pages/es/instructions/*.mdx", "docs/src/components/Solution/index.tsx", "docs/src/components/Code/Code.tsx: openCode", "mpp-front/src/pages/Coder/components/CodeEditor.tsx"]}
{"id": "C84", "title": "What a program says is what the page shows", "statement": "On the page in any state with no run in progress, whatever was done before: type a program, press Save and set PC to 0. Then the page shows a state of the machine with the registers as they were. Pressing run instruction n times makes the page show what the first n lines do to that state; running the program, in either mode, makes it in the end show what the lines do up to the first FIN. The boxes, flags and memory rows are all read off the same state, whatever else was used on the page meanwhile.", "quantifier": "every history of the page, every program text the assembler accepts at address 0, every number of presses, every interleaving with the memory box, the debugger's boxes and the list of states", "why_tests_cant": "all programs, all histories of the page and all interleavings of its other controls", "anchors": ["mpp-front/src/pages/Coder/components/CodeEditor.tsx", "mpp-front/src/lib/traslator/index.ts", "mpp-front/src/pages/CPUTable/components/RunButtons.tsx", "mpp-front/src/hook/useUpdateEdges.ts", "mpp-cpu/src/lib/components/cu/cu.c"]}
{"id": "C85", "title": "Running allocates nothing; a restart leaks a fixed amount", "statement": "Between init and shutdown no call allocates or frees anything: the same blocks stay allocated at the same addresses, however long the machine runs. One init allocates 79 buses, 79 subscriptions with 79 list nodes and 15 watched registers; shutdown frees 78 buses, 78 list nodes and the 15 watched registers. Finding: shutdown does not give everything back, and n restarts leave n buses, n list nodes and 79 n subscriptions. The counter of subscriptions, an int, fits exactly as long as there were at most 27183337 initialisations.", "quantifier": "every history of calls of the core's API, of any length, with any number of restarts", "why_tests_cant": "sessions of any length and any number of restarts", "anchors": ["mpp-cpu/src/lib/pubsub.c: subscribe_to, unsubscribe_for", "mpp-cpu/src/lib/linkedlist.c", "mpp-cpu/src/lib/watcher.c", "mpp-cpu/src/linker/linker.c: init, shutdown"]}
{"id": "C86", "title": "Running a program in time", "statement": "The time shown after a run is the time from its start to its end without the time spent at the 'running too long' questions. The question is only put in an immediate run, only when more than ten seconds have gone by since the start or the last answer, always after the page has been redrawn, and no cycle is run while it is open. A continued run goes on where it was, a refused one ends. A run that is not immediate shows every cycle it makes; an immediate one redraws before the question and at its end. When Stop is enabled and pressed, a run ends without another cycle, or after one more step if the question is being dismissed. In one tab the page answers again after at most eight more cycles of an instruction, or when ten seconds have gone by since the start or the last answer. Every history of presses, answers, settings and waits drives the machine as the plain buttons do (C62). Findings: setting the cycle time to 0 during a slow run disables Stop while the run goes on; when another tab has set the cycle time to 0, a run started here freezes the page, for ever if the program is endless; changing the cycle time within the first 100 ms of an immediate run makes it wait between cycles it does not show.", "quantifier": "every machine state, every history of presses, answers, settings and waits, every behaviour of the clock", "why_tests_cant": "all interleavings of user events with the awaits of the run, and all clock readings", "anchors": ["mpp-front/src/pages/CPUTable/components/RunButtons.tsx", "mpp-front/src/lib/utils.ts: sleep"]}
{"id": "C87", "title": "The labels of the microstates are true", "statement": "The text the state list shows for a microstate (\"RI <- (PC), PC + 1\", \"AC <- AC+2OP\", ...) says what a clock cycle executing it does: the named registers, flags and cells receive the named values, nothing else changes, and a counter at its end stays and prints a notice. So the last item of the list tells what the next cycle will do, and the one before it what the last cycle did. The documentation's table of states says the same of S0 to S42. Finding: its S43 reads 'RD <- 2OP', but the machine's state 43 (in IRET) increments SP; 'RD <- 2OP' is state 44, which the documentation does not list.", "quantifier": "every history of allowed calls, every state of the machine, every microstate executed", "why_tests_cant": "each label must be true in every state of registers and memory in which its microstate can be reached", "anchors": ["mpp-front/src/pages/CPUTable/components/StateTransition/constants.json", "docs/src/pages/es/instructions/states.json", "mpp-cpu/src/lib/components/cu/rom.c:ROM"]}
{"id": "C88", "title": "A program that reads only what it was given does the same every time", "statement": "The memory starts with random values. Two machines equal in registers, flags and some set of cells behave alike as long as the program reads only cells of that set and cells it wrote itself: the same number of clock cycles, the same registers and flags, the same values in those cells and in every cell written, the same notices, and 'Run program' stops on both or on neither. Every other cell keeps its own value. So a program saved in a page just opened that reads only its own bytes and what it wrote gives the same result at every visit. Finding: without the condition this is false: LDA of a cell nobody wrote, then FIN, gives a different accumulator at different visits.", "quantifier": "every program, every initial random memory, every pair of histories of allowed calls, any number of instructions, with or without the update_ui cycles", "why_tests_cant": "the random memory differs in 65536 cells at every visit; a test samples one", "anchors": ["mpp-cpu/src/lib/components/mem.c:fill_memory", "mpp-cpu/src/lib/utils.c:random_int", "mpp-cpu/src/linker/cu.c:run_clock_cycle", "mpp-cpu/src/lib/components/cu/rom.c:ROM"]}
{"id": "C89", "title": "The marks, notes and the listing of the editor tell the truth", "statement": "Exactly the lines that are neither blank nor a good instruction are marked as errors, each once; exactly the labels of good lines are marked. A mark covers exactly the line's code (the label) unless the line is indented. Beside every line of a program, and only there, stands a note with exactly its bytes. The translation shown is the notes one after the other, and its line n (numbered from 0) is the byte that Save stores at address n. Findings: on an indented line the marks miss by the indentation; while some line has an error the listing and the notes show addresses as if that line did not exist.", "quantifier": "every text without stray line ends (every text for the listing), every sequence of edits, every reachable machine state", "why_tests_cant": "texts and edit histories are unbounded", "anchors": ["mpp-front/src/lib/traslator/index.ts:parseInput,calculateEtiquetasPos", "mpp-front/src/pages/Coder/components/CodeEditor.tsx", "mpp-front/src/pages/Coder/components/TranslatedEditor.tsx"]}
{"id": "C90", "title": "How a program is spelled does not matter", "statement": "Two texts of the same program, differing in letter case, white space, comments, leading zeros of numbers and in a one-to-one renaming of the labels, are assembled to the same bytes, and saving either leaves the machine in the same state. Assembled for another start address, only operands that are labels change, each by the difference of the addresses. Findings: a label with a character other than letters, digits and underscore can be given to a line but not referred to; labels, unlike everything else, depend on the case of their letters.", "quantifier": "every pair of texts of programs, every renaming, every start address, every history of edits", "why_tests_cant": "texts and renamings are unbounded", "anchors": ["mpp-front/src/lib/traslator/index.ts:parseInput", "mpp-front/src/lib/traslator/operations.json", "mpp-front/src/pages/Coder/index.tsx: handleSaveToMemory"]}
{"id": "C91", "title": "A program never ends exactly when it comes back to where it was", "statement": "If after some instructions, none of them FIN, the registers, flags, pointers and memory are what they were, the machine comes back to them for ever and 'Run program' never stops. Conversely every run that never stops comes back to an earlier state, within as many instructions as there are states of the machine, and a run that stops is never twice in the same state. Finding: registers, flags and pointers alone do not tell, since the memory may differ.", "quantifier": "every program, every initial state, every number of instructions", "why_tests_cant": "no run can be watched for ever, and the states are 256^65541 * 2^34", "anchors": ["mpp-front/src/pages/CPUTable/components/RunButtons.tsx:handleRunProgram", "mpp-cpu/src/linker/cu.c:run_clock_cycle", "mpp-cpu/src/lib/components/cu/cu.c:run_cu"]}
{"id": "C92", "title": "The cycle time shown is a time that was measured", "statement": "The cycle-time widget, which says 'it took ... to complete the last clock cycle', shows the milliseconds the last cycle took whenever the page was drawn after that cycle was over: at the end of an immediate run, after Save, after a new PC. Finding: when the page is drawn by the cycle itself, as in every slow run, step and instruction, it shows the time of the cycle before, and -1000 ms after the first cycle, because the widgets are told before the result of the call is stored.", "quantifier": "every history of button presses, waits, saves and new PCs, every sequence of clock readings", "why_tests_cant": "the times differ from run to run and depend on the order of the callback and the assignment over a whole history", "anchors": ["mpp-front/src/pages/CPUTable/components/CycleTimeNode/index.tsx:onUIUpdate", "mpp-front/src/pages/CPUTable/components/RunButtons.tsx:clockCycleTime", "mpp-cpu/src/linker/cu.c:run_clock_cycle", "mpp-cpu/src/lib/components/cu/cu.c:run_cu_clock_cycle"]}
{"id": "C93", "title": "Memory edited between two instructions", "statement": "Values stored with set_memory_value while the machine is between two instructions change those cells and nothing else, and the instructions after that use them, be they operands, data or instructions. When the next n instructions neither read nor write these cells, it makes no difference whether they are stored before those instructions or after: the same number of clock cycles, the same registers, flags, memory and notices in the end. When the instructions write the cells and read none of them before, the values stored are lost. Without these conditions it does matter: an operand stored before its instruction is what it loads.", "quantifier": "every history of allowed calls, every program, any list of edits, any number of instructions, with or without the update_ui cycles", "why_tests_cant": "the order of edits and instructions, the cells and the programs are unbounded; a test tries one interleaving", "anchors": ["mpp-cpu/src/linker/mem.c:set_memory_value", "mpp-cpu/src/lib/components/mem.c:get_value_by_offset", "mpp-cpu/src/linker/cu.c:run_clock_cycle", "mpp-cpu/src/lib/components/cu/rom.c:ROM"]}
{"id": "C94", "title": "The page starts with a working machine behind the welcome screen", "statement": "Whatever the order of loading, drawing, timers and the table's calls, in a page whose first effects run once: nothing undefined happens; while the table is on the page its core was loaded and initialised once and its callback set, before any call of the table; the page is never blank, there is the welcome screen or the table in sight; the welcome screen goes at least one second after the drawing that put the table behind it, it does go when the timer runs after that second, and what is in sight stays. Findings: when the module cannot be loaded the welcome screen with its spinner stays for ever; in development, where React runs the first effects twice, a second load that fails after the first succeeded leaves the page blank for ever.", "quantifier": "every interleaving of loads, failures, drawings, timers, passing time and calls of the table; every result of rand", "why_tests_cant": "the order of promises, drawings and timers depends on the network and the browser; a test fixes one", "anchors": ["mpp-front/src/App.tsx:App", "mpp-front/src/lib/core/index.ts:connectBackend", "mpp-front/src/lib/core/index.ts:loadInstance"]}
{"id": "C95", "title": "The debugger's list is steady while a program runs", "statement": "The list of instructions of a window of addresses depends on the cells of the window and the two after it, on no others, so that after any number of instructions that write none of these cells the list is the same. Two lists of the same memory that begin a line at a common address have the same lines from there on, as far as both windows go; two that begin at the same address differ only in where they stop, so in a program within the first cells of memory the list only grows or shrinks at its end while the pointed address moves. Findings: moving the start of the window by one address can change every line; a program that writes into the window changes the list.", "quantifier": "every window, every memory, every program and number of instructions", "why_tests_cant": "the list depends on every byte of the window and the run on every instruction; tests fix one program", "anchors": ["mpp-front/src/lib/debugger/index.ts:deductOperationOf", "mpp-front/src/pages/CPUTable/components/DebuggerNode/index.tsx:DebuggerComponent"]}
{"id": "C96", "title": "The documentation colours programs as the editor does", "statement": "The documentation shows the text of a program as it is, and a program whose lines are made of words of the language set apart by characters other than $ and = has, character by character, the same colours in the documentation as in the code editor; in particular every program of the language whose values do not look like something else and whose comments do not touch a label. Findings: a value made of two register names (LDA ACAC) and a number after $ are coloured differently.", "quantifier": "every program text, every number of lines", "why_tests_cant": "the two sets of rules are different, in order and in form; that they agree is a claim about every text", "anchors": ["docs/src/components/Code/Code.tsx:registerLanguage", "mpp-front/src/pages/Coder/MppMode.js"]}
{"id": "C97", "title": "Every history of calls is a history of the documented machine", "statement": "After any sequence of permitted calls since the program started (initialisations, shutdowns, registrations of the callback, clock cycles, control resets, writes to memory and to PC, in any order, also in the middle of an instruction) every call succeeded and every getter of the interface (fifteen registers, 65536 cells, current and next microstate, address bus, data bus, ALU selection and control lines) returns what a machine made of the documented register transfers and microprograms shows after the same calls. So the arguments of run_clock_cycle and the callback never matter, and writing a cell before some cycles that do not use it is writing it after them. Finding: not for the data bus, which after a fetch shows the cell after the opcode.", "quantifier": "every permitted history of calls, of any length, from program start", "why_tests_cant": "the histories are unbounded and calls may come between any two cycles", "anchors": ["mpp-cpu/src/linker/cu.c:run_clock_cycle", "mpp-cpu/src/linker/linker.c:init", "mpp-cpu/src/lib/components/cu/cu.c", "mpp-cpu/src/linker/bus.c", "mpp-cpu/src/linker/mem.c", "mpp-cpu/src/linker/registers.c"]}
{"id": "C98", "title": "What is shown is all there is", "statement": "Two simulators whose getters give the same answers, whatever calls led to them, give the same answers after any further calls: the interface hides no state that can show later. The registers, memory and notices alone would not be enough.", "quantifier": "every two permitted histories and every continuation of both", "why_tests_cant": "about pairs of unbounded histories and all their continuations; hidden state shows up only in a particular continuation", "anchors": ["mpp-cpu/src/linker/linker.c", "mpp-cpu/src/lib/pubsub.c", "mpp-cpu/src/lib/components/components.c"]}
{"id": "C99", "title": "The transpiler page always shows the text in its editor", "statement": "Whatever is typed, and whatever parser is used, the transpiler page of the documentation shows what the parser says of the text now in the editor: its result, or its error and no result; nothing else is drawn while it changes. The tables of variables and labels have every name once, in the order of the program, with the address it has where it appears first.", "quantifier": "every parser, every sequence of edits, every result", "why_tests_cant": "all sequences of texts with and without errors, and all results", "anchors": ["docs/src/components/Transpiler.tsx:Transpiler"]}
{"id": "C100", "title": "The menu, the edit link and the theme of the documentation", "statement": "From any list of headers and links the documentation builds a menu that read from the top is that list; on the page of a link (no dots in it), with or without an ending, that link and no other is marked; the edit link leads to the file the page was made from. Whatever the reader does, the theme button that is checked is that of the page, and a theme chosen is the theme from then on, on every page, whatever the system prefers. Findings: names with dots are not marked; the edit link of an index file is wrong; choosing the theme that is checked already is not remembered; with both pairs of buttons of a page in use a choice can be stored and not shown.", "quantifier": "every list, every page name, every sequence of openings, clicks and changes of the system's preference", "why_tests_cant": "unbounded lists, names and histories", "anchors": ["docs/src/components/LeftSidebar/LeftSidebar.astro:sidebarSections", "docs/src/layouts/MainLayout.astro:currentPage", "docs/src/layouts/MainLayout.astro:githubEditUrl", "docs/src/components/RightSidebar/ThemeToggleButton.tsx:ThemeToggle", "docs/src/components/HeadCommon.astro"]}
{"id": "C101", "title": "Each component alone does its job and touches nothing else", "statement": "For every value on its buses and every setting of the control lines, one call of a component publishes exactly the value its function prescribes (the eight ALU operations with carry and zero, +1/-1/0 of the adder, loads and sends of the accumulator, second operand, HL, SP, PC and the register bank, reads and writes of memory, the selections of the multiplexers, the flags, flip-flops and ROM lines), and every other bus, register and memory cell keeps its value. Too wide values give the notice of the component and change nothing. The repository's own unit tests of the components are instances; the one that is never called (AND) contradicts the code.", "quantifier": "every bus value in the stated width, every control word, every other content of the machine", "why_tests_cant": "the unit tests of the repository try a handful of values; the frame (nothing else changes) is over all buses, registers and cells", "anchors": ["mpp-cpu/src/lib/components/alu.c:run_alu", "mpp-cpu/src/lib/components/addsub.c:run_addsub", "mpp-cpu/src/lib/components/acumm.c:run_acumm", "mpp-cpu/src/lib/components/pc.c:run_pc", "mpp-cpu/src/lib/components/mem.c:run_mem", "mpp-cpu/src/lib/components/greg.c:run_greg", "mpp-cpu/src/lib/components/cu/rom.c:run_cu_rom", "mpp-cpu/test/unit/lib/components/alu_test.c:test_run_alu_and"]}
{"id": "C102", "title": "Several tabs share the settings", "statement": "With the simulator open in any number of tabs of one browser, opened, closed, reloaded and used in any order: the wait of a run started now, the base of the memory values drawn now, whether run times are shown and the kept program text are, in every tab, the last choice made in any tab. The texts' language, the controls of the drawer and immediate mode of a tab are those in force when it was loaded, changed only by its own choices; reloading brings a tab up to date. The tour is offered to the first tab that becomes ready and to no other. Findings: a tab in immediate mode whose cycle time another tab made 500 ms waits that long per cycle without drawing and with Stop disabled; the drawer can show a base that the memory is not drawn in; the program text of one tab replaces that of another.", "quantifier": "every interleaving of the actions of any number of tabs", "why_tests_cant": "the order of actions in different tabs is unbounded, and the tests mount one page", "anchors": ["mpp-front/src/lib/storage.ts:getStoredValue", "mpp-front/src/lib/storage.ts:setStoredValue", "mpp-front/src/pages/CPUTable/components/Settings.tsx:notifyChange", "mpp-front/src/pages/CPUTable/components/RunButtons.tsx:handleRunProgram", "mpp-front/src/pages/CPUTable/index.tsx"]}
{"id": "C103", "title": "Notifications during which callbacks subscribe and unsubscribe", "statement": "Whatever the callbacks registered with subscribeToUIUpdates do when they are called (subscribe others, unsubscribe others or themselves, throw): whenever a callback is called it is subscribed at that moment, every callback subscribed before it has already had its call and none after it has. When the notification ends without an error, every callback subscribed then has been called, including those subscribed on the way; one that nobody unsubscribed is called exactly once, and a second call only happens after it was unsubscribed and subscribed again. The subscriptions left are those of the calls made, in order. A callback that throws ends the notification, so those subscribed after it miss it. The notification ends if the callbacks subscribe only members of a fixed set that they do not unsubscribe; a callback that unsubscribes and resubscribes itself is called for ever.", "quantifier": "every history of subscriptions and every behaviour of the callbacks, which may depend on everything seen so far", "why_tests_cant": "the behaviours of callbacks and their interleaving with the iteration are unbounded", "anchors": ["mpp-front/src/lib/core/index.ts:subscribeToUIUpdates", "mpp-front/src/lib/core/index.ts:unsubscribeToUIUpdates", "mpp-front/src/lib/core/index.ts:notifyUpdateToSubscribers"]}
{"id": "C104", "title": "Floating arrows meet the borders of their boxes", "statement": "An arrow between two boxes of the diagram, wherever they are and whatever their sizes (over two pixels), starts and ends on the borders of the boxes, on the rays from their middles parallel to the line between their corners, and each end is given the side of the box it lies on; within two pixels of a corner it may be given the left or right side instead of the top or bottom. The arrow from t to s is the arrow from s to t turned round, and it moves with the boxes. For boxes of one size it is the line between the middles. Findings: for boxes of different sizes it is not, although the comment says so; for a box inside another its place in the outer one is ignored and the arrow misses it; two boxes in the same place give an arrow without coordinates.", "quantifier": "every pair of boxes, all positions and sizes", "why_tests_cant": "positions and sizes range over a continuum; the tests draw nothing", "anchors": ["mpp-front/src/lib/ReactFlow/utils.ts:getNodeIntersection", "mpp-front/src/lib/ReactFlow/utils.ts:getEdgePosition", "mpp-front/src/lib/ReactFlow/utils.ts:getEdgeParams", "mpp-front/src/pages/CPUTable/components/FloatingEdge.tsx", "mpp-front/src/pages/CPUTable/components/FloatingConnectionLine.tsx"]}
{"id": "C105", "title": "The language of a documentation page and the change of language", "statement": "The language of a page of the documentation is the first of its directories that is a language code (two small letters, perhaps a hyphen, at most two capitals), and Spanish when none is. Changing the language of a page in the directory of a language leads to the page of the same name in the directory of the other one, which is then the language of the page; changing back leads to the first page. From the root of a language or of the site it leads to the introduction. Whatever page it is asked on, the page reached is in the new language. Findings: when the language is not the first directory the new one is put in another place and changing back does not lead to the first page; the root of a language written without its last slash counts as a page.", "quantifier": "every address of a page, every pair of language codes", "why_tests_cant": "addresses and codes are unbounded; the documentation has no tests", "anchors": ["docs/src/languages.ts:langPathRegex", "docs/src/languages.ts:getLanguageFromURL", "docs/src/components/Header/LanguageSelect.tsx"]}
{"id": "C106", "title": "The contributors named on a documentation page", "statement": "Of the authors of the commits of a page, given most recent first, at most three are named, each once, and the number of the others is exact. Those named are the ones whose last commit is the most recent, in that order. Each is named as in the oldest of their commits in the list. Finding: when a commit has no author known to the host, and only then, the list cannot be made and an exception is thrown.", "quantifier": "every list of commits", "why_tests_cant": "histories are unbounded; the documentation has no tests", "anchors": ["docs/src/components/Footer/AvatarList.astro:removeDups", "docs/src/components/Footer/AvatarList.astro:recentContributors"]}
{"id": "C107", "title": "A program put in another place of memory does the same there", "statement": "Take two simulators, whatever calls led to them, with equal registers, flags, stack pointer and memory, except that on the second a program is some cells further on (or back), with the addresses of its own cells that are written in it changed by that distance, and the program counter too. As long as the program keeps to itself (reads no cell of its own that is part of an address and none of its two places from outside, does not overwrite addresses, leaves return addresses to RET and IRET) any number of its instructions, with jumps, calls and interrupts' returns, takes as many clock cycles on the second, leaves the same registers, flags, stack pointer, data and notices, and the program counter and return addresses moved by the distance. 'Run program' stops on both or on neither. Finding: copying the bytes alone is not enough, since every jump has an absolute address.", "quantifier": "every program, place, distance (overlapping places too), initial state and number of instructions, with or without the update_ui cycles", "why_tests_cant": "programs, places and run lengths are unbounded", "anchors": ["mpp-cpu/src/linker/cu.c:run_clock_cycle", "mpp-cpu/src/lib/components/pc.c", "mpp-cpu/src/lib/components/sp.c", "mpp-front/src/lib/traslator/operations.json"]}
{"id": "C108", "title": "A source assembled for two places of memory does the same in both", "statement": "Take a source text that assembles for two start addresses and names its own cells by labels only (no two-byte number in it is an address of the program at the first place). Assemble it for the first address, save it there and set the program counter to it; or, from the same simulator, do the same with the second address. The second memory and registers are those of the first with the program moved: the same bytes, except the operands that are labels, which grow by the difference, and nothing else in memory differs. If the run at the first place keeps to the rules of C107 and reaches FIN, 'run program' ends in both, with the same registers, flags, stack pointer, notices and data, and return addresses moved by the difference. For programs of moves, arithmetic, flags, jumps to labels, and LDA, STA and INISP of fixed cells, that end with FIN or JMP, nothing is asked of the run: 'run program' ends in both places or in neither, with the same results. Finding: a program that jumps to one of its own cells by number does something else at the second place.", "quantifier": "every source text of the language, every pair of start addresses at which it fits, every reachable simulator between two instructions, every length of the run", "why_tests_cant": "texts, addresses and run lengths are unbounded", "anchors": ["mpp-front/src/lib/traslator/index.ts:parseInput", "mpp-front/src/pages/Coder/index.tsx:handleSaveToMemory", "mpp-front/src/pages/CPUTable/components/RunButtons.tsx:handleRunProgram", "mpp-cpu/src/linker/registers.c:set_register_pc"]}
{"id": "C109", "title": "A program that jumps to labels and uses no stack executes its own lines only", "statement": "Take a source text whose jumps all go to labels, whose STA and INISP name cells outside the program by number, whose LDA reads the cell of a label or a cell outside, without PUSH, POP, CALL, RET, IRET or D:E addresses, and whose last line is FIN or JMP. Assemble it, save it and set the program counter to its start. Until it executes FIN, the program counter is at the first cell of one of its lines between any two instructions; the bytes of the program stay as saved; no cell of memory changes outside the program except those named by an STA line; and no notice is given. If 'run program' ends, the program counter is just after a FIN line of the source, and the rest holds too. Finding: without the condition on the last line it is false, as execution goes on into the cells after the program.", "quantifier": "every such source text, every start address at which it fits, every reachable simulator between two instructions, every number of instructions", "why_tests_cant": "texts, memory contents and run lengths are unbounded, and some of the runs never end", "anchors": ["mpp-front/src/lib/traslator/index.ts:parseInput", "mpp-front/src/pages/Coder/index.tsx:handleSaveToMemory", "mpp-front/src/pages/CPUTable/components/RunButtons.tsx:handleRunProgram", "mpp-cpu/src/linker/cu.c:run_clock_cycle"]}
{"id": "C110", "title": "A program that only jumps forwards ends", "statement": "Take a source text as in C109 in which no jump names the label of its own line or of a line above it. Assemble it, save it and set the program counter to its start. 'Run program' ends, whatever the registers, the flags and the rest of memory hold, and it has executed at most as many instructions as the text has instruction lines, at most nine clock cycles each. Finding: without the condition on jumps it is false (TX JMP TX).", "quantifier": "every such source text, every start address at which it fits, every reachable simulator between two instructions", "why_tests_cant": "termination for all texts, all register contents and all memories", "anchors": ["mpp-front/src/lib/traslator/index.ts:parseInput", "mpp-front/src/pages/Coder/index.tsx:handleSaveToMemory", "mpp-front/src/pages/CPUTable/components/RunButtons.tsx:handleRunProgram", "mpp-cpu/src/linker/cu.c:run_clock_cycle"]}
{"id": "C111", "title": "What the results of a program depend on", "statement": "Take a source text as in C109 and two simulators, each between two instructions and whatever was done with them before, with equal AC, B, C, D, E and flags and equal values in the cells that LDA lines name by number. Assemble the text, save it and set the program counter to its start in both. If 'run program' ends in one it ends in the other, with equal AC, B, C, D, E, flags and program counter, and each cell of memory holds the same value in both or is in each as it was before. So the rest of memory, the stack pointer and the old program counter have no influence.", "quantifier": "every such source text, every start address at which it fits, every pair of reachable simulators between two instructions that agree as said", "why_tests_cant": "ranges over pairs of memories and histories and over all programs of the class", "anchors": ["mpp-front/src/lib/traslator/index.ts:parseInput", "mpp-front/src/pages/Coder/index.tsx:handleSaveToMemory", "mpp-front/src/pages/CPUTable/components/RunButtons.tsx:handleRunProgram", "mpp-cpu/src/linker/cu.c:run_clock_cycle"]}
{"id": "C112", "title": "A program whose PUSH and POP lines balance keeps its stack", "statement": "Take a source text whose jumps go to labels, whose STA lines name cells outside the program by number, without STAX, INISP, CALL, RET or IRET, and whose last line is FIN or JMP. Suppose each line can be given a number of bytes on the stack, from 0 to some K and 0 for the first line, such that PUSH adds one, POP takes one and the other lines none, also along jumps. Assemble the text, save it, set the program counter to its start, with the stack pointer at a place below which K cells are free of the program. Until FIN, between any two instructions the program counter is at a line of the text and the stack pointer is exactly as many cells below its first place as that line's number says; the bytes of the program stay as saved; no cell changes but the K stack cells, those named by STA lines; and no notice is given. If 'run program' ends, it ends just after a FIN line with the stack pointer where that line's number says.", "quantifier": "every such source text, every numbering, every K, every start address and stack place at which they fit, every reachable simulator between two instructions, every number of instructions", "why_tests_cant": "texts, numberings, memory contents and run lengths are unbounded", "anchors": ["mpp-front/src/lib/traslator/index.ts:parseInput", "mpp-front/src/pages/Coder/index.tsx:handleSaveToMemory", "mpp-front/src/pages/CPUTable/components/RunButtons.tsx:handleRunProgram", "mpp-cpu/src/linker/cu.c:run_clock_cycle"]}
{"id": "C113", "title": "A program made of routines returns where it was called from and keeps its stack", "statement": "Take a source text whose jumps and calls go to labels, whose STA lines name by number cells outside the program and the stack, without STAX, INISP or IRET, and whose last line is FIN, JMP or RET. Suppose its lines are divided into a main program and routines: jumps stay in their routine, CALL goes to a line where a routine begins, RET is in a routine and reached with nothing of its own on the stack, PUSH and POP agree with a number of bytes given for each line, and each routine has a bound on the stack it needs that allows for two bytes and the bound of the routine called at each CALL. Assemble the text, save it, set the program counter to its start, with the stack pointer at a place below which the bound of the main program is free of the program. Until FIN, between any two instructions, the program counter is at a line of the text, whatever calls and returns were made; the stack pointer is within the bound, and at lines of the main program exactly where the number of the line says; the bytes of the program stay as saved; no cell changes but those of the stack and those named by STA lines; and no notice is given. After a CALL, the first time the stack pointer is back at its value before the CALL, the program counter is at the line after the CALL; until then the bytes that were on the stack before the CALL do not change. A byte on the stack does not change until the stack pointer passes it; a POP with the stack pointer where a PUSH left it, and below its value before the PUSH ever since, gives the accumulator and the stack pointer the values they had before the PUSH. If 'run program' ends, it ends just after a FIN line. If moreover its jumps (not its calls) go to lines below, 'run program' ends, whatever the registers, flags and the rest of memory hold.", "quantifier": "every such source text, every division into routines, every numbering and bounds, every start address and stack place at which they fit, every reachable simulator between two instructions, every number of instructions", "why_tests_cant": "texts, call structures, memory contents and run lengths are unbounded", "anchors": ["mpp-front/src/lib/traslator/index.ts:parseInput", "mpp-front/src/pages/Coder/index.tsx:handleSaveToMemory", "mpp-front/src/pages/CPUTable/components/RunButtons.tsx:handleRunProgram", "mpp-cpu/src/linker/cu.c:run_clock_cycle"]}
