{
 "claims": [
  {
   "property": "C01",
   "status": "proved",
   "theorems": [
    "C01_mov_reg_reg",
    "C01_mov_reg_ac",
    "C01_mov_ac_reg",
    "C01_mov_ac_ac",
    "C01_mov_imm_reg",
    "C01_mov_imm_ac"
   ],
   "note": "C01-C12: refinement of the microcoded core (L1 heap world reached by any allowed API history) to Isa.v; hypotheses are live/obs, met by every allowed history (C17_defined, C54)."
  },
  {
   "property": "C02",
   "status": "proved",
   "theorems": [
    "C02_add"
   ],
   "note": ""
  },
  {
   "property": "C03",
   "status": "proved",
   "theorems": [
    "C03_sub",
    "C03_cmp"
   ],
   "note": ""
  },
  {
   "property": "C04",
   "status": "proved",
   "theorems": [
    "C04_and",
    "C04_or",
    "C04_xor",
    "C04_cma"
   ],
   "note": ""
  },
  {
   "property": "C05",
   "status": "proved",
   "theorems": [
    "C05_inc_reg",
    "C05_inc_ac"
   ],
   "note": ""
  },
  {
   "property": "C06",
   "status": "proved",
   "theorems": [
    "C06_lda",
    "C06_sta"
   ],
   "note": ""
  },
  {
   "property": "C07",
   "status": "proved",
   "theorems": [
    "C07_ldax",
    "C07_stax"
   ],
   "note": ""
  },
  {
   "property": "C08",
   "status": "proved",
   "theorems": [
    "C08_jmp",
    "C08_beq",
    "C08_bc"
   ],
   "note": ""
  },
  {
   "property": "C09",
   "status": "proved",
   "theorems": [
    "C09_inisp",
    "C09_push",
    "C09_pop"
   ],
   "note": ""
  },
  {
   "property": "C10",
   "status": "proved",
   "theorems": [
    "C10_call",
    "C10_ret"
   ],
   "note": ""
  },
  {
   "property": "C11",
   "status": "proved",
   "theorems": [
    "C11_lfa",
    "C11_sfa",
    "C11_iret"
   ],
   "note": ""
  },
  {
   "property": "C12",
   "status": "proved",
   "theorems": [
    "C12_fin",
    "C12_undocumented"
   ],
   "note": ""
  },
  {
   "property": "C13",
   "status": "proved",
   "theorems": [
    "C13_completes",
    "C13_data_independent"
   ],
   "note": "Exact cycle counts are in Isa.cycles; bounds and data independence proved for all 256 opcodes."
  },
  {
   "property": "C14",
   "status": "proved",
   "theorems": [
    "C14_programs",
    "C14_programs_run",
    "C14_nonvacuous"
   ],
   "note": "C14_programs is stated on Isa steps, C14_programs_run on the run-instruction loop of the page."
  },
  {
   "property": "C15",
   "status": "proved",
   "theorems": [
    "C15_microstates"
   ],
   "note": ""
  },
  {
   "property": "C16",
   "status": "proved",
   "theorems": [
    "C16_one_row_refuted",
    "C16_one_row",
    "C16_search",
    "C16_none",
    "C16_default",
    "C16_overlaps_harmless",
    "C16_labels",
    "C16_labels_refuted"
   ],
   "note": "C16_one_row_refuted, C16_labels_refuted: the comment that one row matches is false, and three row labels are wrong."
  },
  {
   "property": "C17",
   "status": "proved",
   "theorems": [
    "C17_defined",
    "C17_getters_defined",
    "C17_guards_needed"
   ],
   "note": "C17_guards_needed shows that each guard on the calls is needed (the call is undefined without it)."
  },
  {
   "property": "C18",
   "status": "proved",
   "theorems": [
    "C18_ranges"
   ],
   "note": ""
  },
  {
   "property": "C19",
   "status": "proved",
   "theorems": [
    "C19_pc_advances",
    "C19_stays",
    "C19_wraps_refuted"
   ],
   "note": "C19_wraps_refuted: PC does not wrap at 0xFFFF."
  },
  {
   "property": "C20",
   "status": "proved",
   "theorems": [
    "C20_push_at_0",
    "C20_pop_at_end",
    "C20_ret_at_end",
    "C20_call_at_0",
    "C20_restore_refuted"
   ],
   "note": "C20_restore_refuted: PUSH then POP at SP = 0 does not restore SP."
  },
  {
   "property": "C21",
   "status": "proved",
   "theorems": [
    "C21_stack",
    "C21_lifo"
   ],
   "note": ""
  },
  {
   "property": "C22",
   "status": "proved",
   "theorems": [
    "C22_subroutine"
   ],
   "note": "The body between CALL and RET is any sequence of instructions that restores SP and keeps the two cells."
  },
  {
   "property": "C23",
   "status": "proved",
   "theorems": [
    "C23_flags_frame"
   ],
   "note": ""
  },
  {
   "property": "C24",
   "status": "proved",
   "theorems": [
    "C24_memory_frame",
    "C24_no_store"
   ],
   "note": ""
  },
  {
   "property": "C25",
   "status": "proved",
   "theorems": [
    "C25_int_word_int",
    "C25_word_int_word",
    "C25_undefined",
    "C25_negative_refuted",
    "C25_injective"
   ],
   "note": "C25_negative_refuted: word_to_int overflows when bit 31 is set."
  },
  {
   "property": "C26",
   "status": "proved",
   "theorems": [
    "C26_width",
    "C26_negative",
    "C26_highest"
   ],
   "note": ""
  },
  {
   "property": "C27",
   "status": "proved",
   "theorems": [
    "C27_histories",
    "C27_publish",
    "C27_abstraction"
   ],
   "note": ""
  },
  {
   "property": "C28",
   "status": "proved",
   "theorems": [
    "C28_unsubscribe",
    "C28_final",
    "C28_silent"
   ],
   "note": ""
  },
  {
   "property": "C29",
   "status": "proved",
   "theorems": [
    "C29_veto",
    "C29_init_buses",
    "C29_init_buses_code",
    "C29_init_buses_fits"
   ],
   "note": "init_buses is modelled although nothing calls it."
  },
  {
   "property": "C30",
   "status": "proved",
   "theorems": [
    "C30_store_refuted",
    "C30_dangling_refuted",
    "C30_added",
    "C30_remove"
   ],
   "note": "Refutations with witnesses: the store is past the array, and the freed node is read by the next publish."
  },
  {
   "property": "C31",
   "status": "proved",
   "theorems": [
    "C31_histories",
    "C31_find"
   ],
   "note": ""
  },
  {
   "property": "C32",
   "status": "proved",
   "theorems": [
    "C32_histories"
   ],
   "note": ""
  },
  {
   "property": "C33",
   "status": "proved",
   "theorems": [
    "C33_memory_write",
    "C33_out_of_range",
    "C33_size",
    "C33_other_calls"
   ],
   "note": ""
  },
  {
   "property": "C34",
   "status": "proved",
   "theorems": [
    "C34_bad_offset_refuted",
    "C34_wide_value_refuted",
    "C34_good_arguments",
    "C34_any_value_refuted"
   ],
   "note": "C34_bad_offset_refuted, C34_wide_value_refuted: proved for all bad offsets / all wide values."
  },
  {
   "property": "C35",
   "status": "proved",
   "theorems": [
    "C35_only_pc",
    "C35_redirects",
    "C35_stale_refuted"
   ],
   "note": "C35_stale_refuted: PCH and PCL are stale after set_register_pc."
  },
  {
   "property": "C36",
   "status": "proved",
   "theorems": [
    "C36_reset",
    "C36_reset_boundary"
   ],
   "note": ""
  },
  {
   "property": "C37",
   "status": "proved",
   "theorems": [
    "C37_reinit_fresh",
    "C37_shutdown_leaks_refuted",
    "C37_leak_unbounded_refuted"
   ],
   "note": "C37_shutdown_leaks_refuted, C37_leak_unbounded_refuted: one subscription leaks per cycle of init and shutdown; behaviour is otherwise that of a fresh start for every later sequence of calls."
  },
  {
   "property": "C38",
   "status": "proved",
   "theorems": [
    "C38_clock"
   ],
   "note": ""
  },
  {
   "property": "C39",
   "status": "proved",
   "theorems": [
    "C39_checked_registers",
    "C39_unchecked_refuted",
    "C39_data_bus_refuted",
    "C39_memory_bytes"
   ],
   "note": "Stated with memory cells of any 31-bit content."
  },
  {
   "property": "C40",
   "status": "proved",
   "theorems": [
    "C40_ends",
    "C40_completes",
    "C40_one_instruction"
   ],
   "note": ""
  },
  {
   "property": "C41",
   "status": "proved",
   "theorems": [
    "C41_stops_after_fin",
    "C41_stops_only_after_fin"
   ],
   "note": ""
  },
  {
   "property": "C42",
   "status": "proved",
   "theorems": [
    "C42_save",
    "C42_overlong_refuted",
    "C42_source"
   ],
   "note": "C42_source starts from the program text. C42_overlong_refuted: a save that does not fit is undefined (the page's check prevents it, see C64)."
  },
  {
   "property": "C43",
   "status": "proved",
   "theorems": [
    "C43_instruction",
    "C43_every_instruction",
    "C43_opcode_unique",
    "C43_byte_AC_refuted"
   ],
   "note": "C43_byte_AC_refuted: the immediate AC is taken for the accumulator."
  },
  {
   "property": "C44",
   "status": "proved",
   "theorems": [
    "C44_program",
    "C44_image"
   ],
   "note": ""
  },
  {
   "property": "C45",
   "status": "proved",
   "theorems": [
    "C45_table",
    "C45_layout",
    "C45_refuted"
   ],
   "note": "The full claim is false (C45_refuted); C45_layout is the true part."
  },
  {
   "property": "C46",
   "status": "proved",
   "theorems": [
    "C46_total",
    "C46_labels_exist",
    "C46_errors",
    "C46_saved",
    "C46_comments",
    "C46_blank",
    "C46_stray_cr_refuted",
    "C46_lost_reference_refuted",
    "C46_blank_lines",
    "C46_padded"
   ],
   "note": "C46_stray_cr_refuted and C46_lost_reference_refuted are the two exceptions."
  },
  {
   "property": "C47",
   "status": "proved",
   "theorems": [
    "C47_memory",
    "C47_partition",
    "C47_backwards",
    "C47_each_address_once",
    "C47_lines_are_instructions",
    "C47_undocumented_refuted"
   ],
   "note": "C47_undocumented_refuted: undocumented opcodes that take two bytes are listed as one byte."
  },
  {
   "property": "C48",
   "status": "proved",
   "theorems": [
    "C48_reassembles",
    "C48_padding_refuted",
    "C48_AC_refuted",
    "C48_program"
   ],
   "note": "C48_padding_refuted, C48_AC_refuted: the two exceptions."
  },
  {
   "property": "C49",
   "status": "proved",
   "theorems": [
    "C49_multiplication"
   ],
   "note": "The program text is the one shipped in constants/examples.ts with the two operands free."
  },
  {
   "property": "C50",
   "status": "proved",
   "theorems": [
    "C50_mx4",
    "C50_mx2",
    "C50_or",
    "C50_and",
    "C50_and_bits",
    "C50_and_bitwise_refuted"
   ],
   "note": "C50_and_bitwise_refuted: the AND gate is not bitwise."
  },
  {
   "property": "C51",
   "status": "proved",
   "theorems": [
    "C51_clock_notices",
    "C51_calls_quiet",
    "C51_instruction_quiet"
   ],
   "note": ""
  },
  {
   "property": "C52",
   "status": "proved",
   "theorems": [
    "C52_init",
    "C52_every_memory",
    "C52_255_refuted"
   ],
   "note": "C52_255_refuted: no cell is ever 255 after init."
  },
  {
   "property": "C53",
   "status": "proved",
   "theorems": [
    "C53_microstates"
   ],
   "note": ""
  },
  {
   "property": "C54",
   "status": "proved",
   "theorems": [
    "C54_every_state_reachable"
   ],
   "note": ""
  },
  {
   "property": "C55",
   "status": "proved",
   "theorems": [
    "C55_highlight",
    "C55_aligned",
    "C55_misaligned_refuted"
   ],
   "note": "C55_misaligned_refuted: with a window that starts inside an instruction another one is highlighted."
  },
  {
   "property": "C56",
   "status": "proved",
   "theorems": [
    "C56_count",
    "C56_search",
    "C56_call"
   ],
   "note": ""
  },
  {
   "property": "C57",
   "status": "proved",
   "theorems": [
    "C57_control",
    "C57_selalu",
    "C57_address",
    "C57_data",
    "C57_idle_registers",
    "C57_idle_pc",
    "C57_memory",
    "C57_loaded",
    "C57_loaded_refuted",
    "C57_quiet_calls",
    "C57_reset",
    "C57_init"
   ],
   "note": "C57_loaded_refuted lists the microstates where the bus does not show the loaded value."
  },
  {
   "property": "C58",
   "status": "proved",
   "theorems": [
    "C58_cycles",
    "C58_next",
    "C58_labels",
    "C58_labels_refuted",
    "C58_executed_refuted"
   ],
   "note": "C58_labels_refuted, C58_executed_refuted."
  },
  {
   "property": "C59",
   "status": "proved",
   "theorems": [
    "C59_opening",
    "C59_defined",
    "C59_boxes",
    "C59_others",
    "C59_arrows",
    "C59_red",
    "C59_alu_memory",
    "C59_pulse",
    "C59_pulse_refuted",
    "C59_reset_stale_refuted"
   ],
   "note": "C59_pulse_refuted, C59_reset_stale_refuted."
  },
  {
   "property": "C60",
   "status": "proved",
   "theorems": [
    "C60_rows",
    "C60_rows_refuted"
   ],
   "note": "C60_rows_refuted: numbers from 2^32-1 on."
  },
  {
   "property": "C62",
   "status": "proved",
   "theorems": [
    "C62_safe",
    "C62_forward",
    "C62_steps",
    "C62_stop",
    "C62_stop_refuted",
    "C62_finish",
    "C62_resume",
    "C62_modes",
    "C62_resume_refuted"
   ],
   "note": "C62_stop_refuted: Stop pressed during the 100 ms wait that opens an immediate run is forgotten. C62_resume_refuted: a stop between the two cycles of FIN makes the next run execute one cycle too many."
  },
  {
   "property": "C61",
   "status": "proved",
   "theorems": [
    "C61_format",
    "C61_typed",
    "C61_refused",
    "C61_honest",
    "C61_retype",
    "C61_mark_refuted",
    "C61_negative"
   ],
   "note": "C61_mark_refuted: the error mark can be stale. Numbers above 2^53 - 1 are outside the model."
  },
  {
   "property": "C63",
   "status": "proved",
   "theorems": [
    "C63_safe",
    "C63_connect",
    "C63_again",
    "C63_overlap_refuted"
   ],
   "note": "C63_overlap_refuted. Between a module's arrival and the rest of its connectBackend nothing else runs (microtasks)."
  },
  {
   "property": "C64",
   "status": "proved",
   "theorems": [
    "C64_enabled",
    "C64_with_page",
    "C64_save",
    "C64_program",
    "C64_refused",
    "C64_with_page_refuted"
   ],
   "note": "C64_with_page_refuted: depends on whether the drawer mounts the editor with the page; both cases are covered."
  },
  {
   "property": "C65",
   "status": "proved",
   "theorems": [
    "C65_appended",
    "C65_kept",
    "C65_comment_refuted"
   ],
   "note": "C65_comment_refuted."
  },
  {
   "property": "C66",
   "status": "proved",
   "theorems": [
    "C66_notify"
   ],
   "note": ""
  },
  {
   "property": "C67",
   "status": "proved",
   "theorems": [
    "C67_factorial",
    "C67_zero_refuted"
   ],
   "note": "C67_zero_refuted: 0! gives 0."
  },
  {
   "property": "C68",
   "status": "proved",
   "theorems": [
    "C68_malicious",
    "C68_decrement"
   ],
   "note": "C68_malicious: the loop has no end state, and for every k there is a later visit of the call."
  },
  {
   "property": "C69",
   "status": "proved",
   "theorems": [
    "C69_multiplication"
   ],
   "note": ""
  },
  {
   "property": "C70",
   "status": "proved",
   "theorems": [
    "C70_microprograms",
    "C70_pages",
    "C70_same_operation",
    "C70_call_ret",
    "C70_pages_refuted",
    "C70_or_operation_refuted"
   ],
   "note": "C70_pages with the three exceptions of C70_pages_refuted; C70_microprograms gives the exact list for every documented instruction; C70_same_operation and C70_or_operation_refuted compare the operations."
  },
  {
   "property": "C71",
   "status": "proved",
   "theorems": [
    "C71_as_written",
    "C71_labels"
   ],
   "note": "Source.v reads the effect from the source lines, without opcodes or fetching. The program does not overwrite itself and stays below 65535."
  },
  {
   "property": "C72",
   "status": "proved",
   "theorems": [
    "C72_in_force",
    "C72_shown",
    "C72_box_refuted",
    "C72_refused",
    "C72_tour_first",
    "C72_tour_once",
    "C72_tour_state",
    "C72_tour_switch_refuted"
   ],
   "note": "C72_box_refuted and C72_tour_switch_refuted are the findings. Nothing else is assumed to write the browser storage."
  },
  {
   "property": "C73",
   "status": "proved",
   "theorems": [
    "C73_texts",
    "C73_rekeyed",
    "C73_new_key",
    "C73_rekeyed_refuted",
    "C73_listeners",
    "C73_remove_twice_refuted",
    "C73_coverage",
    "C73_coverage_refuted"
   ],
   "note": "C73_rekeyed_refuted, C73_remove_twice_refuted, C73_coverage_refuted are the findings; C73_rekeyed and C73_new_key give the true part for changing keys."
  },
  {
   "property": "C74",
   "status": "proved",
   "theorems": [
    "C74_debug",
    "C74_release",
    "C74_add",
    "C74_notice",
    "C74_fatal_exits",
    "C74_fatal_refuted",
    "C74_message"
   ],
   "note": "C74_fatal_refuted is the finding. Time stamps and formatting are not modelled."
  },
  {
   "property": "C75",
   "status": "proved",
   "theorems": [
    "C75_digits",
    "C75_digits_refuted",
    "C75_text",
    "C75_text_refuted"
   ],
   "note": "(int)log10 is taken to be exact on whole numbers below 2^31."
  },
  {
   "property": "C76",
   "status": "proved",
   "theorems": [
    "C76_at_once",
    "C76_first"
   ],
   "note": ""
  },
  {
   "property": "C77",
   "status": "proved",
   "theorems": [
    "C77_link",
    "C77_link_any",
    "C77_link_refuted",
    "C77_opened",
    "C77_no_code",
    "C77_file",
    "C77_cut",
    "C77_file_refuted",
    "C77_resumes"
   ],
   "note": "URLSearchParams, encodeURIComponent, UTF-8 and the Blob/FileReader codecs are modelled from their standards. C77_link_refuted, C77_file_refuted are the findings."
  },
  {
   "property": "C78",
   "status": "proved",
   "theorems": [
    "C78_kept",
    "C78_last_change",
    "C78_first",
    "C78_link",
    "C78_link_refuted",
    "C78_reload_refuted",
    "C78_reload_same"
   ],
   "note": "C78_link_refuted and C78_reload_refuted are the findings."
  },
  {
   "property": "C79",
   "status": "proved",
   "theorems": [
    "C79_exact",
    "C79_once",
    "C79_usable",
    "C79_small_letters_refuted",
    "C79_labels_refuted"
   ],
   "note": "C79_small_letters_refuted and C79_labels_refuted are the findings. The editor component's own filtering of the list is that of its prefix."
  },
  {
   "property": "C80",
   "status": "proved",
   "theorems": [
    "C80_once",
    "C80_order_refuted",
    "C80_only",
    "C80_history",
    "C80_twice_refuted",
    "C80_lost_refuted",
    "C80_incomplete_refuted",
    "C80_error_refuted"
   ],
   "note": "C80_order_refuted, C80_twice_refuted, C80_lost_refuted, C80_incomplete_refuted, C80_error_refuted are the findings."
  },
  {
   "property": "C81",
   "status": "proved",
   "theorems": [
    "C81_text",
    "C81_colours",
    "C81_documented",
    "C81_number_refuted",
    "C81_comment_refuted"
   ],
   "note": "C81_documented excludes values that look like names and comments touching a label; C81_number_refuted and C81_comment_refuted show why."
  },
  {
   "property": "C82",
   "status": "proved",
   "theorems": [
    "C82_opens",
    "C82_defined",
    "C82_shown",
    "C82_state",
    "C82_debugger",
    "C82_state_refuted",
    "C82_immediate"
   ],
   "note": "C82_shown excludes the middle of an immediate run (C82_immediate says what happens then); C82_state excludes the saving of an empty program, C82_state_refuted shows why. C82_defined leaves out typed numbers from 2^53 on, which JavaScript would round."
  },
  {
   "property": "C83",
   "status": "proved",
   "theorems": [
    "C83_solutions",
    "C83_jumps",
    "C83_pop",
    "C83_pop_refuted",
    "C83_push",
    "C83_push_refuted",
    "C83_compare",
    "C83_flags",
    "C83_sfa_refuted"
   ],
   "note": "C83_pop_refuted, C83_push_refuted and C83_sfa_refuted are the findings; C83_push is the PUSH solution with the stack away from the program."
  },
  {
   "property": "C84",
   "status": "proved",
   "theorems": [
    "C84_read_off",
    "C84_always"
   ],
   "note": "Composition of C71, C82 and C64."
  },
  {
   "property": "C85",
   "status": "proved",
   "theorems": [
    "C85_count_fits",
    "C85_count_always_fits_refuted",
    "C85_running",
    "C85_exact",
    "C85_session",
    "C85_restarts_refuted"
   ],
   "note": "C85_restarts_refuted is the finding. A memory array lost by calling init twice without shutdown is not counted."
  },
  {
   "property": "C86",
   "status": "proved",
   "theorems": [
    "C86_time",
    "C86_shown",
    "C86_asks",
    "C86_asks_in_time",
    "C86_waits",
    "C86_drawn",
    "C86_drawn_cycles",
    "C86_buttons",
    "C86_defined",
    "C86_stop",
    "C86_stopped",
    "C86_stopped_ends",
    "C86_stop_refuted",
    "C86_unfreezes",
    "C86_frozen_refuted",
    "C86_blind_refuted"
   ],
   "note": "Statement by statement model of the handlers with the clock. C86_stop_refuted, C86_frozen_refuted and C86_blind_refuted are findings. The clock may run backwards unless a hypothesis says it does not."
  },
  {
   "property": "C87",
   "status": "proved",
   "theorems": [
    "C87_cycle",
    "C87_next",
    "C87_executed",
    "C87_documented",
    "C87_documented_refuted"
   ],
   "note": "The texts are read by the small reader in Labels.v, which gives them a meaning independently of the microprogram. RF and RD are the registers of the instruction in RI, from the specification Isa.v."
  },
  {
   "property": "C88",
   "status": "proved",
   "theorems": [
    "C88_steps",
    "C88_program",
    "C88_endless",
    "C88_fresh",
    "C88_condition",
    "C88_unset_refuted"
   ],
   "note": "Access.v states which cells each instruction reads and writes; that it lists enough is part of the proof (C88_steps). C88_condition: the condition does not depend on the other cells."
  },
  {
   "property": "C89",
   "status": "proved",
   "theorems": [
    "C89_errors",
    "C89_error_covers",
    "C89_labels",
    "C89_label_covers",
    "C89_listing",
    "C89_addresses",
    "C89_notes",
    "C89_notes_good",
    "C89_indented_refuted",
    "C89_with_errors_refuted"
   ],
   "note": "C89_listing also proves that joining and splitting the translation, left out of new_translation (Asm.v), changes nothing. How Ace draws marks is not modelled."
  },
  {
   "property": "C90",
   "status": "proved",
   "theorems": [
    "C90_spelling",
    "C90_same_machine",
    "C90_moved",
    "C90_names_refuted"
   ],
   "note": "For texts that are programs in the sense of AsmSpec.v."
  },
  {
   "property": "C91",
   "status": "proved",
   "theorems": [
    "C91_loops",
    "C91_returns",
    "C91_ends",
    "C91_registers_refuted"
   ],
   "note": "States are compared at instruction boundaries; notices are not part of the state."
  },
  {
   "property": "C92",
   "status": "proved",
   "theorems": [
    "C92_exact",
    "C92_late",
    "C92_fresh",
    "C92_history",
    "C92_state",
    "C92_immediate",
    "C92_refuted"
   ],
   "note": "Numbers are rational; every event runs at most one cycle, whose two clock readings are arbitrary."
  },
  {
   "property": "C93",
   "status": "proved",
   "theorems": [
    "C93_used",
    "C93_commute",
    "C93_lost",
    "C93_read_refuted"
   ],
   "note": "The edits come between two instructions; in the middle of an instruction is not covered."
  },
  {
   "property": "C94",
   "status": "proved",
   "theorems": [
    "C94_started",
    "C94_never_blank",
    "C94_second",
    "C94_goes",
    "C94_stays",
    "C94_failed_refuted",
    "C94_twice_refuted",
    "C94_mounted_again"
   ],
   "note": "The callbacks of then and catch run together with the end of the promise they wait for."
  },
  {
   "property": "C95",
   "status": "proved",
   "theorems": [
    "C95_local",
    "C95_runs",
    "C95_overlap",
    "C95_grows",
    "C95_start",
    "C95_shift_refuted",
    "C95_written_refuted"
   ],
   "note": ""
  },
  {
   "property": "C96",
   "status": "proved",
   "theorems": [
    "C96_text",
    "C96_same",
    "C96_documented",
    "C96_other_refuted"
   ],
   "note": "Marks inside comments (TODO:) are not modelled."
  },
  {
   "property": "C97",
   "status": "proved",
   "theorems": [
    "C97_every_history",
    "C97_updates_do_not_matter",
    "C97_edit_time",
    "C97_edit_time_data_refuted"
   ],
   "note": "`unused` is stated over the specification machine of Whole.v."
  },
  {
   "property": "C98",
   "status": "proved",
   "theorems": [
    "C98_no_hidden_state",
    "C98_registers_only_refuted"
   ],
   "note": "Answers include the microstates and the buses."
  },
  {
   "property": "C99",
   "status": "proved",
   "theorems": [
    "C99_current",
    "C99_no_mix",
    "C99_tables"
   ],
   "note": "The parser is an empty submodule in the repository: the theorems hold for every parser. Formatting of addresses is left out."
  },
  {
   "property": "C100",
   "status": "proved",
   "theorems": [
    "C100_menu",
    "C100_current",
    "C100_dotted_refuted",
    "C100_edit",
    "C100_edit_index_refuted",
    "C100_theme_shown",
    "C100_theme_chosen",
    "C100_no_flash",
    "C100_theme_same_refuted",
    "C100_two_pairs_refuted",
    "C100_other_store_refuted"
   ],
   "note": "At most one pair of theme buttons per page for the positive theorems on the theme; with two see C100_two_pairs_refuted. Layout and scrolling are not modelled."
  },
  {
   "property": "C101",
   "status": "proved",
   "theorems": [
    "C101_alu",
    "C101_addsub",
    "C101_acumm",
    "C101_op2",
    "C101_hl",
    "C101_sp",
    "C101_greg",
    "C101_pc",
    "C101_pc_wide",
    "C101_mem",
    "C101_mxdir",
    "C101_mxreg",
    "C101_flag_inputs",
    "C101_flags",
    "C101_flag_byte",
    "C101_fffc",
    "C101_joiners",
    "C101_flip_flops",
    "C101_rom",
    "C101_uncalled_test_refuted"
   ],
   "note": "Stated over one value per bus (Machine.v); HeapSim.v relates that to pointers and subscriptions. run_cu_rom is undefined in microstate 45, which no run reaches (C15)."
  },
  {
   "property": "C102",
   "status": "proved",
   "theorems": [
    "C102_open",
    "C102_everybody",
    "C102_mine",
    "C102_reload",
    "C102_tour",
    "C102_immediate_refuted",
    "C102_text_refuted",
    "C102_base_refuted",
    "C102_one_tab"
   ],
   "note": "Actions of different tabs are taken one at a time; clearing the storage by hand is not modelled. C102_one_tab ties it to C72."
  },
  {
   "property": "C103",
   "status": "proved",
   "theorems": [
    "C103_turn",
    "C103_everyone",
    "C103_once",
    "C103_exactly_once",
    "C103_after",
    "C103_throw",
    "C103_missed_refuted",
    "C103_ends",
    "C103_endless_refuted",
    "C103_quiet"
   ],
   "note": "forEach as ECMAScript specifies it for sets. A callback that itself starts a notification is not modelled. C103_quiet ties it to C66."
  },
  {
   "property": "C104",
   "status": "proved",
   "theorems": [
    "C104_end",
    "C104_arrow",
    "C104_reversed",
    "C104_moved",
    "C104_same_size",
    "C104_middle_refuted",
    "C104_inner_refuted",
    "C104_same_place",
    "C104_no_size"
   ],
   "note": "Over exact rationals: the rounding of doubles is not modelled. C104_middle_refuted, C104_inner_refuted and C104_same_place are the findings. The page does not use floating arrows at this commit."
  },
  {
   "property": "C105",
   "status": "proved",
   "theorems": [
    "C105_language",
    "C105_switch",
    "C105_back",
    "C105_root",
    "C105_reached",
    "C105_place_refuted"
   ],
   "note": "C105_place_refuted is the finding. Only Spanish is known at this commit, so the selector is not shown."
  },
  {
   "property": "C106",
   "status": "proved",
   "theorems": [
    "C106_count",
    "C106_recent",
    "C106_name",
    "C106_unknown"
   ],
   "note": "C106_unknown is the finding. The request to the host is not modelled; the theorems are about what is made of its answer."
  },
  {
   "property": "C107",
   "status": "proved",
   "theorems": [
    "C107_runs",
    "C107_program",
    "C107_endless",
    "C107_bytes_refuted"
   ],
   "note": "The rules are the predicate `tames` of Relocate.v, stated on the instruction-set specification; C107_nonvacuous has a program with a subroutine. C107_bytes_refuted is stated on Isa steps."
  },
  {
   "property": "C108",
   "status": "proved",
   "theorems": [
    "C108_anywhere",
    "C108_copied",
    "C108_program",
    "C108_numbers_refuted"
   ],
   "note": "The editor of the page always assembles for address 0 (C64); other start addresses are the second argument of parseInput. The rules for the run are `tames` of Relocate.v. C108_nonvacuous assembles a text with a subroutine for 0 and 0x100."
  },
  {
   "property": "C109",
   "status": "proved",
   "theorems": [
    "C109_own_lines",
    "C109_open_refuted"
   ],
   "note": "The class of programs is `simple` and `closed_end` of PropsAnywhere.v, with one place instead of two. C109_nonvacuous is a loop with a label, a store and FIN."
  },
  {
   "property": "C110",
   "status": "proved",
   "theorems": [
    "C110_ends",
    "C110_backwards_refuted"
   ],
   "note": "The class of programs is that of C109 (`simple`, `closed_end`) with `forwards`. C110_nonvacuous keeps the larger of two bytes, with two jumps over lines."
  },
  {
   "property": "C111",
   "status": "proved",
   "theorems": [
    "C111_depends"
   ],
   "note": "The class of programs is that of C109. The statement is symmetric in the two simulators, so the other direction is the same theorem with them exchanged. C111_nonvacuous has a program with LDA and STA and two simulators whose memory, SP and PC differ."
  },
  {
   "property": "C112",
   "status": "proved",
   "theorems": [
    "C112_balanced"
   ],
   "note": "Subroutines and INISP are outside this class of programs (C10, C22 and C67 are about them). C112_nonvacuous is a loop with PUSH and POP that takes its jump once and reaches FIN after 15 instructions."
  },
  {
   "property": "C113",
   "status": "proved",
   "theorems": [
    "C113_keeps_stack",
    "C113_push_pop",
    "C113_returns",
    "C113_routines",
    "C113_ends",
    "C113_stack"
   ],
   "note": "The bounds exclude recursion (C67 has a recursive program). INISP is outside the class: the stack pointer is that of the simulator when the program is started. C113_nonvacuous has a routine called twice that calls another, and reaches FIN after 17 instructions."
  }
 ]
}