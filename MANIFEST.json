{
 "claims": [
  {
   "property": "C01",
   "status": "proved",
   "theorems": [
    "C01_registers"
   ],
   "note": ""
  },
  {
   "property": "C02",
   "status": "proved",
   "theorems": [
    "C02_no_panic",
    "C02_run",
    "C02_translation_off",
    "C02_crate_run",
    "C02_crate_board",
    "C02_no_panic_refuted"
   ],
   "note": "Theorems with suffix _refuted disprove a documented or plausible stronger claim; the others give what holds."
  },
  {
   "property": "C03",
   "status": "proved",
   "theorems": [
    "C03_exact",
    "C03_panic",
    "C03_run",
    "C03_mappings",
    "C03_agree",
    "C03_no_panic_refuted"
   ],
   "note": "Theorems with suffix _refuted disprove a documented or plausible stronger claim; the others give what holds."
  },
  {
   "property": "C04",
   "status": "proved",
   "theorems": [
    "C04_halted",
    "C04_new_halted",
    "C04_halt_instruction",
    "C04_only_halt"
   ],
   "note": ""
  },
  {
   "property": "C05",
   "status": "proved",
   "theorems": [
    "C05_one_cycle",
    "C05_run"
   ],
   "note": ""
  },
  {
   "property": "C06",
   "status": "proved",
   "theorems": [
    "C06_conformance",
    "C06_debug",
    "C06_opcode0",
    "C06_fetch_fault",
    "C06_garbage",
    "C06_cycle",
    "C06_run"
   ],
   "note": ""
  },
  {
   "property": "C07",
   "status": "proved",
   "theorems": [
    "C07_add",
    "C07_sub",
    "C07_mul"
   ],
   "note": ""
  },
  {
   "property": "C08",
   "status": "proved",
   "theorems": [
    "C08_bitwise",
    "C08_shl",
    "C08_shr"
   ],
   "note": ""
  },
  {
   "property": "C09",
   "status": "proved",
   "theorems": [
    "C09_unsigned",
    "C09_signed",
    "C09_zero_forbidden",
    "C09_zero_value"
   ],
   "note": ""
  },
  {
   "property": "C10",
   "status": "proved",
   "theorems": [
    "C10_always_faults",
    "C10_overflow_mode_refuted"
   ],
   "note": "Theorems with suffix _refuted disprove a documented or plausible stronger claim; the others give what holds."
  },
  {
   "property": "C11",
   "status": "proved",
   "theorems": [
    "C11_flags",
    "C11_cmp",
    "C11_zlf_refuted"
   ],
   "note": "Theorems with suffix _refuted disprove a documented or plausible stronger claim; the others give what holds."
  },
  {
   "property": "C12",
   "status": "proved",
   "theorems": [
    "C12_aliases"
   ],
   "note": ""
  },
  {
   "property": "C13",
   "status": "proved",
   "theorems": [
    "C13_if",
    "C13_if2",
    "C13_if2_unknown_flag",
    "C13_if2_flag_refuted"
   ],
   "note": "Theorems with suffix _refuted disprove a documented or plausible stronger claim; the others give what holds."
  },
  {
   "property": "C14",
   "status": "proved",
   "theorems": [
    "C14_table",
    "C14_cpy",
    "C14_operands",
    "C14_arith_dest",
    "C14_protected",
    "C14_unknown_dest",
    "C14_unknown_source",
    "C14_unknown_userland_refuted"
   ],
   "note": "Theorems with suffix _refuted disprove a documented or plausible stronger claim; the others give what holds."
  },
  {
   "property": "C15",
   "status": "proved",
   "theorems": [
    "C15_entry"
   ],
   "note": ""
  },
  {
   "property": "C16",
   "status": "proved",
   "theorems": [
    "C16_decode",
    "C16_hardware",
    "C16_history",
    "C16_data_refuted"
   ],
   "note": "Theorems with suffix _refuted disprove a documented or plausible stronger claim; the others give what holds."
  },
  {
   "property": "C17",
   "status": "proved",
   "theorems": [
    "C17_confined",
    "C17_run"
   ],
   "note": ""
  },
  {
   "property": "C18",
   "status": "proved",
   "theorems": [
    "C18_lsm",
    "C18_cycles",
    "C18_halt",
    "C18_cycles_refuted",
    "C18_halt_refuted",
    "C18_reset_refuted"
   ],
   "note": "Theorems with suffix _refuted disprove a documented or plausible stronger claim; the others give what holds."
  },
  {
   "property": "C19",
   "status": "proved",
   "theorems": [
    "C19_lsm",
    "C19_target_refuted"
   ],
   "note": "Theorems with suffix _refuted disprove a documented or plausible stronger claim; the others give what holds."
  },
  {
   "property": "C20",
   "status": "proved",
   "theorems": [
    "C20_pc"
   ],
   "note": ""
  },
  {
   "property": "C21",
   "status": "proved",
   "theorems": [
    "C21_lsa",
    "C21_lea",
    "C21_wsa",
    "C21_wea",
    "C21_unaligned",
    "C21_signed_refuted"
   ],
   "note": "Theorems with suffix _refuted disprove a documented or plausible stronger claim; the others give what holds."
  },
  {
   "property": "C22",
   "status": "proved",
   "theorems": [
    "C22_load",
    "C22_store",
    "C22_srm",
    "C22_fetch"
   ],
   "note": ""
  },
  {
   "property": "C23",
   "status": "proved",
   "theorems": [
    "C23_push",
    "C23_pop",
    "C23_push_ram",
    "C23_pop_ram",
    "C23_history",
    "C23_lifo"
   ],
   "note": ""
  },
  {
   "property": "C24",
   "status": "proved",
   "theorems": [
    "C24_call",
    "C24_return",
    "C24_call_ram",
    "C24_subroutine"
   ],
   "note": ""
  },
  {
   "property": "C25",
   "status": "proved",
   "theorems": [
    "C25_ex",
    "C25_ex_twice",
    "C25_srm",
    "C25_srm_twice"
   ],
   "note": ""
  },
  {
   "property": "C26",
   "status": "proved",
   "theorems": [
    "C26_hwd",
    "C26_name"
   ],
   "note": ""
  },
  {
   "property": "C27",
   "status": "proved",
   "theorems": [
    "C27_reset",
    "C27_unknown",
    "C27_inclusive_refuted"
   ],
   "note": "Theorems with suffix _refuted disprove a documented or plausible stronger claim; the others give what holds."
  },
  {
   "property": "C28",
   "status": "proved",
   "theorems": [
    "C28_transparent",
    "C28_fetch",
    "C28_load",
    "C28_store"
   ],
   "note": ""
  },
  {
   "property": "C29",
   "status": "proved",
   "theorems": [
    "C29_outcome",
    "C29_never_translates",
    "C29_documented_refuted"
   ],
   "note": "Theorems with suffix _refuted disprove a documented or plausible stronger claim; the others give what holds."
  },
  {
   "property": "C30",
   "status": "proved",
   "theorems": [
    "C30_load",
    "C30_store",
    "C30_fetch",
    "C30_write_code_refuted",
    "C30_exec_code_refuted"
   ],
   "note": "Theorems with suffix _refuted disprove a documented or plausible stronger claim; the others give what holds."
  },
  {
   "property": "C31",
   "status": "proved",
   "theorems": [
    "C31_tidy",
    "C31_guest"
   ],
   "note": ""
  },
  {
   "property": "C32",
   "status": "proved",
   "theorems": [
    "C32_map",
    "C32_iff",
    "C32_debug_panic"
   ],
   "note": ""
  },
  {
   "property": "C33",
   "status": "proved",
   "theorems": [
    "C33_in_range",
    "C33_dispatch",
    "C33_others"
   ],
   "note": ""
  },
  {
   "property": "C34",
   "status": "proved",
   "theorems": [
    "C34_unmapped",
    "C34_unaligned"
   ],
   "note": ""
  },
  {
   "property": "C35",
   "status": "proved",
   "theorems": [
    "C35_contiguous",
    "C35_unknown_panics",
    "C35_statuses",
    "C35_range_refuted"
   ],
   "note": "Theorems with suffix _refuted disprove a documented or plausible stronger claim; the others give what holds."
  },
  {
   "property": "C36",
   "status": "proved",
   "theorems": [
    "C36_outcome",
    "C36_requests",
    "C36_exact",
    "C36_overlap_refuted",
    "C36_range_refuted"
   ],
   "note": "Theorems with suffix _refuted disprove a documented or plausible stronger claim; the others give what holds."
  },
  {
   "property": "C37",
   "status": "proved",
   "theorems": [
    "C37_isolated",
    "C37_cycle"
   ],
   "note": ""
  },
  {
   "property": "C38",
   "status": "proved",
   "theorems": [
    "C38_reset_state",
    "C38_idempotent"
   ],
   "note": ""
  },
  {
   "property": "C39",
   "status": "proved",
   "theorems": [
    "C39_each_once",
    "C39_panic"
   ],
   "note": ""
  },
  {
   "property": "C40",
   "status": "proved",
   "theorems": [
    "C40_description",
    "C40_utf8"
   ],
   "note": ""
  },
  {
   "property": "C41",
   "status": "proved",
   "theorems": [
    "C41_outcome",
    "C41_roundtrip",
    "C41_roundtrip_refuted",
    "C41_bytes",
    "C41_injective"
   ],
   "note": "Theorems with suffix _refuted disprove a documented or plausible stronger claim; the others give what holds."
  },
  {
   "property": "C42",
   "status": "proved",
   "theorems": [
    "C42_decode",
    "C42_reencode",
    "C42_canonical",
    "C42_reencode_refuted",
    "C42_executes"
   ],
   "note": "Theorems with suffix _refuted disprove a documented or plausible stronger claim; the others give what holds."
  },
  {
   "property": "C43",
   "status": "proved",
   "theorems": [
    "C43_executes",
    "C43_wide",
    "C43_executes_refuted"
   ],
   "note": "Theorems with suffix _refuted disprove a documented or plausible stronger claim; the others give what holds."
  },
  {
   "property": "C44",
   "status": "proved",
   "theorems": [
    "C44_size",
    "C44_length_rejected",
    "C44_raw",
    "C44_strict",
    "C44_roundtrip",
    "C44_roundtrip_strict",
    "C44_reencode",
    "C44_words"
   ],
   "note": ""
  },
  {
   "property": "C45",
   "status": "proved",
   "theorems": [
    "C45_append",
    "C45_prepend_all",
    "C45_prepend_all_refuted"
   ],
   "note": "Theorems with suffix _refuted disprove a documented or plausible stronger claim; the others give what holds."
  },
  {
   "property": "C46",
   "status": "proved",
   "theorems": [
    "C46_codes",
    "C46_range",
    "C46_names",
    "C46_all"
   ],
   "note": ""
  },
  {
   "property": "C47",
   "status": "proved",
   "theorems": [
    "C47_set_reg",
    "C47_smt_refuted"
   ],
   "note": "Theorems with suffix _refuted disprove a documented or plausible stronger claim; the others give what holds."
  },
  {
   "property": "C48",
   "status": "proved",
   "theorems": [
    "C48_read_addr",
    "C48_write_addr_lit",
    "C48_read_addr_to_refuted",
    "C48_write_addr_refuted"
   ],
   "note": "Theorems with suffix _refuted disprove a documented or plausible stronger claim; the others give what holds."
  },
  {
   "property": "C49",
   "status": "proved",
   "theorems": [
    "C49_roundtrip",
    "C49_decode"
   ],
   "note": ""
  },
  {
   "property": "C50",
   "status": "proved",
   "theorems": [
    "C50_roundtrip",
    "C50_zero",
    "C50_decode",
    "C50_visible_load",
    "C50_visible_store",
    "C50_visible_fetch",
    "C50_unknown_error_refuted"
   ],
   "note": "Theorems with suffix _refuted disprove a documented or plausible stronger claim; the others give what holds."
  },
  {
   "property": "C51",
   "status": "proved",
   "theorems": [
    "C51_zero_result",
    "C51_default",
    "C51_results",
    "C51_overflow_result_refuted",
    "C51_roundtrip",
    "C51_same",
    "C51_roundtrip_refuted",
    "C51_injective",
    "C51_builders",
    "C51_submodes",
    "C51_decode"
   ],
   "note": "Theorems with suffix _refuted disprove a documented or plausible stronger claim; the others give what holds."
  },
  {
   "property": "C52",
   "status": "proved",
   "theorems": [
    "C52_flags",
    "C52_flag_constants",
    "C52_zlf_constant",
    "C52_mode_constants",
    "C52_flag_codes",
    "C52_cond_codes",
    "C52_info_codes",
    "C52_conditions",
    "C52_hardware_info",
    "C52_division_by_zero",
    "C52_division_sign",
    "C52_condition_names"
   ],
   "note": ""
  },
  {
   "property": "C53",
   "status": "proved",
   "theorems": [
    "C53_words",
    "C53_roundtrip",
    "C53_roundtrip_bytes",
    "C53_leftover",
    "C53_padding_refuted"
   ],
   "note": "Theorems with suffix _refuted disprove a documented or plausible stronger claim; the others give what holds."
  },
  {
   "property": "C54",
   "status": "proved",
   "theorems": [
    "C54_layout",
    "C54_injective",
    "C54_new",
    "C54_set_size",
    "C54_board"
   ],
   "note": ""
  },
  {
   "property": "C55",
   "status": "proved",
   "theorems": [
    "C55_roundtrip",
    "C55_decode",
    "C55_injective"
   ],
   "note": ""
  },
  {
   "property": "C56",
   "status": "proved",
   "theorems": [
    "C56_ram",
    "C56_new"
   ],
   "note": ""
  },
  {
   "property": "C57",
   "status": "proved",
   "theorems": [
    "C57_rom",
    "C57_program"
   ],
   "note": ""
  },
  {
   "property": "C58",
   "status": "proved",
   "theorems": [
    "C58_flash",
    "C58_survives_reset_refuted"
   ],
   "note": "Theorems with suffix _refuted disprove a documented or plausible stronger claim; the others give what holds."
  },
  {
   "property": "C59",
   "status": "proved",
   "theorems": [
    "C59_new",
    "C59_from",
    "C59_from_whole_refuted",
    "C59_from_with_size",
    "C59_from_with_size_whole_refuted",
    "C59_rom",
    "C59_rom_with_size_whole_refuted",
    "C59_identity"
   ],
   "note": "Theorems with suffix _refuted disprove a documented or plausible stronger claim; the others give what holds."
  },
  {
   "property": "C60",
   "status": "proved",
   "theorems": [
    "C60_writable",
    "C60_reopen",
    "C60_readonly",
    "C60_open",
    "C60_declares",
    "C60_declares_size_refuted",
    "C60_with_size_refuted",
    "C60_with_size"
   ],
   "note": "Theorems with suffix _refuted disprove a documented or plausible stronger claim; the others give what holds."
  },
  {
   "property": "C61",
   "status": "proved",
   "theorems": [
    "C61_number",
    "C61_number_size_refuted",
    "C61_character",
    "C61_character_type_refuted",
    "C61_buffered",
    "C61_clears_refuted",
    "C61_buffered_new"
   ],
   "note": "Theorems with suffix _refuted disprove a documented or plausible stronger claim; the others give what holds."
  },
  {
   "property": "C62",
   "status": "proved",
   "theorems": [
    "C62_character",
    "C62_character_errors",
    "C62_line_new",
    "C62_line",
    "C62_line_cleared",
    "C62_line_stale_refuted"
   ],
   "note": "Theorems with suffix _refuted disprove a documented or plausible stronger claim; the others give what holds."
  },
  {
   "property": "C63",
   "status": "proved",
   "theorems": [
    "C63_words",
    "C63_errors",
    "C63_nanoseconds_refuted",
    "C63_since_reset_refuted"
   ],
   "note": "Theorems with suffix _refuted disprove a documented or plausible stronger claim; the others give what holds."
  },
  {
   "property": "C64",
   "status": "proved",
   "theorems": [
    "C64_formats",
    "C64_declares",
    "C64_declares_all_refuted"
   ],
   "note": "Theorems with suffix _refuted disprove a documented or plausible stronger claim; the others give what holds."
  },
  {
   "property": "C65",
   "status": "proved",
   "theorems": [
    "C65_stops",
    "C65_returns",
    "C65_running",
    "C65_crashes",
    "C65_settled",
    "C65_limit",
    "C65_limit_ends",
    "C65_fresh",
    "C65_limit_refuted",
    "C65_limit_evaded_refuted",
    "C65_stale_refuted",
    "C65_printing_refuted"
   ],
   "note": "Theorems with suffix _refuted disprove a documented or plausible stronger claim; the others give what holds."
  },
  {
   "property": "C66",
   "status": "proved",
   "theorems": [
    "C66_boots",
    "C66_panics"
   ],
   "note": ""
  },
  {
   "property": "C67",
   "status": "proved",
   "theorems": [
    "C67_reads",
    "C67_readable",
    "C67_writes",
    "C67_one_alive",
    "C67_current",
    "C67_reset",
    "C67_isolated",
    "C67_joined",
    "C67_metadata"
   ],
   "note": ""
  },
  {
   "property": "C68",
   "status": "proved",
   "theorems": [
    "C68_monotone",
    "C68_pace",
    "C68_stop",
    "C68_finishes",
    "C68_never_stuck",
    "C68_dropped"
   ],
   "note": ""
  },
  {
   "property": "C69",
   "status": "proved",
   "theorems": [
    "C69_instr",
    "C69_program",
    "C69_rejected",
    "C69_prints",
    "C69_prints_program",
    "C69_disassemble",
    "C69_roundtrip",
    "C69_runs",
    "C69_zro",
    "C69_zro_copy",
    "C69_unambiguous",
    "C69_valid",
    "C69_written",
    "C69_annotated",
    "C69_roundtrip_refuted",
    "C69_accepted_refuted",
    "C69_effect_refuted",
    "C69_prints_refuted"
   ],
   "note": "Theorems with suffix _refuted disprove a documented or plausible stronger claim; the others give what holds."
  },
  {
   "property": "C70",
   "status": "proved",
   "theorems": [
    "C70_histories",
    "C70_exec",
    "C70_fetch",
    "C70_program"
   ],
   "note": ""
  },
  {
   "property": "C71",
   "status": "proved",
   "theorems": [
    "C71_requests",
    "C71_invariant"
   ],
   "note": ""
  },
  {
   "property": "C72",
   "status": "proved",
   "theorems": [
    "C72_effect",
    "C72_no_fetch",
    "C72_ram",
    "C72_ram_no_fetch",
    "C72_persist",
    "C72_load",
    "C72_store",
    "C72_mapped"
   ],
   "note": ""
  },
  {
   "property": "C73",
   "status": "proved",
   "theorems": [
    "C73_short",
    "C73_documented",
    "C73_long",
    "C73_address",
    "C73_offset",
    "C73_mode",
    "C73_zero",
    "C73_mode_refuted",
    "C73_offset_refuted",
    "C73_offset_write_refuted",
    "C73_not_refuted"
   ],
   "note": "Theorems with suffix _refuted disprove a documented or plausible stronger claim; the others give what holds."
  },
  {
   "property": "C74",
   "status": "proved",
   "theorems": [
    "C74_benchmark",
    "C74_minimal",
    "C74_hello_any",
    "C74_hello"
   ],
   "note": ""
  },
  {
   "property": "C75",
   "status": "proved",
   "theorems": [
    "C75_detect",
    "C75_example"
   ],
   "note": ""
  },
  {
   "property": "C76",
   "status": "proved",
   "theorems": [
    "C76_elapsed",
    "C76_forever"
   ],
   "note": ""
  },
  {
   "property": "C77",
   "status": "proved",
   "theorems": [
    "C77_any",
    "C77_async",
    "C77_counts",
    "C77_stops_refuted",
    "C77_component",
    "C77_answers",
    "C77_declares",
    "C77_kinds"
   ],
   "note": "Theorems with suffix _refuted disprove a documented or plausible stronger claim; the others give what holds."
  },
  {
   "property": "C78",
   "status": "proved",
   "theorems": [
    "C78_finishes",
    "C78_fails",
    "C78_forever",
    "C78_runs",
    "C78_loops_refuted",
    "C78_moves_refuted"
   ],
   "note": "Theorems with suffix _refuted disprove a documented or plausible stronger claim; the others give what holds."
  },
  {
   "property": "C79",
   "status": "proved",
   "theorems": [
    "C79_labels",
    "C79_duplicate",
    "C79_size",
    "C79_address",
    "C79_reach",
    "C79_jump",
    "C79_orphan"
   ],
   "note": ""
  },
  {
   "property": "C80",
   "status": "proved",
   "theorems": [
    "C80_bytes",
    "C80_prog",
    "C80_panics",
    "C80_text",
    "C80_settles",
    "C80_instructions",
    "C80_example"
   ],
   "note": ""
  },
  {
   "property": "C81",
   "status": "proved",
   "theorems": [
    "C81_aux",
    "C81_native",
    "C81_panics",
    "C81_category",
    "C81_decode_error",
    "C81_one_line",
    "C81_says",
    "C81_named",
    "C81_one_line_all",
    "C81_stop"
   ],
   "note": ""
  },
  {
   "property": "C82",
   "status": "proved",
   "theorems": [
    "C82_same",
    "C82_lines",
    "C82_running",
    "C82_crash",
    "C82_settings",
    "C82_quiet"
   ],
   "note": ""
  },
  {
   "property": "C83",
   "status": "proved",
   "theorems": [
    "C83_number",
    "C83_lines",
    "C83_separated_refuted",
    "C83_char",
    "C83_debug",
    "C83_debug_panics",
    "C83_debug_total_refuted"
   ],
   "note": "Theorems with suffix _refuted disprove a documented or plausible stronger claim; the others give what holds."
  },
  {
   "property": "C84",
   "status": "proved",
   "theorems": [
    "C84_same",
    "C84_mapped",
    "C84_told",
    "C84_announced_refuted"
   ],
   "note": "Theorems with suffix _refuted disprove a documented or plausible stronger claim; the others give what holds."
  },
  {
   "property": "C85",
   "status": "proved",
   "theorems": [
    "C85_runs",
    "C85_fails"
   ],
   "note": ""
  },
  {
   "property": "C86",
   "status": "proved",
   "theorems": [
    "C86_serves",
    "C86_memory",
    "C86_characters",
    "C86_text",
    "C86_key",
    "C86_line"
   ],
   "note": ""
  },
  {
   "property": "C87",
   "status": "proved",
   "theorems": [
    "C87_debug_cycle",
    "C87_debug_run",
    "C87_cycle",
    "C87_run"
   ],
   "note": ""
  },
  {
   "property": "C88",
   "status": "proved",
   "theorems": [
    "C88_stuck",
    "C88_blank",
    "C88_mode",
    "C88_mode_refuted",
    "C88_reset_halts_refuted",
    "C88_push_refuted",
    "C88_renewed",
    "C88_renewed_refuted"
   ],
   "note": "Theorems with suffix _refuted disprove a documented or plausible stronger claim; the others give what holds."
  },
  {
   "property": "C89",
   "status": "proved",
   "theorems": [
    "C89_jump",
    "C89_jump_byte",
    "C89_add",
    "C89_add_refuted",
    "C89_same",
    "C89_unsigned",
    "C89_copy",
    "C89_text",
    "C89_text_byte"
   ],
   "note": "Theorems with suffix _refuted disprove a documented or plausible stronger claim; the others give what holds."
  },
  {
   "property": "C90",
   "status": "proved",
   "theorems": [
    "C90_debug_secrecy",
    "C90_confined",
    "C90_self",
    "C90_rom",
    "C90_integrity",
    "C90_secrecy",
    "C90_quarter",
    "C90_reset_refuted"
   ],
   "note": "Theorems with suffix _refuted disprove a documented or plausible stronger claim; the others give what holds."
  },
  {
   "property": "C91",
   "status": "proved",
   "theorems": [
    "C91_cycle",
    "C91_run",
    "C91_forgets",
    "C91_way_back",
    "C91_era_refuted",
    "C91_debug",
    "C91_debug_run",
    "C91_debug_page_refuted"
   ],
   "note": "Theorems with suffix _refuted disprove a documented or plausible stronger claim; the others give what holds."
  },
  {
   "property": "C92",
   "status": "proved",
   "theorems": [
    "C92_text",
    "C92_set_reg",
    "C92_read_addr_to",
    "C92_write_addr",
    "C92_read_addr",
    "C92_write_addr_lit",
    "C92_encoded_read_addr_to",
    "C92_encoded_write_addr",
    "C92_listing"
   ],
   "note": ""
  },
  {
   "property": "C93",
   "status": "proved",
   "theorems": [
    "C93_read",
    "C93_write",
    "C93_harmless",
    "C93_open",
    "C93_line"
   ],
   "note": ""
  },
  {
   "property": "C94",
   "status": "proved",
   "theorems": [
    "C94_order",
    "C94_wired",
    "C94_maps"
   ],
   "note": ""
  },
  {
   "property": "C95",
   "status": "proved",
   "theorems": [
    "C95_strict",
    "C95_lossy",
    "C95_padded",
    "C95_ascii",
    "C95_message",
    "C95_print",
    "C95_keyboard",
    "C95_line",
    "C95_line_refuted",
    "C95_hello",
    "C95_detect"
   ],
   "note": "Theorems with suffix _refuted disprove a documented or plausible stronger claim; the others give what holds."
  },
  {
   "property": "C96",
   "status": "proved",
   "theorems": [
    "C96_siphash",
    "C96_metadata",
    "C96_unique_refuted"
   ],
   "note": "Theorems with suffix _refuted disprove a documented or plausible stronger claim; the others give what holds."
  },
  {
   "property": "C97",
   "status": "proved",
   "theorems": [
    "C97_new",
    "C97_from_with_size",
    "C97_buffers",
    "C97_rom",
    "C97_sizes",
    "C97_rom_sizes",
    "C97_rom_larger_refuted"
   ],
   "note": "Theorems with suffix _refuted disprove a documented or plausible stronger claim; the others give what holds."
  },
  {
   "property": "C98",
   "status": "proved",
   "theorems": [
    "C98_future",
    "C98_answers",
    "C98_console"
   ],
   "note": ""
  }
 ]
}