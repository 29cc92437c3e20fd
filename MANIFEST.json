{
 "claims": [
  {
   "property": "C01",
   "status": "proved",
   "theorems": [
    "C01_read_routed",
    "C01_read_unmapped",
    "C01_write_routed",
    "C01_write_unmapped",
    "C01_write_frame"
   ],
   "note": "Address map routes every access to the device whose registered range contains the address"
  },
  {
   "property": "C02",
   "status": "partial",
   "theorems": [
    "C02_no_overlap_refuted",
    "C02_no_overlap_partial",
    "C02_overlap_iff_encloses"
   ],
   "note": "False of the code: a new range that strictly encloses an existing one is accepted. C02_no_overlap_refuted gives the witness, C02_overlap_iff_encloses says exactly when, C02_no_overlap_partial proves disjointness for every registration history without enclosing requests."
  },
  {
   "property": "C03",
   "status": "proved",
   "theorems": [
    "C03_read_order",
    "C03_write_order",
    "C03_overlapping_order_matters"
   ],
   "note": "Results do not depend on hash-map iteration order"
  },
  {
   "property": "C04",
   "status": "proved",
   "theorems": [
    "C04_refused_iff",
    "C04_keeps_others",
    "C04_keeps_writes",
    "C04_routes_new",
    "C04_routes_new_writes"
   ],
   "note": "Registration is accepted exactly when neither end of the new range is already mapped, and keeps everything else"
  },
  {
   "property": "C05",
   "status": "proved",
   "theorems": [
    "C05_ram_is_array",
    "C05_mapped_ram_is_array"
   ],
   "note": "A RAM region behaves like an array under any history of reads and writes"
  },
  {
   "property": "C06",
   "status": "proved",
   "theorems": [
    "C06_rom_write_rejected",
    "C06_run_keeps_rom",
    "C06_history_keeps_rom",
    "C06_run_keeps_rom_bytes"
   ],
   "note": "Read-only memory never changes and always rejects writes"
  },
  {
   "property": "C07",
   "status": "proved",
   "theorems": [
    "C07_dump_load",
    "C07_read_loaded",
    "C07_load_keeps_range",
    "C07_load_dump",
    "C07_reversed_range",
    "C07_new"
   ],
   "note": "load and dump round-trip, and loading fewer bytes than the range leaves the tail unreadable"
  },
  {
   "property": "C08",
   "status": "proved",
   "theorems": [
    "C08_page_of_address",
    "C08_page_of_byte",
    "C08_page_new"
   ],
   "note": "Page::from(addr) contains exactly the 256 addresses sharing addr's high byte"
  },
  {
   "property": "C09",
   "status": "partial",
   "theorems": [
    "C09_countdown",
    "C09_state_unchanged",
    "C09_wait",
    "C09_ready",
    "C09_short_run_loses_wait",
    "C09_split_refuted",
    "C09_split_partial"
   ],
   "note": "Countdown, unchanged state and the wait are proved. Splitting a budget inside a wait is false of the code (C09_split_refuted, exact law C09_short_run_loses_wait); C09_split_partial covers budgets at least as long as the wait."
  },
  {
   "property": "C10",
   "status": "proved",
   "theorems": [
    "C10_write_read",
    "C10_read_write",
    "C10_layout"
   ],
   "note": "Processor status byte encoding is a bijection with the documented bit layout"
  },
  {
   "property": "C11",
   "status": "proved",
   "theorems": [
    "C11_step_is_datasheet",
    "C11_table"
   ],
   "note": "Each of the 151 documented opcodes executes the instruction it names"
  },
  {
   "property": "C12",
   "status": "proved",
   "theorems": [
    "C12_undocumented_panics",
    "C12_undocumented_count",
    "C12_unmapped_is_brk"
   ],
   "note": "Undocumented opcodes stop the CPU; unmapped fetches read as BRK"
  },
  {
   "property": "C13",
   "status": "proved",
   "theorems": [
    "C13_lda",
    "C13_ldx",
    "C13_ldy",
    "C13_tax",
    "C13_tay",
    "C13_txa",
    "C13_tya",
    "C13_tsx",
    "C13_txs",
    "C13_pla",
    "C13_sta",
    "C13_stx",
    "C13_sty",
    "C13_pha",
    "C13_php"
   ],
   "note": "Loads, stores and transfers move exactly the named byte and set N and Z from it"
  },
  {
   "property": "C14",
   "status": "partial",
   "theorems": [
    "C14_adc_exact",
    "C14_adc_documented_iff",
    "C14_adc_partial",
    "C14_adc_refuted",
    "C14_adc_overflow_refuted"
   ],
   "note": "The code ignores the carry-in for the sum and computes V differently: C14_adc_exact says what it does, C14_adc_documented_iff when that is the data sheet's ADC, C14_adc_partial proves the agreeing cases, the two refuted theorems give witnesses."
  },
  {
   "property": "C15",
   "status": "partial",
   "theorems": [
    "C15_sbc_exact",
    "C15_sbc_partial",
    "C15_sbc_documented_iff",
    "C15_sbc_documented_cases",
    "C15_sbc_refuted"
   ],
   "note": "C15_sbc_exact is what the code does; C15_sbc_documented_iff says exactly when that is the data sheet's SBC; C15_sbc_partial proves the agreeing part (result, N, Z and carry outside C=1, m=0)."
  },
  {
   "property": "C16",
   "status": "partial",
   "theorems": [
    "C16_compare_exact",
    "C16_compare_documented_iff",
    "C16_compare_partial",
    "C16_compare_refuted"
   ],
   "note": "The carry of the compares is wrong for some operands: exact law, iff with the documented compare, partial theorem and witness."
  },
  {
   "property": "C17",
   "status": "proved",
   "theorems": [
    "C17_and",
    "C17_ora",
    "C17_eor",
    "C17_bit"
   ],
   "note": "AND, ORA, EOR and BIT compute bitwise results and flags"
  },
  {
   "property": "C18",
   "status": "proved",
   "theorems": [
    "C18_shift_accumulator",
    "C18_shift_memory",
    "C18_rol_ror",
    "C18_rotate_back_memory"
   ],
   "note": "Shifts and rotates move every bit by one and pass the end bit through carry"
  },
  {
   "property": "C19",
   "status": "partial",
   "theorems": [
    "C19_memory",
    "C19_inx",
    "C19_iny",
    "C19_dex",
    "C19_dey_exact",
    "C19_dey_documented_iff",
    "C19_dey_refuted"
   ],
   "note": "DEY takes N and Z from X-1 (C19_dey_refuted, exact law and iff); all other increments and decrements are proved as documented."
  },
  {
   "property": "C20",
   "status": "partial",
   "theorems": [
    "C20_branch_exact",
    "C20_branch_partial",
    "C20_taken_never_documented",
    "C20_branch_refuted"
   ],
   "note": "Taken branches lack the documented +2 of the branch length: exact law, untaken branches proved (partial), C20_taken_never_documented shows no taken branch reaches the documented target."
  },
  {
   "property": "C21",
   "status": "proved",
   "theorems": [
    "C21_advances"
   ],
   "note": "Non-control instructions advance the program counter by their encoded length"
  },
  {
   "property": "C22",
   "status": "proved",
   "theorems": [
    "C22_jsr_rts",
    "C22_balanced_code",
    "C22_nested_calls"
   ],
   "note": "JSR and RTS are inverse for every stack pointer and nesting depth"
  },
  {
   "property": "C23",
   "status": "partial",
   "theorems": [
    "C23_brk",
    "C23_brk_rti_exact",
    "C23_resume_documented_iff",
    "C23_brk_rti_partial",
    "C23_resume_refuted"
   ],
   "note": "Vector, status and stack pointer are proved for every handler with balanced stack use; the resumption address is wrong in the code (byte-swapped pc+1, plus one): exact law, iff with the documented address, witness."
  },
  {
   "property": "C24",
   "status": "proved",
   "theorems": [
    "C24_lifo",
    "C24_pha_pla",
    "C24_php_plp"
   ],
   "note": "Pushed bytes come back: PHA/PLA and PHP/PLP round-trip, LIFO order for any sequence"
  },
  {
   "property": "C25",
   "status": "proved",
   "theorems": [
    "C25_pushes_stay_in_page_one",
    "C25_pulls_write_nothing",
    "C25_stack_pointer"
   ],
   "note": "Stack instructions touch only page one"
  },
  {
   "property": "C26",
   "status": "proved",
   "theorems": [
    "C26_run_ready",
    "C26_run_panics",
    "C26_run_returns_ready",
    "C26_run_unique",
    "C26_pipeline"
   ],
   "note": "run(n) executes exactly the instructions that complete within n cycles"
  },
  {
   "property": "C27",
   "status": "partial",
   "theorems": [
    "C27_budget_law",
    "C27_split_partial",
    "C27_small_budget_stalls",
    "C27_split_refuted"
   ],
   "note": "False of the code: the unused part of a budget is dropped. C27_budget_law is the exact law; C27_split_partial proves the claim at instruction boundaries."
  },
  {
   "property": "C28",
   "status": "proved",
   "theorems": [
    "C28_replay"
   ],
   "note": "Replaying the recorded microcode reproduces the machine"
  },
  {
   "property": "C29",
   "status": "proved",
   "theorems": [
    "C29_registers_keep_width",
    "C29_widths",
    "C29_history"
   ],
   "note": "Registers never leave their width"
  },
  {
   "property": "C30",
   "status": "proved",
   "theorems": [
    "C30_layout",
    "C30_regions",
    "C30_history"
   ],
   "note": "Running a program never changes the memory layout"
  },
  {
   "property": "C31",
   "status": "proved",
   "theorems": [
    "C31_reset",
    "C31_reset_as_mops",
    "C31_run_after_reset"
   ],
   "note": "Reset loads the program counter from the vector and initialises every register without touching memory"
  },
  {
   "property": "C32",
   "status": "proved",
   "theorems": [
    "C32_refused_store_panics",
    "C32_unmapped_store_panics",
    "C32_rom_store_panics",
    "C32_rom_push_panics",
    "C32_unmapped_push_panics",
    "C32_unmapped_load_is_zero"
   ],
   "note": "Stores to ROM or unmapped space abort instead of being lost"
  },
  {
   "property": "C33",
   "status": "partial",
   "theorems": [
    "C33_absolute_indexed_read",
    "C33_indirect_indexed_read_exact",
    "C33_indirect_indexed_documented_iff",
    "C33_writes_fixed",
    "C33_branch",
    "C33_others_fixed",
    "C33_indirect_indexed_refuted"
   ],
   "note": "Absolute indexed reads, stores, branches and all other modes are exact; (zp),Y charges the penalty whenever the effective address is above 0xff (exact law, iff, witness)."
  },
  {
   "property": "C34",
   "status": "partial",
   "theorems": [
    "C34_load",
    "C34_store",
    "C34_operand",
    "C34_debug_overflow_panics",
    "C34_debug_refuted"
   ],
   "note": "Wrap-around proved for release builds and for all debug cases without arithmetic overflow; a debug build panics in exactly the overflow cases (C34_debug_overflow_panics, C34_debug_refuted)."
  },
  {
   "property": "C35",
   "status": "partial",
   "theorems": [
    "C35_every_pc_partial",
    "C35_release",
    "C35_debug_panics",
    "C35_debug_refuted"
   ],
   "note": "Release builds: proved for every pc. Debug builds: proved for pc <= 0xfffd, and the fetch panics for pc >= 0xfffe (witness C35_debug_refuted)."
  },
  {
   "property": "C36",
   "status": "proved",
   "theorems": [
    "C36_step_cycles",
    "C36_run_instructions",
    "C36_run_bounds"
   ],
   "note": "Every instruction takes between 2 and 7 cycles"
  },
  {
   "property": "C37",
   "status": "proved",
   "theorems": [
    "C37_example_starts",
    "C37_example_runs_forever",
    "C37_example_writes_nothing_else",
    "C37_example_reaches_all"
   ],
   "note": "The LDA/STA example program runs forever and keeps its memory invariant"
  },
  {
   "property": "C38",
   "status": "proved",
   "theorems": [
    "C38_decode_iff",
    "C38_total",
    "C38_encode_injective",
    "C38_slices",
    "C38_undocumented_panics"
   ],
   "note": "CHIP-8 decoding is total on documented words and rejects all others"
  },
  {
   "property": "C39",
   "status": "proved",
   "theorems": [
    "C39_new",
    "C39_constants",
    "C39_wrapping",
    "C39_add",
    "C39_sub",
    "C39_bits",
    "C39_shifts",
    "C39_nibbles",
    "C39_order",
    "C39_closed",
    "C39_byte_halves"
   ],
   "note": "u12 arithmetic is arithmetic modulo 4096"
  },
  {
   "property": "C40",
   "status": "proved",
   "theorems": [
    "C40_ring",
    "C40_safe_write",
    "C40_safe_ring",
    "C40_zero_capacity"
   ],
   "note": "Ring memory is an array indexed modulo its capacity and never rejects an access"
  },
  {
   "property": "C41",
   "status": "partial",
   "theorems": [
    "C41_call_exact",
    "C41_ret_exact",
    "C41_stack_history",
    "C41_return_partial",
    "C41_return_refuted"
   ],
   "note": "False of the code: the stack pointer is never written back and the pushed address is that of the call, so a return re-executes the call (C41_return_refuted). C41_call_exact, C41_ret_exact and C41_stack_history say what happens; C41_return_partial says where a return goes."
  },
  {
   "property": "C42",
   "status": "partial",
   "theorems": [
    "C42_add_immediate",
    "C42_add_i",
    "C42_flags_refuted",
    "C42_flags_partial"
   ],
   "note": "7xkk and Fx1E proved; the flag-setting instructions 8xy4/5/6/7/E always panic because VF does not exist (C42_flags_refuted, C42_flags_partial)."
  },
  {
   "property": "C43",
   "status": "partial",
   "theorems": [
    "C43_load_immediate_partial",
    "C43_vf_panics",
    "C43_accessors",
    "C43_all_registers_refuted"
   ],
   "note": "The code has fifteen registers; the sixteenth panics on any access (C43_vf_panics, C43_all_registers_refuted). The other fifteen are proved."
  },
  {
   "property": "C44",
   "status": "proved",
   "theorems": [
    "C44_se_immediate",
    "C44_sne_immediate",
    "C44_se",
    "C44_sne",
    "C44_skp",
    "C44_sknp"
   ],
   "note": "Skip instructions skip exactly one instruction iff their condition holds"
  },
  {
   "property": "C45",
   "status": "proved",
   "theorems": [
    "C45_bcd",
    "C45_bcd_outside"
   ],
   "note": "Fx33 stores the three decimal digits"
  },
  {
   "property": "C46",
   "status": "proved",
   "theorems": [
    "C46_store",
    "C46_store_outside",
    "C46_load",
    "C46_load_past_the_end",
    "C46_round_trip"
   ],
   "note": "Register dump and load round-trip"
  },
  {
   "property": "C47",
   "status": "proved",
   "theorems": [
    "C47_cls",
    "C47_pixel",
    "C47_write_pixel",
    "C47_read_back",
    "C47_whole_picture",
    "C47_default"
   ],
   "note": "Display pixel writes are isolated and out-of-range coordinates are ignored"
  },
  {
   "property": "C48",
   "status": "partial",
   "theorems": [
    "C48_draw_refuted",
    "C48_draw_partial",
    "C48_write_sprite_exact",
    "C48_write_sprite_partial",
    "C48_font_injective",
    "C48_write_sprite_refuted"
   ],
   "note": "The glyph drawing helper is characterised exactly; the Dxyn instruction always panics on execution since it touches VF (C48_draw_refuted, C48_draw_partial)."
  },
  {
   "property": "C49",
   "status": "proved",
   "theorems": [
    "C49_set_delay",
    "C49_set_sound",
    "C49_get_delay",
    "C49_reading",
    "C49_reading_backwards",
    "C49_decreasing"
   ],
   "note": "Timers count down with real time and stop at zero"
  },
  {
   "property": "C50",
   "status": "partial",
   "theorems": [
    "C50_key_pressed_partial",
    "C50_no_key_refuted"
   ],
   "note": "With a key pressed: proved. Without a key the code goes on to the next instruction instead of waiting (C50_no_key_refuted)."
  },
  {
   "property": "C51",
   "status": "proved",
   "theorems": [
    "C51_random"
   ],
   "note": "Cxkk stores a random byte masked by kk"
  },
  {
   "property": "C52",
   "status": "partial",
   "theorems": [
    "C52_run_executes",
    "C52_run_panics",
    "C52_replay",
    "C52_compose_partial",
    "C52_compose_frozen_partial",
    "C52_compose_refuted",
    "C52_own_generator_refuted",
    "C52_own_generator_partial"
   ],
   "note": "run(n) executes n instructions and equals replaying the microcode. Budgets compose for programs without timer writes or under a frozen clock (partial); with a moving clock, or with a generator that keeps its state inside the machine, they do not (refuted theorems)."
  },
  {
   "property": "C53",
   "status": "proved",
   "theorems": [
    "C53_jump",
    "C53_jump_v0",
    "C53_load_i",
    "C53_call_target",
    "C53_sys"
   ],
   "note": "CHIP-8 jumps and index loads reach every 12-bit address"
  },
  {
   "property": "C54",
   "status": "partial",
   "theorems": [
    "C54_digit_partial",
    "C54_large_exact",
    "C54_no_glyphs_refuted",
    "C54_never_panics_refuted"
   ],
   "note": "Proved for Vx up to 51; above it panics in debug and wraps in release (exact law). No font is ever placed in memory (C54_no_glyphs_refuted)."
  },
  {
   "property": "C55",
   "status": "proved",
   "theorems": [
    "C55_in_order",
    "C55_schedule_irrelevant",
    "C55_nothing_lost",
    "C55_bounded",
    "C55_new_bounded",
    "C55_no_deadlock",
    "C55_call_returns",
    "C55_panics_only_if",
    "C55_thread_lives",
    "C55_thread_ends",
    "C55_delivers"
   ],
   "note": "Buffered random numbers are delivered in production order, none lost or duplicated"
  },
  {
   "property": "C56",
   "status": "proved",
   "theorems": [
    "C56_confined",
    "C56_widths",
    "C56_reachable"
   ],
   "note": "CHIP-8 execution is confined"
  },
  {
   "property": "C57",
   "status": "partial",
   "theorems": [
    "C57_chip8_builders",
    "C57_with_display_exact",
    "C57_with_display_partial",
    "C57_with_display_refuted",
    "C57_builders",
    "C57_map_access",
    "C57_register"
   ],
   "note": "All builders change what they name only, except the CHIP-8 with_display, which also forgets the pressed key (C57_with_display_exact, _refuted, _partial)."
  },
  {
   "property": "C58",
   "status": "proved",
   "theorems": [
    "C58_flags"
   ],
   "note": "Flag instructions change exactly one status bit"
  },
  {
   "property": "C59",
   "status": "proved",
   "theorems": [
    "C59_jmp_absolute",
    "C59_jmp_indirect",
    "C59_jmp_indirect_debug_panics"
   ],
   "note": "JMP goes to the operand address or through the pointer"
  },
  {
   "property": "C60",
   "status": "proved",
   "theorems": [
    "C60_public_machines_idle",
    "C60_new_machine",
    "C60_memory_stays_zero"
   ],
   "note": "A CHIP-8 machine built with the public interface never panics and can hold no program"
  },
  {
   "property": "C61",
   "status": "proved",
   "theorems": [
    "C61_copy",
    "C61_or",
    "C61_and",
    "C61_xor"
   ],
   "note": "CHIP-8 copy and logic instructions"
  },
  {
   "property": "C62",
   "status": "proved",
   "theorems": [
    "C62_panics_iff"
   ],
   "note": "Exactly when a CHIP-8 step panics"
  },
  {
   "property": "C63",
   "status": "proved",
   "theorems": [
    "C63_ports_follow_writes",
    "C63_other_addresses_refused",
    "C63_new",
    "C63_example_blinks"
   ],
   "note": "A user-written device on the bus receives exactly the program's writes"
  },
  {
   "property": "C64",
   "status": "proved",
   "theorems": [
    "C64_diverted",
    "C64_example_blinks"
   ],
   "note": "Filtering a device's writes out of the microcode stream leaves the rest of the machine exact"
  },
  {
   "property": "C65",
   "status": "partial",
   "theorems": [
    "C65_writes_issued_twice",
    "C65_unfinished_instruction_writes",
    "C65_once_iff_no_writes",
    "C65_iterator_once_partial",
    "C65_once_refuted"
   ],
   "note": "False of the code when device clones share an outside effect (console, shared cell): run executes each instruction on a clone and again on the original, so each write is issued twice (C65_writes_issued_twice), and the writes of an instruction cut off by the budget are issued once although the returned state does not show them (C65_unfinished_instruction_writes). C65_once_iff_no_writes: the claim holds exactly for runs without writes; C65_iterator_once_partial: driving the iterator by hand issues each write once."
  },
  {
   "property": "C66",
   "status": "proved",
   "theorems": [
    "C66_next_on_any_bus",
    "C66_map_is_a_bus",
    "C66_accesses",
    "C66_watching",
    "C66_three_to_six_reads",
    "C66_reset"
   ],
   "note": "C66_next_on_any_bus is the exact law on every bus (panics included), C66_map_is_a_bus ties it to the address-map machine of the other claims without hypotheses, C66_accesses gives the access list, C66_three_to_six_reads the bound."
  },
  {
   "property": "C67",
   "status": "proved",
   "theorems": [
    "C67_only_answers_matter",
    "C67_device_isolation"
   ],
   "note": "Stated with a bus that records its accesses; C66_watching shows recording changes nothing."
  },
  {
   "property": "C68",
   "status": "partial",
   "theorems": [
    "C68_run_exact",
    "C68_settled_partial",
    "C68_input_lost_refuted",
    "C68_printed_twice_refuted"
   ],
   "note": "False of the code: run executes every instruction as soon as its first cycle is due and repeats its stores when its last cycle is spent. C68_input_lost_refuted: a run of one cycle consumes a key although the registers do not change; C68_printed_twice_refuted: a printed byte is printed twice. C68_run_exact is the exact law for every bus and budget; C68_settled_partial: at instruction boundaries on buses where storing twice is the same as storing once the claim holds."
  },
  {
   "property": "C69",
   "status": "partial",
   "theorems": [
    "C69_own_bytes_refuted",
    "C69_own_bytes_partial",
    "C69_bytes_beyond_ignored_partial"
   ],
   "note": "False of the code: every fetch reads three bytes (C69_own_bytes_refuted: NOP also reads PC+1 and PC+2). C69_own_bytes_partial is the exact fetch; the claim holds for three-byte instructions. C69_bytes_beyond_ignored_partial: the extra bytes are read but cannot influence the instruction."
  },
  {
   "property": "C70",
   "status": "proved",
   "theorems": [
    "C70_next_alike",
    "C70_run_alike",
    "C70_map_run",
    "C70_map_reset",
    "C70_registration_order",
    "C70_split_memory",
    "C70_nested_maps"
   ],
   "note": "C70_next_alike and C70_run_alike are for any related pair of buses; C70_map_run and C70_map_reset for address maps; the layout theorems are instances."
  },
  {
   "property": "C71",
   "status": "proved",
   "theorems": [
    "C71_step_panics_iff",
    "C71_run_panics_iff",
    "C71_all_ram_release"
   ],
   "note": "C71_step_panics_iff and C71_run_panics_iff are equivalences; cannot_execute is stated with the opcode table and the documented effective addresses."
  },
  {
   "property": "C72",
   "status": "proved",
   "theorems": [
    "C72_memory_frame",
    "C72_register_frame"
   ],
   "note": "Destination cells, registers and flags are tabulated per mnemonic in SpecFrame.v. C72_register_frame holds on every readable bus."
  },
  {
   "property": "C73",
   "status": "partial",
   "theorems": [
    "C73_unused_flag",
    "C73_decimal_adc_refuted",
    "C73_decimal_ignored_partial",
    "C73_decimal_adc_partial",
    "C73_unused_flag_run"
   ],
   "note": "The influence half is proved for every flag (C73_unused_flag). The decimal half is false of the code, which ignores the flag (C73_decimal_adc_refuted, C73_decimal_ignored_partial); C73_decimal_adc_partial: the decimal sum is right exactly when no digit overflows."
  },
  {
   "property": "C74",
   "status": "proved",
   "theorems": [
    "C74_next",
    "C74_run",
    "C74_iterate",
    "C74_reset",
    "C74_devices",
    "C74_run_on_any_bus",
    "C74_chip8_run",
    "C74_chip8_iterate"
   ],
   "note": "at_least in SpecProfile.v is the order 'whatever completes on the left completes on the right with the same result'. C74_no_converse shows a release step whose debug counterpart panics. C74_devices: memories, maps of them and any product of such devices meet the hypothesis build_independent."
  },
  {
   "property": "C75",
   "status": "proved",
   "theorems": [
    "C75_step_iff",
    "C75_run",
    "C75_first_departure",
    "C75_never",
    "C75_always",
    "C75_adc",
    "C75_sbc"
   ],
   "note": "SpecDatasheet.v is an independent documented machine and the list departs. Binary arithmetic only (decimal mode: C73). C75_adc and C75_sbc spell the arithmetic conditions out as inequalities; C75_never and C75_always give the unconditional cases. C75_case: a program that never departs, followed for every number of iterations."
  },
  {
   "property": "C76",
   "status": "proved",
   "theorems": [
    "C76_step_iff",
    "C76_run",
    "C76_run_cpu",
    "C76_first_departure",
    "C76_never",
    "C76_always",
    "C76_timer"
   ],
   "note": "SpecReference8.v is an independent reference machine and the list departs8. C76_never and C76_always give the unconditional cases, C76_timer a condition under which the timer agrees. C76_case: a program followed for every number of iterations; C76_departure: a departing jump."
  },
  {
   "property": "C77",
   "status": "proved",
   "theorems": [
    "C77_registers",
    "C77_no_bus",
    "C77_one_bus_write",
    "C77_memory",
    "C77_memory_panics_iff",
    "C77_sequence",
    "C77_chip8_effect",
    "C77_chip8_panics_iff",
    "C77_chip8_documented_iff",
    "C77_chip8_rows",
    "C77_chip8_departures",
    "C77_chip8_frame"
   ],
   "note": "SpecMicrocode.v (6502) and SpecMicrocode8.v (CHIP-8: documented and actual effect tables). Display coordinates below 2^57 so that offsets do not overflow usize. Cases: C77_case, C77_flags, C77_chip8_case, C77_chip8_square, C77_chip8_keys."
  },
  {
   "property": "C78",
   "status": "proved",
   "theorems": [
    "C78_counting_loop",
    "C78_copying_loop",
    "C78_copying_page"
   ],
   "note": "SpecProgram.v (programs, machine_with, runs). Stated over ram_bus, so also for maps with peripherals. Code below 0xfffd so that the three-byte fetch stays inside memory. Cases: C78_counting_case, C78_copying_case."
  },
  {
   "property": "C79",
   "status": "partial",
   "theorems": [
    "C79_addition_partial",
    "C79_subtraction_partial",
    "C79_addition_refuted",
    "C79_subtraction_refuted"
   ],
   "note": "The full statement is refuted by C79_addition_refuted and C79_subtraction_refuted (0x00ff + 0x0001, 0x0500 - 0x0100); the _partial theorems give the exact condition under which the result is right. Hypotheses met: carry_machine_calculates, borrow_machine_calculates, C79_cases."
  },
  {
   "property": "C80",
   "status": "partial",
   "theorems": [
    "C80_y_loop_partial",
    "C80_y_loop_refuted"
   ],
   "note": "Refuted by C80_y_loop_refuted; C80_y_loop_partial says exactly when the loop ends. Case: y_machine_ok, C80_case."
  },
  {
   "property": "C81",
   "status": "proved",
   "theorems": [
    "C81_every_run_has_a_trace",
    "C81_memory_after_a_run",
    "C81_unwritten_bytes_stay",
    "C81_only_needed_bytes_matter"
   ],
   "note": "SpecTouch.v (traced, needs, written, finally), on the watched bus of C66. Cases: C81_trace, C81_other_memory."
  },
  {
   "property": "C82",
   "status": "proved",
   "theorems": [
    "C82_run_replay",
    "C82_iterate_replay",
    "C82_run_determined",
    "C82_buffering_invisible",
    "C82_buffered_run",
    "C82_questions"
   ],
   "note": "The number of questions is stated for instructions executed one at a time; run replays timer writes, so it reads the clock once more for each Fx15 and Fx18."
  },
  {
   "property": "C83",
   "status": "proved",
   "theorems": [
    "C83_one_instruction",
    "C83_moved_run"
   ],
   "note": "C83_one_instruction holds on any byte-answering bus; C83_moved_run on machines of plain RAM and ROM. The byte after a one or two byte instruction is fetched too, so the block includes up to two bytes after its last instruction."
  },
  {
   "property": "C84",
   "status": "proved",
   "theorems": [
    "C84_u12_texts",
    "C84_letter_case",
    "C84_lengths",
    "C84_width",
    "C84_zero_padding",
    "C84_alternate",
    "C84_zero_padding_prefix",
    "C84_blank_padding",
    "C84_texts_differ",
    "C84_port_line"
   ],
   "note": "The integer formatting of the Rust standard library is modelled from its documentation; fill characters, alignment and the + flag are not modelled."
  },
  {
   "property": "C85",
   "status": "proved",
   "theorems": [
    "C85_error_has_message",
    "C85_unallocated_names_address",
    "C85_unallocated_messages_differ",
    "C85_register_message",
    "C85_register_messages_differ",
    "C85_debug_names_ranges",
    "C85_debug_lists_ranges",
    "C85_ring_message",
    "C85_rom_message",
    "C85_decode_messages"
   ],
   "note": "The message for undecodable bytes only reaches the user inside the panic of unwrap; the panic text around it is not modelled."
  },
  {
   "property": "C86",
   "status": "partial",
   "theorems": [
    "C86_one_instruction_exact",
    "C86_one_instruction_partial",
    "C86_sequence",
    "C86_same_end",
    "C86_dey_refuted"
   ],
   "note": "The full statement with the documented inputs fails only for DEY, whose flags come from X-1 (C86_dey_refuted; C86_one_instruction_partial leaves DEY out). C86_one_instruction_exact, C86_sequence and C86_same_end hold for all instructions with X added to the inputs of DEY."
  },
  {
   "property": "C87",
   "status": "proved",
   "theorems": [
    "C87_one_instruction",
    "C87_run"
   ],
   "note": "Instructions that name VF or set it fail in both machines (C42, C43)."
  },
  {
   "property": "C88",
   "status": "proved",
   "theorems": [
    "C88_doubling",
    "C88_halving"
   ],
   "note": "Numbers of any length are doubled and halved by shifts and rotates"
  },
  {
   "property": "C89",
   "status": "proved",
   "theorems": [
    "C89_counter"
   ],
   "note": "The program counts branch displacements from the branch itself, as the emulator does (C20)."
  },
  {
   "property": "C90",
   "status": "proved",
   "theorems": [
    "C90_product"
   ],
   "note": "The program counts branch displacements from the branch itself, as the emulator does (C20). The high byte of the product is out of reach of this loop; ADC ignores the carry (C14, C79)."
  },
  {
   "property": "C91",
   "status": "partial",
   "theorems": [
    "C91_iterator_in_order",
    "C91_run",
    "C91_run_again",
    "C91_one_byte_each",
    "C91_run_composes_refuted",
    "C91_run_composes_partial"
   ],
   "note": "The second half is false of the code: run draws from a clone of the machine and returns the original's generator, so every run starts the sequence again (C91_run, C91_run_again, C91_run_composes_refuted). Composition holds for the part of a program that draws nothing and sets no timer (C91_run_composes_partial). The iterator half is C91_iterator_in_order and C91_one_byte_each, without exception."
  },
  {
   "property": "C92",
   "status": "proved",
   "theorems": [
    "C92_ram_for_rom_run",
    "C92_ram_for_rom_trace",
    "C92_rom_for_ram",
    "C92_exactly_until_a_write"
   ],
   "note": "A program does in ROM what it does in RAM, until it writes there"
  },
  {
   "property": "C93",
   "status": "proved",
   "theorems": [
    "C93_add_loop",
    "C93_fill_loop"
   ],
   "note": "CHIP-8 loops that add and that fill memory do what they are written for"
  },
  {
   "property": "C94",
   "status": "proved",
   "theorems": [
    "C94_digits",
    "C94_copy"
   ],
   "note": "CHIP-8 programs for decimal digits and for copying memory"
  },
  {
   "property": "C95",
   "status": "proved",
   "theorems": [
    "C95_waits",
    "C95_goes_on"
   ],
   "note": "A loop waiting for the delay timer waits exactly until it has run down"
  },
  {
   "property": "C96",
   "status": "proved",
   "theorems": [
    "C96_one_instruction",
    "C96_run"
   ],
   "note": "CHIP-8 code without jumps, calls or returns does the same wherever it lies in memory"
  },
  {
   "property": "C97",
   "status": "proved",
   "theorems": [
    "C97_exchange",
    "C97_exchange_in_program"
   ],
   "note": "CHIP-8 instructions that have nothing to do with each other can be exchanged"
  },
  {
   "property": "C98",
   "status": "proved",
   "theorems": [
    "C98_new",
    "C98_pair",
    "C98_uses",
    "C98_uses_6502"
   ],
   "note": "Cycle counters neither overflow nor underflow"
  },
  {
   "property": "C99",
   "status": "proved",
   "theorems": [
    "C99_exchange",
    "C99_exchange_in_program"
   ],
   "note": "6502 instructions that have nothing to do with each other can be exchanged"
  },
  {
   "property": "C100",
   "status": "proved",
   "theorems": [
    "C100_returns_device_byte",
    "C100_panics_iff",
    "C100_closes_handle",
    "C100_failed_open",
    "C100_many_calls"
   ],
   "note": "The Unix random number generator returns bytes of the device, or panics, and leaves no file open"
  },
  {
   "property": "C101",
   "status": "proved",
   "theorems": [
    "C101_no_new_states",
    "C101_never_stops",
    "C101_run_repeats",
    "C101_stops_or_repeats",
    "C101_stops_soon_or_never"
   ],
   "note": "A 6502 with only RAM and ROM stops or repeats itself"
  },
  {
   "property": "C102",
   "status": "proved",
   "theorems": [
    "C102_no_new_states",
    "C102_run_repeats",
    "C102_stops_asks_or_repeats"
   ],
   "note": "A CHIP-8 machine left to itself stops, asks or repeats itself"
  },
  {
   "property": "C103",
   "status": "proved",
   "theorems": [
    "C103_one_instruction",
    "C103_run"
   ],
   "note": "A 6502 program depends only on what it looks at before setting it"
  },
  {
   "property": "C104",
   "status": "proved",
   "theorems": [
    "C104_nops_instead",
    "C104_nothing_instead"
   ],
   "note": "An instruction whose results are not looked at can be replaced by one that does nothing"
  },
  {
   "property": "C105",
   "status": "proved",
   "theorems": [
    "C105_default",
    "C105_build",
    "C105_memory",
    "C105_reset",
    "C105_refused",
    "C105_order"
   ],
   "note": "A 6502 put together from memory images holds exactly those images"
  },
  {
   "property": "C106",
   "status": "proved",
   "theorems": [
    "C106_read",
    "C106_read_nowhere",
    "C106_write",
    "C106_write_nowhere",
    "C106_write_elsewhere",
    "C106_order",
    "C106_refused_iff",
    "C106_registered_elsewhere",
    "C106_registered",
    "C106_overlap",
    "C106_stays_separate",
    "C106_instance_map",
    "C106_instance_ring",
    "C106_ring",
    "C106_in_map",
    "C106_memory",
    "C106_memory_reversed"
   ],
   "note": "The address map, the ring and the memory behave the same for every address and value type"
  },
  {
   "property": "C107",
   "status": "proved",
   "theorems": [
    "C107_replace",
    "C107_load_both",
    "C107_there_and_back",
    "C107_shift",
    "C107_clear",
    "C107_jump",
    "C107_store_load"
   ],
   "note": "A piece of 6502 code can be replaced by another that does the same"
  },
  {
   "property": "C108",
   "status": "proved",
   "theorems": [
    "C108_iterated",
    "C108_used_up_iff",
    "C108_invisible",
    "C108_register",
    "C108_both_keys",
    "C108_fresh"
   ],
   "note": "A range that was iterated before it is registered stands for the addresses it would still deliver"
  },
  {
   "property": "C109",
   "status": "proved",
   "theorems": [
    "C109_replace",
    "C109_counterpart",
    "C109_load_add",
    "C109_there_and_back",
    "C109_xor_twice",
    "C109_index",
    "C109_clear",
    "C109_nothing",
    "C109_skip",
    "C109_jump"
   ],
   "note": "A piece of a CHIP-8 program can be replaced by one that does the same"
  },
  {
   "property": "C110",
   "status": "proved",
   "theorems": [
    "C110_expression"
   ],
   "note": "The code of an expression leaves its value in the accumulator"
  },
  {
   "property": "C111",
   "status": "proved",
   "theorems": [
    "C111_ends",
    "C111_forever",
    "C111_only_then",
    "C111_one_meaning",
    "C111_sum"
   ],
   "note": "Translated programs with loops do on the 6502 what their language says"
  },
  {
   "property": "C112",
   "status": "proved",
   "theorems": [
    "C112_ends",
    "C112_one_meaning",
    "C112_only_then",
    "C112_multiply"
   ],
   "note": "Structured programs translated to CHIP-8 code do what they mean"
  },
  {
   "property": "C113",
   "status": "proved",
   "theorems": [
    "C113_forever",
    "C113_breaks",
    "C113_not_both"
   ],
   "note": "Translated CHIP-8 programs that do not end stay in their code or stop where they must"
  },
  {
   "property": "C114",
   "status": "proved",
   "theorems": [
    "C114_one_meaning",
    "C114_more_room",
    "C114_not_both",
    "C114_ends",
    "C114_hanoi",
    "C114_hanoi_overflows"
   ],
   "note": "Programs with recursive procedures translated to 6502 code do what they mean"
  },
  {
   "property": "C115",
   "status": "proved",
   "theorems": [
    "C115_forever",
    "C115_only_then"
   ],
   "note": "Translated programs with procedures that do not end never leave their code"
  },
  {
   "property": "C116",
   "status": "proved",
   "theorems": [
    "C116_time",
    "C116_some_time",
    "C116_one_time"
   ],
   "note": "A translated program takes exactly the cycles its meaning says"
  },
  {
   "property": "C117",
   "status": "proved",
   "theorems": [
    "C117_same_time"
   ],
   "note": "Programs without conditionals and loops take the same time on all data"
  },
  {
   "property": "C118",
   "status": "proved",
   "theorems": [
    "C118_some_assignments",
    "C118_one_list",
    "C118_final_values",
    "C118_run_writes",
    "C118_iterator_writes"
   ],
   "note": "A translated program sends its assignments to the devices in its order, and nothing else"
  },
  {
   "property": "C119",
   "status": "proved",
   "theorems": [
    "C119_so_far_of_all",
    "C119_one_sequence",
    "C119_written_at_last",
    "C119_nothing_else"
   ],
   "note": "What a program that need not end has written so far reaches the devices, and nothing else"
  },
  {
   "property": "C120",
   "status": "proved",
   "theorems": [
    "C120_one_outcome",
    "C120_not_both",
    "C120_some_time",
    "C120_one_time",
    "C120_ends",
    "C120_midway",
    "C120_nothing_else"
   ],
   "note": "A translated program talks to a device as the language says"
  },
  {
   "property": "C121",
   "status": "proved",
   "theorems": [
    "C121_patient_device",
    "C121_ends",
    "C121_midway",
    "C121_nothing_else"
   ],
   "note": "A translated program talking to a device by a call of run: every write arrives twice"
  },
  {
   "property": "C122",
   "status": "proved",
   "theorems": [
    "C122_ends",
    "C122_one_meaning",
    "C122_breaks",
    "C122_forever",
    "C122_only_then",
    "C122_held",
    "C122_wait",
    "C122_two_suffice",
    "C122_one_may_not",
    "C122_read_key"
   ],
   "note": "CHIP-8 programs while the host presses and releases keys at any moment"
  },
  {
   "property": "C123",
   "status": "proved",
   "theorems": [
    "C123_ranges",
    "C123_nothing_else",
    "C123_every_state",
    "C123_programs"
   ],
   "note": "The states of a CHIP-8 machine"
  },
  {
   "property": "C124",
   "status": "proved",
   "theorems": [
    "C124_ranges",
    "C124_every_state"
   ],
   "note": "The states of a 6502 machine"
  },
  {
   "property": "C125",
   "status": "proved",
   "theorems": [
    "C125_on_the_way",
    "C125_panics",
    "C125_passes",
    "C125_rests",
    "C125_stuck",
    "C125_host",
    "C125_jump_rests",
    "C125_program",
    "C125_seven_needed"
   ],
   "note": "Running a 6502 in portions of cycles"
  },
  {
   "property": "C126",
   "status": "proved",
   "theorems": [
    "C126_frames",
    "C126_on_the_way",
    "C126_ends",
    "C126_breaks",
    "C126_forever",
    "C126_timers_needed",
    "C126_wait"
   ],
   "note": "Running a CHIP-8 in portions while the user presses keys"
  },
  {
   "property": "C127",
   "status": "proved",
   "theorems": [
    "C127_same_as_alone",
    "C127_schedule_irrelevant",
    "C127_no_deadlock",
    "C127_no_starvation",
    "C127_finishes",
    "C127_panics_only_if"
   ],
   "note": "A CHIP-8 machine side by side with the thread that buffers its random bytes"
  },
  {
   "property": "C128",
   "status": "proved",
   "theorems": [
    "C128_again_and_again",
    "C128_for_ever",
    "C128_never_returns",
    "C128_breaks"
   ],
   "note": "What a CHIP-8 program does that calls a routine"
  },
  {
   "property": "C129",
   "status": "proved",
   "theorems": [
    "C129_time",
    "C129_some_time",
    "C129_emulator_time",
    "C129_not_fewer",
    "C129_same_result",
    "C129_forever",
    "C129_both_or_neither"
   ],
   "note": "Translated programs compute on the documented 6502 what they compute on the emulator"
  },
  {
   "property": "C130",
   "status": "proved",
   "theorems": [
    "C130_reference",
    "C130_emulator",
    "C130_first_departure",
    "C130_one_meaning",
    "C130_portable",
    "C130_forever",
    "C130_only_then",
    "C130_same_meaning",
    "C130_multiply"
   ],
   "note": "Structured programs on the CHIP-8 of the technical reference and on the emulator"
  },
  {
   "property": "C131",
   "status": "proved",
   "theorems": [
    "C131_checked_code_runs",
    "C131_checked_code_never_panics",
    "C131_calls_return"
   ],
   "note": "6502 code that passes a static check of its stack use runs for ever, within its bounds"
  },
  {
   "property": "C132",
   "status": "proved",
   "theorems": [
    "C132_checked_code_runs",
    "C132_run_never_panics"
   ],
   "note": "CHIP-8 code that passes a static check by ranges of values runs for ever, within its ranges"
  },
  {
   "property": "C133",
   "status": "proved",
   "theorems": [
    "C133_secrets_never_show",
    "C133_run_alike",
    "C133_same_addresses"
   ],
   "note": "6502 code that passes a static secrecy check tells nothing about its secrets, not even by its timing"
  },
  {
   "property": "C134",
   "status": "proved",
   "theorems": [
    "C134_marks_keep_coming",
    "C134_bounds_are_kept",
    "C134_calls_return_in_time",
    "C134_run_stops_at_marks"
   ],
   "note": "6502 code that passes a static check of its time reaches its marked instructions again and again in time"
  },
  {
   "property": "C135",
   "status": "proved",
   "theorems": [
    "C135_same_on_the_chip",
    "C135_as_on_the_chip",
    "C135_run_as_the_chip"
   ],
   "note": "6502 code that passes a static check of what it relies on does on a real 6502 what it does on the emulator"
  },
  {
   "property": "C136",
   "status": "proved",
   "theorems": [
    "C136_at_every_cycle",
    "C136_period",
    "C136_examples_print"
   ],
   "note": "The machine printed by the run and step-capture examples, for every number of cycles"
  },
  {
   "property": "C137",
   "status": "proved",
   "theorems": [
    "C137_same_on_the_reference",
    "C137_as_on_the_reference",
    "C137_run_as_the_reference"
   ],
   "note": "CHIP-8 code that passes a static portability check does on the CHIP-8 of the technical reference what it does on the emulator"
  },
  {
   "property": "C138",
   "status": "proved",
   "theorems": [
    "C138_secrets_never_show_on_the_chip",
    "C138_marks_keep_coming_on_the_chip"
   ],
   "note": "Secrecy and timing that were checked for the emulator hold on the real 6502 for code that passes the portability check"
  },
  {
   "property": "C139",
   "status": "proved",
   "theorems": [
    "C139_the_host_cannot_derail_it",
    "C139_the_hosts_data_is_kept"
   ],
   "note": "A host that changes data and registers between calls of run cannot derail checked 6502 code"
  },
  {
   "property": "C140",
   "status": "proved",
   "theorems": [
    "C140_the_host_cannot_derail_it",
    "C140_the_hosts_data_is_kept",
    "C140_what_the_host_may_do"
   ],
   "note": "A host that presses keys, draws, sets timers and changes data between calls of run cannot derail checked CHIP-8 code"
  },
  {
   "property": "C141",
   "status": "proved",
   "theorems": [
    "C141_marks_keep_coming",
    "C141_no_long_gap"
   ],
   "note": "Checked 6502 code keeps time whatever the host does to data between instructions"
  },
  {
   "property": "C142",
   "status": "proved",
   "theorems": [
    "C142_new_secrets_never_show"
   ],
   "note": "Checked 6502 code tells nothing about secrets that a host hands it between calls of run"
  },
  {
   "property": "C143",
   "status": "proved",
   "theorems": [
    "C143_secrets_never_show",
    "C143_run_alike",
    "C143_with_hosts"
   ],
   "note": "CHIP-8 code that passes a static secrecy check tells nothing about its secrets"
  },
  {
   "property": "C144",
   "status": "proved",
   "theorems": [
    "C144_secret_on_the_reference"
   ],
   "note": "Secrecy that was checked for the CHIP-8 emulator holds on the CHIP-8 of the technical reference for code that passes the portability check"
  },
  {
   "property": "C145",
   "status": "proved",
   "theorems": [
    "C145_marks_in_time",
    "C145_first_mark"
   ],
   "note": "CHIP-8 code that passes a progress check reaches its marked instructions again and again in time, whatever keys are pressed"
  },
  {
   "property": "C146",
   "status": "proved",
   "theorems": [
    "C146_run_comes_to_a_mark",
    "C146_the_host_cannot_delay_it",
    "C146_on_the_reference"
   ],
   "note": "Progress that was checked for CHIP-8 code holds in calls of run, whatever the host does in between, and on the reference machine"
  },
  {
   "property": "C147",
   "status": "proved",
   "theorems": [
    "C147_marks_keep_coming",
    "C147_never_stuck",
    "C147_what_the_host_may_do"
   ],
   "note": "CHIP-8 code that passes the progress check keeps its pace whatever the host does to keys, display, timers and data between its instructions"
  }
 ]
}