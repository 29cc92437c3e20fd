{
 "C02": {
  "note": "False of the code: a new range that strictly encloses an existing one is accepted. C02_no_overlap_refuted gives the witness, C02_overlap_iff_encloses says exactly when, C02_no_overlap_partial proves disjointness for every registration history without enclosing requests."
 },
 "C09": {
  "note": "Countdown, unchanged state and the wait are proved. Splitting a budget inside a wait is false of the code (C09_split_refuted, exact law C09_short_run_loses_wait); C09_split_partial covers budgets at least as long as the wait."
 },
 "C14": {
  "note": "The code ignores the carry-in for the sum and computes V differently: C14_adc_exact says what it does, C14_adc_documented_iff when that is the data sheet's ADC, C14_adc_partial proves the agreeing cases, the two refuted theorems give witnesses."
 },
 "C15": {
  "note": "C15_sbc_exact is what the code does; C15_sbc_documented_iff says exactly when that is the data sheet's SBC; C15_sbc_partial proves the agreeing part (result, N, Z and carry outside C=1, m=0)."
 },
 "C16": {
  "note": "The carry of the compares is wrong for some operands: exact law, iff with the documented compare, partial theorem and witness."
 },
 "C19": {
  "note": "DEY takes N and Z from X-1 (C19_dey_refuted, exact law and iff); all other increments and decrements are proved as documented."
 },
 "C20": {
  "note": "Taken branches lack the documented +2 of the branch length: exact law, untaken branches proved (partial), C20_taken_never_documented shows no taken branch reaches the documented target."
 },
 "C27": {
  "note": "False of the code: the unused part of a budget is dropped. C27_budget_law is the exact law; C27_split_partial proves the claim at instruction boundaries."
 },
 "C33": {
  "note": "Absolute indexed reads, stores, branches and all other modes are exact; (zp),Y charges the penalty whenever the effective address is above 0xff (exact law, iff, witness)."
 },
 "C34": {
  "note": "Wrap-around proved for release builds and for all debug cases without arithmetic overflow; a debug build panics in exactly the overflow cases (C34_debug_overflow_panics, C34_debug_refuted)."
 },
 "C35": {
  "note": "Release builds: proved for every pc. Debug builds: proved for pc <= 0xfffd, and the fetch panics for pc >= 0xfffe (witness C35_debug_refuted)."
 },
 "C23": {
  "note": "Vector, status and stack pointer are proved for every handler with balanced stack use; the resumption address is wrong in the code (byte-swapped pc+1, plus one): exact law, iff with the documented address, witness."
 },
 "C41": {
  "note": "False of the code: the stack pointer is never written back and the pushed address is that of the call, so a return re-executes the call (C41_return_refuted). C41_call_exact, C41_ret_exact and C41_stack_history say what happens; C41_return_partial says where a return goes."
 },
 "C42": {
  "note": "7xkk and Fx1E proved; the flag-setting instructions 8xy4/5/6/7/E always panic because VF does not exist (C42_flags_refuted, C42_flags_partial)."
 },
 "C43": {
  "note": "The code has fifteen registers; the sixteenth panics on any access (C43_vf_panics, C43_all_registers_refuted). The other fifteen are proved."
 },
 "C48": {
  "note": "The glyph drawing helper is characterised exactly; the Dxyn instruction always panics on execution since it touches VF (C48_draw_refuted, C48_draw_partial)."
 },
 "C50": {
  "note": "With a key pressed: proved. Without a key the code goes on to the next instruction instead of waiting (C50_no_key_refuted)."
 },
 "C52": {
  "note": "run(n) executes n instructions and equals replaying the microcode. Budgets compose for programs without timer writes or under a frozen clock (partial); with a moving clock, or with a generator that keeps its state inside the machine, they do not (refuted theorems)."
 },
 "C54": {
  "note": "Proved for Vx up to 51; above it panics in debug and wraps in release (exact law). No font is ever placed in memory (C54_no_glyphs_refuted)."
 },
 "C57": {
  "note": "All builders change what they name only, except the CHIP-8 with_display, which also forgets the pressed key (C57_with_display_exact, _refuted, _partial)."
 },
 "C65": {
  "note": "False of the code when device clones share an outside effect (console, shared cell): run executes each instruction on a clone and again on the original, so each write is issued twice (C65_writes_issued_twice), and the writes of an instruction cut off by the budget are issued once although the returned state does not show them (C65_unfinished_instruction_writes). C65_once_iff_no_writes: the claim holds exactly for runs without writes; C65_iterator_once_partial: driving the iterator by hand issues each write once."
 },
 "C66": {
  "note": "C66_next_on_any_bus is the exact law on every bus (panics included), C66_map_is_a_bus ties it to the address-map machine of the other claims without hypotheses, C66_accesses gives the access list, C66_three_to_six_reads the bound."
 },
 "C67": {
  "note": "Stated with a bus that records its accesses; C66_watching shows recording changes nothing."
 },
 "C68": {
  "note": "False of the code: run executes every instruction as soon as its first cycle is due and repeats its stores when its last cycle is spent. C68_input_lost_refuted: a run of one cycle consumes a key although the registers do not change; C68_printed_twice_refuted: a printed byte is printed twice. C68_run_exact is the exact law for every bus and budget; C68_settled_partial: at instruction boundaries on buses where storing twice is the same as storing once the claim holds."
 },
 "C69": {
  "note": "False of the code: every fetch reads three bytes (C69_own_bytes_refuted: NOP also reads PC+1 and PC+2). C69_own_bytes_partial is the exact fetch; the claim holds for three-byte instructions. C69_bytes_beyond_ignored_partial: the extra bytes are read but cannot influence the instruction."
 },
 "C70": {
  "note": "C70_next_alike and C70_run_alike are for any related pair of buses; C70_map_run and C70_map_reset for address maps; the layout theorems are instances."
 },
 "C71": {
  "note": "C71_step_panics_iff and C71_run_panics_iff are equivalences; cannot_execute is stated with the opcode table and the documented effective addresses."
 },
 "C72": {
  "note": "Destination cells, registers and flags are tabulated per mnemonic in SpecFrame.v. C72_register_frame holds on every readable bus."
 },
 "C73": {
  "note": "The influence half is proved for every flag (C73_unused_flag). The decimal half is false of the code, which ignores the flag (C73_decimal_adc_refuted, C73_decimal_ignored_partial); C73_decimal_adc_partial: the decimal sum is right exactly when no digit overflows."
 },
 "C74": {
  "note": "at_least in SpecProfile.v is the order 'whatever completes on the left completes on the right with the same result'. C74_no_converse shows a release step whose debug counterpart panics. C74_devices: memories, maps of them and any product of such devices meet the hypothesis build_independent."
 },
 "C75": {
  "note": "SpecDatasheet.v is an independent documented machine and the list departs. Binary arithmetic only (decimal mode: C73). C75_adc and C75_sbc spell the arithmetic conditions out as inequalities; C75_never and C75_always give the unconditional cases. C75_case: a program that never departs, followed for every number of iterations."
 },
 "C76": {
  "note": "SpecReference8.v is an independent reference machine and the list departs8. C76_never and C76_always give the unconditional cases, C76_timer a condition under which the timer agrees. C76_case: a program followed for every number of iterations; C76_departure: a departing jump."
 },
 "C77": {
  "note": "SpecMicrocode.v (6502) and SpecMicrocode8.v (CHIP-8: documented and actual effect tables). Display coordinates below 2^57 so that offsets do not overflow usize. Cases: C77_case, C77_flags, C77_chip8_case, C77_chip8_square, C77_chip8_keys."
 },
 "C78": {
  "note": "SpecProgram.v (programs, machine_with, runs). Stated over ram_bus, so also for maps with peripherals. Code below 0xfffd so that the three-byte fetch stays inside memory. Cases: C78_counting_case, C78_copying_case."
 },
 "C79": {
  "note": "The full statement is refuted by C79_addition_refuted and C79_subtraction_refuted (0x00ff + 0x0001, 0x0500 - 0x0100); the _partial theorems give the exact condition under which the result is right. Hypotheses met: carry_machine_calculates, borrow_machine_calculates, C79_cases."
 },
 "C80": {
  "note": "Refuted by C80_y_loop_refuted; C80_y_loop_partial says exactly when the loop ends. Case: y_machine_ok, C80_case."
 },
 "C81": {
  "note": "SpecTouch.v (traced, needs, written, finally), on the watched bus of C66. Cases: C81_trace, C81_other_memory."
 },
 "C82": {
  "note": "The number of questions is stated for instructions executed one at a time; run replays timer writes, so it reads the clock once more for each Fx15 and Fx18."
 },
 "C83": {
  "note": "C83_one_instruction holds on any byte-answering bus; C83_moved_run on machines of plain RAM and ROM. The byte after a one or two byte instruction is fetched too, so the block includes up to two bytes after its last instruction."
 },
 "C84": {
  "note": "The integer formatting of the Rust standard library is modelled from its documentation; fill characters, alignment and the + flag are not modelled."
 },
 "C85": {
  "note": "The message for undecodable bytes only reaches the user inside the panic of unwrap; the panic text around it is not modelled."
 },
 "C86": {
  "note": "The full statement with the documented inputs fails only for DEY, whose flags come from X-1 (C86_dey_refuted; C86_one_instruction_partial leaves DEY out). C86_one_instruction_exact, C86_sequence and C86_same_end hold for all instructions with X added to the inputs of DEY."
 },
 "C87": {
  "note": "Instructions that name VF or set it fail in both machines (C42, C43)."
 },
 "C89": {
  "note": "The program counts branch displacements from the branch itself, as the emulator does (C20)."
 },
 "C90": {
  "note": "The program counts branch displacements from the branch itself, as the emulator does (C20). The high byte of the product is out of reach of this loop; ADC ignores the carry (C14, C79)."
 },
 "C91": {
  "note": "The second half is false of the code: run draws from a clone of the machine and returns the original's generator, so every run starts the sequence again (C91_run, C91_run_again, C91_run_composes_refuted). Composition holds for the part of a program that draws nothing and sets no timer (C91_run_composes_partial). The iterator half is C91_iterator_in_order and C91_one_byte_each, without exception."
 }
}