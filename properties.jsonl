{"id": "C01", "title": "Address map routes every access to the device whose registered range contains the address", "statement": "AddressMap::read(addr) returns what the device registered for the range containing addr returns, and the value type's default (0) when no registered range contains addr; AddressMap::write(addr,v) changes only the device whose range contains addr, returns that device's result, and returns Err and changes nothing when no range contains addr.", "quantifier": "every address map whose registered ranges are pairwise disjoint, every device behaviour, every 16-bit address and byte", "why_tests_cant": "the claim ranges over arbitrary user-written devices and all maps; a test fixes one device and a few addresses", "anchors": ["src/address_map/mod.rs:AddressMap::read", "src/address_map/mod.rs:AddressMap::write"]}
{"id": "C02", "title": "Successful registrations never leave two overlapping ranges", "statement": "Starting from AddressMap::new(), any sequence of register calls that all return Ok yields a map in which no address is contained in two registered ranges.", "quantifier": "every finite sequence of (range, device) registrations", "why_tests_cant": "needs all shapes of overlap between all earlier ranges and the new one; the repo's tests try one overlap shape", "anchors": ["src/address_map/mod.rs:AddressMap::register"]}
{"id": "C03", "title": "Results do not depend on hash-map iteration order", "statement": "For two address maps holding the same (range, device) entries in different iteration orders, every read returns the same value and every write has the same result and leaves maps with the same entries.", "quantifier": "every map with pairwise disjoint ranges, every permutation of its entries, every access", "why_tests_cant": "iteration order is chosen by the hasher at run time; a test sees one order", "anchors": ["src/address_map/mod.rs:AddressMap::read", "src/address_map/mod.rs:AddressMap::write", "src/address_map/mod.rs:AddressMap.inner (HashMap)"]}
{"id": "C04", "title": "Registration is accepted exactly when neither end of the new range is already mapped, and keeps everything else", "statement": "register(range, dev) returns Err exactly when the start or the end of range is contained in an already registered range; on Ok every previously mapped address reads and writes as before unless the new range contains it, and every address of the new range that was unmapped is routed to dev.", "quantifier": "every map, range and device", "why_tests_cant": "an iff over all maps and ranges", "anchors": ["src/address_map/mod.rs:AddressMap::register"]}
{"id": "C05", "title": "A RAM region behaves like an array under any history of reads and writes", "statement": "After Memory<ReadWrite>::new(start, stop) every address in start..=stop reads 0; after any sequence of writes to in-range addresses, each address reads the value of the last write to it (0 if none) and no access panics; writes return Ok(value).", "quantifier": "every start <= stop, every sequence of in-range writes, every in-range address", "why_tests_cant": "unbounded histories and all address pairs (aliasing between cells)", "anchors": ["src/address_map/memory.rs:Memory::new", "src/address_map/memory.rs:Memory<ReadWrite>::read", "src/address_map/memory.rs:Memory<ReadWrite>::write"]}
{"id": "C06", "title": "Read-only memory never changes and always rejects writes", "statement": "A write to Memory<ReadOnly> returns Err for every address and value and leaves every readable byte as it was; no sequence of address-map writes, executed microcode or CPU runs changes any byte read from a ROM region.", "quantifier": "every ROM contents, every operation history, every number of cycles of every program", "why_tests_cant": "the claim is about all programs and run lengths", "anchors": ["src/address_map/memory.rs:Memory<ReadOnly>::write", "src/cpu/mos6502/mod.rs:Cpu::run"]}
{"id": "C07", "title": "load and dump round-trip, and loading fewer bytes than the range leaves the tail unreadable", "statement": "dump() after load(data) returns data; a byte at address a in the range reads data[a-start] when a-start < data.len() and panics otherwise; load does not change the address range. Memory::new(start, stop) holds a zero for every address of the range; for stop < start it panics, except that a release build gives a memory of no bytes when start = stop + 1.", "quantifier": "every data vector of any length and every address", "why_tests_cant": "all lengths and contents", "anchors": ["src/address_map/memory.rs:Memory::load", "src/address_map/memory.rs:Memory::dump"]}
{"id": "C08", "title": "Page::from(addr) contains exactly the 256 addresses sharing addr's high byte", "statement": "Page::<u16>::from(addr: u16).contains(b) holds exactly when addr and b agree on their high byte, and constructing it never overflows; Page::from(u8) is always page zero; Page::new(lo, hi).contains(b) holds exactly when lo <= b <= hi.", "quantifier": "all 65536 x 65536 address pairs", "why_tests_cant": "2^32 pairs", "anchors": ["src/address_map/page.rs:Page::from", "src/address_map/page.rs:Page::contains"]}
{"id": "C09", "title": "StepState counts down its wait cycles and then runs", "statement": "StepState::new(c, s) needs exactly max(c,1)-1 decrements to become Ready with s unchanged; running a NotReady(r) state for n >= r cycles gives the same result as running the wrapped CPU for n - r cycles; splitting a wait over several run calls gives the same result as one call.", "quantifier": "every cycle count, every wrapped CPU, every split of the cycle budget", "why_tests_cant": "all counts and all splittings", "anchors": ["src/cpu/mod.rs:StepState::new", "src/cpu/mod.rs:StepState::decrement", "src/cpu/mod.rs:StepState::run"]}
{"id": "C10", "title": "Processor status byte encoding is a bijection with the documented bit layout", "statement": "ProcessorStatus::with_value(v).read() == v for every byte v, with_value(ps.read()) == ps for every status value, and bit 7..0 of the byte are N V unused B D I Z C.", "quantifier": "all 256 bytes and all 256 status records", "why_tests_cant": "tests sample a couple of values; the statement is exhaustive", "anchors": ["src/cpu/mos6502/register.rs:ProcessorStatus::with_value", "src/cpu/mos6502/register.rs:From<ProcessorStatus> for u8"]}
{"id": "C11", "title": "Each of the 151 documented opcodes executes the instruction it names", "statement": "For every state whose next byte is a documented 6502 opcode, one step of the CPU iterator performs the effect of the named mnemonic on the operand designated by the named addressing mode: destination register, flags, memory byte, stack pointer, program counter and cycle count are as a short reference description of the emulated instruction set says (the documented behaviour, except for the deviations of this emulator that C14-C16, C19, C20, C23, C33 and C34 single out) and everything else (other registers, flags, memory bytes) is unchanged.", "quantifier": "all 151 opcodes, all operand bytes, all register and flag values, all memory contents", "why_tests_cant": "the product of opcodes, register values and memories cannot be enumerated", "anchors": ["src/cpu/mos6502/operations/mod.rs:InstructionVariant::generate", "src/cpu/mos6502/mod.rs:Mos6502IntoIterator::next", "src/cpu/mos6502/mod.rs:ExecuteMut<Microcode>"]}
{"id": "C12", "title": "Undocumented opcodes stop the CPU; unmapped fetches read as BRK", "statement": "Stepping at a program counter whose byte is not one of the 151 documented opcodes panics and yields no state; a fetch from an unmapped address reads 0, i.e. BRK.", "quantifier": "every state and each of the 105 undocumented bytes", "why_tests_cant": "every state", "anchors": ["src/cpu/mos6502/mod.rs:Mos6502IntoIterator::next"]}
{"id": "C13", "title": "Loads, stores and transfers move exactly the named byte and set N and Z from it", "statement": "LDA/LDX/LDY/TAX/TAY/TXA/TYA/TSX/PLA leave the source byte in the destination register and set N to bit 7 and Z to (byte = 0); STA/STX/STY/TXS/PHA/PHP change no flag; nothing else changes but the program counter (and stack pointer for pushes and pulls).", "quantifier": "all addressing modes, bytes and states", "why_tests_cant": "all values and states", "anchors": ["src/cpu/mos6502/operations/mod.rs:Lda", "src/cpu/mos6502/operations/mod.rs:Sta", "src/cpu/mos6502/operations/mod.rs:Tax", "src/cpu/mos6502/operations/mod.rs:Txs"]}
{"id": "C14", "title": "ADC computes A + M + C with carry and signed overflow", "statement": "After ADC with operand m, A = (A + m + C) mod 256, C is set iff A + m + C > 255, V is set iff the signed sum is outside -128..127, N and Z reflect A.", "quantifier": "all A, m, C (2^17 combinations) in every addressing mode", "why_tests_cant": "exhaustive arithmetic claim", "anchors": ["src/cpu/mos6502/operations/mod.rs:Adc", "src/cpu/mos6502/operations/mod.rs:Operand::twos_complement_add"]}
{"id": "C15", "title": "SBC computes A - M - (1 - C) with borrow and signed overflow", "statement": "After SBC with operand m, A = (A - m - (1-C)) mod 256, C is set iff no borrow (A >= m + (1-C)), V iff signed overflow, N and Z reflect A.", "quantifier": "all A, m, C in every addressing mode", "why_tests_cant": "exhaustive arithmetic claim", "anchors": ["src/cpu/mos6502/operations/mod.rs:Sbc", "src/cpu/mos6502/operations/mod.rs:Operand::twos_complement_sub"]}
{"id": "C16", "title": "CMP, CPX and CPY order operands as unsigned bytes", "statement": "After comparing register r with operand m, C is set iff r >= m (unsigned), Z iff r = m, N iff bit 7 of (r - m) mod 256 is set, and no register or memory byte changes.", "quantifier": "all r, m and modes", "why_tests_cant": "65536 operand pairs per instruction", "anchors": ["src/cpu/mos6502/operations/mod.rs:Cmp", "src/cpu/mos6502/operations/mod.rs:Cpx", "src/cpu/mos6502/operations/mod.rs:Cpy", "src/cpu/mos6502/operations/mod.rs:Operand (derived Ord)"]}
{"id": "C17", "title": "AND, ORA, EOR and BIT compute bitwise results and flags", "statement": "AND/ORA/EOR store the bitwise and/or/xor of A and the operand with N and Z from the result; BIT sets Z from A & m, N from bit 7 and V from bit 6 of m and changes no register.", "quantifier": "all A, m and modes", "why_tests_cant": "exhaustive", "anchors": ["src/cpu/mos6502/operations/mod.rs:And", "src/cpu/mos6502/operations/mod.rs:Ora", "src/cpu/mos6502/operations/mod.rs:Eor", "src/cpu/mos6502/operations/mod.rs:Bit"]}
{"id": "C18", "title": "Shifts and rotates move every bit by one and pass the end bit through carry", "statement": "ASL/LSR/ROL/ROR give (2m + in) mod 256 or m/2 + 128*in with in = 0 (shifts) or the old carry (rotates), C = the bit shifted out, N and Z from the result; ROL then ROR restores both byte and carry.", "quantifier": "all bytes, carry values and modes", "why_tests_cant": "exhaustive; composition law", "anchors": ["src/cpu/mos6502/operations/mod.rs:Asl", "src/cpu/mos6502/operations/mod.rs:Lsr", "src/cpu/mos6502/operations/mod.rs:Rol", "src/cpu/mos6502/operations/mod.rs:Ror"]}
{"id": "C19", "title": "Increments and decrements wrap modulo 256 and set N and Z from the new value", "statement": "INC/INX/INY and DEC/DEX/DEY replace the byte by (b +/- 1) mod 256 and set N and Z from the new byte of that same location; carry and overflow are unchanged.", "quantifier": "all values and modes", "why_tests_cant": "exhaustive", "anchors": ["src/cpu/mos6502/operations/mod.rs:Inc", "src/cpu/mos6502/operations/mod.rs:Dec", "src/cpu/mos6502/operations/mod.rs:Dex", "src/cpu/mos6502/operations/mod.rs:Dey", "src/cpu/mos6502/operations/mod.rs:Inx", "src/cpu/mos6502/operations/mod.rs:Iny"]}
{"id": "C20", "title": "Conditional branches test exactly their flag and land on the documented target", "statement": "BCC/BCS/BNE/BEQ/BPL/BMI/BVC/BVS transfer control iff C=0/C=1/Z=0/Z=1/N=0/N=1/V=0/V=1; an untaken branch continues at pc+2 and a taken one at pc+2+offset (mod 65536, offset signed); no register, flag or memory byte changes.", "quantifier": "all flag values, offsets and program counters", "why_tests_cant": "all offsets, all pcs and wrap-around", "anchors": ["src/cpu/mos6502/operations/mod.rs:branch_on_case", "src/cpu/mos6502/operations/mod.rs:Bcc"]}
{"id": "C21", "title": "Non-control instructions advance the program counter by their encoded length", "statement": "Every instruction that is not a branch, jump, call, return or BRK leaves pc = (old pc + 1 + number of operand bytes) mod 65536.", "quantifier": "all non-control opcodes and states", "why_tests_cant": "all opcodes and pcs including wrap", "anchors": ["src/cpu/mos6502/operations/mod.rs:Offset for Instruction", "src/cpu/mos6502/operations/mod.rs:From<Operations> for Vec<Vec<Microcode>>"]}
{"id": "C22", "title": "JSR and RTS are inverse for every stack pointer and nesting depth", "statement": "If JSR at pc transfers to a routine that returns the stack pointer to its entry value and leaves the two pushed bytes alone, RTS continues at pc+3 with the stack pointer restored; this holds for arbitrarily nested calls and for every stack pointer including those that wrap within page 1.", "quantifier": "all pcs, targets, stack pointers, nesting depths", "why_tests_cant": "unbounded nesting and all wrap positions", "anchors": ["src/cpu/mos6502/operations/mod.rs:Jsr", "src/cpu/mos6502/operations/mod.rs:Rts"]}
{"id": "C23", "title": "BRK followed by RTI resumes after the break with flags restored", "statement": "BRK pushes pc+2 and the status byte and jumps through 0xfffe; RTI with the same stack contents restores the status and continues at pc+2.", "quantifier": "all pcs, stack pointers and status values", "why_tests_cant": "all pcs and stack positions", "anchors": ["src/cpu/mos6502/operations/mod.rs:Brk", "src/cpu/mos6502/operations/mod.rs:Rti"]}
{"id": "C24", "title": "Pushed bytes come back: PHA/PLA and PHP/PLP round-trip, LIFO order for any sequence", "statement": "PHA then PLA restores A and SP, PHP then PLP restores every status bit and SP; any sequence of at most 256 pushes followed by the same number of pulls returns the bytes in reverse order with SP restored.", "quantifier": "all bytes, stack pointers (including wrap) and push sequences", "why_tests_cant": "all sequences and wrap positions", "anchors": ["src/cpu/mos6502/operations/mod.rs:Pha", "src/cpu/mos6502/operations/mod.rs:Pla", "src/cpu/mos6502/operations/mod.rs:Php", "src/cpu/mos6502/operations/mod.rs:Plp"]}
{"id": "C25", "title": "Stack instructions touch only page one", "statement": "Every memory byte written by PHA, PHP, JSR and BRK lies in 0x0100..=0x01ff at 0x0100 + (SP - k) mod 256, and SP changes by the number of bytes pushed or pulled modulo 256.", "quantifier": "all states", "why_tests_cant": "all stack pointers", "anchors": ["src/cpu/mos6502/operations/mod.rs:stack_pointer_from_byte_value", "src/cpu/mos6502/operations/mod.rs:Pha", "src/cpu/mos6502/operations/mod.rs:Jsr", "src/cpu/mos6502/operations/mod.rs:Brk"]}
{"id": "C26", "title": "run(n) executes exactly the instructions that complete within n cycles", "statement": "Cpu::run(n) returns Ready with the state reached after the largest number k of instructions whose cycle counts sum to at most n (counting documented cycle costs and penalties of each instruction in the state where it executes), and panics iff starting the (k+1)-th instruction is needed and stepping panics.", "quantifier": "every state, program and cycle budget", "why_tests_cant": "unbounded budgets and programs", "anchors": ["src/cpu/mos6502/mod.rs:Cpu::run", "src/cpu/mos6502/operations/mod.rs:From<Operations> for Vec<Vec<Microcode>>"]}
{"id": "C27", "title": "Splitting a cycle budget does not change the outcome", "statement": "run(n) followed by run(m) on the result gives the same state as run(n+m).", "quantifier": "every state, n, m", "why_tests_cant": "every split point, including those in the middle of an instruction", "anchors": ["src/cpu/mos6502/mod.rs:Cpu::run", "src/cpu/mod.rs:StepState"]}
{"id": "C28", "title": "Replaying the recorded microcode reproduces the machine", "statement": "Collecting the microcode emitted by the CPU iterator for any number of cycles and folding Execute::execute over a clone of the starting CPU gives the same state as run for that number of cycles; at instruction boundaries it equals the iterator's own state.", "quantifier": "every program, state and number of cycles", "why_tests_cant": "all programs and lengths; the examples show one program", "anchors": ["src/cpu/mos6502/mod.rs:Mos6502IntoIterator::next", "src/cpu/mos6502/mod.rs:Cpu::run", "examples/microcode_step_capture.rs"]}
{"id": "C29", "title": "Registers never leave their width", "statement": "After any number of steps, runs, resets, microcode executions, bus writes and register writes A, X, Y, SP stay in 0..=255, PC in 0..=65535 and every RAM byte in 0..=255.", "quantifier": "all programs, run lengths and histories of API calls with values of the API's types", "why_tests_cant": "invariant over unbounded executions", "anchors": ["src/cpu/mos6502/mod.rs:ExecuteMut<Microcode>", "src/cpu/mos6502/register.rs"]}
{"id": "C30", "title": "Running a program never changes the memory layout", "statement": "No step, run, reset, microcode execution or bus write adds, removes, resizes or re-routes a registered range; an address mapped to RAM/ROM stays mapped to the same region with the same bounds.", "quantifier": "all programs, run lengths and histories of API calls", "why_tests_cant": "invariant over unbounded executions", "anchors": ["src/cpu/mos6502/mod.rs:ExecuteMut<WriteMemory>", "src/address_map/mod.rs:AddressMap::write"]}
{"id": "C31", "title": "Reset loads the program counter from the vector and initialises every register without touching memory", "statement": "reset() sets PC to the little-endian word at 0xfffc, SP to 0xff, A, X, Y to 0 and the status to its default, keeps the address map, and waits 5 further cycles; executing reset_as_mops() gives the same PC, SP and status.", "quantifier": "every prior state and memory", "why_tests_cant": "all prior states", "anchors": ["src/cpu/mos6502/mod.rs:Mos6502::reset", "src/cpu/mos6502/mod.rs:Mos6502::reset_as_mops"]}
{"id": "C32", "title": "Stores to ROM or unmapped space abort instead of being lost", "statement": "An instruction that writes memory at an address that is unmapped or mapped to ROM panics and no state is produced; reads from unmapped space return 0 and never panic.", "quantifier": "all store instructions, addresses and states", "why_tests_cant": "all addresses and states", "anchors": ["src/cpu/mos6502/mod.rs:ExecuteMut<WriteMemory>", "src/address_map/mod.rs:AddressMap::write"]}
{"id": "C33", "title": "Page-crossing penalties are charged exactly when the effective address leaves the base page", "statement": "Reads with absolute,X / absolute,Y / (zp),Y addressing take one extra cycle iff base and effective address have different high bytes; stores and read-modify-write instructions take a fixed number of cycles; taken branches cost +1, or +2 when the target is in another page.", "quantifier": "all bases, indexes and opcodes", "why_tests_cant": "all base/index pairs", "anchors": ["src/cpu/mos6502/operations/mod.rs:Page::from", "src/cpu/mos6502/operations/mod.rs:branch_on_case", "src/address_map/page.rs"]}
{"id": "C34", "title": "Indexed addressing wraps as documented", "statement": "zp,X and zp,Y address (zp + index) mod 256 in page zero; absolute,X/Y address (base + index) mod 65536; (zp,X) fetches its pointer from page zero with wrap at 0xff; (zp),Y adds Y to the pointer modulo 65536; none of these panics.", "quantifier": "all operands, indexes and memories", "why_tests_cant": "wrap-around corner cases over all operand/index pairs", "anchors": ["src/cpu/mos6502/operations/mod.rs:add_index_to_address", "src/cpu/mos6502/operations/mod.rs:add_index_to_zeropage_address", "src/cpu/mos6502/operations/mod.rs:dereference_indexed_indirect_address", "src/cpu/mos6502/operations/mod.rs:dereference_indirect_indexed_address"]}
{"id": "C35", "title": "The CPU can execute at every program counter", "statement": "Stepping with a documented one-byte instruction at any program counter up to 0xffff succeeds and wraps the program counter.", "quantifier": "all program counters", "why_tests_cant": "boundary of the address space in both build profiles", "anchors": ["src/cpu/mos6502/mod.rs:Mos6502IntoIterator::next"]}
{"id": "C36", "title": "Every instruction takes between 2 and 7 cycles", "statement": "The cycle count of every generated operation is at least 2 and at most 7 and equals the documented base count plus penalties, so the cycle stream of any program never stalls: run(n), unless it panics, executes at most n/2 and at least (n-6)/7 instructions.", "quantifier": "all opcodes and states; all cycle budgets", "why_tests_cant": "all states; needed for progress of run", "anchors": ["src/cpu/mos6502/operations/mod.rs:Operations", "src/cpu/mos6502/operations/mod.rs:Cyclable"]}
{"id": "C37", "title": "The LDA/STA example program runs forever and keeps its memory invariant", "statement": "Starting from the machine built in the run examples, run(n) never panics for any n, PC stays inside the ROM loop, and the three bytes at 0x0200.. are always a prefix-consistent image of 1,2,3 (each still 0 or its final value).", "quantifier": "every number of cycles", "why_tests_cant": "unbounded run length", "anchors": ["examples/basic.rs", "examples/microcode_step_capture.rs", "src/cpu/mos6502/mod.rs:Cpu::run"]}
{"id": "C38", "title": "CHIP-8 decoding is total on documented words and rejects all others", "statement": "Every 16-bit word decodes to the instruction and operands of the CHIP-8 table when it matches a table row and is rejected otherwise; decoding never panics for two bytes; encoding a decoded instruction's fields gives the word back.", "quantifier": "all 65536 words", "why_tests_cant": "exhaustive", "anchors": ["src/cpu/chip8/operations/mod.rs:decode_bytes_to_opcode"]}
{"id": "C39", "title": "u12 arithmetic is arithmetic modulo 4096", "statement": "new accepts exactly 0..=0xfff; wrapping_add and wrapping_sub are addition and subtraction mod 4096 and never panic; + returns the exact sum or panics when it exceeds 0xfff; every operation's result is below 4096; nibble constructors give the big-endian value; MIN, MAX and BITS describe the range new accepts.", "quantifier": "all pairs of u12 values", "why_tests_cant": "2^24 pairs", "anchors": ["src/cpu/chip8/u12.rs:u12"]}
{"id": "C40", "title": "Ring memory is an array indexed modulo its capacity and never rejects an access", "statement": "For every non-zero capacity and every offset, read returns the last value written to any offset congruent modulo the capacity (default if none); write returns Ok, so the same accesses through SafeAddressable never panic; for any other device SafeAddressable::write panics exactly when the write is refused or panics itself.", "quantifier": "all capacities, histories and offsets", "why_tests_cant": "unbounded histories", "anchors": ["src/cpu/chip8/memory.rs:Ring", "src/address_map/mod.rs:SafeAddressable"]}
{"id": "C41", "title": "CHIP-8 calls return to the instruction after the call, at any depth up to 16", "statement": "CALL pushes the return address and increments SP; RET pops it, decrements SP and continues at the instruction after the matching CALL, for nested calls up to the 16-entry stack.", "quantifier": "all call sequences", "why_tests_cant": "unbounded nesting/histories", "anchors": ["src/cpu/chip8/operations/mod.rs:Call", "src/cpu/chip8/operations/mod.rs:Ret", "src/cpu/chip8/mod.rs:ExecuteMut<PushStack>", "src/cpu/chip8/mod.rs:ExecuteMut<PopStack>"]}
{"id": "C42", "title": "CHIP-8 arithmetic and VF flags", "statement": "8xy4/8xy5/8xy7/8xy6/8xyE leave the 8-bit result in Vx and carry / not-borrow / shifted-out bit in VF; 7xkk adds modulo 256 without touching VF; Fx1E adds Vx to I.", "quantifier": "all register values and register pairs", "why_tests_cant": "exhaustive over operands and registers", "anchors": ["src/cpu/chip8/operations/mod.rs:Add", "src/cpu/chip8/operations/mod.rs:Sub", "src/cpu/chip8/operations/mod.rs:Subn", "src/cpu/chip8/operations/mod.rs:Shl", "src/cpu/chip8/operations/mod.rs:Shr"]}
{"id": "C43", "title": "All sixteen V registers can be read and written", "statement": "For every register V0..VF, writing a byte (6xkk) and reading it back yields that byte and other registers are unchanged.", "quantifier": "all sixteen registers and all bytes", "why_tests_cant": "the last register is the boundary case", "anchors": ["src/cpu/chip8/mod.rs:Chip8.gp_registers", "src/cpu/chip8/mod.rs:read_gp_register", "src/cpu/chip8/mod.rs:ExecuteMut<Write8bitRegister>"]}
{"id": "C44", "title": "Skip instructions skip exactly one instruction iff their condition holds", "statement": "3xkk/4xkk/5xy0/9xy0/Ex9E/ExA1 leave pc = pc + 4 when their condition holds and pc + 2 otherwise (mod 65536), and change nothing else.", "quantifier": "all operands, register values, keys and pcs (all registers other than VF, which the code cannot access: see C43)", "why_tests_cant": "exhaustive", "anchors": ["src/cpu/chip8/operations/mod.rs:Se", "src/cpu/chip8/operations/mod.rs:Sne", "src/cpu/chip8/operations/mod.rs:Skp", "src/cpu/chip8/operations/mod.rs:Sknp"]}
{"id": "C45", "title": "Fx33 stores the three decimal digits", "statement": "After Fx33, mem[I], mem[I+1], mem[I+2] are digits (0..9) with 100*h + 10*t + o = Vx; no other byte changes.", "quantifier": "all register values and I (all registers other than VF, which the code cannot access: see C43)", "why_tests_cant": "exhaustive", "anchors": ["src/cpu/chip8/operations/mod.rs:LdBcd"]}
{"id": "C46", "title": "Register dump and load round-trip", "statement": "Fx55 followed by Fx65 with the same I restores V0..Vx whatever happened to those registers in between; Fx55 writes exactly x+1 bytes and I is unchanged.", "quantifier": "all x, register contents, I (all registers other than VF, which the code cannot access: see C43)", "why_tests_cant": "all x and contents", "anchors": ["src/cpu/chip8/operations/mod.rs:StoreRegistersToMemory", "src/cpu/chip8/operations/mod.rs:ReadRegistersFromMemory"]}
{"id": "C47", "title": "Display pixel writes are isolated and out-of-range coordinates are ignored", "statement": "pixel(x,y) is Some exactly for x<64,y<32; write_pixel sets exactly that pixel and returns its previous value; out-of-range writes change nothing and return None; the display keeps its 64x32 shape; Cls clears every pixel.", "quantifier": "all coordinates and displays", "why_tests_cant": "all coordinates incl. out of range, all displays", "anchors": ["src/cpu/chip8/display.rs:Display::pixel", "src/cpu/chip8/display.rs:Display::write_pixel_mut", "src/cpu/chip8/mod.rs:ExecuteMut<SetDisplayRange>", "src/cpu/chip8/operations/mod.rs:Cls"]}
{"id": "C48", "title": "Sprite drawing XORs the sprite and reports collisions", "statement": "Dxyn XORs an 8xn sprite read from memory at I onto the display at (Vx,Vy), clipping at the edges, and sets VF to 1 iff some lit pixel is turned off; write_sprite draws the 8x5 glyph and reports whether a lit pixel was overwritten.", "quantifier": "all sprites, positions and displays", "why_tests_cant": "all displays and positions", "anchors": ["src/cpu/chip8/operations/mod.rs:Drw", "src/cpu/chip8/display.rs:Display::write_sprite_mut"]}
{"id": "C49", "title": "Timers count down with real time and stop at zero", "statement": "A timer written with v at time t reads max(0, v - floor(seconds elapsed)) at any later time, never increases between writes, and never panics.", "quantifier": "all values and all elapsed times", "why_tests_cant": "real time cannot be sampled exhaustively", "anchors": ["src/cpu/chip8/register.rs:ClockDecrementing::read"]}
{"id": "C50", "title": "Fx0A waits for a key", "statement": "With no key pressed Fx0A leaves the machine at the same instruction; with a key pressed it stores the key number in Vx and continues.", "quantifier": "all keys, registers and pcs", "why_tests_cant": "unbounded waiting", "anchors": ["src/cpu/chip8/operations/mod.rs:LdK", "src/cpu/chip8/mod.rs:ExecuteMut<Dec16bitRegister>"]}
{"id": "C51", "title": "Cxkk stores a random byte masked by kk", "statement": "After Cxkk, Vx = r AND kk for the byte r drawn from the generator, so Vx has no bit outside kk; exactly one byte is drawn.", "quantifier": "all masks, generator outputs and registers (all registers other than VF, which the code cannot access: see C43)", "why_tests_cant": "random source", "anchors": ["src/cpu/chip8/operations/mod.rs:Rnd"]}
{"id": "C52", "title": "CHIP-8 run(n) executes n instructions and budgets compose", "statement": "run(n) executes exactly n instructions (one per cycle), equals replaying the emitted microcode, and run(n) then run(m) equals run(n+m) when the key, clock and random inputs are the same.", "quantifier": "all programs, n, m", "why_tests_cant": "unbounded budgets", "anchors": ["src/cpu/chip8/mod.rs:Cpu::run", "src/cpu/chip8/mod.rs:Chip8IntoIterator::next"]}
{"id": "C53", "title": "CHIP-8 jumps and index loads reach every 12-bit address", "statement": "1nnn sets pc to nnn, Bnnn to (nnn + V0) mod 4096, Annn sets I to nnn, 2nnn transfers to nnn, for every nnn including 0 and 1.", "quantifier": "all nnn and V0", "why_tests_cant": "the pc-2 then +2 encoding wraps for nnn < 2", "anchors": ["src/cpu/chip8/operations/mod.rs:Jp", "src/cpu/chip8/operations/mod.rs:Ld<Absolute>", "src/cpu/chip8/operations/mod.rs:Call"]}
{"id": "C54", "title": "Fx29 points I at the glyph of digit Vx", "statement": "Fx29 sets I to 5*Vx for every hexadecimal digit in Vx and never panics.", "quantifier": "all register values", "why_tests_cant": "boundary 51/52", "anchors": ["src/cpu/chip8/operations/mod.rs:LdSpriteLocation"]}
{"id": "C55", "title": "Buffered random numbers are delivered in production order, none lost or duplicated", "statement": "Under every interleaving of the producer thread and the consumer, the bytes returned by successive random() calls are a prefix of the bytes produced by the wrapped generator; the buffer never holds more than its capacity; the consumer never gets stuck while the producer can run.", "quantifier": "every schedule of producer and consumer, every capacity", "why_tests_cant": "all interleavings", "anchors": ["src/cpu/chip8/mod.rs:BufferedRandomNumberGenerator"]}
{"id": "C56", "title": "CHIP-8 execution is confined", "statement": "A step of a CHIP-8 program writes only memory bytes addressed by Fx33/Fx55, only the destination registers of its instruction, keeps SP below 16, keeps every register in width, never changes the memory layout, and panics when storing outside 0x000..0xfff.", "quantifier": "all programs and states", "why_tests_cant": "invariant over unbounded executions", "anchors": ["src/cpu/chip8/mod.rs:ExecuteMut<Microcode>", "src/cpu/chip8/operations/mod.rs"]}
{"id": "C57", "title": "Builder and accessor methods change only what they name", "statement": "with_gp_register, with_sp_register, with_pc_register, with_ps_register, with_i_register, with_timer_register, with_interrupt, with_display, with_owned_address_map and with_address_map_mut replace the named component and leave every other component unchanged.", "quantifier": "all states and arguments", "why_tests_cant": "frame condition over all components", "anchors": ["src/cpu/mos6502/mod.rs:with_gp_register", "src/cpu/chip8/mod.rs:with_display", "src/cpu/chip8/mod.rs:with_interrupt"]}
{"id": "C58", "title": "Flag instructions change exactly one status bit", "statement": "CLC, CLD, CLI, CLV, SEC, SED and SEI set the named status bit to the named value, leave the other seven bits, all other registers and all of memory unchanged, and advance the program counter by one; NOP changes nothing but the program counter.", "quantifier": "all machine states", "why_tests_cant": "256 status values times all machine states", "anchors": ["src/cpu/mos6502/operations/mod.rs:Clc,Cld,Cli,Clv,Sec,Sed,Sei,Nop"]}
{"id": "C59", "title": "JMP goes to the operand address or through the pointer", "statement": "JMP absolute continues at the little-endian operand; JMP indirect continues at the little-endian word stored at the operand address and the next address (no page wrap-around), and nothing else changes; only a pointer at 0xffff panics in a debug build (and wraps to address 0 in a release build).", "quantifier": "all operands, memory contents and machine states", "why_tests_cant": "all pointers including page ends and 0xffff", "anchors": ["src/cpu/mos6502/operations/mod.rs:Jmp"]}
{"id": "C60", "title": "A CHIP-8 machine built with the public interface never panics and can hold no program", "statement": "Every machine obtained from default(), with_rng, with_interrupt, with_display, run and the iterator has all-zero memory (a new or reset machine is zero in every part but the program counter at 0x200); run(n) on it succeeds, moves pc by 2n modulo 65536 and changes nothing else observable.", "quantifier": "every public construction history, every n, both build profiles", "why_tests_cant": "ranges over all construction histories and all run lengths", "anchors": ["src/cpu/chip8/mod.rs: Chip8, run", "src/cpu/mod.rs"]}
{"id": "C61", "title": "CHIP-8 copy and logic instructions", "statement": "8xy0 copies Vy to Vx; 8xy1, 8xy2, 8xy3 leave OR, AND, XOR of Vx and Vy in Vx; pc moves by two and nothing else changes.", "quantifier": "all register pairs other than VF and all register values", "why_tests_cant": "tests use single literal values per instruction", "anchors": ["src/cpu/chip8/operations/mod.rs: LdVxVy, Or, And, Xor"]}
{"id": "C62", "title": "Exactly when a CHIP-8 step panics", "statement": "One CHIP-8 step panics exactly when: the fetch at 0xffff overflows (debug build), the word is not an instruction, the instruction involves VF, it stores outside 0x000..0xfff, or an index or glyph computation overflows (debug build). Otherwise it succeeds.", "quantifier": "all well-formed machines, programs, environments and both build profiles", "why_tests_cant": "an iff over all machine states", "anchors": ["src/cpu/chip8/mod.rs: Chip8 iterator, execute", "src/cpu/chip8/operations/mod.rs"]}
{"id": "C63", "title": "A user-written device on the bus receives exactly the program's writes", "statement": "The VIA of the peripheral example, registered at its base address, accepts every write to its four addresses and refuses every other; each port holds the last byte written to it and the bytes printed are exactly those written to port A, in order. The example program can be driven for any number of cycles without a panic and prints 0x55, 0xaa, 0x55, ... , one byte per store reached, leaving all memories unchanged.", "quantifier": "every base address, every sequence of writes; for the example program every number of cycles and both build profiles", "why_tests_cant": "the example runs 80 cycles once; write histories and cycle counts are unbounded", "anchors": ["examples/custom_peripheral_addr_space.rs VIA::new, VIA::read, VIA::write, main", "src/cpu/mos6502/mod.rs Mos6502IntoIterator::next"]}
{"id": "C64", "title": "Filtering a device's writes out of the microcode stream leaves the rest of the machine exact", "statement": "For any program, machine and cycle count: if the machine can run for n cycles, replaying its recorded microcode with the writes to one registered range diverted to a user handler succeeds, gives the same registers and the same devices everywhere else, never touches the device of that range, and hands the handler exactly the program's writes to that range, in order. The hook example blinks forever, for every number of cycles.", "quantifier": "every device type, machine with disjoint ranges, program, cycle count, build profile", "why_tests_cant": "the equality must hold for every program and every prefix of its microcode stream", "anchors": ["examples/custom_peripheral_microcode_hook.rs Via, main", "src/cpu/mos6502/mod.rs Execute::execute, Mos6502IntoIterator::next"]}
{"id": "C65", "title": "run delivers every device write exactly once", "statement": "While run executes, every memory write of an executed instruction is delivered to the device on the bus exactly once, and no write of an instruction that did not complete is delivered.", "quantifier": "every program, machine, device type, cycle budget and build profile", "why_tests_cant": "depends on the interleaving of the instruction iterator (which executes on a clone) and the replay (which executes on the original) over arbitrary programs and budgets", "anchors": ["src/cpu/mos6502/mod.rs Cpu::run, Mos6502IntoIterator::next, ExecuteMut<WriteMemory>"]}
{"id": "C66", "title": "Each instruction makes exactly the documented bus accesses, in order", "statement": "On every bus, including one whose devices react to being read, one instruction reads the bytes at PC, PC+1 and PC+2, then the bytes its addressing mode and operation call for (pointer low, pointer high, operand; or stack bytes; or the vector), each once and in that order, and then writes its results in order; it never reads more than six bytes and the bytes it read, whatever they are, determine the result.", "quantifier": "every bus (any state, any reaction to reads and writes), register state, opcode, operand bytes, build profile", "why_tests_cant": "a device may answer any read with any byte and change with every read, so the claim ranges over all interactive buses and all 256 opcodes", "anchors": ["src/cpu/mos6502/mod.rs Mos6502IntoIterator::next, StepState", "src/cpu/mos6502/operations/mod.rs Generate impls", "src/cpu/mos6502/operations/address_mode.rs", "src/address_map/mod.rs Addressable"]}
{"id": "C67", "title": "The processor sees a bus only through its answers, and disturbs only what it addresses", "statement": "If an instruction makes some sequence of accesses on one bus, then on any other bus that gives the same answers to that sequence it makes the same accesses and produces the same registers and cycle count, whatever else is attached. A device none of whose addresses is accessed is left as it was.", "quantifier": "every pair of buses of any state types, register state, device observation, address set, build profile", "why_tests_cant": "a noninterference statement over all pairs of buses and all devices", "anchors": ["src/cpu/mos6502/mod.rs Mos6502IntoIterator::next, Execute::execute", "src/address_map/mod.rs Addressable"]}
{"id": "C68", "title": "run gives a reacting device the same accesses as executing the instructions", "statement": "For every bus and cycle budget, run performs on the devices exactly the reads and writes of the instructions it completes, each once; an instruction that does not fit in the budget has no effect on any device.", "quantifier": "every bus, register state, cycle budget, build profile", "why_tests_cant": "depends on the interleaving of the instruction iterator and the replay for every budget and every reacting device", "anchors": ["src/cpu/mos6502/mod.rs Cpu::run, Mos6502IntoIterator::next", "src/cpu/mod.rs Cpu"]}
{"id": "C69", "title": "An instruction fetches only its own bytes", "statement": "Executing an instruction of length k reads the k bytes starting at PC as instruction bytes and no byte beyond them, so code placed just below a device register can be executed without touching the device.", "quantifier": "every bus, register state, opcode, build profile", "why_tests_cant": "ranges over all opcodes and all positions of code next to reacting devices", "anchors": ["src/cpu/mos6502/mod.rs Mos6502IntoIterator::next", "src/cpu/mos6502/operations/mod.rs Generate impls"]}
{"id": "C70", "title": "How memory is put together does not matter", "statement": "Two processors with the same registers on buses that answer every access alike behave alike forever: the same registers, cycle counts and panics for every instruction, reset and run. In particular the order in which devices are registered, splitting one block of RAM or ROM into two adjacent ones, and using address maps as devices of an address map do not change any run.", "quantifier": "every pair of buses that no access can tell apart, register state, cycle budget, split point, permutation of registrations, build profile", "why_tests_cant": "a bisimulation between all equivalent memory layouts over runs of any length", "anchors": ["src/address_map/mod.rs AddressMap::read, AddressMap::write, register", "src/address_map/memory.rs Memory", "src/cpu/mos6502/mod.rs Cpu::run, reset"]}
{"id": "C71", "title": "Exactly when stepping or running panics", "statement": "On a bus of RAM and ROM, executing an instruction panics exactly when its opcode is not documented, or (in a debug build) its address arithmetic overflows, or it stores to an address that is not RAM. A run panics exactly when it reaches such an instruction before its cycles are used up.", "quantifier": "every RAM/ROM layout and contents, register state, cycle budget, build profile", "why_tests_cant": "an equivalence over all programs and machine states; tests sample neither the panicking nor the safe side exhaustively", "anchors": ["src/cpu/mos6502/mod.rs Mos6502IntoIterator::next, Cpu::run", "src/cpu/mos6502/operations/mod.rs Generate impls", "src/cpu/mos6502/microcode.rs Write8bitMemory", "src/address_map/memory.rs Memory::write"]}
{"id": "C72", "title": "An instruction changes nothing but what it is documented to change", "statement": "After any instruction, every memory cell other than the documented destination cells, every register other than the documented destination registers and PC, and every flag the instruction is not documented to affect has its previous value.", "quantifier": "every documented instruction, addressing mode, memory contents, register state, memory cell, register and flag", "why_tests_cant": "a frame condition quantifies over all untouched cells and registers of every state", "anchors": ["src/cpu/mos6502/operations/mod.rs Generate impls", "src/cpu/mos6502/microcode.rs", "src/cpu/mos6502/mod.rs Execute"]}
{"id": "C73", "title": "Flags influence only the instructions that use them; decimal mode", "statement": "A flag that an instruction is not documented to look at has no influence on its effect, and a flag that none of any number of instructions looks at has no influence on them. With the decimal flag set, ADC adds binary-coded decimal numbers.", "quantifier": "every instruction and sequence of instructions, register state, bus, flag and flag value; every pair of decimal operands", "why_tests_cant": "a noninterference statement over all states, and an arithmetic law over all operand pairs and addressing modes", "anchors": ["src/cpu/mos6502/operations/mod.rs Generate for ADC, SBC, PHP, BRK, SED, CLD", "src/cpu/mos6502/register.rs ProcessorStatus"]}
{"id": "C74", "title": "A release build does what a debug build does wherever the debug build does not panic", "statement": "Debug and release builds of the library differ only in that arithmetic overflow panics in the debug build: every step, run, iteration and reset that completes in a debug build completes in a release build with the same resulting machine, the same yielded operations and the same cycle counts. The converse is false.", "quantifier": "every machine state, device layout, program, number of cycles and number of iterated instructions, for both processors; for the 6502 also every device that behaves alike in both builds", "why_tests_cant": "tests run in one build profile at a time; agreement must hold for every program and every state", "anchors": ["src/cpu/mos6502/mod.rs Iterator::next, Cpu::run, StepState::run", "src/cpu/mos6502/operations/mod.rs Generate", "src/cpu/chip8/mod.rs Cpu::run, Iterator::next", "src/address_map/mod.rs AddressMap"]}
{"id": "C75", "title": "The complete list of departures from the documented 6502", "statement": "Next to the library stands the 6502 of the data sheet. One instruction of the emulator takes the documented number of cycles and leads to the documented registers and 64 KiB of memory if and only if it is none of the following: a taken branch, BRK, RTI, ADC or SBC or a compare on listed operands, DEY when X and Y disagree, a read through (zp),Y charged for the wrong page, or address arithmetic that overflows in a debug build. A program that runs on the documented machine without meeting one of these runs identically on the emulator, for any number of instructions, and the first one it meets is the first one at which the two differ.", "quantifier": "every documented opcode, register state, memory content, bus whose written addresses are RAM, build profile, and programs of any length", "why_tests_cant": "a complete list of differences is a statement about all 2^40 register states and all memories; tests can only exhibit members", "anchors": ["src/cpu/mos6502/operations/mod.rs Generate for every mnemonic and addressing mode", "src/cpu/mos6502/mod.rs Iterator::next, Cpu::run"]}
{"id": "C76", "title": "The complete list of departures from the CHIP-8 technical reference", "statement": "Next to the library stands the CHIP-8 of the technical reference: sixteen registers, a stack that grows, XOR drawing with a collision flag, timers at 60 Hz, and Fx0A that waits. One instruction of the emulator changes every observable part as the reference says, if and only if it is none of the following: an instruction naming VF; CALL or RET; 8xy4 to 8xyE and Dxyn (which set VF); Bnnn with a target past 0xFFF; Fx0A without a key; Fx07 at a moment when counting at 60 Hz and at 1 Hz differ; Fx29 with Vx above 15. A program that runs on the reference without meeting one of these runs identically on the emulator, through the iterator and (when no timer is set) through run, for any number of instructions, and the first one it meets is the first one at which the two differ.", "quantifier": "every instruction, every machine state, environment (clock and random numbers), build profile, and programs of any length", "why_tests_cant": "completeness of a list of differences ranges over all states of memory, registers, screen and clock; tests can only exhibit members", "anchors": ["src/cpu/chip8/operations/mod.rs Generate for every opcode", "src/cpu/chip8/mod.rs Iterator::next, Cpu::run"]}
{"id": "C77", "title": "Each microcode operation changes exactly what it names", "statement": "Every 6502 microcode operation gives the register or flag it names the documented value (written, plus, or minus the operand, wrapping), keeps every other register, and only WriteMemory touches the bus, with exactly one write: on RAM that cell holds the value and every other address reads as before, elsewhere it panics. A sequence of operations has the composed effect. Every CHIP-8 microcode operation has exactly the tabulated effect on every part of the machine and on the clock, panics exactly where the table says, and changes nothing it does not name. The CHIP-8 operations that do not do what their documentation says are exactly: writes to VF, decrements (by other than 0), stack pushes and pops (the stack pointer stays), and display ranges where the pixels in reading order differ from the rectangle.", "quantifier": "every microcode operation and operand, every machine state, every device type (6502 registers) or plain memory map (6502 memory), both build profiles, sequences of any length", "why_tests_cant": "the frame (nothing else changes) ranges over all cells, pixels and registers in all states; tests look at the part written", "anchors": ["src/cpu/mos6502/mod.rs ExecuteMut for every microcode", "src/cpu/mos6502/microcode.rs Microcode", "src/cpu/chip8/mod.rs ExecuteMut for every microcode", "src/cpu/chip8/microcode.rs Microcode"]}
{"id": "C78", "title": "Counting and copying loops do what they are written for", "statement": "A DEX/BNE loop placed anywhere (branch displacement counted from the branch, C20) goes round X times (256 times when X is 0), takes exactly 5 cycles per round less one plus one per taken branch if the loop lies across a page boundary, and then continues after the branch with X = 0, Z set, N clear and every other register, flag and byte as before. A LDA s,X / STA d,X / DEX / BNE loop copies exactly the X bytes after s to those after d (also when they overlap with d above s), or a whole page when X is 0, in 4 instructions and 14 to 16 cycles per byte, and changes no other byte; a call of run with that number of cycles carries it out.", "quantifier": "every placement of the code, every source, destination and count, every initial register and memory contents, any bus whose destination cells behave as RAM, both build profiles", "why_tests_cant": "the loop lengths, addresses and memory contents are unbounded in combination; a test runs one loop", "anchors": ["src/cpu/mos6502/mod.rs Generate, run", "src/cpu/mos6502/operations/mod.rs DEX, BNE, LDA, STA"]}
{"id": "C79", "title": "Multi-byte addition and subtraction", "statement": "CLC followed by LDA/ADC/STA per byte adds two little-endian numbers modulo 256^n, and SEC followed by LDA/SBC/STA subtracts them. (False of the code: ADC ignores the carry and SBC loses the carry when it subtracts 0. Each result byte of the addition is the sum of the two bytes; the sum is right exactly when no byte but the last carries; the difference is right exactly when no byte but the last subtracts 0 while the bytes below it do not borrow; everything else, the instruction count and the cycle count are as documented.)", "quantifier": "every length n, every operand and destination placement, all memory contents, every initial register state, any bus whose destination cells behave as RAM, both build profiles", "why_tests_cant": "whether carries propagate correctly depends on every byte of both operands at every length", "anchors": ["src/cpu/mos6502/operations/mod.rs ADC, SBC, LDA, STA, CLC, SEC", "src/cpu/mos6502/mod.rs run"]}
{"id": "C80", "title": "A loop counting down Y ends", "statement": "A DEY/BNE loop goes round Y times and ends. (False of the code: DEY takes its flags from X - 1, so the loop leaves in the first round when X is 1, whatever Y is, and otherwise never ends: for every number of cycles run stops at the DEY or the BNE.)", "quantifier": "every placement of the code, every register and memory contents, every number of cycles, any bus, both build profiles", "why_tests_cant": "that a loop never ends is a statement about every number of cycles", "anchors": ["src/cpu/mos6502/operations/mod.rs DEY, BNE", "src/cpu/mos6502/mod.rs run"]}
{"id": "C81", "title": "A run depends only on what it reads and changes only what it writes", "statement": "Every run of any number of instructions makes a definite sequence of bus accesses. After it, every byte of memory is the one last written there in that sequence, or the one that was there before; writes hit only RAM. Two machines with the same registers and with the same bytes at the addresses the run reads before writing them execute the same accesses in the same number of cycles and end with the same registers and the same written bytes, whatever the rest of their memory holds and however it is laid out.", "quantifier": "every machine on RAM and ROM regions, every pair of such machines, runs of every length, both build profiles", "why_tests_cant": "it compares a run with the runs on all other memories; a test sees one memory", "anchors": ["src/cpu/mos6502/mod.rs Iterator::next, run", "src/address_map/mod.rs read, write"]}
{"id": "C82", "title": "A CHIP-8 run can be replayed from the answers it received; buffering random numbers is invisible", "statement": "What run and the instruction iterator do is determined by the machine, the cycle budget, the clock readings and the random bytes received: with the same answers to the questions actually asked, the outcome is the same whatever else differs outside. A program asks for one random byte per Cxkk, one clock reading per Fx07, Fx15 and Fx18, and nothing else. Hence a machine drawing through the buffered random number generator does exactly what it does with the wrapped generator, for every buffer size and thread interleaving.", "quantifier": "every machine, budget, pair of environments, wrapped generator, buffer size, interleaving of the generator thread", "why_tests_cant": "ranges over all environments, all programs and all thread schedules", "anchors": ["src/cpu/chip8/mod.rs Cpu::run, Chip8IntoIterator::next, BufferedRandomNumberGenerator", "src/cpu/chip8/register.rs ClockDecrementing", "src/cpu/chip8/operations/mod.rs Rnd"]}
{"id": "C83", "title": "Code without absolute jumps, calls or returns does the same wherever it lies in memory", "statement": "Take a run of instructions other than BRK, JSR, RTI, JMP and RTS, fetched from one block of memory, whose other accesses are outside that block and outside the block the code is moved to. The same bytes at any other place, started with the same registers and the same bytes in the rest of the memory, execute the same number of instructions, leave the same registers (the program counter at the corresponding place) and the same memory; moving by whole pages does not change the number of cycles either, and any other move changes it by at most one cycle per instruction.", "quantifier": "every code block, place, displacement, run length and memory made of plain RAM and ROM", "why_tests_cant": "ranges over all programs, all displacements and all run lengths", "anchors": ["src/cpu/mos6502/mod.rs Iterator::next", "src/cpu/mos6502/operations/mod.rs branch_on_case, add_signed_offset, all Generate impls", "src/cpu/mos6502/operations/address_mode/mod.rs"]}
{"id": "C84", "title": "12-bit numbers and port bytes are printed as the numbers they are", "statement": "Display, Debug, LowerHex, UpperHex, Octal and Binary of a u12 print the number in the respective base without superfluous zeros and with letters of the requested case, in at most 4, 3, 4 and 12 characters for decimal, hexadecimal, octal and binary; a width is a minimum, zero padding does not change the number, and the alternate form adds the prefix; different numbers have different texts. The example peripheral prints each byte as exactly eight binary digits and a line end.", "quantifier": "every u12 value, every combination of the #, 0 and width flags, every byte written to the port", "why_tests_cant": "ranges over all values and all widths", "anchors": ["src/cpu/chip8/u12.rs Debug, Display, UpperHex, LowerHex, Octal, Binary for u12", "examples/custom_peripheral_addr_space.rs VIA::write", "examples/custom_peripheral_microcode_hook.rs"]}
{"id": "C85", "title": "Error messages and debug texts name what they are about", "statement": "A write through an address map returns a message exactly when it fails; for an address nobody is registered for the message contains that address in decimal, so different addresses give different messages. A refused registration names the new range and a registered range that covers one of its ends, and the text determines both. The debug text of an address map determines the registered ranges. Messages for undecodable bytes and for ring buffer offsets contain the byte, word or offset.", "quantifier": "every address map of memories and peripherals, nested to any depth, every address, value, pair of ranges and pair of bytes", "why_tests_cant": "ranges over all maps, addresses and ranges; that two texts never coincide is a statement about all pairs", "anchors": ["src/address_map/mod.rs AddressMap::register, AddressMap::write, Debug for AddressMap", "src/address_map/memory.rs Addressable::write", "src/cpu/chip8/memory.rs Ring::write", "src/cpu/chip8/operations/mod.rs decode_bytes_to_opcode", "src/cpu/mos6502/mod.rs Iterator::next"]}
{"id": "C86", "title": "A register or flag that is set before it is looked at does not matter", "statement": "Two machines with the same memory and program counter that agree on the registers and flags that the instructions to come look at before setting them execute the same instructions in the same time, do the same to memory, and end with the same value in every register and flag that was set. A register that is not documented as an input of an instruction is not one.", "quantifier": "every pair of register states, bus, documented instruction and sequence of instructions of any length, and every choice of the registers and flags one cares about afterwards", "why_tests_cant": "it relates pairs of executions from all register contents; a test fixes the registers of one execution", "anchors": ["src/cpu/mos6502/operations/mod.rs Generate", "src/cpu/mos6502/mod.rs StepState, MOS6502", "src/cpu/mos6502/register.rs"]}
{"id": "C87", "title": "CHIP-8 state that is set before it is looked at does not matter", "statement": "What an instruction does depends only on its own two bytes, their address, the registers it names and what those point to (plus the key state, timers and clock or random answers where documented): two CHIP-8 machines that agree on these both fail or both succeed, give the same new values to the parts that the instruction sets, ask the clock and the random number generator equally often, and leave every other part of each machine as it was. A run of instructions that look only at known parts (known at the start, or set on the way) is executed with the same instructions at the same addresses by every machine that agrees on the parts known at the start, and the machines agree in the end on everything known or set.", "quantifier": "every pair of machines, instruction, clock and random number generator, and every run of any length with every choice of parts known", "why_tests_cant": "it relates pairs of executions from all contents of memory, stack, display and registers; a test fixes one machine", "anchors": ["src/cpu/chip8/operations/mod.rs Generate", "src/cpu/chip8/mod.rs Chip8, ExecuteMut"]}
{"id": "C88", "title": "Numbers of any length are doubled and halved by shifts and rotates", "statement": "ASL on the lowest byte and ROL on each further byte double a little-endian number of any length modulo its range, and C afterwards says whether the double did not fit. LSR on the highest byte and ROR on each further byte halve it, and C is the remainder. Nothing else in memory or the other registers changes, and each byte takes 6 cycles.", "quantifier": "every number of bytes, contents, placement of program and number, register contents, bus with RAM at the number, both build profiles", "why_tests_cant": "the number of bytes and their values are unbounded; a test fixes one length", "anchors": ["src/cpu/mos6502/operations/mod.rs ASL, LSR, ROL, ROR", "src/cpu/mos6502/mod.rs Cpu::run"]}
{"id": "C89", "title": "A counter of any length counts", "statement": "INC on the lowest byte followed, for each further byte, by a BNE past the INC of that byte adds one to a little-endian number of any length modulo its range, and Z says afterwards whether the counter came back to zero. Nothing else in memory or the other registers changes.", "quantifier": "every number of bytes, contents, placement of program and counter, register contents, bus with RAM at the counter, both build profiles", "why_tests_cant": "carries can run through any number of bytes; a test fixes one", "anchors": ["src/cpu/mos6502/operations/mod.rs INC, BNE", "src/cpu/mos6502/mod.rs Cpu::run"]}
{"id": "C90", "title": "The shift-and-add loop multiplies", "statement": "The usual multiplication loop (LSR the multiplier, add the multiplicand when a bit fell out, ASL the multiplicand, eight times) ends and leaves in A the product of the two bytes modulo 256, within 163 to 212 cycles, and changes no memory but the two operands.", "quantifier": "every pair of factors, placement of program and factors, register contents, bus with RAM at the factors, both build profiles", "why_tests_cant": "65536 pairs of factors at every placement and with every register contents; the loop needs an invariant", "anchors": ["src/cpu/mos6502/operations/mod.rs LSR, BCC, ADC, ASL, DEX, BNE", "src/cpu/mos6502/mod.rs Cpu::run"]}
{"id": "C91", "title": "A machine's own random number generator is used in order, and what one run drew the next does not draw again", "statement": "With a generator whose state is part of the machine (cloned with it), the instructions executed through the iterator receive the bytes of the generator in order, one for each Cxkk and none otherwise, none skipped and none twice, and the machine taken from the iterator carries the generator after those bytes. A run of n instructions followed by a run of m does what a run of n + m does.", "quantifier": "every generator (any state type and any drawing function), seed, machine, program, clock, number of instructions, both build profiles", "why_tests_cant": "it ranges over generators and over programs; the shipped tests never call run twice with a stateful generator", "anchors": ["src/cpu/chip8/mod.rs GenerateRandom, Cpu::run, Chip8IntoIterator::next", "src/cpu/chip8/operations/mod.rs Rnd"]}
{"id": "C92", "title": "A program does in ROM what it does in RAM, until it writes there", "statement": "Replacing read-only memory by read-write memory of the same contents changes nothing about a run that succeeds: same accesses, same cycles, same registers and memory afterwards. The other way round, a sequence of instructions that runs from RAM also runs after that RAM is made ROM exactly when none of its writes goes to the memory made read-only, and then does the same.", "quantifier": "every program, choice of ranges, register and memory contents, number of instructions or cycles, both build profiles", "why_tests_cant": "it compares two machines over every program and every number of instructions", "anchors": ["src/address_map/memory.rs Memory<ReadOnly>, Memory<ReadWrite>", "src/address_map/mod.rs AddressMap::read, AddressMap::write", "src/cpu/mos6502/mod.rs Cpu::run"]}
{"id": "C93", "title": "CHIP-8 loops that add and that fill memory do what they are written for", "statement": "The loop 7xkk, 7y01, 5yz0, 1aaa ends after counting Vy up to Vz, with kk added to Vx once for each round (modulo 256), in 4n - 1 instructions, and changes nothing else. The loop F055, Fy1E, 7zFF, 3z00, 1aaa stores V0 at Vz addresses, Vy apart from I on (256 of them when Vz is 0), leaves I behind the last and Vz zero, and changes nothing else.", "quantifier": "every choice of registers and constants, register and memory contents, load address, clock, generator, both build profiles; for the filling loop every start and stride that keeps the cells off the program and within memory", "why_tests_cant": "the number of rounds depends on the registers and the claim covers every program location and every value", "anchors": ["src/cpu/chip8/mod.rs Cpu::run", "src/cpu/chip8/operations/mod.rs AddImmediate, SeVxVy, SeImmediate, JpNonV0Indexed, StoreRegistersToMemory, AddIRegisterIndexed"]}
{"id": "C94", "title": "CHIP-8 programs for decimal digits and for copying memory", "statement": "After Fx33 and F265, V0, V1 and V2 are digits between 0 and 9 that make up Vx in decimal, and only these and the three bytes from I on have changed. After Annn, Fx65, Ammm, Fx55, the x + 1 bytes from mmm on are those that were at nnn before, also when the two ranges overlap or lie over the program itself, and only these bytes, I and the registers V0 to Vx have changed.", "quantifier": "every register x below 15, value, address of program, source and destination within memory, clock, generator, both build profiles", "why_tests_cant": "every value, every overlap and every placement", "anchors": ["src/cpu/chip8/operations/mod.rs LdBcd, ReadRegistersFromMemory, StoreRegistersToMemory, LdAbsolute", "src/cpu/chip8/mod.rs Cpu::run"]}
{"id": "C95", "title": "A loop waiting for the delay timer waits exactly until it has run down", "statement": "The loop Fx07, 3x00, 1aaa goes round as long as no clock reading is the timer's value in seconds past the time it was set at, and leaves with the first one that is; it reads the clock once a round, and leaves 0 in Vx and everything else unchanged.", "quantifier": "every sequence of clock readings, timer value and time of setting, number of rounds, register, address and machine, both build profiles", "why_tests_cant": "it holds for every schedule of clock readings, including clocks that stand still or jump", "anchors": ["src/cpu/chip8/mod.rs Cpu::run", "src/cpu/chip8/register.rs ClockDecrementing", "src/cpu/chip8/operations/mod.rs LdDelayTimerSrcTx, SeImmediate, JpNonV0Indexed"]}
{"id": "C96", "title": "CHIP-8 code without jumps, calls or returns does the same wherever it lies in memory", "statement": "An instruction that names no place in the program (anything but 1nnn, Bnnn, 2nnn and 00EE) does the same at two different addresses on machines that agree on what it looks at besides itself: it moves the program counter as far, sets the same parts to the same values, leaves the rest alone, asks the clock and the generator as often, or panics at both. A run of such instructions within a piece of code that they neither read nor write as data has the same outcome from a copy of the code at another address.", "quantifier": "every instruction, machine, pair of addresses, code length, number of instructions, clock, generator, both build profiles", "why_tests_cant": "it relates two runs for every program and every pair of load addresses", "anchors": ["src/cpu/chip8/mod.rs Chip8IntoIterator::next, Generate for Chip8", "src/cpu/chip8/operations/mod.rs Generate impls"]}
{"id": "C97", "title": "CHIP-8 instructions that have nothing to do with each other can be exchanged", "statement": "If neither of two neighbouring instructions jumps or skips, neither looks at what the other sets, they set different parts and do not ask the same source, then executing them in either order gives the same machine (but for those two words) and asks for the same answers, or panics in both orders. Whatever the program does afterwards without looking at those two words it does in both, with the same outcome.", "quantifier": "every pair of instructions, machine, continuation of any length, clock, generator, both build profiles", "why_tests_cant": "it relates two programs, for all pairs of instructions and all states", "anchors": ["src/cpu/chip8/mod.rs Chip8IntoIterator::next", "src/cpu/chip8/operations/mod.rs Generate impls", "src/cpu/chip8/microcode.rs"]}
{"id": "C98", "title": "Cycle counters neither overflow nor underflow", "statement": "With 64-bit counters, building a StepState, taking it apart, and any sequence of decrements and runs of it for any numbers of cycles do exactly what they do with unbounded counters, in debug and in release builds; they panic only where running the machine itself panics.", "quantifier": "every counter and number of cycles a usize holds, every machine (any type with a run), every sequence of uses, both build profiles", "why_tests_cant": "2^64 counter values and sequences of any length", "anchors": ["src/cpu/mod.rs StepState::new, StepState::decrement, Cpu::run for StepState, From<StepState<T>> for (usize, T)"]}
{"id": "C99", "title": "6502 instructions that have nothing to do with each other can be exchanged", "statement": "If two neighbouring 6502 instructions do not transfer control, neither sets a register or flag the other looks at or sets, neither writes a byte the other reads or writes, and neither touches the bytes of the two, then executing them in either order takes the same cycles and gives the same registers and the same memory (but for the order of the two), or panics in both orders. A program that passes such a pair any number of times, in any loop, and otherwise leaves its bytes alone runs alike with the two exchanged: as many instructions, as many cycles, the same registers and memory.", "quantifier": "every pair of instructions, every machine with plain memory and every run of any length that passes the pair, both build profiles", "why_tests_cant": "it relates two programs, for all pairs of instructions, all states and runs of any length", "anchors": ["src/cpu/mos6502/mod.rs MOS6502IntoIterator::next", "src/cpu/mos6502/operations/mod.rs Generate impls", "src/cpu/mos6502/microcode.rs"]}
{"id": "C100", "title": "The Unix random number generator returns bytes of the device, or panics, and leaves no file open", "statement": "A byte returned by UnixRandomNumberGenerator was read from /dev/random by that call, after any number of interrupted reads; the call panics exactly when the device cannot be opened, is at its end or fails otherwise; in every case a file that was opened has been closed when the call is over. With a working device any number of calls return the device's bytes in order, each once, and leave nothing open.", "quantifier": "every sequence of answers of the operating system, every number of interruptions and calls", "why_tests_cant": "the operating system's answers cannot be provoked in a test, and they range over all sequences", "anchors": ["src/cpu/chip8/mod.rs UnixRandomNumberGenerator::random"]}
{"id": "C101", "title": "A 6502 with only RAM and ROM stops or repeats itself", "statement": "A machine whose bus carries nothing but RAM and ROM either panics or comes back to a state it was in before, within as many instructions as it has states (registers times contents of the writable bytes); so a program that has not panicked by then never does. A machine that has come back to a state goes through the same states for ever: it never panics, is in no other state, and running it for n cycles leaves what running it for the remainder of n by the length of the round leaves.", "quantifier": "every program, memory layout and contents, register state, number of instructions or cycles, both build profiles; the second part every device on the bus", "why_tests_cant": "No test can run a program for as many instructions as the machine has states, or for ever.", "anchors": ["src/cpu/mos6502/mod.rs: Cpu::run, Mos6502IntoIterator::next", "src/address_map/memory.rs: Memory"]}
{"id": "C102", "title": "A CHIP-8 machine left to itself stops, asks or repeats itself", "statement": "A machine that executes instructions without asking the clock or the random number generator either panics, asks one of them, or comes back to a state in which every part (registers, stack, memory, display, timers, pressed key) is as it was before, within as many instructions as it has states. A machine that has come back to a state without asking goes through the same states for ever: it never panics, never asks, is in no other state, and running it for n instructions succeeds and leaves what the remainder of n by the length of the round leaves.", "quantifier": "every reachable kind of machine state (program, memory contents, registers), clock and generator, number of instructions, both build profiles", "why_tests_cant": "No test can run a program for as many instructions as the machine has states, or for ever.", "anchors": ["src/cpu/chip8/mod.rs: Chip8::run, Chip8IntoIterator::next", "src/cpu/chip8/operations/mod.rs"]}
{"id": "C103", "title": "A 6502 program depends only on what it looks at before setting it", "statement": "Two machines with RAM and ROM at the same addresses, at the same place in the program, that agree on the registers, flags and bytes of memory that the next instruction looks at (those it is documented to look at, X for DEY, its own bytes, the bytes it reads) execute it in the same number of cycles, go on at the same place, agree on every register, flag and byte it sets and each keep everything else; or both panic. So if a run looks only at what is known at its start or was set on the way, every machine that agrees on what is known executes as many instructions in as many cycles and agrees in the end on everything known then.", "quantifier": "every pair of machines with plain memories, every instruction, program, run length and set of known registers, flags and bytes, both build profiles", "why_tests_cant": "A test compares two machines that differ in a few places; this says that no difference outside what is looked at, in any register, flag or byte and in any combination, shows up in any run.", "anchors": ["src/cpu/mos6502/mod.rs: Mos6502::run, Generate", "src/cpu/mos6502/operations/mod.rs", "src/cpu/mos6502/microcode/mod.rs"]}
{"id": "C104", "title": "An instruction whose results are not looked at can be replaced by one that does nothing", "statement": "6502: if a run comes any number of times to an instruction that is not a jump, branch, call or return, and no other instruction looks at a register, flag or byte after that instruction has set it and before another has, nor at its own bytes, and no instruction writes over it, then the machine with as many NOPs in its place executes the other instructions just the same (two cycles for every NOP) and agrees in the end on everything known, that is, on all that is known at the start or set by the other instructions and not overwritten by it. CHIP-8: the same with any 0nnn (SYS) word in place of an instruction that does not jump, skip, or ask the clock or the random number generator; the run takes as many instructions and asks as often.", "quantifier": "every instruction, place, program, number of visits, run length, set of known parts and pair of machines that agree on them, both build profiles", "why_tests_cant": "A peephole edit tried on one program says nothing about other programs, other contents or more visits.", "anchors": ["src/cpu/mos6502/mod.rs: Mos6502::run, Generate", "src/cpu/mos6502/operations/mod.rs", "src/cpu/chip8/mod.rs: Chip8IntoIterator::next", "src/cpu/chip8/operations/mod.rs: Sys"]}
{"id": "C105", "title": "A 6502 put together from memory images holds exactly those images", "statement": "Mos6502::default() never panics and gives a machine with 512 bytes of zeroed RAM at 0x0000..=0x01ff, nothing else mapped, and the reset register values. Registering any number of RAM and ROM images (Memory::new(lo, hi).load(bytes), as many bytes as the range is long) that have no address in common with each other or with those 512 bytes succeeds; afterwards every address reads the byte of the image it lies in and 0 elsewhere, exactly the first two pages and the RAM images accept writes, any history of reads and writes behaves as on an array, and reset starts at the word the images hold at 0xfffc. An image one end of which lies in the first two pages or in an earlier image is refused. The order of registration makes no difference to any run.", "quantifier": "all lists of images, all addresses, values and access histories, all orders of registration, all cycle budgets, both build profiles", "why_tests_cant": "The set of memory layouts, image contents and registration orders is unbounded; tests build a handful of fixed layouts.", "anchors": ["src/cpu/mos6502/mod.rs: Mos6502::default, with_addressmap, register_address_space, reset", "src/address_map/memory.rs: Memory::new, Memory::load", "src/address_map/mod.rs: AddressMap::register, read, write"]}
{"id": "C106", "title": "The address map, the ring and the memory behave the same for every address and value type", "statement": "For every address type, value type and device type: AddressMap::read and write go to the device whose registered range contains the address and to no other (Default and Err when there is none), the device's answer is returned, all other entries and all addresses outside the range are unaffected, and the iteration order of the hash map does not matter while no two ranges meet. register refuses exactly when an end of the new range is in an old one; an accepted registration changes no address outside its range, gives the addresses inside it to the new device, and (for totally ordered addresses) meets an old range only by enclosing it. A device answers any history of accesses in a map as it does on its own. Ring<T> of non-zero capacity is an array of T addressed modulo its capacity that refuses no write; Memory::new/load/dump hold as many defaults as the range is long and give back what was loaded. The maps of u16 addresses and u8 values and the stack of the two processors are instances.", "quantifier": "all address, value and device types, all orders of the address type, all maps, devices, addresses, values and access histories, all iteration orders", "why_tests_cant": "The types and the order relation are parameters: no test can range over all instantiations of a generic, nor over all maps and histories.", "anchors": ["src/address_map/mod.rs: AddressMap<O, V>::new, register, read, write", "src/cpu/chip8/memory.rs: Ring<T>", "src/address_map/memory.rs: Memory<T, O, V>::new, load, dump"]}
{"id": "C107", "title": "A piece of 6502 code can be replaced by another that does the same", "statement": "Take two machines that differ only in a piece of code at one place, where the two pieces have the same length and do the same: coming to that place, they leave the same registers and, but for the piece itself, the same memory. Then any run of the first machine that comes any number of times to the piece, and whose other instructions stand elsewhere and neither read nor write its bytes, has a counterpart on the second machine: the same instructions in between, the other piece at each visit, the number of instructions and cycles differing by exactly the difference between the pieces times the number of visits, and the same registers and memory at the end. `run` with these cycles delivers these machines. In particular, for every operand, register and memory contents: LDA #n / TAX and LDX #n / TXA; TAX / TXA and TAX / NOP; ASL A / NOP and CLC / ROL A; LDA #0 and AND #0; a JMP to the following instruction and three NOPs (3 and 6 cycles); STA z / LDA z and STA z / ORA #0 (6 and 5 cycles) when z is RAM outside the piece.", "quantifier": "all machines with plain memory, places, pieces, programs around them, numbers of visits, operands, registers and memory contents, debug and release builds", "why_tests_cant": "It speaks of every program a piece of code can stand in and of every state it can be reached with; a test runs one program from one state.", "anchors": ["src/cpu/mos6502/mod.rs MOS6502IntoIterator::next", "src/cpu/mos6502/operations/mod.rs Generate impls", "src/cpu/mos6502/microcode.rs"]}
{"id": "C108", "title": "A range that was iterated before it is registered stands for the addresses it would still deliver", "statement": "`register` takes a range value, which the caller may have iterated before. Iterating lo..=hi from both ends delivers its addresses in order and once each, and the range contains exactly the addresses it would still deliver, so a device registered with it serves exactly those. A range is used up exactly when it had addresses and delivered all of them. A device registered with a used-up range is never read or written: every read, write and result is that of the map without it. Registering a used-up range is refused exactly when a range that is not used up has the end it was left with; registering any other range is unaffected by used-up ranges. A used-up range and a fresh one with the same ends are different keys: the fresh one is accepted after the used-up one and not the other way round.", "quantifier": "all ranges, all ways of taking items from the front and the back, all registration histories, addresses, values, device types, debug and release builds", "why_tests_cant": "A test registers a handful of literal ranges; this is about every iteration state of every range and every registration history.", "anchors": ["src/address_map/mod.rs AddressMap::register", "src/address_map/mod.rs AddressMap::read", "src/address_map/mod.rs AddressMap::write"]}
{"id": "C109", "title": "A piece of a CHIP-8 program can be replaced by one that does the same", "statement": "Two machines that differ only in a piece of code, where the two pieces do the same when entered at their start, stay that way: a run of the first machine that comes to the piece any number of times, and otherwise executes instructions that stand elsewhere and neither look at nor set the piece, is followed by the second one. The second takes the number of instructions of its own piece at every visit, asks the clock and the random number generator as often and ends with everything outside the piece equal. Every machine with the first piece in its memory has such a counterpart. Pieces that do the same: LD Vx,k ADD Vx,n and loading the sum; LD Vx,Vy LD Vy,Vx and the first of them alone; XOR Vx,Vy twice and nothing; LD I,nnn ADD I,Vx with a known Vx and loading the sum; XOR Vx,Vx and LD Vx,0; LD, OR, AND and SNE of a register with itself, ADD Vx,0 and nothing; SE Vx,Vx and a jump over one instruction; a jump to a jump and a jump to its target.", "quantifier": "all machines, pieces of any length, clocks and random number generators, runs of any length with any number of visits, debug and release builds", "why_tests_cant": "A test runs one program; this is about every pair of equivalent pieces inside every program.", "anchors": ["src/cpu/chip8/mod.rs Chip8 Iterator", "src/cpu/chip8/operations/mod.rs Generate", "src/cpu/chip8/microcode.rs Microcode"]}
{"id": "C110", "title": "The code of an expression leaves its value in the accumulator", "statement": "An expression of any size over byte constants, variables, tables of 256 bytes, doubling, halving, sum, difference, and, or and exclusive or is translated in the usual way: the left operand waits on the stack while the right one is computed, which then goes through a scratch byte. For every such expression whose operands fit on the stack and that reads neither the stack nor the scratch byte, on any bus whose stack page and scratch byte are RAM outside the code, running the code leaves the value of the expression in A, Z telling whether it is zero, S and Y as before and PC behind the code. In memory only the scratch byte and as many stack bytes as the expression is deep have changed.", "quantifier": "all expressions of any size, places, register contents, stack positions including ones that wrap, memory contents and buses, debug and release builds", "why_tests_cant": "A test evaluates a few expressions; this is an induction over all of them.", "anchors": ["src/cpu/mos6502/mod.rs Mos6502 run", "src/cpu/mos6502/operations/mod.rs Generate", "src/cpu/mos6502/microcode.rs Microcode"]}
{"id": "C111", "title": "Translated programs with loops do on the 6502 what their language says", "statement": "A small language of assignments to variables and table entries, sequences, conditionals and while loops over the expressions of C110 has a meaning of its own: from a state a program ends in at most one state, or never. Translate a program to 6502 code with absolute jumps and branches that are right under both readings of the displacement. If the program ends, the emulator comes to the end of the code in finitely many instructions with every address outside the stack page and the scratch byte as in the final state, S and Y as before. If it does not end, the emulator executes instructions for ever without a panic and without leaving the code. The emulator comes to the end of the code only if the program ends. For example the loop that adds up the first n bytes of a table leaves their sum modulo 256 for every n and every table.", "quantifier": "all programs of any size, all initial states, places, register contents and buses, runs of any length, debug and release builds", "why_tests_cant": "A test runs one program on one input; this covers every program, including those that never end.", "anchors": ["src/cpu/mos6502/mod.rs Mos6502 run", "src/cpu/mos6502/operations/mod.rs Generate", "src/cpu/mos6502/microcode.rs Microcode"]}
{"id": "C112", "title": "Structured programs translated to CHIP-8 code do what they mean", "statement": "Take CHIP-8 instructions that do not jump and put them together with sequences, conditionals and while loops whose conditions are those the skip instructions test. Such a program has a meaning of its own, in terms of what each instruction does to the observable state; the program counter plays no role in it. Translate it to CHIP-8 code with a skip and a jump at each test. If the program ends without overwriting itself, the emulator comes to the end of the code in finitely many instructions, and the registers, memory, stack, display, timers and keys, the clock readings and random numbers used are those the meaning says. The emulator comes to the end of the code only if the program ends or overwrites itself. For example a program of two nested counting loops leaves the product of any two bytes modulo 256 and changes nothing but its three registers.", "quantifier": "all programs of any size and nesting, all places, initial states, clocks and random number sources, debug and release builds", "why_tests_cant": "A test runs one program on one input; this is an induction over all programs and all their executions.", "anchors": ["src/cpu/chip8/mod.rs Chip8 Iterator", "src/cpu/chip8/operations/mod.rs Generate", "src/cpu/chip8/microcode.rs Microcode"]}
{"id": "C113", "title": "Translated CHIP-8 programs that do not end stay in their code or stop where they must", "statement": "A program as in C112 that neither ends nor comes to an instruction that cannot be executed or overwrites the program keeps the emulator executing instructions for ever, without a panic and without leaving its code. A program that comes to such an instruction brings the emulator to it, inside its code and in the state the meaning says; if the instruction cannot be executed the emulator panics there. Ending and coming to such an instruction exclude each other, and there is at most one such instruction and state.", "quantifier": "all programs of any size and nesting, all places, initial states, clocks and random number sources, runs of any length, debug and release builds", "why_tests_cant": "No test can observe that an execution never leaves the code.", "anchors": ["src/cpu/chip8/mod.rs Chip8 Iterator", "src/cpu/chip8/operations/mod.rs Generate", "src/cpu/chip8/microcode.rs Microcode"]}
{"id": "C114", "title": "Programs with recursive procedures translated to 6502 code do what they mean", "statement": "Add procedures, which may call each other and themselves, to the language of C110 and C111. The meaning of a program depends on how many bytes of the stack are free: a call takes two, a waiting operand one. If, with the room there is, the program ends, the emulator executing its translation (JSR and RTS for calls) comes to the end of the code, with the final values in memory, with S and Y as before and with no byte of the stack changed except those the program had room for. The language gives a program one meaning whatever the room, more room never changes it, and ending excludes running out of room. For example the recursive procedure that counts the moves of the towers of Hanoi gives 2^n - 1 modulo 256 for every n up to 127, and there is no room for any larger n.", "quantifier": "all programs, procedures and depths of recursion, all places, initial states and memory maps with RAM where the program writes, debug and release builds", "why_tests_cant": "A test runs one program on one input; this is an induction over all programs and all their executions.", "anchors": ["src/cpu/mos6502/mod.rs Mos6502 Iterator", "src/cpu/mos6502/operations/mod.rs Generate (JSR, RTS)", "src/cpu/mos6502/microcode.rs Microcode"]}
{"id": "C115", "title": "Translated programs with procedures that do not end never leave their code", "statement": "A program as in C114 that neither ends nor runs out of room keeps the emulator executing instructions of its code for ever: after any number of instructions the program counter is inside the code, and there is no panic. The emulator comes to the end of the code only if the program ends or runs out of room.", "quantifier": "all programs, procedures and depths of recursion, runs of any length, all places, initial states and memory maps with RAM where the program writes, debug and release builds", "why_tests_cant": "No test can observe that an execution never leaves the code.", "anchors": ["src/cpu/mos6502/mod.rs Mos6502 Iterator", "src/cpu/mos6502/operations/mod.rs Generate (JSR, RTS)", "src/cpu/mos6502/microcode.rs Microcode"]}
{"id": "C116", "title": "A translated program takes exactly the cycles its meaning says", "statement": "The cycles a program of the language of C114 takes can be read off its meaning: a sum over the expressions, assignments, tests, calls and jumps it performs, with one cycle more for each table item not on the page its table begins on and for each branch to another page. A call of run with exactly that many cycles brings the emulator from the first instruction of the program to its end with the final values in memory. Every program that ends has such a number, from the same state always the same. For example the recursive towers of Hanoi with n up to 127 discs take 128 * 2^n - 104 cycles when their one branch stays on its page.", "quantifier": "all programs, procedures and depths of recursion, all places, initial states and memory maps with RAM where the program writes, debug and release builds", "why_tests_cant": "A test measures one run; the cycle count is a function of program and state and is shown by induction over all executions.", "anchors": ["src/cpu/mos6502/mod.rs Mos6502 Iterator, StepState, Cpu::run", "src/cpu/mos6502/operations/mod.rs Generate", "src/cpu/mos6502/operations/mod.rs Operations (cycles)"]}
{"id": "C117", "title": "Programs without conditionals and loops take the same time on all data", "statement": "A program of the language of C114 without conditionals and loops, all of whose tables begin at page boundaries, takes the same number of cycles whatever values are in memory and registers, wherever the program lies and on whichever bus.", "quantifier": "all such programs, all pairs of initial states, places, buses and build profiles", "why_tests_cant": "It compares every two executions; tests compare finitely many.", "anchors": ["src/cpu/mos6502/mod.rs Mos6502 Iterator, StepState, Cpu::run", "src/cpu/mos6502/operations/mod.rs Generate", "src/cpu/mos6502/operations/mod.rs Operations (cycles)"]}
{"id": "C118", "title": "A translated program sends its assignments to the devices in its order, and nothing else", "statement": "The assignments a program of the language of C114 makes, with their values and in their order, are part of its meaning: a program that ends makes one list of them, and its final values are what they leave. A call of run with the cycles of the program sends to the devices exactly these writes in this order, each of them twice (as every write of run, C65), and besides them only writes to the scratch byte and the stack. Whoever takes the instructions one by one from the iterator sees each of them once.", "quantifier": "all programs, procedures and depths of recursion, all places, initial states and memory maps with RAM where the program writes, debug and release builds", "why_tests_cant": "The order and number of the writes depend on program, data and nesting; a test sees one sequence.", "anchors": ["src/cpu/mos6502/mod.rs Mos6502 Iterator, StepState, Cpu::run", "src/cpu/mos6502/operations/mod.rs Generate", "src/address_map/mod.rs AddressMap::write"]}
{"id": "C119", "title": "What a program that need not end has written so far reaches the devices, and nothing else", "statement": "Also a program that never ends makes assignments one after the other; what it has assigned at two moments are a shorter and a longer beginning of one sequence. Whatever it has assigned at some moment, a run with enough cycles has sent to the devices, each write twice and in the order of the program. Conversely a run of any number of cycles, up to the end of the program if there is one, completes without panicking and has sent nothing but a beginning of that sequence (with each write twice), apart from the scratch byte and the stack, provided the stack suffices. For example a program that counts for ever on an output byte shows 0, 1, 2 and so on as far as one cares to wait.", "quantifier": "all programs, ending or not, all numbers of cycles, all places, initial states and memory maps with RAM where the program writes, debug and release builds", "why_tests_cant": "It is about executions without end and about every moment of them.", "anchors": ["src/cpu/mos6502/mod.rs Mos6502 Iterator, StepState, Cpu::run", "src/cpu/mos6502/operations/mod.rs Generate", "src/address_map/mod.rs AddressMap::write"]}
{"id": "C120", "title": "A translated program talks to a device as the language says", "statement": "Some addresses are ports of a device that reacts to being accessed: a read yields a byte and may change the device (a keyboard hands out the next key), a write may change it (a printer prints). In the language of C114 evaluating a variable at such an address reads the port, from left to right and once for every mention, and assigning to it writes the port; so program and device together have one outcome. Whoever takes the instructions of the translated program one by one from the iterator sees this conversation: the program ends when the language says so, in the cycles the language says, with the memory and the device in the states the language says. Every state the device goes through according to the language is reached, and the device is never in another one after any number of instructions, whether the program ends or not.", "quantifier": "all programs, all devices with any internal state, any placing of their ports outside program, stack and scratch byte, all initial states and all numbers of instructions, debug and release builds", "why_tests_cant": "It ranges over all devices, programs and histories of input; a test fixes one of each.", "anchors": ["src/cpu/mos6502/mod.rs Mos6502 Iterator, StepState, Cpu::run", "src/cpu/mos6502/operations/mod.rs Generate, dereference_address_to_operand", "src/address_map/mod.rs AddressMap::read, AddressMap::write", "src/address_map/mod.rs Addressable"]}
{"id": "C121", "title": "A translated program talking to a device by a call of run: every write arrives twice", "statement": "By a call of run the same conversation takes place, except that the device gets every write twice in a row, while it is read once. For a device that does not mind a repeated write this is the same conversation. A run with the cycles of the program ends it; every state that the language so understood names is reached by a run of some number of cycles; a run of any number of cycles, up to the end of the program, completes and leaves the device in such a state or, in the midst of an assignment to a port, with the first of the two writes. For example the program that prints what is typed prints every character twice.", "quantifier": "all programs, all devices with any internal state, any placing of their ports outside program, stack and scratch byte, all initial states and all numbers of cycles, debug and release builds", "why_tests_cant": "It ranges over all devices, programs, histories of input and stopping points; a test fixes one of each.", "anchors": ["src/cpu/mos6502/mod.rs Mos6502 Iterator, StepState, Cpu::run", "src/cpu/mos6502/operations/mod.rs Generate, dereference_address_to_operand", "src/address_map/mod.rs AddressMap::read, AddressMap::write", "src/address_map/mod.rs Addressable"]}
{"id": "C122", "title": "CHIP-8 programs while the host presses and releases keys at any moment", "statement": "A host that takes instructions from the iterator one by one may set the pressed key, or that none is pressed, before each of them. In the language of C112 every test and every instruction then sees the key pressed at its moment. Whatever the host does, the program has one meaning; if it ends, the machine comes to the end of the code after exactly as many instructions as the language says and looks like the final state; if it goes wrong, the machine comes to that instruction and panics there if the language says so; otherwise it never panics and stays in the code for ever. If the host leaves the key alone, programs mean what they mean in C112. A loop that waits for the key of a register looks at it at every second instruction: it ends two instructions after it first finds it; a key held for two instructions in a row is noticed, one pressed for a single instruction may never be. A loop around Fx0A waits for any key, looking at every third instruction, and leaves its number in the register.", "quantifier": "all programs, all schedules of key presses and releases without any bound, all initial states, all numbers of instructions, all clocks and random number generators, debug and release builds", "why_tests_cant": "It ranges over all schedules of the host, including endless ones, and all programs; a test fixes one of each.", "anchors": ["src/cpu/chip8/mod.rs Chip8::with_interrupt, IntoIterator, Chip8IntoIterator::next", "src/cpu/chip8/operations/mod.rs Generate for opcodes Skp, Sknp, LdK"]}
{"id": "C123", "title": "The states of a CHIP-8 machine", "statement": "A CHIP-8 machine made by the crate, whatever was run on it, always has a value of the right range in every register, stack entry, memory byte, pixel and timer, and nothing outside of them; conversely every choice of such values is the state of some machine the crate can make, from the default one by its builders and its microcode. In particular every program that fits can lie in memory, with any state of the rest of the machine.", "quantifier": "all machines reachable in the crate, all choices of values for all parts, all programs that fit at any address, all clocks and random number generators, debug and release builds", "why_tests_cant": "The states are too many to enumerate, and the claim that no history leads outside of them ranges over all histories.", "anchors": ["src/cpu/chip8/mod.rs Chip8", "src/cpu/chip8/microcode.rs", "src/cpu/chip8/register.rs", "src/cpu/chip8/memory.rs"]}
{"id": "C124", "title": "The states of a 6502 machine", "statement": "A machine made with the public functions (the default one or an empty one; memories added at free addresses, with a byte for each; registers set; bytes written from outside; reset; the iterator; run) always has values of the right width in its registers, and at every address either RAM, which accepts every byte and then alone has changed, or something that reads as a byte and refuses every write. Conversely every choice of register values and of RAM, ROM or nothing with any byte at each address is the state of a machine made with the public functions.", "quantifier": "all machines made by any sequence of these calls, all register values, all 65536-address memory layouts and contents, debug and release builds", "why_tests_cant": "There are far too many states to enumerate and the sequences of calls are unbounded.", "anchors": ["src/cpu/mos6502/mod.rs Mos6502::with_addressmap, register_address_space, with_gp_register, with_sp_register, with_pc_register, with_ps_register, with_owned_address_map, reset, run, Iterator", "src/address_map/mod.rs AddressMap::register", "src/address_map/memory.rs Memory::new, load"]}
{"id": "C125", "title": "Running a 6502 in portions of cycles", "statement": "A host that calls run again and again with portions of cycles, all alike or not, always finds the machine at an instruction of the one uninterrupted execution: nothing is skipped or done twice, at most 6 cycles of each portion are lost, a portion of 7 or more executes at least one instruction, and a panic happens only where the uninterrupted execution panics. A program that comes after t cycles to a state it rests in, as a jump to itself, is found in exactly that state once the portions, each less 6 cycles, add up to t; so a translated program (C114) has the same result whatever the portions. A machine at an instruction longer than all portions never goes on, and 7 is the smallest portion for which this cannot happen. A host that also changes the machine between portions (key presses, say) does what one does that makes these changes between instructions taken from the iterator.", "quantifier": "all sequences of portions without any bound, all machines and devices, all programs, all changes the host makes, debug and release builds", "why_tests_cant": "It ranges over all sequences of portions and all programs; a test fixes one of each.", "anchors": ["src/cpu/mos6502/mod.rs Cpu::run for Mos6502", "src/cpu/mod.rs StepState::unwrap"]}
{"id": "C126", "title": "Running a CHIP-8 in portions while the user presses keys", "statement": "A host that again and again sets the pressed key (or none) and calls run with a portion of instructions has, as long as no instruction sets a timer, exactly the machine, clock readings, random numbers or panic of a host that takes the instructions one by one and sets that key before each. So a structured program without timer writes (C112), followed by a jump to itself, rests at its end with the state the language says as soon as the portions add up to the instructions it takes; before that the machine is inside the code; if the program comes to an instruction that cannot be executed the host panics there, and if it does neither it stays in the code for ever. A loop waiting for a key is left if that key is held for one portion of at least three instructions, and only if the key is pressed at all. With timer writes portions and single instructions can differ.", "quantifier": "all sequences of keys and portions without any bound, all machines and programs, all clocks and random number sources, debug and release builds", "why_tests_cant": "It ranges over all programs and all sequences of keys and portions; a test fixes one of each.", "anchors": ["src/cpu/chip8/mod.rs Cpu::run for Chip8, with_interrupt, Chip8IntoIterator::next", "src/cpu/mod.rs StepState::unwrap"]}
{"id": "C127", "title": "A CHIP-8 machine side by side with the thread that buffers its random bytes", "statement": "When a CHIP-8 machine executes instructions while the thread of its buffered random number generator produces bytes, in any order of their moves and for any buffer size (0 included), the machine is at every moment the one it would be alone with the wrapped generator after as many instructions. Two runs that completed as many instructions agree whatever buffer size and schedule. Neither blocks the other: while the machine alone could execute its next instruction, one of the two can move, and the machine itself unless it is waiting for a byte; the exception is a wrapped generator that panics. No scheduler can starve the machine: n instructions are completed within 4n + 2*capacity + 3 moves, whoever moves, so whatever the machine alone does in N instructions the buffered one does too. The machine panics because of the generator only at Cxkk, and only after the wrapped generator panicked and all its bytes were used.", "quantifier": "all interleavings of machine and thread without any bound, all buffer sizes, all programs and machines, all wrapped generators and clocks, debug and release builds", "why_tests_cant": "The interleaving is decided by the operating system; a test sees one of them for one program.", "anchors": ["src/cpu/chip8/mod.rs BufferedRandomNumberGenerator, GenerateRandom, Chip8IntoIterator::next", "src/cpu/chip8/operations/mod.rs Rnd"]}
{"id": "C128", "title": "What a CHIP-8 program does that calls a routine", "statement": "Let a program come to a CALL of a routine that consists of structured code (C112) followed by RET. Because RET goes back to the CALL itself (the deviation of C41) the call amounts to a loop: the routine is executed again and again, each time from the state in which it ended before and with what the language says it does; the machine goes on for ever, always at the CALL or in the routine, and the instruction behind the CALL is never executed, as long as no round comes to an instruction that cannot be executed or overwrites the program. A round that comes to an instruction that cannot be executed ends with a panic at that instruction, in the state the language says.", "quantifier": "all routines of any size and nesting, all places of call and routine, all initial states, clocks and random number sources, numbers of rounds and instructions, debug and release builds", "why_tests_cant": "That an instruction is never reached cannot be seen by waiting, and the routine is arbitrary.", "anchors": ["src/cpu/chip8/operations/mod.rs Call, Ret", "src/cpu/chip8/mod.rs Chip8IntoIterator::next, microcode PushStack, PopStack"]}
{"id": "C129", "title": "Translated programs compute on the documented 6502 what they compute on the emulator", "statement": "Although the emulator departs from the documented 6502 in many instructions (C75), among them every taken branch and many additions and subtractions, programs translated from the language of C114 are portable. Start the translation in the same state, with the decimal flag clear, on the emulator and on the 6502 of the data sheet. If the program ends, both come to the end of the code with the same bytes in all of memory but the scratch byte and the stack, with S and Y as before; the documented machine takes exactly the cycles the language gives for it, never more than the emulator. If the program neither ends nor runs out of room, neither machine ever leaves the code. As long as there is room, the emulator comes to the end of the code if and only if the documented machine does.", "quantifier": "all programs, procedures and depths of recursion, all places, initial states and memory maps with RAM where the program writes, debug and release builds, executions of any length", "why_tests_cant": "It compares two machines on every program and every input; the two pass through different states on the way.", "anchors": ["src/cpu/mos6502/mod.rs Mos6502 Iterator, Cpu::run", "src/cpu/mos6502/operations/mod.rs Generate (ADC, SBC, BNE, JSR, RTS)", "src/cpu/mos6502/microcode.rs Microcode"]}
{"id": "C130", "title": "Structured programs on the CHIP-8 of the technical reference and on the emulator", "statement": "Take structured programs as in C112, now over all instructions that do not jump, those that use VF, draw, wait for a key or read the timer included, and give them a meaning by the technical reference (C76). Translated, such a program does on the reference machine what it means: the instructions executed are those of the meaning in order, with jumps between them, and the machine comes to the end of the code when everything is done. As long as none of the instructions performed is in the list of departures of C76, the emulator executes the same instructions with the same results, and at the first that is in the list the two machines part. Programs of instructions that never depart do the same on both, ending or not; the emulator comes to the end of such a program only if the program ends on the reference or there reaches outside the memory or overwrites itself; and if the program ends by its meaning for the emulator it ends by its meaning for the reference. For example the two nested counting loops multiply any two bytes on both machines, and a program that waits for a key waits for ever on the reference and goes on on the emulator.", "quantifier": "all programs of any size and nesting, all places, initial states, clocks and random number sources, runs of any length, debug and release builds", "why_tests_cant": "ranges over all programs of a language and all their executions on two machines, including those that never end", "anchors": ["src/cpu/chip8/mod.rs Chip8 Iterator", "src/cpu/chip8/operations/mod.rs Generate", "src/cpu/chip8/microcode.rs Microcode"]}
{"id": "C131", "title": "6502 code that passes a static check of its stack use runs for ever, within its bounds", "statement": "Annotate every instruction of a 6502 program with the number of bytes its routine has pushed there, a bound on the stack in use and whether it belongs to the main program. Suppose the annotated code passes a check that looks at each instruction once: decodable, no BRK, RTI, TXS, indirect jump or store through a pointer; stores, whatever the index registers, only to RAM that is neither page one nor code; every place control may pass to annotated alike; RTS only where the routine has pulled what it pushed; pulls only of what the routine pushed; a called routine annotated with two bytes more in use. Then on the emulator any number of instructions can be executed and run never panics, whatever the data, the initial stack pointer and the number of cycles; the machine is always at an annotated instruction; the stack in use is within the bound noted there and in the main program exactly what is noted; only the stack bytes within the greatest bound and the places the stores name ever change; and every call returns to the instruction after it with the stack bytes of the caller as they were.", "quantifier": "all programs and annotations that pass the check, all initial registers, memories and buses whose RAM covers page one and the named places, runs of any length, debug and release builds", "why_tests_cant": "ranges over all programs and all data, and says what never happens in executions without end", "anchors": ["src/cpu/mos6502/mod.rs Iterator, Cpu::run", "src/cpu/mos6502/operations/mod.rs JSR, RTS, PHA, PHP, PLA, PLP, branches", "src/address_map/mod.rs AddressMap"]}
{"id": "C132", "title": "CHIP-8 code that passes a static check by ranges of values runs for ever, within its ranges", "statement": "Annotate every instruction of a CHIP-8 program with a range for I, a range for each register and, where a routine may return, the address it was called from. Suppose the annotated code passes a check that looks at each instruction once: the opcode is in memory there; it does not use register VF; with the noted ranges it cannot panic and stores only into memory that is not code; and whatever it makes of the ranges (adding with wrap-around, masking random numbers, learning from skips and from comparisons, jumping by V0) is within what is noted wherever control may pass. Then on the emulator any number of instructions can be executed without a panic, whatever the data, the random numbers, the clock and the keys the host presses in between, and run never panics; the machine is always at an annotated instruction with I and all registers within the ranges noted there; and only memory some instruction is allowed to store into ever changes.", "quantifier": "all programs and annotations that pass the check, all well-formed machines at an annotated instruction, all random number generators, clocks and key schedules, any number of instructions and cycles, debug and release builds", "why_tests_cant": "ranges over all programs, data and schedules of keys, and says what never happens in executions without end", "anchors": ["src/cpu/chip8/mod.rs Iterator, Cpu::run, with_interrupt", "src/cpu/chip8/operations/mod.rs Generate", "src/cpu/chip8/microcode.rs"]}
{"id": "C133", "title": "6502 code that passes a static secrecy check tells nothing about its secrets, not even by its timing", "statement": "Take a program that passes the check of C131, mark some memory (neither code nor page one) as secret, and note for every instruction which registers and flags are public there, and which are public when a routine returns. Suppose the notes pass a check that looks at each instruction once: no operand behind a pointer; index registers, the flags a branch tests and what is pushed are public; a value computed from a secret is stored only where all places the store may reach are secret; a register or flag noted as public at a next instruction either is not set by this one and is public here, or is computed from public values only; what is public at RTS covers what is noted for returns, and that covers what is noted after each call. Then two emulated machines with equal non-secret memory, PC, S and public registers, whatever their secrets and other registers, execute every number of instructions in the same number of cycles, are at the same instruction all the time, read and write the same addresses, and keep equal non-secret memory and public registers; and run with any number of cycles leaves them so.", "quantifier": "all programs, annotations and sets of secret places that pass the check, all pairs of machines that differ in secrets, runs of any length, any number of cycles, debug and release builds", "why_tests_cant": "relates two executions without end and ranges over all secrets", "anchors": ["src/cpu/mos6502/mod.rs Iterator, Cpu::run", "src/cpu/mos6502/operations/mod.rs all instructions and their cycle counts", "src/address_map/mod.rs AddressMap"]}
{"id": "C134", "title": "6502 code that passes a static check of its time reaches its marked instructions again and again in time", "statement": "Take a program that passes the check of C131, mark some instructions of its main program, and note for every instruction a bound in cycles that may depend on X and the zero flag (or that this X and flag do not occur there), and a number W. Suppose the notes pass a check that looks at each instruction once: its bound covers its own cycles plus the bound at each place it may go on at, for each X and zero flag it may leave, where a marked place counts nothing but must have a bound of at most W; at a call it covers the call, the bound of the routine and the bound after the call, for the same X if no instruction of the routine changes X and for every X otherwise; at RTS it covers the RTS. Then an emulated machine started at an annotated instruction with a bound of at most W reaches, from every moment on, a marked instruction within W cycles; from every instruction of the main program it does so within the bound noted there, which exists; every call returns to the instruction after it within the 6 cycles of JSR and the bound noted for the routine, with the stack pointer it had, and with X unchanged if no instruction of the routine changes X; and after any number of cycles run stops at a marked instruction for one of the next W numbers of cycles.", "quantifier": "all programs, annotations, marks and budgets that pass the check, all machines on a bus with RAM where the program stores, runs of any length, any number of cycles, debug and release builds", "why_tests_cant": "a liveness claim about executions without end, for every program that passes and every content of memory", "anchors": ["src/cpu/mos6502/mod.rs Iterator, Cpu::run", "src/cpu/mos6502/operations/mod.rs all instructions and their cycle counts", "src/address_map/mod.rs AddressMap"]}
{"id": "C135", "title": "6502 code that passes a static check of what it relies on does on a real 6502 what it does on the emulator", "statement": "Take a program that passes the check of C131, and note for every instruction which flags are relied on and whether the carry is known to be clear. Suppose the notes pass a check that looks at each instruction once: no instruction works through a pointer, pulls the status from the stack or turns on decimal mode; the flags an instruction uses are relied on there, and ADC only where the carry is clear; a flag is relied on at the next instruction only if this one sets it as documented or leaves it alone where it is relied on already (the emulator's overflow flag after ADC and SBC, its carry after SBC of 0 or of memory and after comparing with memory or with a number below 128, and its flags after DEY do not count as documented); the carry is noted as clear only after CLC or where it stays clear; no branch displacement is read as data or is part of another instruction; and a branch goes back by at most 126 bytes and lies on the same page as the instruction behind it. Then the emulator and a documented 6502 that start with the same A, X, Y, S and PC and the same flags as far as relied on, and the same memory except that the displacements of the branches are less by two on the 6502, in binary mode, are after every number of instructions at the same place, have used the same number of cycles, and have the same registers, the same flags as far as relied on, and the same memory except for the displacements. So whatever run does with any number of cycles, the 6502 does.", "quantifier": "all programs and annotations that pass the check, all machines on a bus with RAM where the program stores, all contents of registers and memory, runs of any length, debug and release builds", "why_tests_cant": "equality of two machines over unbounded executions, for every program that passes and every content of memory", "anchors": ["src/cpu/mos6502/mod.rs Iterator, Cpu::run", "src/cpu/mos6502/operations/mod.rs all instructions, their flags and cycle counts", "src/address_map/mod.rs AddressMap"]}
{"id": "C136", "title": "The machine printed by the run and step-capture examples, for every number of cycles", "statement": "For every number n in place of the 1,000,000 cycles of the basic and the microcode_step_capture examples, both programs get to their last line without a panic and print the same machine: the program counter is at the instruction of the LDA/STA loop under way after n mod 21 cycles (the instructions take 2, 4, 2, 4, 2, 4 and 3), A is 0 before the second cycle and else the number of the last LDA completed, X and Y are 0, the stack pointer is 255, no flag is set but the unused one, the bytes at 0x0200, 0x0201 and 0x0202 are 0 until cycle 6, 12 and 18 and then 1, 2 and 3, and every other byte is as after reset. From cycle 18 on the machine is the same every 21 cycles. With the 1,000,000 cycles of the sources PC is 0xffea, A is 3 and the bytes are 1, 2, 3.", "quantifier": "every number of cycles, debug and release builds", "why_tests_cant": "the number of cycles is unbounded, and cuts instructions at every cycle", "anchors": ["examples/basic.rs main", "examples/microcode_step_capture.rs main", "src/cpu/mos6502/mod.rs Iterator, Cpu::run, reset, ExecuteMut", "src/address_map/memory.rs Memory"]}
{"id": "C137", "title": "CHIP-8 code that passes a static portability check does on the CHIP-8 of the technical reference what it does on the emulator", "statement": "Take CHIP-8 code that passes the check of C132, and suppose that each instruction, with the ranges noted for it, also passes the following: it is not CALL, RET, 8xy4 to 8xyE, Dxyn or Fx07; Bnnn stays within 4096; Fx29 is applied to at most 15; Fx65 reads within the memory; and Fx0A occurs only if the host keeps a key pressed. Then the emulator and the CHIP-8 of the technical reference (C76), started in the same state, can both execute any number of instructions and are in the same state (all registers, memory, screen, stack, timers, clock and random numbers used) after each, whatever keys the host presses in between; whatever the reference does the emulator does; and if the code sets no timer, run with n cycles leaves the emulator as n instructions leave the reference.", "quantifier": "all programs and annotations that pass both checks, all well-formed machines at an annotated instruction, all random number generators, clocks and key schedules, any number of instructions, debug and release builds", "why_tests_cant": "Tests run a program on some inputs on one machine; this speaks of every program the check accepts, on every input, for ever, and of a second machine that is not in the repository.", "anchors": ["src/cpu/chip8/mod.rs Iterator::next, Cpu::run, with_interrupt", "src/cpu/chip8/operations/mod.rs Generate", "src/cpu/chip8/microcode.rs"]}
{"id": "C138", "title": "Secrecy and timing that were checked for the emulator hold on the real 6502 for code that passes the portability check", "statement": "Take 6502 code that passes the check of C131 and the portability check of C135, and two documented 6502s that run it, with branch displacements adapted, like two emulated machines. If the code also passes the secrecy check of C133 and the emulated machines differ only in secrets, then so do the two 6502s at the start, and after any number of instructions of the first the second has executed the same number in the same number of cycles, is at the same instruction with the same stack pointer, has the same public registers and the same public flags that the code relies on, and the same memory except for secrets. If instead the code passes the timing check of C134, with a budget of W cycles, then the 6502 comes, from any state it gets into, to a marked instruction again after at most W cycles.", "quantifier": "all programs, annotations and sets of secret places that pass the checks, all contents of registers and memory, runs of any length, debug and release builds", "why_tests_cant": "Tests run some program on the emulator with some inputs; this speaks of all accepted programs, of all pairs of secrets, of runs without end, and of the chip rather than the emulator.", "anchors": ["src/cpu/mos6502/mod.rs Iterator, Cpu::run", "src/cpu/mos6502/operations/mod.rs all instructions, their flags and cycle counts", "src/address_map/mod.rs AddressMap"]}
{"id": "C139", "title": "A host that changes data and registers between calls of run cannot derail checked 6502 code", "statement": "Take 6502 code that passes the check of C131. Let a host call run any number of times with any numbers of cycles, and before each call change the machine as it likes, as its public fields allow: any memory, A, X, Y and the flags, except the bytes of the code, the stack bytes in use, the program counter and the stack pointer. Then every one of the calls returns without a panic; after each the machine is at an instruction of the code, with the stack within its noted bounds and the code unchanged; and each call changes only stack bytes and places that the code names as places to store to, so that the host's data elsewhere stays as the host left it.", "quantifier": "all programs and annotations that pass the check, all numbers of calls and cycles, all changes the host makes between them, all contents of registers and memory, all bus families that store to RAM as described, debug and release builds", "why_tests_cant": "Tests call run once on a machine they set up; the interleavings of host changes and calls, and the contents the host may put in, are unbounded.", "anchors": ["src/cpu/mos6502/mod.rs Mos6502 (public fields), with_owned_address_map, Cpu::run", "src/cpu/mos6502/operations/mod.rs all instructions", "src/address_map/mod.rs AddressMap"]}
{"id": "C140", "title": "A host that presses keys, draws, sets timers and changes data between calls of run cannot derail checked CHIP-8 code", "statement": "Take CHIP-8 code that passes the check of C132. Let a host call run any number of times with any numbers of cycles, and before each call change the machine as it likes: the key, the display, the timers, memory other than the code, and I, the registers and the stack as long as they stay within what is noted for the instruction the machine is at. Then every one of the calls returns without a panic; after each the machine is at an instruction of the code and within its noted ranges, and the code is unchanged; each call changes only memory the check allows the code to write to. What the library offers a host (with_interrupt, with_display, with_timer_register, and with_i_register and with_gp_register within the noted ranges) is among these changes.", "quantifier": "all programs and annotations that pass the check, all numbers of calls and cycles, all changes the host makes between them, all clocks and random number generators, debug and release builds", "why_tests_cant": "Tests call run once on a machine they set up; the interleavings of host changes and calls, and the contents the host may put in, are unbounded.", "anchors": ["src/cpu/chip8/mod.rs with_interrupt, with_display, with_timer_register, with_i_register, with_gp_register, Cpu::run", "src/cpu/chip8/operations/mod.rs all instructions"]}
{"id": "C141", "title": "Checked 6502 code keeps time whatever the host does to data between instructions", "statement": "Take 6502 code that passes the checks of C131 and C134 with a budget of W cycles. Let a host and the machine take turns in any way: the machine executes an instruction, or the host changes memory, A, Y and flags other than zero as it likes, leaving the code, the stack bytes in use, the program counter, the stack pointer, X and the zero flag as they are. Then the machine never spends W cycles without reaching a marked instruction; and at any moment, if t cycles have passed since the last mark and the host leaves the machine alone from then on, the next mark is reached within W - t cycles.", "quantifier": "all programs, annotations and budgets that pass the checks, all interleavings of host changes and instructions, all values the host puts in, debug and release builds", "why_tests_cant": "The interleavings of host changes and instructions and the bytes the host may put in are unbounded, and so is the time for which the marks have to keep coming.", "anchors": ["src/cpu/mos6502/mod.rs Mos6502 (public fields), with_owned_address_map, Iterator, Cpu::run", "src/cpu/mos6502/operations/mod.rs cycle counts of all instructions"]}
{"id": "C142", "title": "Checked 6502 code tells nothing about secrets that a host hands it between calls of run", "statement": "Take 6502 code that passes the checks of C131 and C133, on two machines that differ only in secrets. Let two hosts call run on them, any number of times with the same numbers of cycles, and before each call change data and registers as in C139, in ways that differ only in secrets. Then every call returns on both machines and leaves them differing only in secrets; and after any change of that kind any number of instructions takes the same number of cycles on both.", "quantifier": "all programs, annotations and secrecy policies that pass the checks, all pairs of machines and of hosts whose changes differ only in secrets, all numbers of calls and cycles, debug and release builds", "why_tests_cant": "It compares two executions for every pair of sequences of secrets and every division of the time into calls; tests compare a few runs with a few inputs.", "anchors": ["src/cpu/mos6502/mod.rs Mos6502 (public fields), with_owned_address_map, Cpu::run", "src/cpu/mos6502/operations/mod.rs all instructions and their cycle counts"]}
{"id": "C143", "title": "CHIP-8 code that passes a static secrecy check tells nothing about its secrets", "statement": "Say which bytes of a CHIP-8 machine's memory are secret and which of V0-VE are public at each instruction of a program; all else is public: the program counter, I, the stack, the screen, the key and the timers. A static check of the annotated program, on top of that of C132, makes sure that two machines that differ only in secrets, given the same keys, times and random numbers, differ only in secrets after any number of instructions and after any call of run, and have asked the clock and the random number generator equally often. This remains so for any number of calls of run between which two hosts change the machines as in C140, in ways that differ only in secrets.", "quantifier": "all programs, annotations and policies that pass the checks, all pairs of machines that differ only in secrets, all key presses, clocks, random numbers, numbers of instructions and calls, debug and release builds", "why_tests_cant": "It compares two executions for every pair of secrets and every number of instructions; tests compare a few runs on a few inputs.", "anchors": ["src/cpu/chip8/mod.rs Chip8, Iterator, Cpu::run, with_interrupt", "src/cpu/chip8/operations/mod.rs all instructions", "src/cpu/chip8/register.rs ClockDecrementing"]}
{"id": "C144", "title": "Secrecy that was checked for the CHIP-8 emulator holds on the CHIP-8 of the technical reference for code that passes the portability check", "statement": "Take CHIP-8 code that passes the checks of C132, C137 and C143, and two machines of the technical reference that hold it and differ only in secrets. Given the same keys, times and random numbers both can execute any number of instructions, and after each they differ only in secrets, at the same time, with as many random numbers drawn. A program vetted on the emulator's semantics does not leak on the real machine.", "quantifier": "all programs, annotations and policies that pass the checks, all pairs of reference machines that differ only in secrets, all key presses, clocks, random numbers and numbers of instructions", "why_tests_cant": "It compares two executions on another machine than the one the tests run, for every pair of secrets and every number of instructions.", "anchors": ["src/cpu/chip8/operations/mod.rs all instructions", "src/cpu/chip8/mod.rs Iterator, with_interrupt"]}
{"id": "C145", "title": "CHIP-8 code that passes a progress check reaches its marked instructions again and again in time, whatever keys are pressed", "statement": "Annotate checked CHIP-8 code (C132) with marked addresses and, for each instruction, a bound on the number of instructions to the next mark that is linear in the registers. If every instruction's bound is at least one and at most W, and each instruction either comes to a mark or lowers the bound, as a static check on ranges can tell, then from any point of the execution on a marked instruction is reached after one to W more instructions, whatever keys are pressed and whatever the clock and the random numbers are; and from the start within the bound that the machine's own registers give. A program that passes cannot hang between its timer writes, key polls or whatever else is marked.", "quantifier": "all programs, annotations, marks and bounds that pass the checks, all machines within the annotations, all key presses, clocks and random numbers, all points of the execution", "why_tests_cant": "It bounds waiting times from every point of unbounded executions, over all register values the ranges allow, all key schedules and all random numbers.", "anchors": ["src/cpu/chip8/operations/mod.rs all instructions", "src/cpu/chip8/mod.rs Iterator, with_interrupt"]}
{"id": "C146", "title": "Progress that was checked for CHIP-8 code holds in calls of run, whatever the host does in between, and on the reference machine", "statement": "Take CHIP-8 code that passes the checks of C132 and C145 with limit W. Whatever calls of run were made before, of any lengths, and whatever the host changed in between (keys, display, timers, data, registers within their ranges), there is a number of cycles from one to W for which the next call of run returns with the machine at a marked instruction. If the code also passes the portability check of C137, the CHIP-8 of the technical reference too reaches a mark within W instructions, from any point of its execution.", "quantifier": "all programs, annotations, marks and bounds that pass the checks, all sequences of calls of run, all changes by the host within the annotations, all clocks and random numbers, all points of the execution", "why_tests_cant": "It bounds waiting times after every history of calls and host changes, and on another machine than the one the tests run.", "anchors": ["src/cpu/chip8/mod.rs Cpu::run, Iterator, with_interrupt", "src/cpu/chip8/operations/mod.rs all instructions"]}
{"id": "C147", "title": "CHIP-8 code that passes the progress check keeps its pace whatever the host does to keys, display, timers and data between its instructions", "statement": "Let a host step checked CHIP-8 code (C132, C145 with limit W) one instruction at a time and change the machine before each of them: key, display, timers and any memory but the code as it likes, registers and stack within what is noted, as long as the change does not raise the bound on the way to the next mark. Then no instruction panics, the machine is always at an instruction of the listing within its ranges, and from any time on a marked instruction is reached after one to W more. Pressing keys, drawing, setting timers and setting I within its range are such changes.", "quantifier": "all programs, annotations, marks and bounds that pass the checks, all hosts that keep to the allowed changes, all endless executions, all clocks and random numbers", "why_tests_cant": "It ranges over all hosts that interfere before every instruction of an endless execution.", "anchors": ["src/cpu/chip8/mod.rs Iterator, with_interrupt, with_display, with_timer_register, with_i_register", "src/cpu/chip8/operations/mod.rs all instructions"]}
