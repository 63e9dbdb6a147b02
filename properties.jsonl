{"id": "C01", "title": "Register file stays 32-bit and flags register stays a flag set", "statement": "After any number of CPU cycles, in any interleaving with board resets and memory mapping calls, every register still holds a value below 2^32, `af` contains only the seven documented flag bits (bits 7..1 of its low byte), the top byte of `et` is 0 or 1, and the cycle counter is below 2^128.", "quantifier": "all programs, all component behaviours returning 32-bit words, all histories of cycles/resets/mappings", "why_tests_cant": "Tests run a handful of programs; the property is an invariant over unboundedly many cycles and all component answers.", "anchors": ["lrvm/src/cpu/cpu.rs: Cpu::next, Cpu::run_instr, Cpu::write_reg, Cpu::compute, Cpu::exception", "lrvm/src/cpu/regs.rs: Registers"]}
{"id": "C02", "title": "Exactly when a release-build cycle panics", "statement": "In a build without overflow checks, with components that do not themselves panic on aligned in-range accesses, a CPU cycle panics exactly when the CPU is running, pc is a multiple of 4, translation is on (mtt non-zero) and the page directory address pda is not a multiple of 4; a run of any length panics exactly when it reaches such a state. In every other state the cycle returns, whatever word is fetched. The claim that a guest can never crash the host is therefore false.", "quantifier": "all reachable states, all 2^32 instruction words, all well-behaved components", "why_tests_cant": "There are 2^32 instruction words times all register/memory states; a panic aborts the whole VM.", "anchors": ["lrvm/src/cpu/cpu.rs: Cpu::next, Cpu::run_instr, Cpu::mem_do, Cpu::get_hw_info", "lrvm/src/mem/mem.rs: read, write", "lrvm/src/board/hwb.rs: HardwareBridge"]}
{"id": "C03", "title": "Exactly when a debug-build cycle panics", "statement": "In a build with overflow checks, on a board whose mappings end below 2^32, a cycle panics when it executes IF2 with a flag number above 7, SRM whose address sum reaches 2^32, or makes any aligned memory access (fetch included) with translation on and a page-table entry address reaching 2^32; in every other state the debug cycle does exactly what the release cycle does (so it also panics on misaligned page tables). Mapping without map_abs always gives such boards. The claim that a guest cannot crash a debug-build host is false.", "quantifier": "all reachable states and instruction words", "why_tests_cant": "The exact set of crashing states can only be established by considering all states.", "anchors": ["lrvm/src/cpu/cpu.rs: run_instr (IF2, SRM, CALL)", "lrvm/src/mmu/mmu.rs: translate", "lrvm/src/mem/mappings.rs: Mapping::end_addr"]}
{"id": "C04", "title": "A halted CPU is inert", "statement": "While the CPU is halted, running any number of cycles changes nothing (registers, memory, components, cycle counter). A freshly created CPU is halted; only a reset leaves that state.", "quantifier": "all states, any number of cycles", "why_tests_cant": "Quantifies over every machine state and every number of cycles.", "anchors": ["lrvm/src/cpu/cpu.rs: Cpu::next, Cpu::new, Cpu::reset, Cpu::halted"]}
{"id": "C05", "title": "The cycle counter counts executed cycles", "statement": "Each cycle of a non-halted CPU advances the counter by exactly one modulo 2^128, including cycles ending in an exception; the only exception is a cycle that executes a CPU-resetting RESET instruction, after which the counter is 0. Hence n cycles without reset and without halting add n.", "quantifier": "all programs, all n", "why_tests_cant": "Quantifies over all executions and their lengths.", "anchors": ["lrvm/src/cpu/cpu.rs: Cpu::next, Cpu::cycles"]}
{"id": "C06", "title": "One cycle executes exactly the fetched instruction", "statement": "For every instruction of the instruction set and every operand form, when `pc` addresses (through an aligned, readable address) a word encoding that instruction, one cycle produces exactly the state given by the instruction-set specification (registers, flags, memory, mode, pc, exception) and nothing else changes.", "quantifier": "31 instructions x all operand registers/literals x all CPU and memory states", "why_tests_cant": "Unit tests cover a few literal programs; conformance must hold for all operands and states.", "anchors": ["lrvm/src/cpu/cpu.rs: Cpu::next, Cpu::run_instr", "docs/Architecture.md: Processor instructions", "lrvm_tools/src/asm/instr.rs: Instr"]}
{"id": "C07", "title": "ADD/SUB/MUL compute modulo 2^32 with correct carry and overflow", "statement": "ADD, SUB and MUL leave in the destination the mathematical result modulo 2^32; CF is set exactly when the unsigned result does not fit (for MUL: when the signed product does not fit), OF exactly when the signed result does not fit.", "quantifier": "all 2^64 operand pairs", "why_tests_cant": "2^64 operand pairs per operation.", "anchors": ["lrvm/src/cpu/cpu.rs: Cpu::compute"]}
{"id": "C08", "title": "Bitwise and shift operations", "statement": "AND, BOR and XOR compute the bitwise function of both operands and clear CF and OF. SHL and SHR shift by the count modulo 32 and set CF and OF exactly when the count is 32 or more; a literal count is the single literal byte.", "quantifier": "all operand pairs", "why_tests_cant": "2^64 operand pairs; shift counts of 32 and more behave specially.", "anchors": ["lrvm/src/cpu/cpu.rs: Cpu::compute, run_instr (0x08..0x0C)"]}
{"id": "C09", "title": "DIV/MOD results and division by zero", "statement": "DIV and MOD compute the truncated quotient / remainder (unsigned, or signed when the mode has the sign bit), clear CF and OF, and division by zero either raises exception 0x0A leaving all general registers and `af` unchanged, or yields minimum/zero/maximum with CF and OF set, as selected by the mode's zero bits.", "quantifier": "all operands and all 256 modes except the overflowing MIN / -1 case", "why_tests_cant": "2^64 operands times 256 modes.", "anchors": ["lrvm/src/cpu/cpu.rs: Cpu::compute (Op::Div, Op::Mod)"]}
{"id": "C10", "title": "Overflowing signed division honours its mode", "statement": "Dividing (or taking the modulus of) the minimum signed value by -1 in signed mode raises exception 0x0B for every mode, leaving the destination and `af` unchanged. The documented behaviour (minimum/zero/maximum as selected by the mode's two low bits, 0x0B only for 00) is false for the three other values.", "quantifier": "all modes", "why_tests_cant": "Needs the claim for every mode and both operations; the tests contain no such division.", "anchors": ["lrvm/src/cpu/cpu.rs: Cpu::compute lines 703-716"]}
{"id": "C11", "title": "Arithmetic flags describe the result", "statement": "After any arithmetic instruction ZF, SF, EF and ZUF are set exactly when the result is zero / has its top bit set / is even / is below 2^16, no other bit of `af` is set, and the ZLF flag is set exactly when bit 16 of the result is set. The documented meaning of ZLF (the low 16 bits of the result are zero) is false.", "quantifier": "all results", "why_tests_cant": "Must hold for all 2^32 results.", "anchors": ["lrvm/src/cpu/cpu.rs: Cpu::compute lines 741-764", "docs/Architecture.md: Arithmetic flags"]}
{"id": "C12", "title": "Comparison followed by a conditional runs the next instruction iff the comparison holds", "statement": "After CMP r, v the alias conditionals run the following instruction exactly when: IFEQ r=v, IFNQ r<>v, IFLS r<v, IFGE r>=v, IFGT r>v, IFLE r<=v (unsigned); otherwise exactly one instruction (4 bytes) is skipped.", "quantifier": "all operand values, both operand forms, all states", "why_tests_cant": "Quantifies over all operand pairs; it links four instructions.", "anchors": ["lrvm/src/cpu/cpu.rs: run_instr (CMP, IF, IFN, IF2)", "docs/Architecture.md: Alias instructions"]}
{"id": "C13", "title": "IF2 truth table and operand validation", "statement": "IF2 runs the next instruction exactly when the documented condition (OR, AND, XOR, NOR, NAND, LEFT, RIGHT) of the two flags holds; an unknown condition raises 0x0D; IF/IFN with a flag above 7 raises 0x0C. The documented 0x0C for an unknown flag in IF2 is false: a release build tests bit (7 - flag) mod 32 of `af` instead.", "quantifier": "all flag/condition operands, all flag states", "why_tests_cant": "Quantifies over all register-provided flags and conditions.", "anchors": ["lrvm/src/cpu/cpu.rs: run_instr (0x11..0x13)"]}
{"id": "C14", "title": "Register access rights", "statement": "Reading or writing a register from supervisor or userland mode succeeds exactly as the documented access table says: userland may not touch ssp, usp, et, era, ev, mtt, pda, smt; af, et and era are never writable; violations raise 0x03 (read) or 0x04 (write) with the register code and change nothing else; codes above 0x1F raise 0x02 in supervisor mode.", "quantifier": "all register codes, both modes, all states", "why_tests_cant": "The access matrix must hold in every state and through every instruction that names a register.", "anchors": ["lrvm/src/cpu/cpu.rs: Cpu::read_reg, Cpu::write_reg", "docs/Architecture.md: Registers"]}
{"id": "C15", "title": "Exception entry", "statement": "Whenever a cycle raises an exception, afterwards pc = ev, supervisor mode is on, `et` encodes the mode the CPU was in, the exception code and the associated 16-bit data, and the exception itself changes no other register, no memory and no component.", "quantifier": "all exceptions from all instructions and all states", "why_tests_cant": "Every one of the raising sites must be covered in every state.", "anchors": ["lrvm/src/cpu/cpu.rs: Cpu::exception and its callers"]}
{"id": "C16", "title": "`et` decodes to the exception that occurred", "statement": "Every value the CPU stores in `et` decodes, through the tools' exception decoder, to the exception kind documented for the event, with its data and mode; the only undecodable values come from components raising unknown hardware exception codes.", "quantifier": "all raised exceptions", "why_tests_cant": "Relates two crates for all possible exception values.", "anchors": ["lrvm/src/cpu/cpu.rs: Cpu::exception", "lrvm_tools/src/exceptions/native.rs: NativeException::decode_with_mode"]}
{"id": "C17", "title": "Userland confinement", "statement": "A userland cycle never changes ssp, ev, mtt, pda or era, never changes smt, et unless an exception is raised, and never changes usp other than by 4 through PUSH/POP/CALL; the sole way out other than an exception is the RESET instruction.", "quantifier": "all userland states, all instruction words", "why_tests_cant": "Isolation must hold for every word a hostile program can execute.", "anchors": ["lrvm/src/cpu/cpu.rs: Cpu::write_reg, run_instr"]}
{"id": "C18", "title": "Supervisor-only instructions", "statement": "LSM raises exception 0x09 with its opcode in userland mode and has no other effect. CYCLES, HALT and RESET, documented to do the same, work in userland exactly as in supervisor mode: userland can read the cycle counter, halt the processor, reset components and reset the processor back into supervisor mode.", "quantifier": "all userland states", "why_tests_cant": "Needs every userland state; tests never run userland code.", "anchors": ["lrvm/src/cpu/cpu.rs: run_instr (LSM, CYCLES, HALT, RESET)", "docs/Architecture.md: {S} notation"]}
{"id": "C19", "title": "LSM jumps to its operand in userland mode", "statement": "After LSM in supervisor mode the CPU is in userland mode, pc is operand + 4 modulo 2^32, and no other register, memory word or component changes. The documented jump to the operand itself is false.", "quantifier": "all supervisor states and operands", "why_tests_cant": "Quantifies over all operands and states.", "anchors": ["lrvm/src/cpu/cpu.rs: run_instr (LSM)"]}
{"id": "C20", "title": "Program counter discipline", "statement": "A cycle that raises no exception and does not write pc (CPY/EX/arithmetic/POP/LSA/HWD/CYCLES to pc, JPR, CALL, RET, LSM, RESET) advances pc by exactly 4, or 8 when a conditional fails, modulo 2^32.", "quantifier": "all instruction words and states", "why_tests_cant": "Quantifies over all words and states.", "anchors": ["lrvm/src/cpu/cpu.rs: Cpu::next, run_instr"]}
{"id": "C21", "title": "Effective addresses", "statement": "LSA, LEA, WSA and WEA access exactly the address addr + add (resp. addr + add*mul) modulo 2^32; an unaligned address raises 0x05 with address mod 4 and accesses nothing. Literal operands are zero-extended: the documented signedness of `add` and `mul` is false for them.", "quantifier": "all operand values", "why_tests_cant": "2^96 operand combinations.", "anchors": ["lrvm/src/cpu/cpu.rs: run_instr (0x14..0x17), ensure_aligned", "docs/Architecture.md: Memory read/write instructions"]}
{"id": "C22", "title": "Failed memory accesses leave the CPU consistent", "statement": "When the memory access of LSA, LEA, WSA, WEA, PUSH, POP, CALL or of the instruction fetch fails, the cycle's only register effects are those of the exception: destination registers and stack pointers are unchanged.", "quantifier": "all failing accesses in all states", "why_tests_cant": "Failure can come from alignment, MMU or any component exception in any state.", "anchors": ["lrvm/src/cpu/cpu.rs: mem_do, run_instr (PUSH, POP, CALL, LSA, LEA)"]}
{"id": "C23", "title": "The stack is LIFO", "statement": "On a stack pointer inside mapped RAM, pushing any list of words and then popping as many returns them in reverse order and restores the stack pointer and all other registers; memory outside the pushed region is unchanged.", "quantifier": "all lists of words (any length that fits), all RAM contents, both modes", "why_tests_cant": "Unbounded sequences of pushes and pops.", "anchors": ["lrvm/src/cpu/cpu.rs: run_instr (PUSH, POP)", "lrvm_aux/src/volatile_mem/ram.rs: Ram"]}
{"id": "C24", "title": "CALL/RET round trip", "statement": "CALL addr followed, whenever the stack pointer is back at its value after the call and the stack word is unmodified, by RET resumes at the instruction after the CALL with the stack pointer restored.", "quantifier": "all call sites, targets and RAM states", "why_tests_cant": "Quantifies over all call sites and memory contents.", "anchors": ["lrvm/src/cpu/cpu.rs: run_instr (CALL, POP pc)"]}
{"id": "C25", "title": "EX and SRM swap", "statement": "EX swaps two registers and changes nothing else; applying it twice is the identity. SRM swaps a register with a RAM word; applying it twice is the identity.", "quantifier": "all register pairs, values and RAM states", "why_tests_cant": "Quantifies over all states.", "anchors": ["lrvm/src/cpu/cpu.rs: run_instr (EX, SRM)"]}
{"id": "C26", "title": "HWD reports hardware information", "statement": "HWD returns the documented information for every component and information code (count, UID, name length and bytes, size, category, type, model, data, mapping status, start and end address) and raises 0x10 / 0x11 / 0x12 for unknown component, unknown code, unmapped component.", "quantifier": "all components, codes and mapping tables", "why_tests_cant": "Quantifies over all boards and codes.", "anchors": ["lrvm/src/cpu/cpu.rs: run_instr (HWD), get_hw_info", "lrvm/src/board/hwb.rs: AuxCache"]}
{"id": "C27", "title": "RESET instruction resets exactly the selected components", "statement": "RESET sends a reset signal exactly once to exactly the components selected by the low half of its mode byte and avr (0 all, 1 avr, 2 all but avr, 3 those below avr, 4 those above avr, others none; mode 1 raises 0x10 for an unknown component), and resets the CPU afterwards iff the high half is 0. The documented `smaller/greater than or equal` selections of modes 3 and 4 are false: the component in avr itself is not reset.", "quantifier": "all modes, avr values and component lists", "why_tests_cant": "Quantifies over all boards, modes and avr values.", "anchors": ["lrvm/src/cpu/cpu.rs: run_instr (RESET)"]}
{"id": "C28", "title": "With translation disabled the MMU is transparent", "statement": "When mtt = 0 every aligned virtual address is accessed unchanged, with no extra memory access.", "quantifier": "all addresses, states and actions", "why_tests_cant": "All 2^30 aligned addresses and every state.", "anchors": ["lrvm/src/mmu/mmu.rs: translate"]}
{"id": "C29", "title": "What the MMU does when translation is enabled", "statement": "When mtt is non-zero, an aligned access at address a first reads the page-table entry at pda + 4*(a mod 1024) (modulo 2^32); a hardware exception of that read is propagated; otherwise the access is refused when the entry's bit 31 (supervisor) or 30 (userland) is set and goes to address a itself when it is clear. So no address is ever translated, and the documented translation of permitted accesses is false.", "quantifier": "all page tables, addresses, modes, actions", "why_tests_cant": "Universal claim about all page tables.", "anchors": ["lrvm/src/mmu/mmu.rs: decode_entry, translate", "docs/Architecture.md: Physical address pages"]}
{"id": "C30", "title": "Exceptions of refused accesses", "statement": "An access refused by the MMU raises 0x06 with the low 16 bits of the virtual address and changes nothing else, whatever the attempted action. The documented 0x07 for writes and 0x08 for instruction fetches are false.", "quantifier": "all refused accesses", "why_tests_cant": "All page tables and actions.", "anchors": ["lrvm/src/cpu/cpu.rs: mem_do", "docs/Architecture.md: Exceptions"]}
{"id": "C31", "title": "Mappings never overlap", "statement": "After any sequence of `map` calls (with any mixture of successes and failures) every component has at most one mapping, every mapping is aligned, lies inside the address space, has exactly the component's size, and no two mappings share an address.", "quantifier": "all sequences of map calls and component sets", "why_tests_cant": "Unbounded histories of mapping calls.", "anchors": ["lrvm/src/mem/mem.rs: map, internal_map", "lrvm/src/mem/mappings.rs: Mapping"]}
{"id": "C32", "title": "Mapping succeeds exactly when the request is valid; failure has no effect", "statement": "`map` succeeds exactly when the component exists, address and size are aligned and non-zero, the component is not mapped yet, and its range fits the address space (ending at most at 2^32, strictly below in a debug build, which panics instead of refusing) without touching an existing mapping; otherwise the error names the reason and the mapping table is unchanged.", "quantifier": "all mapping tables and requests", "why_tests_cant": "All tables and all 2^32 addresses.", "anchors": ["lrvm/src/mem/mem.rs: internal_map"]}
{"id": "C33", "title": "Components only receive in-range aligned accesses, from the right mapping", "statement": "A read or write of an aligned address reaches the component mapped there (and no other), with the offset address - mapping start, which is a multiple of 4 and strictly below the component's size.", "quantifier": "all mapping tables built by `map`, all addresses", "why_tests_cant": "The Bus contract devices rely on must hold for every table and address.", "anchors": ["lrvm/src/mem/mem.rs: read, write", "lrvm/src/board/bus.rs: Bus::read, Bus::write"]}
{"id": "C34", "title": "Unmapped memory reads as zero and ignores writes", "statement": "Reading an address not covered by any mapping returns 0 without exception and without contacting any component; writing it changes nothing.", "quantifier": "all tables and addresses", "why_tests_cant": "All tables and addresses.", "anchors": ["lrvm/src/mem/mem.rs: read, write"]}
{"id": "C35", "title": "Contiguous mapping packs the components", "statement": "`map_contiguous` (and thus `prepare_vm`), when it succeeds, maps every component in order, each starting right after the end of the previous one, and reports the range from the start to the last word; when it fails it reports exactly the failing components, and the others are packed as if the failing ones were absent from the list. Addresses are modulo 2^32: in a release build a component may wrap to address 0, outside the reported range. A list with an unknown component identifier panics.", "quantifier": "all component lists and sizes, all start addresses", "why_tests_cant": "Arbitrary component lists.", "anchors": ["lrvm/src/mem/mem.rs: map_contiguous", "lrvm_tools/src/debug/prepare.rs: prepare_vm"]}
{"id": "C36", "title": "map_abs respects the requested range", "statement": "map_abs accepts or refuses a request exactly under the proved conditions (overlap is tested on the requested range only), and then maps the whole component whatever the end address; a component is accessible in exactly the requested range when the range is its size. The claims that the accessible range is the requested one and that accepted ranges never overlap are false (a range one word larger than the component is accepted too).", "quantifier": "all map_abs requests", "why_tests_cant": "All requests.", "anchors": ["lrvm/src/mem/mem.rs: map_abs, internal_map"]}
{"id": "C37", "title": "Unmapped components are isolated", "statement": "A component that is not mapped never receives a read or write from any execution of the CPU; its state can only change through a reset.", "quantifier": "all executions", "why_tests_cant": "Unbounded executions of arbitrary programs.", "anchors": ["lrvm/src/cpu/cpu.rs: mem_do", "lrvm/src/mem/mem.rs: read, write"]}
{"id": "C38", "title": "Reset state", "statement": "After a board reset the CPU is running in supervisor mode with all other registers zero, cycle counter zero, whatever happened before; memory mappings are preserved; resetting twice is the same as resetting once for the CPU.", "quantifier": "all prior histories", "why_tests_cant": "All prior states.", "anchors": ["lrvm/src/cpu/cpu.rs: Cpu::reset", "lrvm/src/board/board.rs: MotherBoard::reset"]}
{"id": "C39", "title": "Board reset reaches every component exactly once", "statement": "MotherBoard::reset resets the CPU, then each component exactly once, in order, and nothing else.", "quantifier": "all component lists", "why_tests_cant": "All component lists.", "anchors": ["lrvm/src/board/board.rs: MotherBoard::reset"]}
{"id": "C40", "title": "Component names are cut to at most 32 bytes at a character boundary", "statement": "The name reported through HWD is the longest prefix of whole characters of the component's name whose UTF-8 length is at most 32 bytes.", "quantifier": "all names", "why_tests_cant": "All strings, including multi-byte characters around the boundary.", "anchors": ["lrvm/src/board/hwb.rs: AuxWithCache::create_from_aux"]}
{"id": "C41", "title": "Instruction encoding round-trips", "statement": "Decoding the encoding of an instruction gives the same instruction, except that a register used as 2-byte operand (encoded in the second byte but decoded and executed from the first) comes back as a0; the encoder is injective up to that. The unrestricted round trip is false.", "quantifier": "all instructions and operands", "why_tests_cant": "About 2^30 instructions.", "anchors": ["lrvm_tools/src/asm/instr.rs: Instr::encode, Instr::decode", "lrvm_tools/src/asm/val.rs: RegOrLit2::value"]}
{"id": "C42", "title": "Instruction decoding is canonical and total on valid words", "statement": "Every word decodes either to an instruction or to an error that names the unknown opcode or the first unknown register; opcode 0 is the only unknown opcode; re-encoding a decoded instruction without 2-byte register operands yields a word that decodes to the same instruction and executes identically.", "quantifier": "all 2^32 words", "why_tests_cant": "2^32 words.", "anchors": ["lrvm_tools/src/asm/instr.rs: Instr::decode"]}
{"id": "C43", "title": "The CPU executes what the assembler encodes", "statement": "For every instruction without a 2-byte register operand, the CPU's reading of the encoded word (opcode, operand kinds, operand values) agrees with the assembler's view of the instruction.", "quantifier": "all instructions, all states", "why_tests_cant": "Relates two independently written decoders on all words.", "anchors": ["lrvm/src/cpu/cpu.rs: run_instr argument macros", "lrvm_tools/src/asm/instr.rs: Instr::encode"]}
{"id": "C44", "title": "Program encoding and decoding", "statement": "Program::encode yields 4 bytes per word; Program::decode of any byte list whose length is a multiple of 4 succeeds when raw words are allowed and re-encodes (for programs without 2-byte register operands and non-canonical words) to the same bytes; otherwise the error index is that of the first undecodable word; other lengths are rejected.", "quantifier": "all byte lists and programs", "why_tests_cant": "Arbitrary lengths and contents.", "anchors": ["lrvm_tools/src/asm/prog.rs: Program::encode, Program::decode"]}
{"id": "C45", "title": "Program concatenation operations", "statement": "append/append_all/prepend put the words where their names say. prepend_all interleaves: its exact result is characterised; the claim that it puts the given words before the program is false.", "quantifier": "all programs and word lists", "why_tests_cant": "All lengths.", "anchors": ["lrvm_tools/src/asm/prog.rs: prepend, prepend_all, append, append_all"]}
{"id": "C46", "title": "Register codes and names are bijective", "statement": "Register code and name tables are mutually inverse with their decoders; exactly the codes 0..31 are registers, and the CPU gives each code its own storage.", "quantifier": "all codes, names, registers", "why_tests_cant": "Names range over all strings.", "anchors": ["lrvm_tools/src/asm/reg.rs: Reg", "lrvm/src/cpu/cpu.rs: read_reg, write_reg"]}
{"id": "C47", "title": "SetReg loads any 32-bit constant", "statement": "Executing the expansion of ExtInstr::SetReg(reg, v) for a writable register other than pc leaves reg = v and changes only reg, af, pc and the cycle counter (pc and smt excluded as targets: loading smt in two steps can drop to userland midway).", "quantifier": "all registers, 2^32 values, all states", "why_tests_cant": "2^32 values times all states; it is a three-instruction program.", "anchors": ["lrvm_tools/src/asm/extinstr.rs: ExtInstr::to_instr", "lrvm/src/cpu/cpu.rs: run_instr"]}
{"id": "C48", "title": "ReadAddr/WriteAddrLit access the given address", "statement": "Executing ReadAddr(a) loads the memory word at a in avr, WriteAddrLit(a, v) stores v at a (rr0 and avr are clobbered). The claims that ReadAddrTo and WriteAddr load into / store from the given register are false, because of the 2-byte register encoding.", "quantifier": "all addresses, values, registers, states", "why_tests_cant": "All addresses, values and memory contents.", "anchors": ["lrvm_tools/src/asm/extinstr.rs: ExtInstr::to_instr"]}
{"id": "C49", "title": "Native exceptions round-trip", "statement": "Decoding the encoding of a native exception gives back the exception (and the mode); encodings fit in 32 bits; decoding is a partial inverse of encoding except for ignored high data bits.", "quantifier": "all exceptions and all 2^32 words", "why_tests_cant": "2^32 words.", "anchors": ["lrvm_tools/src/exceptions/native.rs"]}
{"id": "C50", "title": "Hardware exceptions round-trip and are visible", "statement": "AuxHwException encoding and decoding are inverse; a non-zero exception code raised by a component on a load, a store or a fetch is always seen by the CPU as exception 0xA0 with that code. This is false for UnknownError, which encodes to 0.", "quantifier": "all hardware exceptions", "why_tests_cant": "All codes and data.", "anchors": ["lrvm_tools/src/exceptions/auxhw.rs", "lrvm/src/cpu/cpu.rs: mem_do"]}
{"id": "C51", "title": "Division modes round-trip", "statement": "DivMode::decode(encode m) = m for all modes except EqToMax, which is decoded as EqToMin. Every byte decodes, and encode of the decoding equals the low 5 bits of the byte except for the zero-max bits. Each sub-mode on its own is decoded from exactly its codes. The builders change one sub-mode each, the default mode forbids both cases and is unsigned, and the result of each zero-division mode is the value the CPU gives.", "quantifier": "all modes and bytes", "why_tests_cant": "Finite but never swept by the tests.", "anchors": ["lrvm_tools/src/asm/div_modes.rs"]}
{"id": "C52", "title": "Constant tables agree between crates", "statement": "Flag codes, IF2 condition codes, hardware information codes and division modes of the assembler mean to the CPU what their names say (e.g. ArFlag::Carry selects the carry bit computed by the CPU).", "quantifier": "all codes, all states", "why_tests_cant": "Relates two crates on all states.", "anchors": ["lrvm_tools/src/asm/{arflag,cond,hw_infos,cst}.rs", "lrvm/src/cpu/cpu.rs: run_instr, compute, get_hw_info"]}
{"id": "C53", "title": "Word/byte conversion", "statement": "bytes_to_words(words_to_bytes ws) = ws; words_to_bytes(bytes_to_words bs) = bs for lengths multiple of 4. For other lengths the exact last word is characterised (its bytes are shifted twice); the claim that it holds the remaining bytes padded with zeros is false.", "quantifier": "all lists", "why_tests_cant": "All lengths and contents.", "anchors": ["lrvm_tools/src/bytes/mod.rs"]}
{"id": "C54", "title": "Device metadata layout", "statement": "DeviceMetadata::encode lays out id, size, category, type, model and data in the documented eight words without loss, and the motherboard's id and size are those of the device; set_size changes the size and nothing else.", "quantifier": "all metadata values", "why_tests_cant": "2^200 values.", "anchors": ["lrvm_tools/src/metadata/metadata.rs", "lrvm/src/board/hwb.rs: create_from_aux"]}
{"id": "C55", "title": "Device categories round-trip", "statement": "DeviceCategory::decode(encode c) = c for every category, and decode only accepts encodings (except Uncategorized, which ignores the type).", "quantifier": "all categories and 2^64 codes", "why_tests_cant": "2^64 codes.", "anchors": ["lrvm_tools/src/metadata/{category,types}.rs"]}
{"id": "C56", "title": "RAM stores words", "statement": "Over any history of reads, writes and resets, reading an in-range RAM word returns the last word written there since the last reset, or its initial value (0 after a reset); it never panics or raises.", "quantifier": "all sizes, all histories", "why_tests_cant": "Unbounded histories.", "anchors": ["lrvm_aux/src/volatile_mem/ram.rs"]}
{"id": "C57", "title": "BootROM is immutable", "statement": "Over any history of accesses, resets and program executions a BootROM returns its initial words (0 beyond them) and every write raises MemoryNotWritable.", "quantifier": "all contents, all histories, all programs", "why_tests_cant": "Unbounded histories of arbitrary programs.", "anchors": ["lrvm_aux/src/storage/bootrom.rs"]}
{"id": "C58", "title": "Flash memory between and across resets", "statement": "Over any history PersistentMem behaves like RAM: reads return the last word written since the last reset, 0 after a reset. The documented persistence across motherboard resets is false.", "quantifier": "all histories", "why_tests_cant": "Unbounded histories.", "anchors": ["lrvm_aux/src/storage/persistent.rs"]}
{"id": "C59", "title": "Memory constructors size the component correctly", "statement": "A memory built with `new(size)` exposes exactly `size` bytes, all zero. One built with `from` exposes the first quarter of the given words, one built with `from_with_size` (or BootRom::with_size) the first size/4 words padded with zeros; BootRom::new exposes all its words. The claims that the list constructors expose or keep the whole list are false.", "quantifier": "all sizes and contents", "why_tests_cant": "All sizes and contents.", "anchors": ["lrvm_aux/src/volatile_mem/ram.rs: new, from, from_with_size", "lrvm_aux/src/storage/bootrom.rs: with_size"]}
{"id": "C60", "title": "File-backed memory is a persistent word store", "statement": "On a writable aligned file, in-range reads return the last word written (also by earlier instances), unaffected by resets; the file length never changes; a read-only instance never modifies the file. The advertised size is four times the size given or measured; the claims that it is the file size and that `writable_with_size` growth is accessible are false.", "quantifier": "all file contents and histories, including reopening", "why_tests_cant": "Unbounded histories and contents.", "anchors": ["lrvm_aux/src/storage/file_backed.rs"]}
{"id": "C61", "title": "Displays deliver exactly what was written", "statement": "NumberDisplay, CharDisplay and BufferedDisplay call their handler exactly once per display request with the number/character/buffer content determined by the preceding writes, in order; reading them raises MemoryNotReadable. BufferedDisplay keeps its buffer after displaying: the documented clearing is false.", "quantifier": "all write histories", "why_tests_cant": "Unbounded histories.", "anchors": ["lrvm_aux/src/display/{number,character,buffered}.rs"]}
{"id": "C62", "title": "Keyboards return the typed input", "statement": "SyncCharKeyboard returns the last typed character until cleared. SyncLineKeyboard returns the bytes of the last typed line, cut at the buffer capacity, over what the buffer held before (so zero-padded after a clear); zero-padding in general is false: stale bytes of a longer previous line remain.", "quantifier": "all input sequences", "why_tests_cant": "Unbounded input sequences.", "anchors": ["lrvm_aux/src/keyboard/{sync_char,sync_line}.rs"]}
{"id": "C63", "title": "Realtime clock words", "statement": "Words 0-1 hold the 64-bit number of seconds since the epoch, words 3-4 since the last reset, words 2 and 5 the sub-second part, under the documented layout; the exact words are characterised. The documented meaning is false for words 2 and 5 (the sub-second part is counted three times) and for word 3 (taken from the epoch time).", "quantifier": "all instants", "why_tests_cant": "All clock values.", "anchors": ["lrvm_aux/src/time/realtime.rs"]}
{"id": "C64", "title": "Debug interface decodes words", "statement": "Writing word w at word index k of the basic debug interface reports w in the documented format k. Only indices 0..7 are reachable through the memory because the advertised size is 32 bytes: the documented 16 words are not all available.", "quantifier": "all words and indices", "why_tests_cant": "All 2^32 words.", "anchors": ["lrvm_aux/src/debug/basic.rs"]}
{"id": "C65", "title": "run_vm stops correctly", "statement": "run_vm stops exactly when the CPU halts, the cycle limit is exceeded, or (if configured) an exception is pending; it reports the cycle count, the address of the last executed instruction and the decoded exception. With a limit n a program that neither halts, faults nor resets executes n+1 cycles; the claim `at most n cycles` is false (and a guest can evade the limit with RESET). With halt-on-exception it stops after the first cycle even for a stale exception. Reporting is silent: printing an exception can panic for register codes above 0x1F.", "quantifier": "all programs and configurations", "why_tests_cant": "Unbounded executions.", "anchors": ["lrvm_tools/src/debug/run.rs: run_vm"]}
{"id": "C66", "title": "prepare_vm boots any list of valid components", "statement": "prepare_vm on components of non-zero aligned sizes whose sum is at most 2^32 (strictly below in a debug build) maps them contiguously from address 0, resets the board and leaves the CPU at address 0 in supervisor mode; it panics otherwise.", "quantifier": "all component lists", "why_tests_cant": "All component lists.", "anchors": ["lrvm_tools/src/debug/prepare.rs"]}
{"id": "C67", "title": "Asynchronous counter: reset isolates generations", "statement": "Under every interleaving of the counting thread with the VM thread, after a reset returns the counter reads 0 until the new thread's first increment, the previous thread has terminated and can never change the visible counter, and at most one counting thread is alive.", "quantifier": "all thread interleavings and request histories", "why_tests_cant": "Schedules cannot be enumerated by tests.", "anchors": ["examples/async_hw/src/counter.rs: AsyncCounter"]}
{"id": "C68", "title": "Asynchronous counter: monotone and only incremented by its thread", "statement": "Between resets successive reads of the counter never decrease (until 2^32 wrap-around), increments happen only after 99 polls, and stopping (reset or drop) terminates the thread within one poll of its loop.", "quantifier": "all interleavings", "why_tests_cant": "Schedules cannot be enumerated by tests.", "anchors": ["examples/async_hw/src/counter.rs: AsyncCounter"]}
{"id": "C69", "title": "What disassembled text reassembles to", "statement": "Assembling (with the project's customasm rules) the LASM text printed for any instruction or program gives exactly the instruction of a proved table: the same instruction for the listed faithful ones, a different one for XOR of two different registers (printed as a zeroing of the second), SRM (assembled as WEA), CPY of 0 (a zeroing that also sets flags), ZRO_MAX division modes; and it is rejected for ITR, unknown flag/condition/information literals and most division-mode literals. The rules are unambiguous and only emit valid instructions; printing never panics except JPR of 0x8000 in a debug build. The claim that disassembling and assembling preserves every program is false.", "quantifier": "all instructions", "why_tests_cant": "All instructions and operands.", "anchors": ["lrvm_tools/src/asm/instr.rs: Instr::to_lasm", "lrvm_tools/src/lasm/customasm.def"]}
{"id": "C70", "title": "Programs in ROM execute deterministically", "statement": "Two runs of the same board from reset with components that answer identically are identical; a straight-line program stored in a BootROM at address 0 is executed instruction by instruction exactly as the instruction-set specification composes.", "quantifier": "all programs and run lengths", "why_tests_cant": "Unbounded programs.", "anchors": ["lrvm/src/cpu/cpu.rs: Cpu::next", "lrvm_tools/src/debug/exec.rs"]}
{"id": "C71", "title": "Components only see aligned in-range requests", "statement": "Whatever programs run and whatever the host does through the board's API, a component only ever receives read and write requests for 4-byte aligned addresses below the size it declared, and resets; its state is exactly the one those requests lead to from its initial state (nothing else touches it), so any invariant preserved by such requests holds forever.", "quantifier": "all components, programs, API histories", "why_tests_cant": "Unbounded histories and arbitrary component implementations.", "anchors": ["lrvm/src/board/hwb.rs: HardwareBridge::read, write, reset", "lrvm/src/mem/mem.rs: MappedMemory::read, write"]}
{"id": "C72", "title": "What an instruction does to the components; memory keeps its words", "statement": "In one cycle the components only see reads at the instruction's address, at the address loaded from and at the page entries of the accessed addresses, then at most one write, of the word the instruction is to store at the address it is to store it to, or the resets a RESET asks for. Hence on a board with RAM or flash mapped without overlap, a word changes only when an instruction stores to its address or a RESET selects the component, a load returns the last word stored there, and it does so after any number of cycles.", "quantifier": "all components, instructions, states, programs and run lengths", "why_tests_cant": "Unbounded executions over all machine states.", "anchors": ["lrvm/src/cpu/cpu.rs: CPU::next, run_instr, mem_do", "lrvm/src/mem/mem.rs: MappedMemory::read, write", "lrvm_aux/src/volatile_mem/ram.rs: Ram"]}
{"id": "C73", "title": "Aliases and short forms of the assembly language", "statement": "Every documented alias (ZRO, INC, DEC, IFEQ..IFLE, IFOR..IFRIGHT, JP, RET) and LSA/WSA without offset assemble, for all operands, to exactly the bytes of the instruction the documentation gives as their meaning. LEA and WEA of an address alone have the documented effect. It is also settled exactly what the other short forms do: LEA/WEA with an offset and no factor ignore the offset (the default factor is 0, not the documented 1), DIV and MOD without a mode take their mode from register a0 instead of the documented default, NOT zeroes its register.", "quantifier": "all operands of all short forms, all machine states", "why_tests_cant": "All operands and states.", "anchors": ["lrvm_tools/src/lasm/customasm.def", "docs/Architecture.md: Alias instructions"]}
{"id": "C74", "title": "The minimal, benchmark and hello_world examples run as documented", "statement": "In a release and in a debug build and whatever random identifiers are drawn: the minimal example stops after one cycle; the benchmark ends without exception after exactly 6 * 2^24 cycles and displays that number; hello_world halts without exception and its display's handler is called exactly once, with the text Hello, world! and a line feed followed by zeros up to the size of the buffer; and the same code followed by any zero-terminated message of at most 63 words shows that message.", "quantifier": "both builds, all identifiers, all messages", "why_tests_cant": "All messages; 100 million cycles.", "anchors": ["examples/minimal/src/main.rs: main", "examples/benchmark/src/main.rs: main", "examples/benchmark/src/source.lasm", "examples/hello_world/src/main.rs: main", "examples/hello_world/src/display.lasm"]}
{"id": "C75", "title": "The hw_detect example displays exactly what each component declares", "statement": "In a release and in a debug build: on a board of any number of components of any kind the example's program can hold the records of, the host decodes from the memory the program filled exactly the components of the board, in order, with the name (up to 32 bytes), identifier, size, category, type, model and mapping each one declares and occupies; in particular the example itself, whatever random identifiers are drawn, lists its components as they were plugged.", "quantifier": "both builds, all components, numbers of components and mappings", "why_tests_cant": "All boards.", "anchors": ["examples/hw_detect/src/main.rs: main, decode_component", "examples/hw_detect/src/source.lasm"]}
{"id": "C76", "title": "The elapsed_time example shows each new number of elapsed seconds and never stops", "statement": "In a release and in a debug build and whatever instants the host's clock gives: the elapsed_time example never stops, panics nor meets an exception, and what it displays is exactly, in order, each reading of the elapsed seconds (modulo 2^32) since the start of the machine that is greater than all the readings before it, the first one included.", "quantifier": "both builds, all sequences of instants, all run lengths", "why_tests_cant": "Unbounded runs and arbitrary clocks.", "anchors": ["examples/elapsed_time/src/main.rs: LASM_SOURCE, main", "lrvm_aux/src/time/realtime.rs: RealtimeClock"]}
{"id": "C77", "title": "The async_hw example counts to 5 whatever the scheduler does", "statement": "In a release and in a debug build and for every schedule of the counting thread: the async_hw example displays each value of the counter it reads that differs from the previous one and halts without exception at the first reading of 5; if no more than one increment happens between two readings and the thread keeps running it displays exactly 1, 2, 3, 4, 5 and halts. If the program is late once, it may run for ever (refuted claim: that it stops whenever the thread keeps running). As a component of a board the counter answers every sequence of requests, under every schedule, as in a history of C67 and C68: no request panics, blocks or is left unfinished, reads and resets raise no exception, writes are refused as not writable; throughout it keeps its name, and declares its identifier, one word and no category. A board holding components of two kinds treats each as it would alone.", "quantifier": "both builds, all schedules, all identifiers, all components in place of the counter", "why_tests_cant": "All schedules.", "anchors": ["examples/async_hw/src/main.rs: main", "examples/async_hw/src/source.lasm", "examples/async_hw/src/counter.rs: AsyncCounter"]}
{"id": "C78", "title": "The brainfuck example interprets brainfuck, except for moves and loops skipped", "statement": "In a release and in a debug build, for every line typed (the first 4092 bytes count), all keys typed afterwards and all random identifiers: the brainfuck example follows a small interpreter (SpecBf.v) step by step. When that interpreter finishes, the machine halts without exception after the welcome, running and goodbye messages and the values shown by the program; when it meets an unknown symbol, a `]` without loop or an unclosed loop, the machine halts after displaying the error and its position; when it goes on for ever, so does the machine. A program whose moves are written four times, with at most 1021 nested loops, reaching no non-empty loop on a zero cell and ending under the usual rules of brainfuck, is run as these rules say. Refuted: that loops reached on a zero cell are skipped (they are reported as not closed), and that `>` and `<` move by one cell (they move by one byte, a quarter of a cell).", "quantifier": "both builds, all lines, all keys, all identifiers, all programs and depths up to the documented limit, all run lengths", "why_tests_cant": "All programs of an interpreted language, unbounded runs.", "anchors": ["examples/brainfuck/src/main.rs: main", "examples/brainfuck/src/source.lasm", "lrvm_aux/src/keyboard/sync_line.rs: SyncLineKeyboard", "lrvm_aux/src/display/buffered.rs: BufferedDisplay"]}
{"id": "C79", "title": "Labels in assembly sources", "statement": "For every source of labels, local labels, instructions, words and texts, with any indentation and comments: what it assembles to is the concatenation of what its lines give, each instruction assembling as it would alone with its labels replaced by their addresses. The address of a label is a multiple of 4, the position in the code of what follows it, reached by less than 4 zero bytes of padding; local labels belong to the last global label. A label defined twice, a local label before any global one, an unknown label and an address of 65536 or more used as an operand are errors. `jp`, `call` and `cpy r,` to a label run as the instruction with its address. The code has the size its lines have.", "quantifier": "all sources of any length made of such lines (below 2^60 bytes of code)", "why_tests_cant": "Unbounded sources, any number and placement of labels.", "anchors": ["lrvm_tools/src/lasm/mod.rs: assemble", "lrvm_tools/src/lasm/customasm.def: labelalign"]}
{"id": "C80", "title": "Assembling, decoding and printing back", "statement": "assemble gives bytes; assemble_prog fails exactly on a wrong source or a size that is not a multiple of 4, and otherwise gives every word of the code in order, as an instruction when it decodes and raw otherwise. The disassemble example's re_assemble panics exactly when the source does not assemble, when its code is not made of whole valid instructions, or (debug builds) when there is a JPR -0x8000; otherwise it gives one line per instruction, which assembles again instruction by instruction as said in C69. Its text is stable: printing it back once more gives a text (the same, unless there is an SRM) that stays the same for ever, with the same code. A source of labels and instructions that assembles is always printed back in release builds. The example's own source gives the text its test expects.", "quantifier": "both builds, all sources", "why_tests_cant": "All sources; repeated round trips.", "anchors": ["examples/disassemble/src/main.rs: re_assemble", "lrvm_tools/src/lasm/mod.rs: assemble_prog", "lrvm_tools/src/asm/prog.rs: Program::decode, to_lasm"]}
{"id": "C81", "title": "Messages tell what happened", "statement": "The text of a native or hardware exception, of a device category, of a decoding error and of a stopped state determines what it describes: equal texts come from equal values (for a stop without the raw register, up to exceptions that are not valid, which all read the same). Each text names its kind in words and gives its data as a number, or as the name of the register. Every text is one line. Formatting a native exception panics exactly for a protected-register exception whose register code does not exist.", "quantifier": "all exceptions, categories, errors and stops", "why_tests_cant": "All pairs of values; tests compare a few texts.", "anchors": ["lrvm_tools/src/exceptions/native.rs: NativeException, Display", "lrvm_tools/src/exceptions/auxhw.rs: AuxHwException, Display", "lrvm_tools/src/metadata/category.rs: DeviceCategory, Display", "lrvm_tools/src/asm/instr.rs: InstrDecodingError, Display", "lrvm_tools/src/debug/run.rs: prettify_stop, prettify_ex_with_mode"]}
{"id": "C82", "title": "The lines run_vm prints", "statement": "Printing does not change what run_vm does. What it prints for a run that ends is, for each executed cycle in order, a line with the cycle number and the address (if cycles are printed), then, if the cycle left a non-zero exception register, a line with the address of the instruction and the message of the exception (if exceptions are printed and the final line does not tell it); then the empty line and the final line, as configured, with the final cycle number, the last address and the exception that stopped it. While it runs, the lines of the executed cycles are out; a crash comes after the lines of the cycles before it; with everything disabled nothing is printed. The presets and builders of the configuration set what their names say and nothing else.", "quantifier": "every component set, configuration, machine and number of cycles, both builds", "why_tests_cant": "Runs of any length.", "anchors": ["lrvm_tools/src/debug/run.rs: run_vm, prettify_stop"]}
{"id": "C83", "title": "What the printing components print", "statement": "Each write to a printing number display shows the number written, once, in the format of the address (hexadecimal, 8 hexadecimal digits, decimal, 10 decimal digits), followed by an end of line exactly at the first four words; what was written can be read back from the lines of the console. A write to a lossy character display prints the UTF-8 of the character, or U+FFFD if the word is no character. Each write to a printing debug interface prints one line with the word in the format of the address, signed and unsigned, cut to 8, 16 or 32 bits; it panics exactly outside its 64 bytes and, with overflow checks, for the least signed number at one of the three words that show signed hexadecimal numbers.", "quantifier": "all words, addresses and histories of writes, both builds", "why_tests_cant": "All 2^32 words at all addresses; all histories.", "anchors": ["lrvm_aux/src/display/number.rs: NumberDisplay::new_print", "lrvm_aux/src/display/character.rs: CharDisplay::new_print_lossy", "lrvm_aux/src/debug/basic.rs: BasicDebug::new_println"]}
{"id": "C84", "title": "The lines prepare_vm prints", "statement": "Printing does not change what prepare_vm and exec_vm do. For components that fit, prepare_vm prints one line per component, in order, with its number, its name on 32 columns, its first and last word (the components being one after the other from address 0) and the bytes of its hardware identifier. In any case the lines printed, if any, are one per component, with the number, name and identifier, and a reason for each component that could not be mapped, which is the true one: no word, a size that is no multiple of 4, or, for the components up to it, more than the address space (going past its end or overlapping an earlier component); if the components do not fit there is one and the call panics. Without overflow checks the lines are always printed; with them, components that exceed the address space make it panic before any line.", "quantifier": "all lists of components of any length and sizes, both builds", "why_tests_cant": "Unbounded component lists and sizes.", "anchors": ["lrvm_tools/src/debug/prepare.rs: prepare_vm", "lrvm_tools/src/debug/exec.rs: exec_vm", "lrvm/src/mem/mem.rs: map_contiguous"]}
{"id": "C85", "title": "Generated programs do what the host would do", "statement": "A program built with the builders SetReg, ReadAddr, WriteAddrLit and stores through a register, ended by HALT, and run by exec_vm, does exactly what the host would do itself with mem.read and mem.write in the same order: same memory and components at the end, same values in the general registers, one cycle per word, halted without exception. At the first access the host cannot do (not aligned, or the component raises an exception), the machine has done the errands before it, and the exception registers hold the documented code with the address bits or the component's exception.", "quantifier": "all scripts of any length, all addresses and values, all component lists, both builds", "why_tests_cant": "Unbounded programs over arbitrary components; the unit tests of the components rely on it for their few scripts.", "anchors": ["lrvm_tools/src/asm/extinstr.rs: ExtInstr::SetReg, ReadAddr, WriteAddrLit", "lrvm_tools/src/debug/exec.rs: exec_vm", "lrvm/src/cpu/cpu.rs: CPU::next", "lrvm_aux/src/tests: aux_01_storage, aux_02_volatile_mem"]}
{"id": "C86", "title": "Components driven by generated programs", "statement": "Requests made by a generated program to any component of the board get it into the state it would have if asked directly after a reset, and the host reads there what the component answers. So: words written to a RAM or flash memory are read back (last one written, 0 elsewhere); words written to a character display reach its handler once each, in order, as characters or errors; a text written to a buffered display and an order to show it reach its handler once, padded by zero bytes; asking a character keyboard n times asks the user n times and the last character is read; asking a line keyboard for a line gives the words of its text, cut to the capacity and padded by zero bytes.", "quantifier": "all histories of requests, texts, sizes, addresses, inputs and boards, both builds", "why_tests_cant": "Generalises the unit tests of lrvm_aux from their literals to all programs, texts and sizes.", "anchors": ["lrvm_aux/src/tests: aux_01_storage, aux_02_volatile_mem, aux_03_display, aux_04_keyboard", "lrvm_tools/src/debug/exec.rs: exec_vm"]}
{"id": "C87", "title": "Userland cannot observe supervisor registers", "statement": "Two machines in userland that differ only in the registers hidden from it (ssp, et, era, ev, and pda when translation is off) behave alike: after any number of cycles the memory and components, the counter of cycles, the halted state and all the other registers are equal, until the first exception, which is the same for both (same et, each at its own handler), or a reset of the processor, after which they are equal; if one crashes so does the other (in builds with overflow checks this is said of boards whose mappings all end below 2^32).", "quantifier": "all pairs of machines that differ in hidden registers, all programs, component lists and numbers of cycles", "why_tests_cant": "A noninterference property: it relates two executions for every secret, which no test of single executions covers.", "anchors": ["lrvm/src/cpu/cpu.rs: CPU::read_reg, CPU::write_reg, CPU::next, CPU::_raise_exception", "lrvm/src/cpu/mem.rs: MappedMemory"]}
{"id": "C88", "title": "What the tutorial says about blank programs, modes, resets and stacks", "statement": "A board whose first component is a boot ROM with no program (or whose first word is 0) stays at address 0 for ever, never halts, and raises exception 0x01 at each cycle: run_vm stops after one cycle and reports it if told to stop on exceptions, never returns otherwise; in general a word of opcode 0 at the address of the exception vector is fatal. Writing smt gives userland exactly when 0 is written (the tutorial says 1). A reset gives a memory made with a size the state it was made with, whatever was asked of it since (not true of a memory made from given words). The tutorial's claims that a reset halts the processor, and that a push from 0x2000 gives 0x1FFD, are false.", "quantifier": "all boards, numbers of cycles, configurations of run_vm, histories of requests, both builds", "why_tests_cant": "Runs of any length, and 'never returns'.", "anchors": ["docs/Tutorial.md: First instructions, Supervisor vs Userland, Using the stack, Resetting", "lrvm/src/cpu/cpu.rs: CPU::next, CPU::reset", "lrvm_tools/src/debug/run.rs: run_vm", "lrvm_aux/src/volatile_mem/ram.rs: Ram"]}
{"id": "C89", "title": "Operands built from signed numbers", "statement": "A JPR built from a signed 16-bit number (or a signed byte), encoded by the assembler and run by the processor, moves pc by exactly that many bytes, back or forth, and changes no other register. Different signed numbers give different operands, and a signed and an unsigned literal are the same operand exactly when they agree modulo 2^16. The signed text of an operand built from a signed number is that number (minus sign, 0x, shortest hexadecimal), and printing panics only for the least number, with overflow checks. Elsewhere the literal is zero-extended: an ADD built from a negative number n adds n + 65536 (adding -1 does not subtract 1). A CPY built from an unsigned number or byte puts exactly that number in the register. Literals and registers are told apart, different ones give different operands, and converting back gives the number or the register's code.", "quantifier": "all signed numbers, machines, components, both builds", "why_tests_cant": "Ranges over all numbers and machine states.", "anchors": ["lrvm_tools/src/asm/val.rs: RegOrLit1, RegOrLit2, signed_lit, to_lasm_signed, From<i8>, From<i16>", "lrvm/src/cpu/cpu.rs: CPU::run_instr (JPR, ADD)", "lrvm_tools/src/asm/instr.rs: Instr::encode"]}
{"id": "C90", "title": "A page directory confines userland", "statement": "Fix a set of guarded words. If the page directory at pda has bit 30 set exactly in the entries of guarded words, and goes on so after any accesses that leave those words alone, then with mtt non-zero, however long the machine runs in userland without executing a RESET, the components see only reads of page entries and accesses to words that are not guarded, and the directory still guards the same words. So guarded words of memories keep their values (integrity), and two machines that differ only in guarded words and in registers userland cannot read go on alike until both leave userland by the same exception (secrecy); on boards whose mappings end below 2^32 one machine crashes only if the other does, in both builds. A directory in RAM whose entries are themselves guarded is such a directory, and so is any directory in a boot ROM. A directory that guards its own entries also refuses userland every word congruent to pda modulo 16, a quarter of all words, because the entry index is the address modulo 1024. Without the exception for RESET integrity is false: userland can reset the memory that holds the directory.", "quantifier": "all components, directories, sets of guarded words, userland programs and numbers of cycles, both builds", "why_tests_cant": "Confinement is over every userland program and every run, and secrecy over pairs of runs.", "anchors": ["lrvm/src/cpu/cpu.rs: CPU::mem_do, CPU::run_instr", "lrvm/src/mmu/mmu.rs: MMU::translate", "lrvm/src/mem/mem.rs: MappedMemory::read, MappedMemory::write", "docs/Architecture.md: memory management unit"]}
{"id": "C91", "title": "Code can be moved; an exception forgets where it was raised", "statement": "Two machines alike in everything but pc, that find the same instruction at their pc, one that does not take the value of pc (as an operand, or by CALL), end the cycle the same distance apart and otherwise alike, or in exactly the same state, or both crash; and so after any number of cycles, as long as they find the same code. In builds with overflow checks too one crashes exactly when the other does, if mappings end below 2^32, unless the lookup of the page of the code itself overflows in one only. When the instruction raises an exception they end in exactly the same state: nothing tells a handler where the exception was raised (era, documented as that address, is never written). A program that leaves its address in rr0 before an ITR can be returned to: whatever the handler does, if it keeps rr0 and ends with LSM rr0 in supervisor mode, the machine is in userland at the instruction after the ITR.", "quantifier": "all instructions, operands, machines, components, displacements, numbers of cycles, handlers, both builds", "why_tests_cant": "Pairs of runs of any length.", "anchors": ["lrvm/src/cpu/cpu.rs: CPU::next, CPU::run_instr, CPU::exception", "docs/Architecture.md: Exceptions, Registers (era)"]}
{"id": "C92", "title": "Extended instructions as text, and annotated listings", "statement": "Every extended instruction prints a LASM text, in debug and release builds, which the assembler accepts and turns into as many instructions as its expansion. Run by the CPU, the text of SetReg sets its register and only pc and af besides; that of ReadAddr loads the word at the address in avr, that of ReadAddrTo also leaves it in the register given, that of WriteAddr stores the register given (the address itself if this register is rr0) and that of WriteAddrLit the constant, or the access raises its exception. The encoding of the same ReadAddrTo copies a0 to the register, and that of WriteAddr stores a0, whatever the register given. In an annotated listing (of less than 2^29 words), line k is the plain line of word k after its address 4k, in hexadecimal on eight digits.", "quantifier": "all extended instructions and constants, all machines and components, all programs, both builds", "why_tests_cant": "2^64 instructions, each in any state of the machine.", "anchors": ["lrvm_tools/src/asm/extinstr.rs: ExtInstr::to_lasm, ExtInstr::encode_words", "lrvm_tools/src/asm/prog.rs: Program::to_lasm, Program::to_lasm_lines_annotated", "lrvm_tools/src/lasm/mod.rs: assemble"]}
{"id": "C93", "title": "Warnings are printed exactly when something is ignored", "statement": "A read or a write of an aligned address of the memory prints one warning line, with the address in hexadecimal on eight digits, exactly in debug builds and when no component is mapped there; the read then gives 0 and the write changes nothing. Opening a file-backed memory prints its warning exactly when the length of the file is not a multiple of 4, and the memory then has the whole words of the file only. A line keyboard told to ask for a line prints its warning exactly when the line has more bytes than the buffer, and says how many bytes this is; no other request to it prints anything.", "quantifier": "all mapping tables and addresses, all file lengths, all keyboards, requests and typed lines", "why_tests_cant": "Unbounded mapping tables, files and lines.", "anchors": ["lrvm/src/mem/mem.rs: MappedMemory::read, MappedMemory::write", "lrvm_aux/src/storage/file_backed.rs: FileBackedMem::open", "lrvm_aux/src/keyboard/sync_line.rs: SyncLineKeyboard::write"]}
{"id": "C94", "title": "The wiring of the board is invisible", "statement": "`map` requests that are all accepted are all accepted in any other order, and give the same mappings; the order of the mappings changes nothing to any run (HWD and RESET included). Moreover two boards that have the same components, in the same states, at the same addresses, but with other numbers and with any other components that are not mapped, run the same way every program that executes no HWD and no RESET, the only instructions that name components by number.", "quantifier": "all boards, mapping tables and permutations, all programs and run lengths", "why_tests_cant": "A relation between two unbounded executions, for every permutation and renumbering.", "anchors": ["lrvm/src/mem/mem.rs: MappedMemory::map, MappedMemory::read, MappedMemory::write", "lrvm/src/board/hwb.rs: HardwareBridge", "lrvm/src/cpu/cpu.rs: CPU::next"]}
{"id": "C95", "title": "The texts of buffers", "statement": "A strict request on the buffered display gives its handler the text whose UTF-8 encoding is exactly the buffer, or an error with the bytes when there is none; a lossy one always a text, each maximal unfinished character (or impossible byte) replaced by one U+FFFD, ASCII characters all kept, in order. The printing display prints the buffer itself when it is a text. The character keyboard always holds a character. A cleared line keyboard holds the line and null characters when it fits, otherwise the characters that fit, and an incomplete one if a character is cut: the documented guarantee that its buffer is valid UTF-8 is false. The hello_world example prints its greeting (then 238 null characters), and hw_detect prints eight lines per component, which describe it.", "quantifier": "all byte strings, all buffers, all lines and requests, all boards for hw_detect", "why_tests_cant": "There are 2^(8n) buffers of n bytes; the cut can fall inside any character.", "anchors": ["lrvm_aux/src/display/buffered.rs: BufferedDisplay::write, BufferedDisplay::new_print_lossy", "lrvm_aux/src/keyboard/sync_line.rs: SyncLineKeyboard", "lrvm_aux/src/keyboard/sync_char.rs: SyncCharKeyboard", "examples/hello_world/src/main.rs: main", "examples/hw_detect/src/main.rs: main, decode_component"]}
{"id": "C96", "title": "Identifiers made from names", "statement": "`gen_aux_id(name)` is the SipHash-1-3, with null keys, of the bytes of the name followed by 0xFF, whatever the length of the name: a 64-bit number that depends on the name only and goes unchanged through the metadata of a component. It is not a source of unique identifiers: distinct names can have the same one.", "quantifier": "all names, of any length", "why_tests_cant": "Hashing cuts the bytes in blocks, with nine cases for the end; a collision cannot be exhibited by tests.", "anchors": ["lrvm_tools/src/ids/mod.rs: gen_aux_id", "docs/Tutorial.md"]}
{"id": "C97", "title": "Constructors say why they refuse; what components tell of their sizes", "statement": "A constructor of a memory, boot ROM, buffered display or line keyboard returns an error exactly when one of its documented rules is broken, and the message is that of the first broken rule: too many words, fewer bytes than words given, size 0, size not a multiple of 4. A boot ROM's messages are those of a flash memory. `size()` and `len()` count words: four times `size()` is the size declared to the board, and the size given to the constructor when there was one; a memory made from words alone says a quarter of their number. A boot ROM made 'larger than its storage' may in fact be smaller, as words are compared with bytes.", "quantifier": "all sizes, lists of words and identifiers, both builds", "why_tests_cant": "A statement about every size and every list of words, of any length.", "anchors": ["lrvm_aux/src/volatile_mem/ram.rs: Ram::new, Ram::from, Ram::from_with_size, Ram::size", "lrvm_aux/src/storage/persistent.rs: PersistentMem", "lrvm_aux/src/storage/bootrom.rs: BootRom::new, BootRom::with_size, BootRom::len, BootRom::size", "lrvm_aux/src/display/buffered.rs: BufferedDisplay::new", "lrvm_aux/src/keyboard/sync_line.rs: SyncLineKeyboard::new"]}
{"id": "C98", "title": "The future of a board depends only on its visible state", "statement": "Two boards with the same components and mappings, whose registers, cycle count and halted flag are the same, behave alike whatever is then asked of them, in any order and number: cycles, resets, mappings, reads, writes. After each request both are again in the same state, or both panicked; they answer reads, writes and mappings alike; the runner prints the same lines for both and stops them in the same way or lets both run on. What else their pasts left in the CPU (its record of whether the last instruction wrote pc) plays no part.", "quantifier": "all pairs of well-formed boards, components, histories of requests, runner settings, both builds", "why_tests_cant": "A statement about pairs of boards with any pasts and any futures.", "anchors": ["lrvm/src/cpu/cpu.rs: CPU::next, CPU (_cycle_changed_pc)", "lrvm/src/board/board.rs: MotherBoard::reset, MotherBoard::map", "lrvm_tools/src/debug/run.rs: run_vm"]}
