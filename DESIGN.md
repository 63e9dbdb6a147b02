# Design of the LRVM model

Machine-checked model of ClementNerma/LRVM (Rust, `/repo`) in Coq 8.16.1 using only the Coq standard library.

## Shape of the model

* Machine words are `Z`; every wrap-around is written explicitly (`mod 2^32`, ...). Rust arithmetic that is
  *checked in debug builds and wrapping in release builds* (`+`, `-`, `*`, `<<` on machine integers) goes through
  `add_u32`, `sub_u32`, `mul_u32` ..., which take the build profile `oc : bool` (`true` = overflow checks = panic).
* A Rust panic is an explicit outcome (`Panic`), an `Err(())` of the CPU (= "exception raised") is an explicit
  outcome carrying the state; nothing is totalised silently. Slice indexing out of bounds is a panic.
* An auxiliary component is an arbitrary state type `D` with a record `bus_ops D` of its `Bus` methods
  (name, metadata, read, write, reset); read/write may raise a hardware exception or panic. CPU, memory, MMU and board
  are modelled once for *every* `D` and `bus_ops D`; the components of `lrvm_aux` are separate models and are also
  bundled in one sum type (`device`) to state whole-VM theorems.
* `Rc<RefCell<Box<dyn Bus>>>` sharing is modelled by one list of component states owned by the machine;
  the two `HardwareBridge` caches (built at the same time from the same components) are one list.
* External world: output handlers append to a log, input handlers consume a script; the file of `FileBackedMem` is a
  byte list; the clock is an oracle (the sequence of
  its successive readings); the thread of `AsyncCounter` is an interleaving transition system, its schedule a parameter.

## Files (`rocq/theories`)

Model of the code (each definition cites the file and lines of /repo it models):

| File | Models |
| --- | --- |
| `Base.v` | outcomes (value, panic), machine arithmetic per build profile, big-endian bytes, vector indexing |
| `Board.v` | `lrvm/src/board/{bus,hwb}.rs`: `Bus`, component cache, hardware bridge |
| `Mem.v` | `lrvm/src/mem/{mem,mappings}.rs`: `map`, `map_abs`, `map_contiguous`, read/write dispatch |
| `Cpu.v` | `lrvm/src/cpu/{cpu,regs}.rs`, `lrvm/src/mmu/mmu.rs`, `lrvm/src/board/board.rs`: registers, exceptions, MMU, every instruction, `next`, `reset`, motherboard |
| `Asm.v` | `lrvm_tools/src/asm/{reg,val,instr,cond,arflag,div_modes,hw_infos,prog,prog_word,extinstr,cst}.rs`, `bytes/mod.rs` |
| `Tools.v` | `lrvm_tools/src/{metadata,exceptions}` |
| `Runner.v` | `lrvm_tools/src/debug/{prepare,exec,run,run_config}.rs` |
| `Vals.v` | `lrvm_tools/src/asm/val.rs`: constructors and conversions of operands, signed text |
| `Warn.v` | warnings printed by the memory of debug builds (mem.rs:110, 139), by file_backed.rs:42 and by sync_line.rs:101, 116 |
| `Utf8.v` | `str::from_utf8`, `String::from_utf8_lossy` (standard library; `Utf8Error` is not modelled), the handler of `new_print_lossy` |
| `ExampleText.v` | what the hello_world and hw_detect examples print |
| `Ids.v` | `gen_aux_id` (lrvm_tools/src/ids/mod.rs), with the standard library's `DefaultHasher` |
| `Makers.v` | the error messages of the constructors of `lrvm_aux`, `size` and `len` |
| `LasmRules.v` (generated from `customasm.def`), `Lasm.v` | `lrvm_tools/src/lasm`: printing of instructions, the rules of `customasm.def`, `assemble`, `disassemble` |
| `Console.v` | text: `Display` of exceptions, categories, decoding errors and stops; what `run_vm`, `prepare_vm` and the printing components print |
| `Devices.v` | every component of `lrvm_aux` |
| `Counter.v`, `Async.v` | `examples/async_hw`: the counter and its threads as an interleaving; the component on a board; `main` |
| `Sources.v` (generated: copies of the `.lasm` sources), `Examples.v` | `examples/{minimal,benchmark,hello_world,hw_detect,elapsed_time,disassemble,brainfuck}` |

Specifications (independent of the model's helpers; what the theorems are stated with):

| File | Content |
| --- | --- |
| `SpecMach.v` | how a machine is observed: register file, well-formedness, API histories, reachability |
| `SpecIsa.v`, `SpecBus.v` | the instruction set as a small interpreter written from docs/Architecture.md (deviations of the code are explicit), over an abstract bus |
| `SpecObs.v`, `SpecPanic.v`, `SpecMemory.v` | vocabulary for one cycle: what is fetched, loaded, stored, raised; panics on raw words; effect on components |
| `SpecMap.v`, `SpecMmu.v`, `SpecSim.v` | mappings as intervals of integers; the documented translation; observational equivalence of components |
| `SpecAsm.v`, `SpecExt.v`, `SpecTools.v`, `SpecLasm.v`, `SpecShort.v`, `SpecLabel.v`, `SpecReasm.v`, `SpecUtf8.v` | instruction format, tables, reassembly, short forms, sources with labels, UTF-8 |
| `SpecScript.v` | errands done by the host, and the programs generated for them |
| `SpecTotal.v` | words that are no instruction, whole runs |
| `SpecUser.v` | machines that userland cannot tell apart |
| `SpecGuard.v` | page entries, accesses that leave guarded words alone, directories that stay as they are, boards alike but for guarded words |
| `SpecVals.v` | signed bytes and half-words, the shortest signed hexadecimal text of a number |
| `SpecMove.v` | instructions that take the value of pc, machines that differ only in pc |
| `SpecExtText.v` | the code assembled from the text of an extended instruction; what loading to and storing from a register mean |
| `SpecWarn.v` | addresses where nothing is mapped, the lines that warn |
| `SpecWire.v` | boards with reordered mappings or renumbered components, programs without HWD and RESET |
| `SpecText.v` | reading bytes as UTF-8, strictly and with replacements |
| `SpecExampleText.v` | what hw_detect must print for a component |
| `SpecSip.v` | SipHash-1-3 as its authors define it |
| `SpecAsync.v` | the counter of async_hw as a component: requests as they appear in a history |
| `SpecConsole.v` | how a reader understands the numbers and lines of the console |
| `SpecDev.v`, `SpecRun.v`, `SpecCounter.v`, `SpecExample.v`, `SpecBf.v` | component histories, runs, interleavings, examples; the brainfuck interpreter and the usual semantics of brainfuck |

Proofs: `*Facts.v`, `BfRun.v`, `IsaStep.v`, `CyclePost.v`, `StepCases.v`, `DevTyped.v`, `Demo.v` are auxiliary; `Proof*.v` hold the proofs `P_x` of the properties
and the witnesses `E_x`. Statements: `Prop*.v`, generated from `Proof*.v` by `tools/gen_props.py`, hold only the theorems
(`Theorem x : ... . Proof. exact P_x. Qed.`), `Print Assumptions`, and the non-vacuity examples (`x_example`).

Naming: `_refuted` marks a theorem `~ (...)` whose body is the claim the documentation or the code's comments make and that is false of the code; the property's
statement in `properties.jsonl` then says what really holds, and other theorems of the property prove that. There is no `_partial` theorem.

## Trusted base

* Coq 8.16.1's kernel, including `vm_compute` (used on closed terms only), and its standard library. No axiom: the output of
  `Print Assumptions` for every theorem of every `Prop*.v` is `Closed under the global context`. (A listing of the environment also shows
  `Coq.ssr.ssrunder.Under_rel.*`: parameters of a module type of the standard library's ssreflect plugin, loaded indirectly; no theorem depends on them.)
* That the definitions of the model files say what the Rust code does. They were written by reading the code; nothing was compiled or run.
* The semantics given to what the code uses and does not define: Rust's integers, slices, `RefCell`, iterators, `char`/UTF-8 conversions;
  the customasm library, of which `Lasm.v` models what the sources of the repository use, from its documentation: lines, comments, identifiers, numbers, strings,
  labels and local labels aligned on 32 bits, `#d`, `#d32`, typed operands with their integer ranges; an instruction must match exactly one rule. Files: byte lists with positions.
  Threads: sequentially consistent interleaving of atomic steps. The clock: two arbitrary sequences of readings.
* `tools/gen_rules.py` and `tools/gen_sources.py`, which copy `customasm.def` and the `.lasm` sources into Coq terms.

## Not modelled

* panic messages;
* allocation failure, `usize` of less than 64 bits (so `usize::try_from(u32)` never fails), boards of 2^32-1 or more components;
* `RefCell` double borrows (impossible: no re-entrancy), `Rc` counts, `Drop` order except for the counter;
* the customasm library itself beyond the above, random number generators (identifiers are parameters);
* the code under `tests`, the editor extension, the documentation's prose (quoted in the specifications).

## Plan per property

- **C01 Register file stays 32-bit and flags register stays a flag set** — invariant `wf_mach` over all reachable machines, by induction on histories of API calls.
- **C02 Exactly when a release-build cycle panics** — `next false m = Panic` iff the page directory is misaligned with translation on (SpecPanic.misaligned_table), per-instruction lemma; lifted to runs and to boards of the crate's own components; the unrestricted claim refuted by a witness.
- **C03 Exactly when a debug-build cycle panics** — exact panic condition on the raw instruction word (SpecPanic.overflows); equality of `next true` and `next false` outside it; lifted to runs; witnesses for each kind of panic.
- **C04 A halted CPU is inert** — direct from `next`, induction on the number of cycles.
- **C05 The cycle counter counts executed cycles** — every path of `run_instr` preserves the counter except RESET; induction on n.
- **C06 One cycle executes exactly the fetched instruction** — independent ISA specification over the assembler's AST (`SpecIsa.v`); simulation theorem per instruction; completed with the words that are no instruction (`SpecTotal.v`), so that any number of cycles of any memory is described.
- **C07 ADD/SUB/MUL compute modulo 2^32 with correct carry and overflow** — `compute` against integer arithmetic on signed/unsigned readings.
- **C08 Bitwise and shift operations** — `compute` against `Z.testbit` specification.
- **C09 DIV/MOD results and division by zero** — `compute` against `Z.quot`/`Z.rem`.
- **C10 Overflowing signed division honours its mode** — refuted by witness; exact behaviour (always 0x0B) proved.
- **C11 Arithmetic flags describe the result** — flag-by-flag `Z.testbit` characterisation; ZLF refuted with exact behaviour.
- **C12 Comparison followed by a conditional runs the next instruction iff the comparison holds** — two-cycle theorem using C06.
- **C13 IF2 truth table and operand validation** — truth table from C06; refutation for unknown IF2 flag.
- **C14 Register access rights** — independent access table; read/write outcome for all codes and modes.
- **C15 Exception entry** — every `Err` outcome of an instruction is an exception entry over a state; per-instruction induction.
- **C16 `et` decodes to the exception that occurred** — `et` values decoded with the tools decoder.
- **C17 Userland confinement** — per-instruction frame theorem for userland; induction on the number of cycles.
- **C18 Supervisor-only instructions** — proved for LSM; refuted for the three others.
- **C19 LSM jumps to its operand in userland mode** — exact behaviour proved (+4), documented one refuted.
- **C20 Program counter discipline** — per-instruction pc theorem.
- **C21 Effective addresses** — addresses given to memory; refutation of the signed reading.
- **C22 Failed memory accesses leave the CPU consistent** — frame theorem on failing accesses.
- **C23 The stack is LIFO** — induction on the list of words, RAM model.
- **C24 CALL/RET round trip** — corollary of CALL and POP specifications on RAM.
- **C25 EX and SRM swap** — corollaries of C06.
- **C26 HWD reports hardware information** — `hwd` value specification.
- **C27 RESET instruction resets exactly the selected components** — selection as a filter over ids.
- **C28 With translation disabled the MMU is transparent** — direct.
- **C29 What the MMU does when translation is enabled** — `decode_entry` never returns `Decoded` (bit lemma); refutation of the documented translation.
- **C30 Exceptions of refused accesses** — exact behaviour; refutation.
- **C31 Mappings never overlap** — invariant over lists of `map` calls.
- **C32 Mapping succeeds exactly when the request is valid; failure has no effect** — iff characterisation of success.
- **C33 Components only receive in-range aligned accesses, from the right mapping** — lookup lemma under the mapping invariant.
- **C34 Unmapped memory reads as zero and ignores writes** — direct.
- **C35 Contiguous mapping packs the components** — induction on the list of components.
- **C36 map_abs respects the requested range** — refuted with witnesses; exact behaviour.
- **C37 Unmapped components are isolated** — frame theorem over executions.
- **C38 Reset state** — direct; mapping preserved.
- **C39 Board reset reaches every component exactly once** — map over components.
- **C40 Component names are cut to at most 32 bytes at a character boundary** — longest-prefix characterisation by induction.
- **C41 Instruction encoding round-trips** — case analysis on instructions with byte arithmetic; refuted for 2-byte registers.
- **C42 Instruction decoding is canonical and total on valid words** — case analysis on the opcode.
- **C43 The CPU executes what the assembler encodes** — decoder agreement lemma.
- **C44 Program encoding and decoding** — induction on programs.
- **C45 Program concatenation operations** — list equations; refutation for prepend_all.
- **C46 Register codes and names are bijective** — finite sweep lifted; strings by case analysis.
- **C47 SetReg loads any 32-bit constant** — three-cycle execution theorem.
- **C48 ReadAddr/WriteAddrLit access the given address** — multi-cycle execution theorems; refutations.
- **C49 Native exceptions round-trip** — case analysis.
- **C50 Hardware exceptions round-trip and are visible** — case analysis; refutation for UnknownError.
- **C51 Division modes round-trip** — finite sweep.
- **C52 Constant tables agree between crates** — table equations against CPU definitions.
- **C53 Word/byte conversion** — induction; refutation for partial words.
- **C54 Device metadata layout** — byte/word arithmetic.
- **C55 Device categories round-trip** — case analysis on codes.
- **C56 RAM stores words** — history refinement to an abstract map.
- **C57 BootROM is immutable** — history invariant, lifted to CPU executions.
- **C58 Flash memory between and across resets** — refuted; RAM-like between resets.
- **C59 Memory constructors size the component correctly** — size equations; refutations.
- **C60 File-backed memory is a persistent word store** — history refinement to bytes of the file.
- **C61 Displays deliver exactly what was written** — history of writes vs handler log.
- **C62 Keyboards return the typed input** — history; refutation by stale bytes.
- **C63 Realtime clock words** — equations on durations; refutations.
- **C64 Debug interface decodes words** — table per index.
- **C65 run_vm stops correctly** — run loop with fuel; characterisation of stop states.
- **C66 prepare_vm boots any list of valid components** — corollary of C35 and C38.
- **C67 Asynchronous counter: reset isolates generations** — invariant over all interleavings.
- **C68 Asynchronous counter: monotone and only incremented by its thread** — invariant over all interleavings.
- **C69 What disassembled text reassembles to** — token-level model of customasm rules; refutations.
- **C70 Programs in ROM execute deterministically** — functional determinism is by construction; composition theorem for straight-line programs.
- **C71 Components only see aligned in-range requests** — a component's state after any API history is the result of serving a list of in-range requests; induction on histories.
- **C72 What an instruction does to the components; memory keeps its words** — induction over the instruction specification gives the effect on components; RAM contents by case analysis of reads, writes and resets on a tidy mapping table; persistence by induction on the run length.
- **C73 Aliases and short forms of the assembly language** — one table of short forms with text, documented instruction and actual instruction; the assembler model is run on the text of each form with symbolic operands; effects compared through the instruction specification; refutations.
- **C74 The minimal, benchmark and hello_world examples run as documented** — the sources are copied byte for byte, assembled by the model of the assembler, and executed symbolically on the instruction specification (induction on loop iterations), then transferred to the machine by the conformance theorem.
- **C75 The hw_detect example displays exactly what each component declares** — as C74, with a generic board: the loop over components is executed symbolically with an induction on the components already described.
- **C76 The elapsed_time example shows each new number of elapsed seconds and never stops** — as C74; the states of a run are tied to the readings of the clock by induction on the iterations.
- **C77 The async_hw example counts to 5 whatever the scheduler does** — as C74 for any counter component, then instantiated with the thread model of C67: the world after a number of thread steps is computed in closed form.
- **C78 The brainfuck example interprets brainfuck, except for moves and loops skipped** — as C74, each block of the assembled program executed symbolically on any state (`BfFacts.v`), assembled into a simulation of the interpreter of `SpecBf.v` (`BfRun.v`), then a mutual induction on the usual semantics of programs.
- **C79 Labels in assembly sources** — sources as lists of lines and their meaning in `SpecLabel.v`; by induction on the lines, parsing gives them back (`LabelFacts.v`), labels get their addresses and each instruction matches the rules as it would with the numbers.
- **C80 Assembling, decoding and printing back** — `re_assemble` and `assemble_prog` modelled; from C44, C69, C79 and idempotence of `reassembled`; the example text by computation.
- **C81 Messages tell what happened** — formatting functions modelled as strings in `Console.v`; numbers are injective and followed by a non-digit (`ConsoleFacts.v`), then by cases on the constructors.
- **C82 The lines run_vm prints** — the runner with its output (`said`); by induction on the fuel, related to `run` by the per-cycle pieces of `SpecConsole.v`, which read numbers with an independent `reads`.
- **C83 What the printing components print** — the handlers as functions of the recorded calls; by cases on the word, and induction on the list of writes.
- **C84 The lines prepare_vm prints** — `prepare_vm` with its output; induction on the components gives the statuses (as C35, C66), then the lines.
- **C85 Generated programs do what the host would do** — the host's own execution as an inductive relation over mapped-memory accesses (`SpecScript.v`); induction on the script, each errand by symbolic execution of its words (C70 machinery).
- **C86 Components driven by generated programs** — C85 with requests to one component (`serve`, C71), then the laws of each component (C56, C59, C61, C62).
- **C87 Userland cannot observe supervisor registers** — a relation between two machines (`SpecUser.v`), kept by each cycle: through the completed instruction set of C06 every instruction is shown to preserve it; induction on the number of cycles.
- **C88 What the tutorial says about blank programs, modes, resets and stacks** — a loop invariant for a machine stuck on a word of opcode 0; the boot history of C66 and the stop conditions of C65; the memories of C56 and C58 after any history; refutations by concrete machines.
- **C89 Operands built from signed numbers** — the constructors as casts modulo 2^8 and 2^16; the encoding and execution theorems of C43 and C06 composed; the numerals of C81.
- **C90 A page directory confines userland** — a relation between two boards kept by permitted accesses, generalising C87 by a lockstep simulation of cycle_spec; instances: the history of accesses (confinement), equality but for guarded words (secrecy); RAM and ROM directories by induction over the accesses; the refutation by a machine that resets its own directory.
- **C91 Code can be moved; an exception forgets where it was raised** — a relation between the outcomes of SpecIsa.step from a state and from the state moved (equal, or moved), instruction by instruction; transported to machines by the refinement of C06; in debug builds by the characterization of crashes of C03, read on decoded instructions.
- **C92 Extended instructions as text, and annotated listings** — the assembled text stands word for word for instructions (C69), whose effects compose (as for C47 and C48): a first word that is CPY or, for 0, XOR; the encoded one with a0 in place of the 2-byte register (C43).
- **C93 Warnings are printed exactly when something is ignored** — the lines a call prints as functions beside the calls (Warn.v); the search through a tidy mapping table as for C33 and C34; the loop over the typed bytes by induction.
- **C94 The wiring of the board is invisible** — simulation: a relation between two memories kept by every load and store (and by HWD and RESET for reordered tables) is kept by the specification of a cycle, then by runs; requests in another order by induction on the permutation.
- **C95 The texts of buffers** — UTF-8 decoding modelled byte by byte; strict reading by inverting the encoder, lossy reading against an independent relation (maximal unfinished characters) that is proved to have one result.
- **C96 Identifiers made from names** — the standard library's streaming hasher modelled, proved equal to the definition of SipHash by its authors by an invariant on the bytes written so far; collisions by the pigeonhole principle.
- **C97 Constructors say why they refuse; what components tell of their sizes** — constructors with their messages modelled again (Makers.v); case analysis on the tests, in integer arithmetic; sizes from C59.
- **C98 The future of a board depends only on its visible state** — well-formed CPUs with the same visible state are equal but for the scratch flag (register files determine the banks by their lengths); a cycle overwrites the flag before reading it, a reset sets it; induction on histories, and one step of the runner's loop.
