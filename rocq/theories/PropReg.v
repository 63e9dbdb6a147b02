(** Properties proved in ProofReg.v: statements only. Generated by tools/gen_props.py. *)
From Coq Require Import ZArith List Bool Lia.
From Verif Require Import Base Board Mem Cpu Asm Tools Devices DevTyped SpecMach SpecIsa SpecBus SpecObs SpecTools SpecMap BaseFacts RegFacts MemFacts
  AluFacts IsaFacts IsaStep MonoFacts CycleFacts UndFacts HoareFacts CyclePost InvFacts MapFacts ReachFacts ExecFacts StepCases ProofAlu ProofState Demo.
From Verif Require Import ProofReg.
Import ListNotations.
Open Scope Z_scope.

(** * C06 *)

(** A cycle that fetches instruction [i] ends exactly in the state given by the instruction-set specification (SpecIsa.step),
    in registers, memory, cycle counter and halting; it crashes exactly when the specification's bus does. *)
Theorem C06_conformance : forall D (ops : bus_ops D) m i mem1, typed ops -> wf m -> c_halted m = false -> fetches ops m i mem1 ->
  omap abs (next ops false m) =
  step (board_bus ops false) i (St (file (c_regs m)) mem1 ((c_cycles m + 1) mod 2 ^ 128) false).
Proof. exact P_C06_conformance. Qed.
Print Assumptions C06_conformance.

Example C06_conformance_example : demo_case (asm [Cpy R_a0 (Lit2 260); Wsa (Reg1 R_a0) (Lit1 4) (Lit1 9)]) 1 (fun m i mem1 m' =>
  wf m /\ c_halted m = false /\ i = Wsa (Reg1 R_a0) (Lit1 4) (Lit1 9) /\
  exists mem2, mem_read (dev_ops false) false (c_mem m') 264 = Ret (mem2, 0, 9)).
Proof. exact E_C06_conformance. Qed.

(** The same for a debug build, when its cycle does not panic. *)
Theorem C06_debug : forall D (ops : bus_ops D) m i mem1 m', typed ops -> wf m -> executes ops true m i mem1 m' ->
  step (board_bus ops false) i (St (file (c_regs m)) mem1 ((c_cycles m + 1) mod 2 ^ 128) false) = Ret (abs m').
Proof. exact P_C06_debug. Qed.
Print Assumptions C06_debug.

Example C06_debug_example : exists m m', reachable (dev_ops true) true m /\ c_halted m = false /\ R m R_mtt = 0 /\ next (dev_ops true) true m = Ret m' /\
  (exists mem1, fetches (dev_ops true) m (Sub R_a0 (Lit2 8)) mem1) /\ R m R_a0 = 7 /\ R m' R_a0 = 4294967295.
Proof. exact E_C06_debug. Qed.

(** Opcode 0 raises 0x01. *)
Theorem C06_opcode0 : forall D (ops : bus_ops D) oc m w mem1 m', typed ops -> wf m -> c_halted m = false ->
  loads ops m (c_mem m) (R m R_pc) w mem1 -> 0 <= w < 2 ^ 27 -> next ops oc m = Ret m' -> raised m m' mem1 1 0.
Proof. exact P_C06_opcode0. Qed.
Print Assumptions C06_opcode0.

Example C06_opcode0_example : demo_raw (asm [Lsm (Lit2 0)] ++ [2 ^ 27 - 5]) 1 (2 ^ 27 - 5)
  (fun m mem1 m' => sup_mode m = false /\ 0 <= 2 ^ 27 - 5 < 2 ^ 27 /\ R m' R_et = et_value false 1 0).
Proof. exact E_C06_opcode0. Qed.

(** An access that fails during the fetch leaves only the exception. *)
Theorem C06_fetch_fault : forall D (ops : bus_ops D) oc m mem2 code data m', typed ops -> wf m -> c_halted m = false ->
  load_faults ops m (c_mem m) (R m R_pc) mem2 code data -> next ops oc m = Ret m' -> raised m m' mem2 code data.
Proof. exact P_C06_fetch_fault. Qed.
Print Assumptions C06_fetch_fault.

Example C06_fetch_fault_example : exists m m', reachable (dev_ops false) false m /\ c_halted m = false /\
  load_faults (dev_ops false) m (c_mem m) (R m R_pc) (c_mem m) 5 2 /\ next (dev_ops false) false m = Ret m' /\ R m R_pc = 18.
Proof. exact E_C06_fetch_fault. Qed.

(** A word that is no instruction always ends in an exception. *)
Theorem C06_garbage : forall D (ops : bus_ops D) oc m m', typed ops -> wf m -> c_halted m = false ->
  fetches_garbage ops m -> next ops oc m = Ret m' ->
  exists code data, ex_code code /\ ex_data code data /\ R m' R_et = et_value (sup_mode m) code data /\ R m' R_smt = 1 /\ R m' R_pc = R m R_ev /\
    c_halted m' = false /\ forall r, R m' r <> R m r -> In r [R_et; R_smt; R_pc; sp_of m].
Proof. exact P_C06_garbage. Qed.
Print Assumptions C06_garbage.

(** POP into an unknown register. *)
Example C06_garbage_example : demo_raw (asm [Cpy R_ssp (Lit2 256); Cpy R_ev (Lit2 64)] ++ [26 * 2 ^ 27 + 32 * 2 ^ 16]) 2 (26 * 2 ^ 27 + 32 * 2 ^ 16) (fun m mem1 m' =>
  fetches_garbage (dev_ops false) m /\ R m R_ssp = 256 /\ R m' R_ssp = 260 /\ R m' R_pc = 64).
Proof. exact E_C06_garbage. Qed.

(** * C13 *)

(** IF runs the next instruction iff the flag is set, IFN iff it is clear; flags 0..7 are bits 7..0 of [af]. *)
Theorem C13_if : forall D (ops : bus_ops D) oc m i v f neg mem1 m', typed ops -> wf m -> executes ops oc m i mem1 m' ->
  i = (if neg : bool then IfN v else If v) -> operand1 m v = Some f ->
  (7 < f -> raised m m' mem1 12 (f mod 256)) /\
  (f <= 7 -> after m m' mem1 [(R_pc, (R m R_pc + (if xorb neg (flag m (7 - f)) then 4 else 8)) mod 2 ^ 32)]).
Proof. exact P_C13_if. Qed.
Print Assumptions C13_if.

Example C13_if_example : demo_case (asm [Cmp R_a0 (Lit2 0); If (Lit1 0)]) 1 (fun m i mem1 m' =>
  i = If (Lit1 0) /\ flag m 7 = true /\ R m' R_pc = 8).
Proof. exact E_C13_if. Qed.

(** IF2: truth table (conditions 1..7: or, and, xor, nor, nand, left, right) and unknown conditions. *)
Theorem C13_if2 : forall D (ops : bus_ops D) oc m a b c fa fb cc mem1 m', typed ops -> wf m ->
  executes ops oc m (If2 a b c) mem1 m' -> operand1 m a = Some fa -> operand1 m b = Some fb -> operand1 m c = Some cc ->
  (forall holds, 0 <= fa <= 7 -> 0 <= fb <= 7 -> cond_spec cc (flag m (7 - fa)) (flag m (7 - fb)) = Some holds ->
     after m m' mem1 [(R_pc, (R m R_pc + (if holds then 4 else 8)) mod 2 ^ 32)]) /\
  (~ 1 <= cc <= 7 -> raised m m' mem1 13 (cc mod 256)).
Proof. exact P_C13_if2. Qed.
Print Assumptions C13_if2.

Example C13_if2_example : demo_case (asm [Cmp R_a0 (Lit2 5); If2 (Lit1 0) (Lit1 1) (Lit1 1)]) 1 (fun m i mem1 m' =>
  i = If2 (Lit1 0) (Lit1 1) (Lit1 1) /\ cond_spec 1 (flag m 7) (flag m 6) = Some true /\ R m' R_pc = 8).
Proof. exact E_C13_if2. Qed.

(** What an unknown flag does in IF2, in a release build: the bit of af it tests is 7 - flag modulo 32, and no exception is raised about it. *)
Theorem C13_if2_unknown_flag : forall D (ops : bus_ops D) m a b c fa fb cc mem1 m', typed ops -> wf m ->
  executes ops false m (If2 a b c) mem1 m' -> operand1 m a = Some fa -> operand1 m b = Some fb -> operand1 m c = Some cc -> 1 <= cc <= 7 ->
  exists holds, cond_spec cc (flag m ((7 - fa) mod 32)) (flag m ((7 - fb) mod 32)) = Some holds /\
    after m m' mem1 [(R_pc, (R m R_pc + (if holds then 4 else 8)) mod 2 ^ 32)].
Proof. exact P_C13_if2_unknown_flag. Qed.
Print Assumptions C13_if2_unknown_flag.

Example C13_if2_unknown_flag_example : demo_case (asm [Cmp R_a0 (Lit2 0); If2 (Lit1 32) (Lit1 8) (Lit1 6)]) 1 (fun m i mem1 m' =>
  i = If2 (Lit1 32) (Lit1 8) (Lit1 6) /\ flag m ((7 - 32) mod 32) = true /\ flag m ((7 - 8) mod 32) = false /\ R m' R_pc = 8).
Proof. exact E_C13_if2_unknown_flag. Qed.

(** An unknown flag in IF2 does not raise 0x0C. *)
Theorem C13_if2_flag_refuted : ~ (forall D (ops : bus_ops D) oc m a b c fa fb cc mem1 m', typed ops -> wf m ->
  executes ops oc m (If2 a b c) mem1 m' -> operand1 m a = Some fa -> operand1 m b = Some fb -> operand1 m c = Some cc ->
  7 < fa -> R m' R_pc = R m R_ev /\ R m' R_et = et_value (sup_mode m) 12 (fa mod 256)).
Proof. exact P_C13_if2_flag_refuted. Qed.
Print Assumptions C13_if2_flag_refuted.

(** * C14 *)

(** The access table. *)
Theorem C14_table : forall sup r,
  (can_read sup r = false <-> sup = false /\ In r [R_ssp; R_usp; R_et; R_era; R_ev; R_mtt; R_pda; R_smt]) /\
  (can_write sup r = false <->
     In r [R_af; R_et; R_era] \/ sup = false /\ In r [R_ssp; R_usp; R_et; R_era; R_ev; R_mtt; R_pda; R_smt]).
Proof. exact P_C14_table. Qed.
Print Assumptions C14_table.

Example C14_table_example : can_read false R_pda = false /\ can_read true R_pda = true /\ can_write true R_af = false /\ can_write false R_af = false /\ can_read false R_af = true.
Proof. exact E_C14_table. Qed.

(** CPY between registers succeeds exactly as the table says, and a refused access changes nothing else. *)
Theorem C14_cpy : forall D (ops : bus_ops D) oc m d r mem1 m', typed ops -> wf m -> executes ops oc m (Cpy d (Reg2 r)) mem1 m' ->
  (can_read (sup_mode m) r = false -> raised m m' mem1 3 (reg_code r)) /\
  (can_read (sup_mode m) r = true -> can_write (sup_mode m) d = false -> raised m m' mem1 4 (reg_code d)) /\
  (can_read (sup_mode m) r = true -> can_write (sup_mode m) d = true ->
     after m m' mem1 [(d, R m r); (R_pc, (R m R_pc + 4) mod 2 ^ 32)]).
Proof. exact P_C14_cpy. Qed.
Print Assumptions C14_cpy.

Example C14_cpy_example : demo_case [167845632] 0 (fun m i mem1 m' =>
  i = Cpy R_a1 (Reg2 R_smt) /\ can_read (sup_mode m) R_smt = true /\ can_write (sup_mode m) R_a1 = true /\ R m' R_a1 = 1).
Proof. exact E_C14_cpy. Qed.

(** In every instruction the first operand register that may not be read raises 0x03 with its code, and nothing else happens. *)
Theorem C14_operands : forall D (ops : bus_ops D) oc m i mem1 m' r, typed ops -> wf m -> executes ops oc m i mem1 m' ->
  find (fun r => negb (can_read (sup_mode m) r)) (reads i) = Some r -> raised m m' mem1 3 (reg_code r).
Proof. exact P_C14_operands. Qed.
Print Assumptions C14_operands.

(** a userland EX with a supervisor register (the word is given raw). *)
Example C14_operands_example : demo_case (asm [Lsm (Lit2 0); Cpy R_a0 (Lit2 1); Ex R_a0 R_ev]) 2 (fun m i mem1 m' =>
  i = Ex R_a0 R_ev /\ find (fun r => negb (can_read (sup_mode m) r)) (reads i) = Some R_ev /\ R m' R_et = et_value false 3 28).
Proof. exact E_C14_operands. Qed.

(** Destinations: arithmetic on a register that may be read but not written raises 0x04; only the flags have changed. *)
Theorem C14_arith_dest : forall D (ops : bus_ops D) oc m i d x mem1 m', typed ops -> wf m -> executes ops oc m i mem1 m' ->
  arith_dest i = Some d -> sources_readable m i -> reg_value m d = Some x -> can_write (sup_mode m) d = false ->
  raised m m' mem1 10 0 \/ raised m m' mem1 11 0 \/
  exists fl, after m m' mem1 [(R_smt, 1); (R_pc, R m R_ev); (R_et, et_value (sup_mode m) 4 (reg_code d)); (R_af, fl)].
Proof. exact P_C14_arith_dest. Qed.
Print Assumptions C14_arith_dest.

Example C14_arith_dest_example : demo_case (asm [Add R_af (Lit2 0)]) 0 (fun m i mem1 m' =>
  arith_dest i = Some R_af /\ sources_readable m i /\ reg_value m R_af = Some 0 /\ can_write (sup_mode m) R_af = false /\ R m' R_et = et_value true 4 (reg_code R_af)).
Proof. exact E_C14_arith_dest. Qed.

(** Over whole cycles: a register the current mode may not write changes only by exception entry (et, smt), as the flags of an
    arithmetic instruction (af), as the stack pointer of a stack instruction, or by a CPU reset. *)
Theorem C14_protected : forall D (ops : bus_ops D) oc m m' r, typed ops -> wf m -> c_halted m = false -> next ops oc m = Ret m' ->
  can_write (sup_mode m) r = false -> R m' r <> R m r ->
  (exists i mem1, fetches ops m i mem1 /\ resets_cpu m i) \/
  (In r [R_et; R_smt] /\ R m' R_smt = 1 /\ R m' R_pc = R m' R_ev /\ exists sup code data, R m' R_et = et_value sup code data) \/
  (r = R_af /\ exists i mem1, fetches ops m i mem1 /\ (arith_dest i <> None \/ exists d v, i = Cmp d v)) \/
  (r = sp_of m /\ (R m' r = (R m r - 4) mod 2 ^ 32 \/ R m' r = (R m r + 4) mod 2 ^ 32) /\
   (pops ops m \/ exists v mem1, fetches ops m (Push v) mem1 \/ fetches ops m (Call v) mem1)).
Proof. exact P_C14_protected. Qed.
Print Assumptions C14_protected.

(** POP into et from supervisor mode: refused, but the stack pointer has moved; ADD on af from userland: refused, but the flags
    have been set. *)
Example C14_protected_example : demo_case (asm [Cpy R_ssp (Lit2 256); Pop R_et]) 1 (fun m i mem1 m' =>
  c_halted m = false /\ can_write (sup_mode m) R_et = false /\ R m' R_et = et_value true 4 (reg_code R_et) /\ R m' R_ssp = 260).
Proof. exact E_C14_protected. Qed.

(** Unknown register codes: CPY to one, in either mode. *)
Theorem C14_unknown_dest : forall D (ops : bus_ops D) oc m c hi lo mem1 m', typed ops -> wf m -> c_halted m = false ->
  32 <= c < 256 -> 0 <= hi < 256 -> 0 <= lo < 256 ->
  loads ops m (c_mem m) (R m R_pc) (8 * 2 ^ 24 + c * 2 ^ 16 + hi * 2 ^ 8 + lo) mem1 -> next ops oc m = Ret m' ->
  raised m m' mem1 (if sup_mode m then 2 else 4) c.
Proof. exact P_C14_unknown_dest. Qed.
Print Assumptions C14_unknown_dest.

Example C14_unknown_dest_example : demo_raw (asm [Lsm (Lit2 0)] ++ [8 * 2 ^ 24 + 32 * 2 ^ 16 + 0 * 2 ^ 8 + 5]) 1 (8 * 2 ^ 24 + 32 * 2 ^ 16 + 0 * 2 ^ 8 + 5)
  (fun m mem1 m' => sup_mode m = false /\ R m' R_et = et_value false 4 32).
Proof. exact E_C14_unknown_dest. Qed.

(** and CPY from one. *)
Theorem C14_unknown_source : forall D (ops : bus_ops D) oc m c d lo mem1 m', typed ops -> wf m -> c_halted m = false ->
  32 <= c < 256 -> 0 <= d < 256 -> 0 <= lo < 256 ->
  loads ops m (c_mem m) (R m R_pc) (10 * 2 ^ 24 + d * 2 ^ 16 + c * 2 ^ 8 + lo) mem1 -> next ops oc m = Ret m' ->
  raised m m' mem1 (if sup_mode m then 2 else 3) c.
Proof. exact P_C14_unknown_source. Qed.
Print Assumptions C14_unknown_source.

Example C14_unknown_source_example : demo_raw [10 * 2 ^ 24 + 0 * 2 ^ 16 + 32 * 2 ^ 8 + 5] 0 (10 * 2 ^ 24 + 0 * 2 ^ 16 + 32 * 2 ^ 8 + 5)
  (fun m mem1 m' => sup_mode m = true /\ R m' R_et = et_value true 2 32).
Proof. exact E_C14_unknown_source. Qed.

(** The claim that unknown codes are always reported as 0x02 is false in userland. *)
Theorem C14_unknown_userland_refuted : ~ (forall D (ops : bus_ops D) oc m c hi lo mem1 m', typed ops -> wf m -> c_halted m = false ->
  32 <= c < 256 -> 0 <= hi < 256 -> 0 <= lo < 256 ->
  loads ops m (c_mem m) (R m R_pc) (8 * 2 ^ 24 + c * 2 ^ 16 + hi * 2 ^ 8 + lo) mem1 -> next ops oc m = Ret m' ->
  raised m m' mem1 2 c).
Proof. exact P_C14_unknown_userland_refuted. Qed.
Print Assumptions C14_unknown_userland_refuted.

(** * C16 *)

(** The words the CPU stores decode to the documented exception, mode included (hardware exceptions and 8-bit data apart). *)
Theorem C16_decode : forall sup code data, ex_code code -> ex_data code data -> code <> 160 -> (code = 17 \/ code = 240 -> data < 256) ->
  exists e, documented code data = Some e /\ native_decode_with_mode (et_value sup code data) = Some (e, sup).
Proof. exact P_C16_decode. Qed.
Print Assumptions C16_decode.

Example C16_decode_example : demo_case (asm [Lsm (Lit2 4); Halt; Itr (Lit1 7)]) 1 (fun m i mem1 m' =>
  native_decode_with_mode (R m' R_et) = Some (NInterruption 7, false)).
Proof. exact E_C16_decode. Qed.

(** Hardware exceptions decode to the component's exception, when it is a documented one. *)
Theorem C16_hardware : forall sup data, 0 <= data < 65536 ->
  native_decode_with_mode (et_value sup 160 data) = option_map (fun e => (NHardwareException e, sup)) (aux_decode data) /\
  (aux_decode data = None <-> ~ In (data / 256) [0; 1; 2; 16; 17; 32; 33; 48; 49]).
Proof. exact P_C16_hardware. Qed.
Print Assumptions C16_hardware.

Example C16_hardware_example : demo_case (asm [Wsa (Lit1 0) (Lit1 4) (Lit1 7)]) 0 (fun m i mem1 m' =>
  native_decode_with_mode (R m' R_et) = Some (NHardwareException MemoryNotWritable, true)).
Proof. exact E_C16_hardware. Qed.

(** On every reachable machine et is 0 or encodes a native exception together with the mode it was raised in. *)
Theorem C16_history : forall D (ops : bus_ops D) oc m, typed ops -> reachable ops oc m ->
  R m R_et = 0 \/ exists sup code data, ex_code code /\ ex_data code data /\ R m R_et = et_value sup code data.
Proof. exact P_C16_history. Qed.
Print Assumptions C16_history.

Example C16_history_example : demo_case (asm [Lsm (Lit2 4); Halt; Itr (Lit1 7)]) 1 (fun m i mem1 m' =>
  R m R_et = 0 /\ R m' R_et = et_value false 240 7).
Proof. exact E_C16_history. Qed.

(** The tools keep only 8 bits of data for interruptions and unknown information codes; the CPU stores 16: two different
    interruptions decode to the same exception. *)
Theorem C16_data_refuted : ~ (forall sup code data, ex_code code -> ex_data code data -> code <> 160 ->
  exists e, documented code data = Some e /\ native_decode_with_mode (et_value sup code data) = Some (e, sup)).
Proof. exact P_C16_data_refuted. Qed.
Print Assumptions C16_data_refuted.

(** It happens: ITR with a register operand holding 256. *)
Example C16_data_refuted_example : demo_case (asm [Cpy R_a0 (Lit2 256); Itr (Reg1 R_a0)]) 1 (fun m i mem1 m' =>
  R m' R_et = et_value true 240 256 /\ native_decode_with_mode (R m' R_et) = Some (NInterruption 0, true)).
Proof. exact E_C16_data_refuted. Qed.

(** * C18 *)

(** LSM in userland: exception 0x09 with its opcode, and nothing else. *)
Theorem C18_lsm : forall D (ops : bus_ops D) oc m v mem1 m', typed ops -> wf m -> executes ops oc m (Lsm v) mem1 m' ->
  sup_mode m = false -> raised m m' mem1 9 15.
Proof. exact P_C18_lsm. Qed.
Print Assumptions C18_lsm.

Example C18_lsm_example : demo_case (asm [Cpy R_ev (Lit2 64); Lsm (Lit2 4); Lsm (Lit2 0)]) 2 (fun m i mem1 m' =>
  i = Lsm (Lit2 0) /\ sup_mode m = false /\ R m' R_smt = 1 /\ R m' R_pc = 64 /\ R m' R_et = et_value false 9 15).
Proof. exact E_C18_lsm. Qed.

(** The other three ignore the mode. *)
Theorem C18_cycles : forall D (ops : bus_ops D) oc m d mem1 m', typed ops -> wf m -> executes ops oc m (Cycles d) mem1 m' ->
  (can_write (sup_mode m) d = true ->
     after m m' mem1 [(d, (c_cycles m + 1) mod 2 ^ 32); (R_pc, (R m R_pc + 4) mod 2 ^ 32)]) /\
  (can_write (sup_mode m) d = false -> raised m m' mem1 4 (reg_code d)).
Proof. exact P_C18_cycles. Qed.
Print Assumptions C18_cycles.

Example C18_cycles_example : demo_case (asm [Lsm (Lit2 0); Cycles R_a0]) 1 (fun m i mem1 m' =>
  i = Cycles R_a0 /\ sup_mode m = false /\ R m' R_a0 = 2).
Proof. exact E_C18_cycles. Qed.

(** HALT halts, advances pc by one instruction and counts a cycle, in either mode. *)
Theorem C18_halt : forall D (ops : bus_ops D) oc m mem1 m', typed ops -> wf m -> executes ops oc m Halt mem1 m' ->
  c_halted m' = true /\ regs_after m m' [(R_pc, (R m R_pc + 4) mod 2 ^ 32)] /\ c_mem m' = mem1 /\ c_cycles m' = (c_cycles m + 1) mod 2 ^ 128.
Proof. exact P_C18_halt. Qed.
Print Assumptions C18_halt.

Example C18_halt_example : demo_case (asm [Lsm (Lit2 0); Halt]) 1 (fun m i mem1 m' => i = Halt /\ sup_mode m = false /\ c_halted m' = true).
Proof. exact E_C18_halt. Qed.

Example C18_reset_example : demo_case (asm [Lsm (Lit2 0); Reset (Lit1 8)]) 1 (fun m i mem1 m' =>
  i = Reset (Lit1 8) /\ sup_mode m = false /\ R m' R_smt = 1 /\ R m' R_pc = 0 /\ c_cycles m = 1 /\ c_cycles m' = 0).
Proof. exact E_C18_reset. Qed.

(** The documentation says that CYCLES in userland raises exception 9: false. *)
Theorem C18_cycles_refuted : ~ (forall D (ops : bus_ops D) oc m d mem1 m', typed ops -> wf m -> executes ops oc m (Cycles d) mem1 m' ->
  sup_mode m = false -> exists data, raised m m' mem1 9 data).
Proof. exact P_C18_cycles_refuted. Qed.
Print Assumptions C18_cycles_refuted.

(** The documentation says that HALT in userland raises exception 9: false. *)
Theorem C18_halt_refuted : ~ (forall D (ops : bus_ops D) oc m mem1 m', typed ops -> wf m -> executes ops oc m Halt mem1 m' ->
  sup_mode m = false -> exists data, raised m m' mem1 9 data).
Proof. exact P_C18_halt_refuted. Qed.
Print Assumptions C18_halt_refuted.

(** The documentation says that RESET in userland raises exception 9: false. *)
Theorem C18_reset_refuted : ~ (forall D (ops : bus_ops D) oc m v mem1 m', typed ops -> wf m -> executes ops oc m (Reset v) mem1 m' ->
  sup_mode m = false -> exists data, raised m m' mem1 9 data).
Proof. exact P_C18_reset_refuted. Qed.
Print Assumptions C18_reset_refuted.

(** * C19 *)

(** LSM in supervisor mode goes to userland at its operand plus 4. *)
Theorem C19_lsm : forall D (ops : bus_ops D) oc m v x mem1 m', typed ops -> wf m -> executes ops oc m (Lsm v) mem1 m' ->
  sup_mode m = true -> operand2 m v = Some x ->
  after m m' mem1 [(R_smt, 0); (R_pc, (x + 4) mod 2 ^ 32)].
Proof. exact P_C19_lsm. Qed.
Print Assumptions C19_lsm.

Example C19_lsm_example : demo_case (asm [Lsm (Lit2 8)]) 0 (fun m i mem1 m' =>
  i = Lsm (Lit2 8) /\ sup_mode m = true /\ operand2 m (Lit2 8) = Some 8 /\ R m' R_smt = 0 /\ R m' R_pc = 12).
Proof. exact E_C19_lsm. Qed.

(** Hence the documented target is not the one reached. *)
Theorem C19_target_refuted : ~ (forall D (ops : bus_ops D) oc m v x mem1 m', typed ops -> wf m -> executes ops oc m (Lsm v) mem1 m' ->
  sup_mode m = true -> operand2 m v = Some x -> R m' R_pc = x).
Proof. exact P_C19_target_refuted. Qed.
Print Assumptions C19_target_refuted.
