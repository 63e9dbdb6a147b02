(** Properties proved in ProofState.v: statements only. Generated by tools/gen_props.py. *)
From Coq Require Import ZArith List Bool Lia.
From Verif Require Import Base Board Mem Cpu Asm Tools Devices DevTyped SpecMach SpecIsa SpecBus SpecObs SpecMap BaseFacts RegFacts MemFacts
  AluFacts IsaFacts IsaStep MonoFacts CycleFacts UndFacts HoareFacts CyclePost InvFacts MapFacts ReachFacts ExecFacts StepCases ProofAlu Demo.
From Verif Require Import ProofState.
Import ListNotations.
Open Scope Z_scope.

(** * C01 *)

(** Over every history of API calls: 32-bit registers, [af] a set of flags, [et] an exception code, [era] never
    written, a 128-bit counter. *)
Theorem C01_registers : forall D (ops : bus_ops D) oc m, typed ops -> reachable ops oc m ->
  (forall r, 0 <= R m r < 2 ^ 32) /\ (forall n, flag m n = true -> 1 <= n <= 7) /\ R m R_et < 2 ^ 25 /\ R m R_era = 0 /\
  0 <= c_cycles m < 2 ^ 128.
Proof. exact P_C01_registers. Qed.
Print Assumptions C01_registers.

Example C01_registers_example : demo_case (asm [Sub R_a0 (Lit2 1); Div R_a0 (Lit1 0) (Lit1 0)]) 1 (fun m i mem1 m' =>
  R m' R_a0 = 4294967295 /\ R m' R_af = 82 /\ R m' R_et = 16777216 + 655360 /\ c_cycles m' = 2).
Proof. exact E_C01_registers. Qed.

(** * C04 *)

(** While halted, cycles change nothing; a new board is halted; no API call but a reset leaves the state. *)
Theorem C04_halted : forall D (ops : bus_ops D) oc m, c_halted m = true ->
  (forall n, run ops oc n m = Ret m) /\
  (forall c m', c <> AReset -> api_call ops oc c m = Ret m' -> c_halted m' = true /\ c_regs m' = c_regs m /\ c_cycles m' = c_cycles m).
Proof. exact P_C04_halted. Qed.
Print Assumptions C04_halted.

Example C04_halted_example : demo_case (asm [Cpy R_a0 (Lit2 7); Halt]) 1 (fun m i mem1 m' => i = Halt /\ c_halted m' = true /\ R m' R_a0 = 7).
Proof. exact E_C04_halted. Qed.

(** A new board is halted. *)
Theorem C04_new_halted : forall D (ops : bus_ops D) ds m, typed ops -> board_new ops ds = Ret m -> c_halted m = true.
Proof. exact P_C04_new_halted. Qed.
Print Assumptions C04_new_halted.

Example C04_new_halted_example : exists m, board_new (dev_ops false) (demo_devs [1; 2; 3]) = Ret m /\ zlen (c_hwb m) = 2.
Proof. exact E_C04_new_halted. Qed.

(** HALT halts the processor. *)
Theorem C04_halt_instruction : forall D (ops : bus_ops D) oc m mem1 m', typed ops -> wf m ->
  executes ops oc m Halt mem1 m' -> c_halted m' = true.
Proof. exact P_C04_halt_instruction. Qed.
Print Assumptions C04_halt_instruction.

Example C04_halt_instruction_example : demo_case (asm [Cpy R_a0 (Lit2 7); Halt]) 1 (fun m i mem1 m' => i = Halt /\ wf m /\ R m R_a0 = 7).
Proof. exact E_C04_halt_instruction. Qed.

(** Nothing but HALT stops a running processor: no exception, no reset, no word that is no instruction. *)
Theorem C04_only_halt : forall D (ops : bus_ops D) oc m m', typed ops -> wf m -> c_halted m = false -> next ops oc m = Ret m' -> c_halted m' = true ->
  exists mem1, fetches ops m Halt mem1.
Proof. exact P_C04_only_halt. Qed.
Print Assumptions C04_only_halt.

Example C04_only_halt_example : demo_case (asm [Cpy R_a0 (Lit2 7); Halt]) 1 (fun m i mem1 m' => i = Halt /\ c_halted m = false /\ c_halted m' = true).
Proof. exact E_C04_only_halt. Qed.

(** * Cycles *)

(** * C05 *)

(** A cycle of a running processor counts for one, modulo 2^128, or sets the count to 0 when its instruction reset the processor. *)
Theorem C05_one_cycle : forall D (ops : bus_ops D) oc m m', typed ops -> wf m -> c_halted m = false ->
  next ops oc m = Ret m' ->
  c_cycles m' = (c_cycles m + 1) mod 2 ^ 128 \/
  (c_cycles m' = 0 /\ exists i mem1, fetches ops m i mem1 /\ resets_cpu m i).
Proof. exact P_C05_one_cycle. Qed.
Print Assumptions C05_one_cycle.

Example C05_one_cycle_example : demo_case (asm [Cpy R_a0 (Lit2 7); Reset (Lit1 0)]) 1 (fun m i mem1 m' => c_halted m = false /\ i = Reset (Lit1 0) /\ c_cycles m = 1 /\ c_cycles m' = 0).
Proof. exact E_C05_one_cycle. Qed.

(** Hence [n] cycles that neither start halted nor execute a CPU-resetting RESET add [n]. *)
Theorem C05_run : forall D (ops : bus_ops D) oc n m m', typed ops -> wf m -> run ops oc n m = Ret m' ->
  (forall k mk, (k < n)%nat -> run ops oc k m = Ret mk ->
     c_halted mk = false /\ ~ exists i mem1, fetches ops mk i mem1 /\ resets_cpu mk i) ->
  c_cycles m' = (c_cycles m + Z.of_nat n) mod 2 ^ 128.
Proof. exact P_C05_run. Qed.
Print Assumptions C05_run.

Example C05_run_example : demo_case (asm [Cpy R_a0 (Lit2 7); Add R_a0 (Lit2 1)]) 1 (fun m i mem1 m' =>
  c_halted m = false /\ i = Add R_a0 (Lit2 1) /\ c_cycles m = 1 /\ c_cycles m' = 2).
Proof. exact E_C05_run. Qed.

(** * C15 *)

(** A cycle either raises an exception - then pc is ev, supervisor mode is on, et encodes the mode, the code and the
    data, and no other register changed except those the interrupted instruction had already changed - or it ends
    normally, leaving et alone and changing only the registers its instruction is about, or it resets the CPU. The
    recorded mode is the mode of the cycle, unless EX had just replaced smt. *)
Theorem C15_entry : forall D (ops : bus_ops D) oc m m', typed ops -> wf m -> c_halted m = false ->
  next ops oc m = Ret m' ->
  (exists code data sup, ex_code code /\ ex_data code data /\
     R m' R_et = et_value sup code data /\ R m' R_smt = 1 /\ R m' R_pc = R m' R_ev /\
     (sup = sup_mode m \/ exists b mem1, fetches ops m (Ex R_smt b) mem1) /\
     c_halted m' = false /\
     forall r, R m' r <> R m r -> In r [R_et; R_smt; R_pc] \/ maybe_changed ops m r)
  \/
  (exists i mem1, fetches ops m i mem1 /\
     (resets_cpu m i /\ (forall r, R m' r = match r with R_smt => 1 | _ => 0 end) \/
      R m' R_et = R m R_et /\ forall r, R m' r <> R m r -> In r (R_pc :: targets m i))).
Proof. exact P_C15_entry. Qed.
Print Assumptions C15_entry.

Example C15_entry_example : demo_case (asm [Cpy R_ev (Lit2 64); Div R_a0 (Lit1 0) (Lit1 0)]) 1 (fun m i mem1 m' =>
  c_halted m = false /\ R m' R_et = et_value true 10 0 /\ R m' R_pc = 64 /\ R m' R_smt = 1).
Proof. exact E_C15_entry. Qed.

(** * C17 *)

(** What a userland cycle can change among the supervisor registers. *)
Theorem C17_confined : forall D (ops : bus_ops D) oc m m', typed ops -> wf m -> c_halted m = false -> sup_mode m = false ->
  next ops oc m = Ret m' ->
  (exists i mem1, fetches ops m i mem1 /\ resets_cpu m i) \/
  ((forall r, In r [R_ssp; R_ev; R_mtt; R_pda; R_era] -> R m' r = R m r) /\
   (R m' R_smt = 0 /\ R m' R_et = R m R_et \/ R m' R_smt = 1 /\ R m' R_pc = R m R_ev) /\
   (R m' R_usp = R m R_usp \/
    (R m' R_usp = (R m R_usp - 4) mod 2 ^ 32 \/ R m' R_usp = (R m R_usp + 4) mod 2 ^ 32) /\
    (pops ops m \/ exists v mem1, fetches ops m (Push v) mem1 \/ fetches ops m (Call v) mem1))).
Proof. exact P_C17_confined. Qed.
Print Assumptions C17_confined.

(** LSM 28, then (at 32) POP into ssp, from userland: the exception is the only effect. *)
Example C17_confined_example : demo_case (asm [Cpy R_usp (Lit2 256); Cpy R_ev (Lit2 64); Lsm (Lit2 8); Pop R_ssp]) 3 (fun m i mem1 m' =>
  c_halted m = false /\ sup_mode m = false /\ i = Pop R_ssp /\ R m' R_usp = 260 /\ R m' R_ssp = 0 /\ R m' R_smt = 1 /\ R m' R_pc = 64).
Proof. exact E_C17_confined. Qed.

(** * C20 *)

(** An instruction that ends normally and is not about pc moves to the next one; failing conditionals skip one. *)
Theorem C20_pc : forall D (ops : bus_ops D) oc m i mem1 m', typed ops -> wf m -> executes ops oc m i mem1 m' ->
  ~ In R_pc (targets m i) -> ~ jumps i ->
  (R m' R_pc = R m' R_ev /\ R m' R_smt = 1 /\ exists code data sup, R m' R_et = et_value sup code data) \/
  R m' R_pc = (R m R_pc + 4) mod 2 ^ 32 \/ conditional i /\ R m' R_pc = (R m R_pc + 8) mod 2 ^ 32.
Proof. exact P_C20_pc. Qed.
Print Assumptions C20_pc.

Example C20_pc_example : demo_case (asm [Cmp R_a0 (Lit2 1); If (Lit1 0)]) 1 (fun m i mem1 m' =>
  i = If (Lit1 0) /\ ~ In R_pc (targets m i) /\ ~ jumps i /\ R m' R_pc = R m R_pc + 8).
Proof. exact E_C20_pc. Qed.
