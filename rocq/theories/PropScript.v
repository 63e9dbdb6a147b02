(** Properties proved in ProofScript.v: statements only. Generated by tools/gen_props.py. *)
From Coq Require Import ZArith List Bool Lia.
From Verif Require Import Base BaseFacts Board Mem Cpu Asm Tools Devices Runner SpecMach SpecIsa SpecBus SpecObs SpecAsm SpecMap SpecDev SpecRun SpecPanic SpecScript.
From Verif Require Import Counter RegFacts MemFacts MonoFacts MapFacts CycleFacts CyclePost ReachFacts InvFacts DevTyped ProofAsm ProofMap ProofBoard ProofReg ProofRun ProofCrash ProofRom ProofDev ProofPanic SymFacts.
From Verif Require Import ProofScript.
Import ListNotations.
Open Scope Z_scope.

(** A script runs as the host does it. A machine whose boot ROM holds a script, with any other components: if the host, with the mapped
    memory of the machine once prepared, can do all the errands, then exec_vm returns after one cycle per word of the script, at its HALT,
    without exception, and the memory and the general registers are those of the host. *)
Theorem C85_runs : forall oc es s id sz rest m0 f' mem' cfg, Forall errand_wf es ->
  let rom := DRom (BootRom (script_words es) (zlen (script_words es)) s id) in
  declares (dev_ops oc) rom sz -> zlen (script_words es) * 4 <= sz -> prepare_vm (dev_ops oc) oc (rom :: rest) = Ret m0 -> cf_limit cfg = None ->
  host_runs (dev_ops oc) oc es (fun _ => 0) (c_mem m0) f' mem' ->
  forall fuel, script_length es + 1 < Z.of_nat fuel ->
  exists m', exec_vm (dev_ops oc) oc fuel cfg (rom :: rest) = Ret (Some (m', Stopped (script_length es + 1) (4 * script_length es) None)) /\
    c_halted m' = true /\ c_mem m' = mem' /\ forall r, general r -> R m' r = f' r.
Proof. exact P_C85_runs. Qed.
Print Assumptions C85_runs.

(** A script that sets a register, writes a word to RAM, reads it back, and stores it at the address in the register. *)
Example C85_runs_example : exists m0 f' mem', Forall errand_wf demo_script /\ declares (dev_ops true) (demo_rom demo_script) 256 /\ zlen (script_words demo_script) * 4 <= 256 /\
  prepare_vm (dev_ops true) true [demo_rom demo_script; DRam (StoreMem (zeros 64) 16 2)] = Ret m0 /\
  host_runs (dev_ops true) true demo_script (fun _ => 0) (c_mem m0) f' mem' /\ f' R_avr = 19088743 /\ (exists mem2, mem_read (dev_ops true) true mem' 260 = Ret (mem2, 0, 19088743)) /\ script_length demo_script = 15.
Proof. exact E_C85_runs. Qed.

(** A script stops at the first errand the host cannot do, if the run stops on exceptions: exec_vm returns at the instruction that does the access,
    with the documented exception; the memory is the one the failed access leaves, and nothing later is done. *)
Theorem C85_fails : forall oc es e es' s id sz rest m0 f mem mem1 code data cfg, Forall errand_wf (es ++ e :: es') ->
  let rom := DRom (BootRom (script_words (es ++ e :: es')) (zlen (script_words (es ++ e :: es'))) s id) in
  declares (dev_ops oc) rom sz -> zlen (script_words (es ++ e :: es')) * 4 <= sz -> prepare_vm (dev_ops oc) oc (rom :: rest) = Ret m0 ->
  cf_limit cfg = None -> cf_halt_on_ex cfg = true ->
  host_runs (dev_ops oc) oc es (fun _ => 0) (c_mem m0) f mem -> host_fails (dev_ops oc) oc e f mem mem1 code data ->
  forall fuel, script_length es + errand_length e < Z.of_nat fuel ->
  exists m', exec_vm (dev_ops oc) oc fuel cfg (rom :: rest) =
      Ret (Some (m', Stopped (script_length es + errand_length e) (4 * (script_length es + errand_length e - 1)) (Some (ExWithMode (16777216 + code * 65536 + data) true code data)))) /\
    c_mem m' = mem1.
Proof. exact P_C85_fails. Qed.
Print Assumptions C85_fails.

Example C85_fails_example : exists m0 f mem mem1, Forall errand_wf (failing_script ++ EPut 8 1 :: failing_rest) /\
  prepare_vm (dev_ops true) true [demo_rom (failing_script ++ EPut 8 1 :: failing_rest); DRam (StoreMem (zeros 64) 16 2)] = Ret m0 /\
  host_runs (dev_ops true) true failing_script (fun _ => 0) (c_mem m0) f mem /\ host_fails (dev_ops true) true (EPut 8 1) f mem mem1 160 12544.
Proof. exact E_C85_fails. Qed.
