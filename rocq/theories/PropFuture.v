(** Properties proved in ProofFuture.v: statements only. Generated by tools/gen_props.py. *)
From Coq Require Import String ZArith List Bool Lia.
From Verif Require Import Base Board Mem Cpu Asm Tools Runner Devices Console ReachFacts SpecMach SpecIsa SpecBus SpecObs SpecSim SpecUser BaseFacts RegFacts MemFacts InvFacts CyclePost ProofPanic ProofMap ProofRun DevTyped Demo.
From Verif Require Import ProofFuture.
Import ListNotations.
Open Scope Z_scope.

(** Two boards that show the same registers, memory, cycle count and halted flag have the same future, whatever is then done with them, in release and debug builds: what their past left inside the CPU besides (a scratch flag) plays no part. So a board can be saved and restored. *)
Theorem C98_future : forall D (ops : bus_ops D) oc cs m1 m2, wf m1 -> wf m2 -> same_machine m1 m2 -> both same_machine (api_run ops oc cs m1) (api_run ops oc cs m2).
Proof. exact P_C98_future. Qed.
Print Assumptions C98_future.

Example C98_future_example : exists m1 m2, reachable (dev_ops true) true m1 /\ reachable (dev_ops true) true m2 /\ wf m1 /\ wf m2 /\ same_machine m1 m2 /\ m1 <> m2 /\ R m1 R_pc = 4 /\ c_cycles m1 = 1 /\
  exists m, api_run (dev_ops true) true [ANext; ANext; AReset] m1 = Ret m.
Proof. exact E_C98_future. Qed.

(** What each answers meanwhile is the same too: reads, writes and mappings. *)
Theorem C98_answers : forall D (ops : bus_ops D) oc cs m1 m2 m1' m2' a w i, wf m1 -> wf m2 -> same_machine m1 m2 -> api_run ops oc cs m1 = Ret m1' -> api_run ops oc cs m2 = Ret m2' ->
  mem_read ops oc (c_mem m1') a = mem_read ops oc (c_mem m2') a /\ mem_write ops oc (c_mem m1') a w = mem_write ops oc (c_mem m2') a w /\ mem_map oc (c_mem m1') a i = mem_map oc (c_mem m2') a i.
Proof. exact P_C98_answers. Qed.
Print Assumptions C98_answers.

Example C98_answers_example : exists m1 m2 m1' m2', wf m1 /\ wf m2 /\ same_machine m1 m2 /\ m1 <> m2 /\ api_run (dev_ops true) true [ANext; ANext; AReset] m1 = Ret m1' /\ api_run (dev_ops true) true [ANext; ANext; AReset] m2 = Ret m2'.
Proof. exact E_C98_answers. Qed.

(** The runner prints the same lines on both, and stops in the same way or runs on in both. *)
Theorem C98_console : forall D (ops : bus_ops D) oc fuel cfg m1 m2, wf m1 -> wf m2 -> same_machine m1 m2 ->
  fst (run_vm_said ops oc fuel cfg m1) = fst (run_vm_said ops oc fuel cfg m2) /\
  both (fun x y => match x, y with Some (m1', s), Some (m2', s') => same_machine m1' m2' /\ s = s' | None, None => True | _, _ => False end)
    (snd (run_vm_said ops oc fuel cfg m1)) (snd (run_vm_said ops oc fuel cfg m2)).
Proof. exact P_C98_console. Qed.
Print Assumptions C98_console.

Example C98_console_example : exists m1 m2 l1 l2 m s, wf m1 /\ wf m2 /\ same_machine m1 m2 /\ m1 <> m2 /\ run_vm_said (dev_ops true) true 3 config_verbose m1 = ([l1; l2], Ret (Some (m, s))).
Proof. exact E_C98_console. Qed.
