(** Properties proved in ProofMoveDebug.v: statements only. Generated by tools/gen_props.py. *)
From Coq Require Import ZArith List Bool Lia.
From Verif Require Import Base Board Mem Cpu Asm Devices ReachFacts SpecMach SpecIsa SpecBus SpecObs SpecPanic SpecSim SpecTools SpecUser SpecMove BaseFacts RegFacts MemFacts InvFacts IsaFacts MonoFacts CyclePost ProofPanic ProofState ProofMap ProofCrash ProofUser ProofDebug ProofMove DevTyped ProofRun Demo.
From Verif Require Import ProofMoveDebug.
Import ListNotations.
Open Scope Z_scope.

(** In a build with overflow checks, with all mappings ending below 2^32, a crash does not depend on the place of the code either, unless it is the lookup of the fetch's page that overflows. *)
Theorem C91_debug : forall D (ops : bus_ops D) oc k m1 m2, typed ops -> wf m1 -> wf m2 -> ends_below (c_mem m1) -> moved k m1 m2 -> same_code ops m1 m2 ->
  (entry_overflows m1 (R m1 R_pc) <-> entry_overflows m2 (R m2 R_pc)) ->
  match next ops oc m1, next ops oc m2 with
  | Ret m1', Ret m2' => moved k m1' m2' \/ same_machine m1' m2'
  | Panic, Panic => True
  | _, _ => False
  end.
Proof. exact P_C91_debug. Qed.
Print Assumptions C91_debug.

Example C91_debug_example : exists m1 m2, wf m1 /\ wf m2 /\ ends_below (c_mem m1) /\ moved 8 m1 m2 /\ same_code words_ops m1 m2 /\ (entry_overflows m1 (R m1 R_pc) <-> entry_overflows m2 (R m2 R_pc)) /\ next words_ops true m1 = Panic /\ next words_ops true m2 = Panic.
Proof. exact E_C91_debug. Qed.

(** The same for a run. *)
Theorem C91_debug_run : forall D (ops : bus_ops D) oc k n m1 m2, typed ops -> wf m1 -> wf m2 -> ends_below (c_mem m1) -> moved k m1 m2 ->
  (forall j a b, (j < n)%nat -> run ops oc j m1 = Ret a -> run ops oc j m2 = Ret b -> R a R_pc <> R b R_pc ->
     same_code ops a b /\ (entry_overflows a (R a R_pc) <-> entry_overflows b (R b R_pc))) ->
  match run ops oc n m1, run ops oc n m2 with
  | Ret m1', Ret m2' => moved k m1' m2' \/ same_machine m1' m2'
  | Panic, Panic => True
  | _, _ => False
  end.
Proof. exact P_C91_debug_run. Qed.
Print Assumptions C91_debug_run.

Example C91_debug_run_example : exists m1 m2, reachable words_ops true m1 /\ wf m1 /\ wf m2 /\ ends_below (c_mem m1) /\ moved 8 m1 m2 /\
  (forall j a b, (j < 2)%nat -> run words_ops true j m1 = Ret a -> run words_ops true j m2 = Ret b -> R a R_pc <> R b R_pc ->
     same_code words_ops a b /\ (entry_overflows a (R a R_pc) <-> entry_overflows b (R b R_pc))) /\
  (exists m, run words_ops true 1 m1 = Ret m /\ R m R_a0 = 5) /\ run words_ops true 2 m1 = Panic /\ run words_ops true 2 m2 = Panic.
Proof. exact E_C91_debug_run. Qed.

(** The condition on the lookup of the page of the code cannot be dropped. *)
Theorem C91_debug_page_refuted : ~ (forall D (ops : bus_ops D) oc k m1 m2, typed ops -> wf m1 -> wf m2 -> ends_below (c_mem m1) -> moved k m1 m2 -> same_code ops m1 m2 ->
  match next ops oc m1, next ops oc m2 with
  | Ret m1', Ret m2' => moved k m1' m2' \/ same_machine m1' m2'
  | Panic, Panic => True
  | _, _ => False
  end).
Proof. exact P_C91_debug_page_refuted. Qed.
Print Assumptions C91_debug_page_refuted.
