(** Properties proved in ProofDebug.v: statements only. Generated by tools/gen_props.py. *)
From Coq Require Import ZArith List Bool Lia.
From Verif Require Import Base Board Mem Cpu Asm Devices ReachFacts SpecMach SpecIsa SpecBus SpecObs SpecPanic SpecSim SpecTotal SpecUser SpecMap SpecMemory SpecGuard BaseFacts RegFacts MemFacts InvFacts MonoFacts CyclePost ProofPanic ProofRun DevTyped Demo ProofState ProofMap ProofCrash ProofUser ProofGuard.
From Verif Require Import ProofDebug.
Import ListNotations.
Open Scope Z_scope.

(** In a build with overflow checks, with all mappings ending below 2^32, userland cannot make a crash depend on hidden registers either: a cycle of one machine and of the other crash both, or end both as said in [C87_cycle]. *)
Theorem C87_debug_cycle : forall D (ops : bus_ops D) oc m1 m2, typed ops -> wf m1 -> wf m2 -> ends_below (c_mem m1) -> user_alike m1 m2 -> sup_mode m1 = false ->
  both (fun m1' m2' => user_alike m1' m2' /\ sup_mode m1' = false \/ both_entered m1' m2' \/ same_machine m1' m2') (next ops oc m1) (next ops oc m2).
Proof. exact P_C87_debug_cycle. Qed.
Print Assumptions C87_debug_cycle.

Example C87_debug_cycle_example : exists m1 m2, reachable words_ops true m1 /\ wf m1 /\ wf m2 /\ ends_below (c_mem m1) /\ user_alike m1 m2 /\ R m1 R_ssp <> R m2 R_ssp /\ sup_mode m1 = false /\ exists m3, next words_ops true m1 = Ret m3 /\ R m3 R_a0 = 5.
Proof. exact E_C87_debug_cycle. Qed.

(** The same for any number of cycles in userland, in either build: both machines crash or neither does. *)
Theorem C87_debug_run : forall D (ops : bus_ops D) oc n m1 m2, typed ops -> wf m1 -> wf m2 -> ends_below (c_mem m1) -> user_alike m1 m2 ->
  (forall k m, (k < n)%nat -> run ops oc k m1 = Ret m -> sup_mode m = false) ->
  both (fun m1' m2' => user_alike m1' m2' \/ both_entered m1' m2' \/ same_machine m1' m2') (run ops oc n m1) (run ops oc n m2).
Proof. exact P_C87_debug_run. Qed.
Print Assumptions C87_debug_run.

Example C87_debug_run_example : exists m1 m2, wf m1 /\ wf m2 /\ ends_below (c_mem m1) /\ user_alike m1 m2 /\ R m1 R_ssp <> R m2 R_ssp /\ (forall k m, (k < 2)%nat -> run words_ops true k m1 = Ret m -> sup_mode m = false) /\
  run words_ops true 2 m1 = Panic /\ run words_ops true 2 m2 = Panic.
Proof. exact E_C87_debug_run. Qed.

(** Secrecy in both builds, with all mappings ending below 2^32: not even a crash depends on what guarded words contain. *)
Theorem C90_debug_secrecy : forall oc guard n m1 m2, wf m1 -> wf m2 -> ends_below (c_mem m1) -> R m1 R_mtt <> 0 -> veiled guard m1 m2 ->
  fenced (dev_ops oc) guard (R m1 R_pda) (c_mem m1) -> fenced (dev_ops oc) guard (R m2 R_pda) (c_mem m2) -> in_userland (dev_ops oc) oc (S n) m1 ->
  both (fun m1' m2' => veiled guard m1' m2' \/ both_left guard m1' m2') (run (dev_ops oc) oc (S n) m1) (run (dev_ops oc) oc (S n) m2).
Proof. exact P_C90_debug_secrecy. Qed.
Print Assumptions C90_debug_secrecy.

(** Both machines of the pair do the load, then both crash. *)
Example C90_debug_secrecy_example : exists m1 m2 m3, reachable (dev_ops true) true m1 /\ wf m1 /\ wf m2 /\ ends_below (c_mem m1) /\ R m1 R_mtt <> 0 /\ veiled vault_guard m1 m2 /\ holds (c_mem m1) vault_ram 5376 7 /\ holds (c_mem m2) vault_ram 5376 8 /\
  fenced (dev_ops true) vault_guard (R m1 R_pda) (c_mem m1) /\ fenced (dev_ops true) vault_guard (R m2 R_pda) (c_mem m2) /\ in_userland (dev_ops true) true 2 m1 /\
  next (dev_ops true) true m1 = Ret m3 /\ R m3 R_pc = 24 /\ run (dev_ops true) true 2 m1 = Panic /\ run (dev_ops true) true 2 m2 = Panic.
Proof. exact E_C90_debug_secrecy. Qed.
