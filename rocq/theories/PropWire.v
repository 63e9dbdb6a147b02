(** Properties proved in ProofWire.v: statements only. Generated by tools/gen_props.py. *)
From Coq Require Import ZArith List Bool Lia Permutation.
From Verif Require Import Base Board Mem Cpu Asm SpecMach SpecIsa SpecBus SpecObs SpecSim SpecTotal SpecMap SpecWire BaseFacts RegFacts MemFacts AluFacts IsaFacts IsaStep CycleFacts MonoFacts InvFacts MapFacts ReachFacts CyclePost
  ExecFacts ProofMap ProofTotal ProofPanic ProofRun ProofMove Demo.
From Verif Require Import ProofWire.
Import ListNotations.
Open Scope Z_scope.

(** The order in which the components are mapped is invisible: with the same mappings in another order, the same program runs identically (HWD and RESET included). A debug
    build that returns agrees. *)
Theorem C94_order : forall D (ops : bus_ops D) n m1 m2, typed ops -> wf m1 -> wf m2 -> tidy false (c_mem m1) -> same_cpu m1 m2 -> reordered (c_mem m1) (c_mem m2) ->
  both (fun m1' m2' => same_cpu m1' m2' /\ reordered (c_mem m1') (c_mem m2')) (run ops false n m1) (run ops false n m2) /\
  forall m1' m2', run ops true n m1 = Ret m1' -> run ops true n m2 = Ret m2' -> same_cpu m1' m2' /\ reordered (c_mem m1') (c_mem m2').
Proof. exact P_C94_order. Qed.
Print Assumptions C94_order.

Example C94_order_example : exists m1 m2 m1', reachable words_ops false m1 /\ reachable words_ops false m2 /\ wf m1 /\ wf m2 /\ tidy false (c_mem m1) /\ same_cpu m1 m2 /\
  reordered (c_mem m1) (c_mem m2) /\ mm_maps (c_mem m1) <> mm_maps (c_mem m2) /\ run words_ops false 5 m1 = Ret m1' /\ R m1' R_a1 = 8.
Proof. exact E_C94_order. Qed.

(** The numbers of the components and the presence of components that are not mapped are invisible to a program that uses neither HWD nor RESET. *)
Theorem C94_wired : forall D (ops : bus_ops D) P n m1 m2, typed ops -> wf m1 -> wf m2 -> tidy false (c_mem m1) -> tidy false (c_mem m2) -> same_cpu m1 m2 -> wired P (c_mem m1) (c_mem m2) ->
  nameless_run ops n m1 ->
  both (fun m1' m2' => same_cpu m1' m2' /\ wired P (c_mem m1') (c_mem m2')) (run ops false n m1) (run ops false n m2) /\
  forall m1' m2', run ops true n m1 = Ret m1' -> run ops true n m2 = Ret m2' -> same_cpu m1' m2' /\ wired P (c_mem m1') (c_mem m2').
Proof. exact P_C94_wired. Qed.
Print Assumptions C94_wired.

Example C94_wired_example : exists m1 m2 m1', reachable words_ops false m1 /\ reachable words_ops false m2 /\ wf m1 /\ wf m2 /\ tidy false (c_mem m1) /\ tidy false (c_mem m2) /\ same_cpu m1 m2 /\
  wired swapped (c_mem m1) (c_mem m2) /\ nameless_run words_ops 5 m1 /\ run words_ops false 5 m1 = Ret m1' /\ R m1' R_a1 = 8 /\ c_halted m1' = true.
Proof. exact E_C94_wired. Qed.

(** * Mapping in another order *)

(** [map] requests that are all accepted are all accepted in any other order, and give the same mappings. *)
Theorem C94_maps : forall D oc (b b1 : memory D) l1 l2, mem_wf b -> tidy oc b -> Forall (fun q => is_u32 (fst q)) l1 -> Permutation l1 l2 -> map_all oc l1 b = Ret (Some b1) ->
  exists b2, map_all oc l2 b = Ret (Some b2) /\ reordered b1 b2.
Proof. exact P_C94_maps. Qed.
Print Assumptions C94_maps.

Example C94_maps_example : exists m0 b1, board_new words_ops [[7]; [8]; [9]] = Ret m0 /\ mem_wf (c_mem m0) /\ tidy true (c_mem m0) /\
  map_all true [(0, 2); (64, 0); (256, 1)] (c_mem m0) = Ret (Some b1) /\ Permutation [(0, 2); (64, 0); (256, 1)] [(256, 1); (0, 2); (64, 0)].
Proof. exact E_C94_maps. Qed.

(** * Witnesses *)
