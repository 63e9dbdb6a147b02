(** Properties proved in ProofExample.v: statements only. Generated by tools/gen_props.py. *)
From Coq Require Import String ZArith List Bool Lia.
From Verif Require Import Base BaseFacts Board Mem Cpu Asm Tools Devices Runner LasmRules Lasm Sources Examples SpecMach SpecIsa SpecBus SpecObs SpecMap SpecDev SpecRun SpecPanic.
From Verif Require Import RegFacts MemFacts MapFacts CycleFacts CyclePost ReachFacts InvFacts DevTyped ProofMap ProofBoard ProofReg ProofRun ProofCrash ProofRom SymFacts.
From Verif Require Import ProofExample.
Import ListNotations.
Open Scope Z_scope.

(** The benchmark ends, without exception, after exactly 6 * 2^24 cycles, in a release and in a debug build. *)
Theorem C74_benchmark : forall oc fuel, 6 * 2 ^ 24 < Z.of_nat fuel -> benchmark_main oc fuel = Ret (Some (Some (6 * 2 ^ 24))).
Proof. exact P_C74_benchmark. Qed.
Print Assumptions C74_benchmark.

Example C74_benchmark_example : 6 * 2 ^ 24 < Z.of_nat (Z.to_nat (6 * 2 ^ 24 + 1)) /\ benchmark_main true 60 = Ret None.
Proof. exact E_C74_benchmark. Qed.

(** The minimal example: one component, one instruction; it stops after one cycle without exception. *)
Theorem C74_minimal : forall oc fuel, (1 < fuel)%nat -> exists m a, minimal_main oc fuel = Ret (Some (m, Stopped 1 a None)) /\ c_halted m = true /\ c_cycles m = 1.
Proof. exact P_C74_minimal. Qed.
Print Assumptions C74_minimal.

Example C74_minimal_example : exists m a, minimal_main true 2 = Ret (Some (m, Stopped 1 a None)).
Proof. exact E_C74_minimal. Qed.
