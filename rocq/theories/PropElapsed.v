(** Properties proved in ProofElapsed.v: statements only. Generated by tools/gen_props.py. *)
From Coq Require Import String ZArith List Bool Lia.
From Verif Require Import Base BaseFacts Board Mem Cpu Asm Tools Devices Runner LasmRules Lasm Sources Examples SpecMach SpecIsa SpecBus SpecObs SpecMap SpecDev SpecRun SpecPanic SpecExample.
From Verif Require Import Counter RegFacts MemFacts MapFacts CycleFacts CyclePost ReachFacts InvFacts DevTyped ProofMap ProofBoard ProofReg ProofRun ProofCrash ProofRom SymFacts.
From Verif Require Import ProofElapsed.
Import ListNotations.
Open Scope list_scope.
Open Scope Z_scope.

(** While the example runs, its display is given exactly the successive maxima of the elapsed seconds: after reading number [j] of the clock
    has been dealt with, at a cycle between [2 + 5 j] and [2 + 6 j], the numbers displayed are the readings 1 to [j] that are greater than
    all the readings before them, the reading 0 included; nothing else is ever displayed at these points, whatever the clock says. *)
Theorem C76_elapsed : forall oc words system instant, assemble_words elapsed_source = Some words -> exists ds m0,
  elapsed_devices words system instant = Ret ds /\ prepare_vm (dev_ops oc) oc ds = Ret m0 /\
  forall j, exists n m, (2 + 5 * j <= n <= 2 + 6 * j)%nat /\ run (dev_ops oc) oc n m0 = Ret m /\ c_halted m = false /\
    let reading i := seconds_between (instant 1%nat) (instant (2 + i)%nat) in
    displayed 2 m = Some (records (reading O) (map reading (seq 1 j))).
Proof. exact P_C76_elapsed. Qed.
Print Assumptions C76_elapsed.

(** A clock that jumps: 0, 0, 0, 1.5, 1, 4 seconds. *)
Example C76_elapsed_example : let instant n := nth n [5; 100; 100; 1500000100; 1000000100; 4000000100] 0 in
  let reading i := seconds_between (instant 1%nat) (instant (2 + i)%nat) in
  records (reading O) (map reading (seq 1 3)) = [1; 4].
Proof. exact E_C76_elapsed. Qed.

(** The example never ends, nor panics, nor meets an exception. *)
Theorem C76_forever : forall oc fuel system instant, elapsed_main oc fuel system instant = Ret None.
Proof. exact P_C76_forever. Qed.
Print Assumptions C76_forever.

Example C76_forever_example : elapsed_main true 60 (fun _ => Some 9) (fun n => Z.of_nat n) = Ret None.
Proof. exact E_C76_forever. Qed.
