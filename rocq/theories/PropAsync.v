(** Properties proved in ProofAsync.v: statements only. Generated by tools/gen_props.py. *)
From Coq Require Import String ZArith List Bool Lia Sorted.
From Verif Require Import Base BaseFacts Board Mem Cpu Asm Tools Devices Runner LasmRules Lasm Sources Counter Examples Async SpecMach SpecIsa SpecBus SpecObs SpecMap SpecDev SpecRun SpecPanic SpecExample SpecCounter SpecAsm.
From Verif Require Import RegFacts MemFacts MapFacts CycleFacts CyclePost ReachFacts InvFacts DevTyped ProofMap ProofBoard ProofReg ProofRun ProofCrash ProofRom SymFacts ProofTools ProofCounter AsyncFacts.
From Verif Require Import ProofAsync.
Import ListNotations.
Open Scope list_scope.
Open Scope Z_scope.

(** The example with any component in place of the counter that declares 4 bytes and whose successive reads give the words [v 0], [v 1], ...
    without exception: until 5 is read, what is displayed is each word that differs from the previous one (0 at first); when 5 is read the
    machine halts, without exception; if it never is, the machine runs for ever. *)
Theorem C77_any : forall C (cops : bus_ops C) oc c0 (c : nat -> C) (v : nat -> Z) id0 id1 id3, typed cops ->
  declares cops c0 4 -> bo_reset cops c0 = Ret (c O) -> (forall i, bo_read cops (c i) 0 = Ret (c (S i), 0, v i)) ->
  (forall j, (forall i, (i < j)%nat -> v i <> 5) -> v j = 5 -> forall fuel, (12 + 9 * j < fuel)%nat ->
     exists m cycles a, async_run cops oc fuel c0 id0 id1 id3 = Ret (Some (m, Stopped cycles a None)) /\ async_displayed 3 m = Some (changes 0 (map v (seq 0 (S j))))) /\
  ((forall i, v i <> 5) -> forall fuel, async_run cops oc fuel c0 id0 id1 id3 = Ret None).
Proof. exact P_C77_any. Qed.
Print Assumptions C77_any.

Example C77_any_example : typed async_ops /\ (forall id sched, declares async_ops (async_new id sched) 4) /\ exists c, bo_reset async_ops (async_new 7 steady) = Ret (c O) /\ forall i, bo_read async_ops (c i) 0 = Ret (c (S i), 0, increments steady i mod 2 ^ 32).
Proof. exact E_C77_any. Qed.

(** The async_hw example, for every schedule of the counting thread and every build: with [v i] the seconds counted at reading [i], until
    5 is read what is displayed is each [v i] that differs from the previous one; when 5 is read the machine halts, without exception; if it never is, the machine runs for ever. *)
Theorem C77_async : forall oc sched id0 id1 id2 id3, let v := fun i => increments sched i mod 2 ^ 32 in
  (forall j, (forall i, (i < j)%nat -> v i <> 5) -> v j = 5 -> forall fuel, (12 + 9 * j < fuel)%nat ->
     exists m cycles a, async_main oc fuel sched id0 id1 id2 id3 = Ret (Some (m, Stopped cycles a None)) /\ async_displayed 3 m = Some (changes 0 (map v (seq 0 (S j))))) /\
  ((forall i, v i <> 5) -> forall fuel, async_main oc fuel sched id0 id1 id2 id3 = Ret None).
Proof. exact P_C77_async. Qed.
Print Assumptions C77_async.

(** The generic statement applied to the counter under that schedule: reading number 49 is the first to give 5. *)
Example C77_async_example : (forall i, (i < 49)%nat -> increments steady i mod 2 ^ 32 <> 5) /\ increments steady 49 mod 2 ^ 32 = 5.
Proof. exact E_C77_async. Qed.

(** When the program reads the counter at least once per second (at most one increment between two readings) and the thread goes on to run,
    the example displays 1, 2, 3, 4, 5 and halts, without exception. *)
Theorem C77_counts : forall oc sched id0 id1 id2 id3, increments sched 0 <= 1 -> (forall i, increments sched (S i) <= increments sched i + 1) -> (exists i, 5 <= increments sched i) ->
  exists needed, forall fuel, (needed <= fuel)%nat -> exists m cycles a, async_main oc fuel sched id0 id1 id2 id3 = Ret (Some (m, Stopped cycles a None)) /\ async_displayed 3 m = Some [1; 2; 3; 4; 5].
Proof. exact P_C77_counts. Qed.
Print Assumptions C77_counts.

Example C77_counts_example : increments steady 0 <= 1 /\ (forall i, increments steady (S i) <= increments steady i + 1) /\ (exists i, 5 <= increments steady i).
Proof. exact E_C77_counts. Qed.

(** But when the program is late once (two increments or more between two readings) it may never stop: it is NOT the case that it stops whenever the counting thread goes on for ever. *)
Theorem C77_stops_refuted : ~ (forall oc sched id0 id1 id2 id3, (forall n, exists i, n <= increments sched i) -> exists fuel, async_main oc fuel sched id0 id1 id2 id3 <> Ret None).
Proof. exact P_C77_stops_refuted. Qed.
Print Assumptions C77_stops_refuted.
