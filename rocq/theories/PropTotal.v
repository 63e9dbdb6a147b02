(** Properties proved in ProofTotal.v: statements only. Generated by tools/gen_props.py. *)
From Coq Require Import ZArith List Bool Lia.
From Verif Require Import Base Board Mem Cpu Asm SpecMach SpecIsa SpecBus SpecObs SpecTotal BaseFacts RegFacts MemFacts AluFacts IsaFacts IsaStep CycleFacts MonoFacts InvFacts ProofPanic Demo ProofRun.
From Verif Require Import ProofTotal.
Import ListNotations.
Open Scope Z_scope.

(** One cycle from any state of any machine, whatever the memory holds, is one cycle of the specification. *)
Theorem C06_cycle : forall D (ops : bus_ops D) m, typed ops -> wf m -> omap abs (next ops false m) = cycle ops (abs m).
Proof. exact P_C06_cycle. Qed.
Print Assumptions C06_cycle.

Example C06_cycle_example : exists m m', wf m /\ c_halted m = false /\ next words_ops false m = Ret m' /\ cycle words_ops (abs m) = Ret (abs m') /\
  decode (bytes_of_word (26 * 2 ^ 27 + 32 * 2 ^ 16)) = RErr (UnknownRegister 0 32) /\ R m R_pc = 8 /\ R m' R_usp = 16 /\ R m' R_et = 4 * 65536 + 32.
Proof. exact E_C06_cycle. Qed.

(** So are any number of cycles; in a debug build the only other possibility is a crash. *)
Theorem C06_run : forall D (ops : bus_ops D) oc n m, typed ops -> wf m ->
  match run ops oc n m with Ret m' => cycles ops n (abs m) = Ret (abs m') | Panic => oc = true \/ cycles ops n (abs m) = Panic end.
Proof. exact P_C06_run. Qed.
Print Assumptions C06_run.

Example C06_run_example : exists m m', wf m /\ run words_ops true 3 m = Ret m' /\ cycles words_ops 3 (abs m) = Ret (abs m') /\ c_cycles m = 0 /\ R m' R_usp = 16 /\ R m' R_et = 4 * 65536 + 32.
Proof. exact E_C06_run. Qed.
