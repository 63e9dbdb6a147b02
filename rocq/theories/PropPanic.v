(** Properties proved in ProofPanic.v: statements only. Generated by tools/gen_props.py. *)
From Coq Require Import ZArith List Bool Lia.
From Verif Require Import Base Board Mem Cpu Asm Tools Devices DevTyped SpecMach SpecIsa SpecBus SpecObs SpecMap BaseFacts RegFacts MemFacts
  AluFacts IsaFacts IsaStep MonoFacts CycleFacts UndFacts HoareFacts CyclePost InvFacts MapFacts ReachFacts ExecFacts StepCases ProofAlu Demo.
From Verif Require Import ProofPanic.
Import ListNotations.
Open Scope Z_scope.

(** * C02 *)

(** The guest can crash the host, in every build, by pointing the page directory at an unaligned address. *)
Theorem C02_no_panic_refuted : ~ (forall D (ops : bus_ops D) inv m, typed ops -> behaved ops inv ->
  reachable ops false m -> devs_ok inv (c_mem m) -> exists m', next ops false m = Ret m').
Proof. exact P_C02_no_panic_refuted. Qed.
Print Assumptions C02_no_panic_refuted.

(** * C03 *)

(** A debug build that returns agrees with the release build. *)
Theorem C03_agree : forall D (ops : bus_ops D) n m m', run ops true n m = Ret m' -> run ops false n m = Ret m'.
Proof. exact P_C03_agree. Qed.
Print Assumptions C03_agree.

Example C03_agree_example : exists m m', words_run true 0 (map encode_word [Cpy R_a0 (Lit2 7); Sub R_a0 (Lit2 8); Halt]) 0 = Ret m /\ run words_ops true 3 m = Ret m' /\
  R m' R_a0 = 4294967295 /\ c_halted m' = true.
Proof. exact E_C03_agree. Qed.

(** In a debug build the guest can crash the host even without translation (the exact conditions are those of [C03_exact]). *)
Theorem C03_no_panic_refuted : ~ (forall D (ops : bus_ops D) inv m, typed ops -> behaved ops inv -> reachable ops true m ->
  devs_ok inv (c_mem m) -> R m R_mtt = 0 -> exists m', next ops true m = Ret m').
Proof. exact P_C03_no_panic_refuted. Qed.
Print Assumptions C03_no_panic_refuted.
