(** Properties proved in ProofUser.v: statements only. Generated by tools/gen_props.py. *)
From Coq Require Import ZArith List Bool Lia.
From Verif Require Import Base Board Mem Cpu Asm SpecMach SpecIsa SpecBus SpecObs SpecSim SpecTotal SpecUser BaseFacts RegFacts MemFacts AluFacts IsaFacts IsaStep CycleFacts MonoFacts InvFacts CyclePost ProofPanic ProofRun Demo ProofState ProofTotal.
From Verif Require Import ProofUser.
Import ListNotations.
Open Scope Z_scope.

(** Two machines that differ only in hidden registers, in userland: a cycle of one and of the other give the same thing: again machines that differ only in hidden registers, or the same
    exception for both, or (a reset of the processor) the same machine; or both crash. *)
Theorem C87_cycle : forall D (ops : bus_ops D) m1 m2, typed ops -> wf m1 -> wf m2 -> user_alike m1 m2 -> sup_mode m1 = false ->
  both (fun m1' m2' => user_alike m1' m2' /\ sup_mode m1' = false \/ both_entered m1' m2' \/ same_machine m1' m2') (next ops false m1) (next ops false m2).
Proof. exact P_C87_cycle. Qed.
Print Assumptions C87_cycle.

Example C87_cycle_example : exists m1 m2, reachable words_ops false m1 /\ wf m1 /\ wf m2 /\ user_alike m1 m2 /\ R m1 R_ssp <> R m2 R_ssp /\ sup_mode m1 = false /\ exists m3, next words_ops false m1 = Ret m3 /\ R m3 R_a0 = 5.
Proof. exact E_C87_cycle. Qed.

(** The same for any number of cycles in userland. *)
Theorem C87_run : forall D (ops : bus_ops D) oc n m1 m2, typed ops -> wf m1 -> wf m2 -> user_alike m1 m2 ->
  (forall k m, (k < n)%nat -> run ops oc k m1 = Ret m -> sup_mode m = false) ->
  match run ops oc n m1, run ops oc n m2 with
  | Ret m1', Ret m2' => user_alike m1' m2' \/ both_entered m1' m2' \/ same_machine m1' m2'
  | Panic, Panic => True
  | _, _ => oc = true
  end.
Proof. exact P_C87_run. Qed.
Print Assumptions C87_run.

Example C87_run_example : exists m1 m2 m1' m2', wf m1 /\ wf m2 /\ user_alike m1 m2 /\ R m1 R_ssp <> R m2 R_ssp /\ (forall k m, (k < 2)%nat -> run words_ops false k m1 = Ret m -> sup_mode m = false) /\
  run words_ops false 2 m1 = Ret m1' /\ run words_ops false 2 m2 = Ret m2' /\ R m1' R_et = 240 * 65536 + 7 /\ R m2' R_et = 240 * 65536 + 7 /\ R m2' R_ssp = 77.
Proof. exact E_C87_run. Qed.

(** However long userland runs, the registers of the supervisor keep their values; the first cycle after which userland is left lands on the handler ev pointed to (cycles that reset the processor excepted). *)
Theorem C17_run : forall D (ops : bus_ops D) oc n m m', typed ops -> wf m -> sup_mode m = false ->
  (forall k mk, (k < n)%nat -> run ops oc k m = Ret mk -> sup_mode mk = false /\ ~ exists i mem1, fetches ops mk i mem1 /\ resets_cpu mk i) ->
  run ops oc n m = Ret m' ->
  (forall r, In r [R_ssp; R_ev; R_mtt; R_pda; R_era] -> R m' r = R m r) /\
  (sup_mode m' = false /\ R m' R_et = R m R_et \/ R m' R_smt = 1 /\ R m' R_pc = R m R_ev).
Proof. exact P_C17_run. Qed.
Print Assumptions C17_run.

(** The machine of C87: two cycles in userland, then the exception. *)
Example C17_run_example : exists m m', wf m /\ sup_mode m = false /\ run words_ops false 2 m = Ret m' /\ R m' R_smt = 1 /\ R m' R_pc = R m R_ev /\
  (forall k mk, (k < 2)%nat -> run words_ops false k m = Ret mk -> sup_mode mk = false /\ ~ exists i mem1, fetches words_ops mk i mem1 /\ resets_cpu mk i).
Proof. exact E_C17_run. Qed.
