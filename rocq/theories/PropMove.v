(** Properties proved in ProofMove.v: statements only. Generated by tools/gen_props.py. *)
From Coq Require Import ZArith List Bool Lia.
From Verif Require Import Base Board Mem Cpu Asm Devices DevTyped SpecMach SpecIsa SpecBus SpecObs SpecTools SpecSim SpecTotal SpecUser SpecMove SpecLasm BaseFacts RegFacts MemFacts AluFacts IsaFacts IsaStep CycleFacts MonoFacts InvFacts CyclePost ReachFacts ExecFacts ProofAlu ProofPanic ProofRun Demo ProofState ProofReg ProofTotal.
From Verif Require Import ProofMove.
Import ListNotations.
Open Scope Z_scope.

(** The same instruction, executed at two places by machines otherwise alike, has the same effect: the machines end the same distance apart, or in the same state; or both crash. *)
Theorem C91_cycle : forall D (ops : bus_ops D) oc k m1 m2, typed ops -> wf m1 -> wf m2 -> moved k m1 m2 -> same_code ops m1 m2 ->
  match next ops oc m1, next ops oc m2 with
  | Ret m1', Ret m2' => moved k m1' m2' \/ same_machine m1' m2'
  | Panic, Panic => True
  | _, _ => oc = true
  end.
Proof. exact P_C91_cycle. Qed.
Print Assumptions C91_cycle.

Example C91_cycle_example : exists m1 m2 m1' m2', reachable (dev_ops false) false m1 /\ wf m2 /\ moved 4 m1 m2 /\ same_code (dev_ops false) m1 m2 /\
  next (dev_ops false) false m1 = Ret m1' /\ next (dev_ops false) false m2 = Ret m2' /\ R m1' R_a0 = 7 /\ R m2' R_a0 = 7 /\ R m1' R_pc = 4 /\ R m2' R_pc = 8.
Proof. exact E_C91_cycle. Qed.

(** So is a whole run, as long as the two machines, when they are at different places, find the same code there. *)
Theorem C91_run : forall D (ops : bus_ops D) oc k n m1 m2, typed ops -> wf m1 -> wf m2 -> moved k m1 m2 ->
  (forall j a b, (j < n)%nat -> run ops oc j m1 = Ret a -> run ops oc j m2 = Ret b -> R a R_pc <> R b R_pc -> same_code ops a b) ->
  match run ops oc n m1, run ops oc n m2 with
  | Ret m1', Ret m2' => moved k m1' m2' \/ same_machine m1' m2'
  | Panic, Panic => True
  | _, _ => oc = true
  end.
Proof. exact P_C91_run. Qed.
Print Assumptions C91_run.

Example C91_run_example : exists m1 m2 m1' m2', reachable (dev_ops false) false m1 /\ wf m2 /\ moved 4 m1 m2 /\
  (forall j a b, (j < 2)%nat -> run (dev_ops false) false j m1 = Ret a -> run (dev_ops false) false j m2 = Ret b -> R a R_pc <> R b R_pc -> same_code (dev_ops false) a b) /\
  run (dev_ops false) false 2 m1 = Ret m1' /\ run (dev_ops false) false 2 m2 = Ret m2' /\ R m1' R_a0 = 14 /\ R m2' R_a0 = 14 /\ R m1' R_pc = 8 /\ R m2' R_pc = 12.
Proof. exact E_C91_run. Qed.

(** When the instruction raises an exception (et changes), nothing is left of the place where it was: the machines end in the same state, so no handler can find the way back. *)
Theorem C91_forgets : forall D (ops : bus_ops D) oc k m1 m2 m1' m2', typed ops -> wf m1 -> wf m2 -> moved k m1 m2 -> same_code ops m1 m2 ->
  next ops oc m1 = Ret m1' -> next ops oc m2 = Ret m2' -> R m1' R_et <> R m1 R_et -> same_machine m1' m2'.
Proof. exact P_C91_forgets. Qed.
Print Assumptions C91_forgets.

Example C91_forgets_example : exists m1 m2 m1' m2', reachable (dev_ops false) false m1 /\ wf m2 /\ moved 4 m1 m2 /\ same_code (dev_ops false) m1 m2 /\
  next (dev_ops false) false m1 = Ret m1' /\ next (dev_ops false) false m2 = Ret m2' /\ R m1' R_et <> R m1 R_et /\ R m1 R_pc = 0 /\ R m2 R_pc = 4.
Proof. exact E_C91_forgets. Qed.

(** A program that leaves a way back: it puts pc in rr0 and adds 8 before its ITR. A handler that ends, still in supervisor mode with rr0 unchanged, with LSM rr0 comes back to the instruction after the ITR, in userland. *)
Theorem C91_way_back : forall D (ops : bus_ops D) oc m v x mem1 m1 mem2 m2 mem3 m3 n h mem4 m4, typed ops -> wf m -> sup_mode m = false ->
  executes ops oc m (Cpy R_rr0 (Reg2 R_pc)) mem1 m1 -> executes ops oc m1 (Add R_rr0 (Lit2 8)) mem2 m2 -> operand1 m2 v = Some x -> executes ops oc m2 (Itr v) mem3 m3 ->
  run ops oc n m3 = Ret h -> sup_mode h = true -> R h R_rr0 = R m3 R_rr0 -> executes ops oc h (Lsm (Reg2 R_rr0)) mem4 m4 ->
  (sup_mode m3 = true /\ R m3 R_pc = R m R_ev /\ R m3 R_et = et_value false 240 (x mod 65536) /\ forall r, ~ In r [R_rr0; R_af; R_pc; R_et; R_smt] -> R m3 r = R m r) /\
  (sup_mode m4 = false /\ R m4 R_pc = (R m R_pc + 12) mod 2 ^ 32 /\ forall r, ~ In r [R_pc; R_smt] -> R m4 r = R h r).
Proof. exact P_C91_way_back. Qed.
Print Assumptions C91_way_back.

(** The supervisor sets the vector to 0x20 and leaves for userland at 0x0C; the handler stores 1 in a0. *)
Example C91_way_back_example : exists m mem1 m1 mem2 m2 mem3 m3 h mem4 m4, reachable (dev_ops false) false m /\ sup_mode m = false /\
  executes (dev_ops false) false m (Cpy R_rr0 (Reg2 R_pc)) mem1 m1 /\ executes (dev_ops false) false m1 (Add R_rr0 (Lit2 8)) mem2 m2 /\ operand1 m2 (Lit1 5) = Some 5 /\ executes (dev_ops false) false m2 (Itr (Lit1 5)) mem3 m3 /\
  run (dev_ops false) false 1 m3 = Ret h /\ sup_mode h = true /\ R h R_rr0 = R m3 R_rr0 /\ executes (dev_ops false) false h (Lsm (Reg2 R_rr0)) mem4 m4 /\
  R m R_pc = 12 /\ R m4 R_pc = 24 /\ R m4 R_a0 = 1 /\ sup_mode m4 = false.
Proof. exact E_C91_way_back. Qed.

(** The documentation says that era holds the address that raised an exception: it does not. *)
Theorem C91_era_refuted : ~ (forall D (ops : bus_ops D) oc m v mem1 m', typed ops -> wf m -> executes ops oc m (Itr v) mem1 m' -> R m' R_era = R m R_pc).
Proof. exact P_C91_era_refuted. Qed.
Print Assumptions C91_era_refuted.
