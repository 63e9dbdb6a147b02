(** Properties proved in ProofCrash.v: statements only. Generated by tools/gen_props.py. *)
From Coq Require Import ZArith List Bool Lia.
From Verif Require Import Base Board Mem Cpu Asm Tools Devices DevTyped SpecMach SpecIsa SpecBus SpecObs SpecMap SpecAsm SpecDev SpecPanic BaseFacts RegFacts MemFacts
  AluFacts IsaFacts IsaStep MonoFacts CycleFacts UndFacts HoareFacts CyclePost InvFacts MapFacts ReachFacts ExecFacts StepCases ProofAlu ProofReg ProofMap ProofPanic ProofIo ProofCrate Demo.
From Verif Require Import ProofCrash.
Import ListNotations.
Open Scope Z_scope.

(** * C02 *)

(** With components that do not panic on aligned in-range accesses ([behaved]: [inv] is any invariant of theirs), a release-build
    cycle panics exactly when it starts with translation on and a page directory address that is not a multiple of 4. *)
Theorem C02_no_panic : forall D (ops : bus_ops D) inv m, typed ops -> behaved ops inv -> wf m -> devs_ok inv (c_mem m) ->
  (next ops false m = Panic <-> misaligned_table m) /\
  (forall m', next ops false m = Ret m' -> wf m' /\ devs_ok inv (c_mem m')).
Proof. exact P_C02_no_panic. Qed.
Print Assumptions C02_no_panic.

(** A machine about to execute with misaligned tables (it panics); one with aligned tables (it executes its CPY). *)
Example C02_no_panic_example : exists m1 m2 m3, reachable words_ops false m1 /\ reachable words_ops false m2 /\ typed words_ops /\ behaved words_ops (fun _ _ => True) /\
  misaligned_table m1 /\ next words_ops false m1 = Panic /\
  R m2 R_mtt = 1 /\ ~ misaligned_table m2 /\ next words_ops false m2 = Ret m3 /\ R m3 R_a0 = 5.
Proof. exact E_C02_no_panic. Qed.

(** A run of any length panics exactly when it reaches such a state before its last cycle. *)
Theorem C02_run : forall D (ops : bus_ops D) inv n m, typed ops -> behaved ops inv -> wf m -> devs_ok inv (c_mem m) ->
  run ops false n m = Panic <-> exists k m1, (k < n)%nat /\ run ops false k m = Ret m1 /\ misaligned_table m1.
Proof. exact P_C02_run. Qed.
Print Assumptions C02_run.

(** A page directory at address 2: the third cycle panics. *)
Example C02_run_example : exists m, reachable words_ops false m /\ wf m /\ behaved words_ops (fun _ _ => True) /\ devs_ok (fun _ _ => True) (c_mem m) /\
  (exists m', run words_ops false 2 m = Ret m') /\ run words_ops false 3 m = Panic.
Proof. exact E_C02_run. Qed.

(** In particular a machine that never turns translation on with a misaligned directory never panics. *)
Theorem C02_translation_off : forall D (ops : bus_ops D) inv n m, typed ops -> behaved ops inv -> wf m -> devs_ok inv (c_mem m) ->
  (forall k m1, run ops false k m = Ret m1 -> R m1 R_mtt = 0 \/ R m1 R_pda mod 4 = 0) -> exists m', run ops false n m = Ret m'.
Proof. exact P_C02_translation_off. Qed.
Print Assumptions C02_translation_off.

(** A program that never touches mtt: whatever the number of cycles, translation is off. *)
Example C02_translation_off_example : exists m, reachable words_ops false m /\ wf m /\ devs_ok (fun _ _ => True) (c_mem m) /\ c_halted m = false /\
  forall k m1, run words_ops false k m = Ret m1 -> R m1 R_mtt = 0 \/ R m1 R_pda mod 4 = 0.
Proof. exact E_C02_translation_off. Qed.

(** The same exact condition for any board made of the crate's own components, after any history of calls. *)
Theorem C02_crate_run : forall ds cs m0 m n, Forall crate_component ds -> Forall api_wf cs -> board_new (dev_ops false) ds = Ret m0 ->
  api_run (dev_ops false) false cs m0 = Ret m ->
  run (dev_ops false) false n m = Panic <-> exists k m1, (k < n)%nat /\ run (dev_ops false) false k m = Ret m1 /\ misaligned_table m1.
Proof. exact P_C02_crate_run. Qed.
Print Assumptions C02_crate_run.

Example C02_crate_run_example : exists rom ram kbd m0 m,
  br_new (asm [Cpy R_pda (Lit2 2); Cpy R_mtt (Lit2 1); Halt]) 1 = Some rom /\ sm_new 256 2 = Some ram /\ lk_new 16 3 (fun _ => [72; 105]) = Some kbd /\
  Forall crate_component [DRom rom; DRam ram; DKeyLine kbd; DClock (Clock 4 7 (fun _ => Some 5) (fun _ => 7) 1)] /\
  board_new (dev_ops false) [DRom rom; DRam ram; DKeyLine kbd; DClock (Clock 4 7 (fun _ => Some 5) (fun _ => 7) 1)] = Ret m0 /\
  api_run (dev_ops false) false [AMapContiguous 0 [0; 1; 2; 3]; AReset; ANext] m0 = Ret m /\ panics (run (dev_ops false) false 2 m) = true.
Proof. exact E_C02_crate_run. Qed.

(** * C03 *)

(** In a debug build (overflow checks on), with every mapping ending below 2^32: a cycle panics when it meets one of the listed
    unchecked overflows, and otherwise does exactly what the release build does. *)
Theorem C03_exact : forall D (ops : bus_ops D) m, typed ops -> wf m -> ends_below (c_mem m) ->
  (overflows ops m -> next ops true m = Panic) /\ (~ overflows ops m -> next ops true m = next ops false m).
Proof. exact P_C03_exact. Qed.
Print Assumptions C03_exact.

Example C03_exact_example :
  crashes_at (asm [If2 (Lit1 8) (Lit1 0) (Lit1 1)]) 0 /\
  crashes_at (asm [Cpy R_a0 (Lit2 0); Sub R_a0 (Lit2 1); Srm (Reg1 R_a0) (Lit1 1) R_a1]) 2 /\
  crashes_at (asm [Cpy R_pda (Lit2 0); Sub R_pda (Lit2 8); Cpy R_mtt (Lit2 1)]) 3 /\
  crashes_at (asm [Cpy R_pda (Lit2 0); Sub R_pda (Lit2 128); Cpy R_mtt (Lit2 1); Wsa (Lit1 200) (Lit1 0) (Lit1 1)]) 3.
Proof. exact E_C03_exact. Qed.

(** So with well-behaved components it panics exactly on those overflows and on misaligned page tables. *)
Theorem C03_panic : forall D (ops : bus_ops D) inv m, typed ops -> behaved ops inv -> wf m -> devs_ok inv (c_mem m) -> ends_below (c_mem m) ->
  next ops true m = Panic <-> overflows ops m \/ misaligned_table m.
Proof. exact P_C03_panic. Qed.
Print Assumptions C03_panic.

Example C03_panic_example : exists m, reachable words_ops true m /\ wf m /\ behaved words_ops (fun _ _ => True) /\ devs_ok (fun _ _ => True) (c_mem m) /\ ends_below (c_mem m) /\ next words_ops true m = Panic.
Proof. exact E_C03_panic. Qed.

(** A debug run panics exactly when it reaches such a state before its last cycle. *)
Theorem C03_run : forall D (ops : bus_ops D) inv n m, typed ops -> behaved ops inv -> wf m -> devs_ok inv (c_mem m) -> ends_below (c_mem m) ->
  run ops true n m = Panic <->
  exists k m1, (k < n)%nat /\ run ops true k m = Ret m1 /\ (overflows ops m1 \/ misaligned_table m1).
Proof. exact P_C03_run. Qed.
Print Assumptions C03_run.

(** An IF2 with flag number 8 in the second cycle. *)
Example C03_run_example : exists m, reachable words_ops true m /\ wf m /\ devs_ok (fun _ _ => True) (c_mem m) /\ ends_below (c_mem m) /\ (exists m1, run words_ops true 1 m = Ret m1) /\ run words_ops true 2 m = Panic.
Proof. exact E_C03_run. Qed.

(** Boards set up without [map_abs] satisfy the condition on mappings. *)
Theorem C03_mappings : forall D (ops : bus_ops D) ds cs m0 m, typed ops -> Forall api_wf cs -> Forall no_map_abs cs ->
  board_new ops ds = Ret m0 -> api_run ops true cs m0 = Ret m -> ends_below (c_mem m).
Proof. exact P_C03_mappings. Qed.
Print Assumptions C03_mappings.

Example C03_mappings_example : let cs := [AMap 0 0; AReset; ANext] in Forall api_wf cs /\ Forall no_map_abs cs /\ exists m0 m, board_new words_ops [asm [Halt]] = Ret m0 /\ api_run words_ops true cs m0 = Ret m /\ length (mm_maps (c_mem m)) = 1%nat.
Proof. exact E_C03_mappings. Qed.
