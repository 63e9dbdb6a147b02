(** Properties proved in ProofBoard.v: statements only. Generated by tools/gen_props.py. *)
From Coq Require Import ZArith List Bool Lia.
From Verif Require Import Base Board Mem Cpu Asm Tools Devices DevTyped SpecMach SpecIsa SpecBus SpecObs SpecMap BaseFacts RegFacts MemFacts
  AluFacts IsaFacts IsaStep MonoFacts CycleFacts UndFacts HoareFacts CyclePost InvFacts MapFacts ReachFacts ExecFacts StepCases ProofAlu Demo.
From Verif Require Import ProofBoard.
Import ListNotations.
Open Scope Z_scope.

(** * C38 *)

(** After a board reset, whatever happened before: supervisor mode, every other register 0, counter 0, running, and the
    mappings and component descriptions are those of before. *)
Theorem C38_reset_state : forall D (ops : bus_ops D) m m', board_reset ops m = Ret m' ->
  (forall r, R m' r = match r with R_smt => 1 | _ => 0 end) /\ c_cycles m' = 0 /\ c_halted m' = false /\
  mm_maps (c_mem m') = mm_maps (c_mem m) /\ map ae_cache (c_hwb m') = map ae_cache (c_hwb m).
Proof. exact P_C38_reset_state. Qed.
Print Assumptions C38_reset_state.

Example C38_reset_state_example : exists m m', reachable (dev_ops false) false m /\ board_reset (dev_ops false) m = Ret m' /\
  R m R_a0 = 7 /\ c_cycles m = 3 /\ c_halted m = true /\ length (mm_maps (c_mem m)) = 2%nat /\ R m' R_a0 = 0.
Proof. exact E_C38_reset_state. Qed.

(** Resetting twice is resetting once, for the CPU. *)
Theorem C38_idempotent : forall D (ops : bus_ops D) m m' m'', board_reset ops m = Ret m' -> board_reset ops m' = Ret m'' ->
  (forall r, R m'' r = R m' r) /\ c_cycles m'' = c_cycles m' /\ c_halted m'' = c_halted m' /\
  mm_maps (c_mem m'') = mm_maps (c_mem m').
Proof. exact P_C38_idempotent. Qed.
Print Assumptions C38_idempotent.

Example C38_idempotent_example : exists m m' m'', reachable (dev_ops false) false m /\ board_reset (dev_ops false) m = Ret m' /\ board_reset (dev_ops false) m' = Ret m'' /\ R m R_a0 = 7 /\ R m'' R_a0 = 0.
Proof. exact E_C38_idempotent. Qed.

(** * C39 *)

(** Every component receives exactly one reset (its new state is one reset away from the old one), keeps its place and its
    description; there are no other components; and the board reset panics only if the reset of a component does. *)
Theorem C39_each_once : forall D (ops : bus_ops D) m m', board_reset ops m = Ret m' ->
  length (c_hwb m') = length (c_hwb m) /\
  forall k e, znth (c_hwb m) k = Some e ->
    exists d, bo_reset ops (ae_dev e) = Ret d /\ znth (c_hwb m') k = Some (AuxEntry d (ae_cache e)).
Proof. exact P_C39_each_once. Qed.
Print Assumptions C39_each_once.

(** Two RAMs written to by a program are zero after the reset. *)
Example C39_each_once_example : demo_case (asm [Cpy R_a0 (Lit2 256); Wsa (Reg1 R_a0) (Lit1 4) (Lit1 9); Halt]) 2 (fun m i mem1 m' =>
  match znth (c_hwb m) 1, board_reset (dev_ops false) m with
  | Some e, Ret m' => match znth (c_hwb m') 1 with
                      | Some e' => ae_dev e <> ae_dev e' /\ bo_reset (dev_ops false) (ae_dev e) = Ret (ae_dev e') | None => False end
  | _, _ => False
  end).
Proof. exact E_C39_each_once. Qed.

(** Resetting the board panics exactly when the reset of one of its components does. *)
Theorem C39_panic : forall D (ops : bus_ops D) m,
  board_reset ops m = Panic <-> exists e, In e (c_hwb m) /\ bo_reset ops (ae_dev e) = Panic.
Proof. exact P_C39_panic. Qed.
Print Assumptions C39_panic.

(** A component whose reset panics, beside one whose reset does not. *)
Example C39_panic_example :
  let ops := {| bo_name := fun _ : bool => [65]; bo_metadata := fun _ => Ret (W8 0 1 64 0 0 0 0 0);
                bo_read := fun d _ => Ret (d, 0, 0); bo_write := fun d _ _ => Ret (d, 0); bo_reset := fun d => if d then Panic else Ret d |} in
  exists m m2, board_new ops [false; true] = Ret m /\ board_reset ops m = Panic /\ board_new ops [false; false] = Ret m2 /\ board_reset ops m2 <> Panic.
Proof. exact E_C39_panic. Qed.

(** * C37 *)

(** Over any history of API calls (cycles, resets, mappings, host reads and writes) a component that is not mapped
    at the end (hence never was) is only ever reset: whatever it would log about reads or writes, it did not log. *)
Theorem C37_isolated : forall D (ops : bus_ops D) oc cs m m' k e, typed ops -> wf m -> Forall api_wf cs ->
  api_run ops oc cs m = Ret m' -> ~ mapped (c_mem m') k -> znth (c_hwb m) k = Some e ->
  exists n d, after_resets ops n (ae_dev e) d /\ znth (c_hwb m') k = Some (AuxEntry d (ae_cache e)).
Proof. exact P_C37_isolated. Qed.
Print Assumptions C37_isolated.

(** A board with a third, unmapped, component. *)
Example C37_isolated_example :
  let ds := demo_devs (asm [Cpy R_a0 (Lit2 256); Wsa (Reg1 R_a0) (Lit1 0) (Lit1 9); Halt]) ++ [DRam (StoreMem (zeros 64) 16 3)] in
  exists m0 m', board_new (dev_ops false) ds = Ret m0 /\ wf m0 /\
    api_run (dev_ops false) false (demo_calls 3) m0 = Ret m' /\ c_halted m' = true /\
    (forall k, mapped (c_mem m') k <-> k = 0 \/ k = 1) /\ znth (c_hwb m') 1 <> znth (c_hwb m0) 1 /\ znth (c_hwb m0) 2 <> None.
Proof. exact E_C37_isolated. Qed.

(** In one cycle it is left alone, unless the instruction is RESET, which may reset it once. *)
Theorem C37_cycle : forall D (ops : bus_ops D) oc m m' k e, typed ops -> wf m ->
  next ops oc m = Ret m' -> ~ mapped (c_mem m) k -> znth (c_hwb m) k = Some e ->
  znth (c_hwb m') k = Some e \/
  ((exists v mem1, fetches ops m (Reset v) mem1) /\
   exists d, bo_reset ops (ae_dev e) = Ret d /\ znth (c_hwb m') k = Some (AuxEntry d (ae_cache e))).
Proof. exact P_C37_cycle. Qed.
Print Assumptions C37_cycle.

(** A machine with a third component, unmapped. *)
Example C37_cycle_example :
  let ds := demo_devs (asm [Cpy R_a0 (Lit2 256); Halt]) ++ [DRam (StoreMem (zeros 64) 16 3)] in
  exists m0 m m' e, board_new (dev_ops false) ds = Ret m0 /\ wf m0 /\ api_run (dev_ops false) false (demo_calls 0) m0 = Ret m /\ next (dev_ops false) false m = Ret m' /\
    ~ mapped (c_mem m) 2 /\ znth (c_hwb m) 2 = Some e /\ R m' R_a0 = 256.
Proof. exact E_C37_cycle. Qed.

(** * C40 *)

(** Whatever happens to the board, component [k] is described by the metadata it had, and the longest prefix of its name
    that fits in 32 bytes, when the board was built. *)
Theorem C40_description : forall D (ops : bus_ops D) oc ds cs m0 m k d, typed ops ->
  board_new ops ds = Ret m0 -> Forall api_wf cs -> api_run ops oc cs m0 = Ret m -> znth ds k = Some d ->
  exists e md, znth (c_hwb m) k = Some e /\ bo_metadata ops d = Ret md /\
    longest_prefix32 (bo_name ops d) (ac_name (ae_cache e)) /\
    ac_metadata (ae_cache e) = md /\ ac_id (ae_cache e) = k /\ ac_size (ae_cache e) = w2 md /\
    ac_hw_id (ae_cache e) = w0 md * 2 ^ 32 + w1 md.
Proof. exact P_C40_description. Qed.
Print Assumptions C40_description.

(** A name of 20 two-byte characters is cut to 16. *)
Example C40_description_example :
  let ops := {| bo_name := fun _ : unit => repeat 233 20; bo_metadata := fun _ => Ret (W8 0 1 64 0 0 0 0 0);
                bo_read := fun d _ => Ret (d, 0, 0); bo_write := fun d _ _ => Ret (d, 0); bo_reset := fun d => Ret d |} in
  typed ops /\ exists m0 m e, board_new ops [tt] = Ret m0 /\ api_run ops false [AMap 0 0; AReset; ANext] m0 = Ret m /\
    znth (c_hwb m) 0 = Some e /\ ac_name (ae_cache e) = repeat 233 16 /\ c_cycles m = 1.
Proof. exact E_C40_description. Qed.
