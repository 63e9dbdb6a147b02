(** Properties proved in ProofHist.v: statements only. Generated by tools/gen_props.py. *)
From Coq Require Import ZArith List Bool Lia.
From Verif Require Import Base Board Mem Cpu Asm Tools Devices SpecMach SpecIsa SpecBus SpecObs SpecMap SpecDev BaseFacts MemFacts MapFacts
  RegFacts AluFacts IsaFacts IsaStep MonoFacts CycleFacts UndFacts HoareFacts CyclePost InvFacts ReachFacts ExecFacts StepCases ProofAlu DevTyped Demo ProofBoard.
From Verif Require Import ProofHist.
Import ListNotations.
Open Scope Z_scope.

(** Whatever programs run and whatever the host does through the API, a component is only ever asked for aligned words below the
    size it declared, and its state is the one these requests lead to. *)
Theorem C71_requests : forall D (ops : bus_ops D) oc cs m m' k e, typed ops -> wf m -> Forall api_wf cs ->
  api_run ops oc cs m = Ret m' -> znth (c_hwb m) k = Some e ->
  exists h xs d, Forall (in_range (ac_size (ae_cache e))) h /\ serve ops (ae_dev e) h = Ret (d, xs) /\
    znth (c_hwb m') k = Some (AuxEntry d (ae_cache e)).
Proof. exact P_C71_requests. Qed.
Print Assumptions C71_requests.

Example C71_requests_example : exists cs m0 m, let prog := asm [Cpy R_a0 (Lit2 256); Wsa (Reg1 R_a0) (Lit1 0) (Lit1 9); Halt] in
  Forall api_wf cs /\ board_new (dev_ops false) (demo_devs prog) = Ret m0 /\ wf m0 /\
  api_run (dev_ops false) false cs m0 = Ret m /\ (c_halted m && (c_cycles m =? 3) = true) /\
  option_map ae_dev (znth (c_hwb m) 1) <> option_map ae_dev (znth (c_hwb m0) 1).
Proof. exact E_C71_requests. Qed.

(** Nothing else happens to a component that no request of a given shape can change. *)
Theorem C71_invariant : forall D (ops : bus_ops D) oc (inv : D -> Prop) cs m m' k e, typed ops -> wf m -> Forall api_wf cs ->
  api_run ops oc cs m = Ret m' -> znth (c_hwb m) k = Some e -> inv (ae_dev e) ->
  (forall d r d' xs, inv d -> in_range (ac_size (ae_cache e)) r -> serve ops d [r] = Ret (d', xs) -> inv d') ->
  exists d, inv d /\ znth (c_hwb m') k = Some (AuxEntry d (ae_cache e)).
Proof. exact P_C71_invariant. Qed.
Print Assumptions C71_invariant.

(** A program that writes to a RAM; being a RAM with identifier 2 is kept by every request. *)
Example C71_invariant_example : exists m0 m e, board_new (dev_ops false) (demo_devs (asm [Cpy R_a0 (Lit2 256); Wsa (Reg1 R_a0) (Lit1 0) (Lit1 9); Halt])) = Ret m0 /\ wf m0 /\
  api_run (dev_ops false) false (demo_calls 3) m0 = Ret m /\ c_halted m = true /\ znth (c_hwb m0) 1 = Some e /\
  (let inv := fun d => exists s, d = DRam s /\ sm_hw_id s = 2 in inv (ae_dev e) /\
   forall d r d' xs, inv d -> in_range (ac_size (ae_cache e)) r -> serve (dev_ops false) d [r] = Ret (d', xs) -> inv d').
Proof. exact E_C71_invariant. Qed.
