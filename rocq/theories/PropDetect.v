(** Properties proved in ProofDetect.v: statements only. Generated by tools/gen_props.py. *)
From Coq Require Import String ZArith List Bool Lia.
From Verif Require Import Base BaseFacts Board Mem Cpu Asm Tools Devices Runner LasmRules Lasm Sources Examples SpecMach SpecIsa SpecBus SpecObs SpecMap SpecDev SpecRun SpecPanic SpecUtf8 SpecAsm SpecTools SpecExample.
From Verif Require Import Counter RegFacts MemFacts MapFacts CycleFacts CyclePost ReachFacts InvFacts DevTyped ProofMap ProofBoard ProofReg ProofRun ProofCrash ProofRom ProofUtf8 ProofTools SymFacts DetectFacts.
From Verif Require Import ProofDetect.
Import ListNotations.
Open Scope list_scope.
Open Scope Z_scope.

(** The hw_detect example, on a board of its three components and any others (at most 53 in all, the capacity of its table): it ends without
    error, and displays for each component, in order, exactly its description and its place in memory. *)
Theorem C75_detect : forall oc words id0 id1 id2 rest szs fuel, assemble_words hw_detect_source = Some words ->
  Forall2 (declares (dev_ops oc)) rest szs -> (forall d, In d rest -> exists d', bo_reset (dev_ops oc) d = Ret d') -> bootable oc (4096 :: 4096 :: 32 :: szs) ->
  (3 + length rest <= 53)%nat -> (9 + 47 * (3 + length rest) < fuel)%nat ->
  exists rom ram stack cs, br_with_size words 4096 id0 = Some rom /\ sm_new 4096 id1 = Some ram /\ sm_new 32 id2 = Some stack /\
    let ds := DRom rom :: DRam ram :: DRam stack :: rest in
    hw_detect_run oc fuel words id0 id1 id2 rest = Ret (Some cs) /\ length cs = length ds /\
    forall k d c, nth_error ds k = Some d -> nth_error cs k = Some c -> seen_as (dev_ops oc) (4096 :: 4096 :: 32 :: szs) k d c.
Proof. exact P_C75_detect. Qed.
Print Assumptions C75_detect.

Example C75_detect_example : exists words d sz, assemble_words hw_detect_source = Some words /\ declares (dev_ops true) d sz /\
  Forall2 (declares (dev_ops true)) [d; d] [sz; sz] /\ (forall x, In x [d; d] -> exists d', bo_reset (dev_ops true) x = Ret d') /\ bootable true [4096; 4096; 32; sz; sz] /\
  exists cs, hw_detect_run true 300 words 7 8 9 [d; d] = Ret (Some cs) /\ length cs = 5%nat /\ option_map cp_mapping (nth_error cs 4) = Some (Some (8256, 8287)).
Proof. exact E_C75_detect. Qed.

(** The example itself: three components, with the places they are mapped to. *)
Theorem C75_example : forall oc id0 id1 id2 fuel, 0 <= id0 < 2 ^ 64 -> 0 <= id1 < 2 ^ 64 -> 0 <= id2 < 2 ^ 64 -> (150 < fuel)%nat ->
  exists c0 c1 c2, hw_detect_main oc fuel id0 id1 id2 = Ret (Some [c0; c1; c2]) /\
    map cp_uid [c0; c1; c2] = [id0; id1; id2] /\ map cp_size [c0; c1; c2] = [4096; 4096; 32] /\
    map cp_mapping [c0; c1; c2] = [Some (0, 4095); Some (4096, 8191); Some (8192, 8223)].
Proof. exact P_C75_example. Qed.
Print Assumptions C75_example.

Example C75_example_example : exists cs, hw_detect_main true 151 7 8 (2 ^ 63) = Ret (Some cs) /\ map cp_uid cs = [7; 8; 2 ^ 63] /\ map cp_size cs = [4096; 4096; 32].
Proof. exact E_C75_example. Qed.
