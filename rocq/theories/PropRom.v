(** Properties proved in ProofRom.v: statements only. Generated by tools/gen_props.py. *)
From Coq Require Import ZArith List Bool Lia.
From Verif Require Import Base Board Mem Cpu Asm Tools Devices Runner SpecMach SpecIsa SpecBus SpecObs SpecAsm SpecMap SpecDev SpecRun SpecSim BaseFacts RegFacts MemFacts MonoFacts IsaFacts CyclePost InvFacts MapFacts DevTyped ReachFacts ExecFacts Demo ProofState ProofBoard ProofPanic ProofReg ProofMap ProofHist ProofDev ProofRun ProofSim.
From Verif Require Import ProofRom.
Import ListNotations.
Open Scope Z_scope.

(** Boards whose components answer alike cannot be told apart: for every history of calls both crash or both are in states that look alike. *)
Theorem C70_histories : forall D1 D2 (o1 : bus_ops D1) (o2 : bus_ops D2) Rel oc ds1 ds2 cs, answer_alike o1 o2 Rel -> Forall2 Rel ds1 ds2 ->
  both (look_alike Rel) (obind (board_new o1 ds1) (api_run o1 oc cs)) (obind (board_new o2 ds2) (api_run o2 oc cs)).
Proof. exact P_C70_histories. Qed.
Print Assumptions C70_histories.

Example C70_histories_example : exists m1 m2, answer_alike words_ops counted_ops (fun d d' => d = fst d') /\
  obind (board_new words_ops [asm [Cpy R_a0 (Lit2 4); Halt]]) (api_run words_ops false [AMap 0 0; AReset; ANext; ANext]) = Ret m1 /\
  obind (board_new counted_ops [(asm [Cpy R_a0 (Lit2 4); Halt], O)]) (api_run counted_ops false [AMap 0 0; AReset; ANext; ANext]) = Ret m2 /\
  R m2 R_a0 = 4 /\ map ae_dev (c_hwb m2) <> map (fun d => (d, O)) (map ae_dev (c_hwb m1)).
Proof. exact E_C70_histories. Qed.

(** The same for a whole execution: same stop state, same answer about being still running, or both crash. *)
Theorem C70_exec : forall D1 D2 (o1 : bus_ops D1) (o2 : bus_ops D2) Rel oc fuel cfg ds1 ds2, answer_alike o1 o2 Rel -> Forall2 Rel ds1 ds2 ->
  both (fun x y => match x, y with Some (m1, s1), Some (m2, s2) => look_alike Rel m1 m2 /\ s1 = s2 | None, None => True | _, _ => False end)
    (exec_vm o1 oc fuel cfg ds1) (exec_vm o2 oc fuel cfg ds2).
Proof. exact P_C70_exec. Qed.
Print Assumptions C70_exec.

Example C70_exec_example : answer_alike words_ops counted_ops (fun d d' => d = fst d') /\ Forall2 (fun d d' => d = fst d') [asm [Halt]; []] [(asm [Halt], 5%nat); ([], O)].
Proof. exact E_C70_exec. Qed.

(** A program in a boot ROM, first on the board, is what the processor executes, for ever: whatever the cycles before have done,
    the word fetched at [4 j] (translation off) is the [j]-th word of the program, and fetching it changes nothing. *)
Theorem C70_fetch : forall oc prog s id rest sz m0 k m j w, Forall is_u32 prog ->
  let rom := DRom (BootRom prog (zlen prog) s id) in declares (dev_ops oc) rom sz ->
  prepare_vm (dev_ops oc) oc (rom :: rest) = Ret m0 -> run (dev_ops oc) oc k m0 = Ret m ->
  R m R_mtt = 0 -> nth_error prog j = Some w -> 4 * Z.of_nat j < sz -> loads (dev_ops oc) m (c_mem m) (4 * Z.of_nat j) w (c_mem m).
Proof. exact P_C70_fetch. Qed.
Print Assumptions C70_fetch.

Example C70_fetch_example : exists m0 m w, declares (dev_ops false) (DRom (BootRom loop_prog (zlen loop_prog) 64 1)) 256 /\ prepare_vm (dev_ops false) false (demo_devs loop_prog) = Ret m0 /\
  run (dev_ops false) false 6 m0 = Ret m /\ R m R_mtt = 0 /\ R m R_pc = 4 * 2 /\ R m R_a0 = 10 /\ nth_error loop_prog 2 = Some w.
Proof. exact E_C70_fetch. Qed.

(** Such a program runs exactly as the instruction-set specification composes along it; in a debug build the only other possibility
    is a crash. *)
Theorem C70_program : forall oc prog s id rest sz m0 n s', Forall is_u32 prog ->
  let rom := DRom (BootRom prog (zlen prog) s id) in declares (dev_ops oc) rom sz -> zlen prog * 4 <= sz ->
  prepare_vm (dev_ops oc) oc (rom :: rest) = Ret m0 -> follows (dev_ops oc) prog n (abs m0) s' ->
  match run (dev_ops oc) oc n m0 with Ret m' => abs m' = s' | Panic => oc = true end.
Proof. exact P_C70_program. Qed.
Print Assumptions C70_program.

Example C70_program_example : exists m0 s', declares (dev_ops false) (DRom (BootRom loop_prog (zlen loop_prog) 64 1)) 256 /\ zlen loop_prog * 4 <= 256 /\ Forall is_u32 loop_prog /\
  prepare_vm (dev_ops false) false (demo_devs loop_prog) = Ret m0 /\ follows (dev_ops false) loop_prog 13 (abs m0) s' /\ get s' R_a0 = 15.
Proof. exact E_C70_program. Qed.
