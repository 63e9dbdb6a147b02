(** Properties proved in ProofTutorial.v: statements only. Generated by tools/gen_props.py. *)
From Coq Require Import ZArith List Bool Lia.
From Verif Require Import Base Board Mem Cpu Asm Tools Devices Runner SpecMach SpecIsa SpecBus SpecObs SpecMap SpecDev SpecRun BaseFacts RegFacts MemFacts AluFacts IsaFacts IsaStep CycleFacts MonoFacts InvFacts ReachFacts CyclePost
  DevTyped ProofPanic ProofRun Demo ProofState ProofMap ProofBoard ProofReg ProofMem ProofDev ProofRom SymFacts.
From Verif Require Import ProofTutorial.
Import ListNotations.
Open Scope Z_scope.

(** The processor fell on a word of opcode 0 at the address its exception vector points to: it stays there for ever. *)
Theorem C88_stuck : forall D (ops : bus_ops D) oc a w m n, wf m -> c_halted m = false -> sup_mode m = true -> R m R_mtt = 0 -> R m R_pc = a -> R m R_ev = a -> a mod 4 = 0 ->
  mem_read ops oc (c_mem m) a = Ret (c_mem m, 0, w) -> 0 <= w < 2 ^ 27 ->
  exists m', run ops oc (S n) m = Ret m' /\ c_halted m' = false /\ R m' R_pc = a /\ R m' R_et = et_value true 1 0 /\ c_mem m' = c_mem m /\
    c_cycles m' = (c_cycles m + Z.of_nat (S n)) mod 2 ^ 128 /\ forall r, r <> R_et -> R m' r = if reg_eq_dec r R_smt then 1 else R m r.
Proof. exact P_C88_stuck. Qed.
Print Assumptions C88_stuck.

Example C88_stuck_example : exists m, wf m /\ c_halted m = false /\ sup_mode m = true /\ R m R_mtt = 0 /\ R m R_pc = 4 /\ R m R_ev = 4 /\ mem_read words_ops false (c_mem m) 4 = Ret (c_mem m, 0, 99) /\
  exists m', run words_ops false 7 m = Ret m' /\ c_cycles m' = 8 /\ R m' R_pc = 4.
Proof. exact E_C88_stuck. Qed.

(** A board whose first component is a boot ROM with nothing in it, or a zero as first word: after any number of cycles it is still running at address 0, having raised exception 0x01 each time; and
    [run_vm] told to stop on exceptions stops after one cycle, reporting it; told to go on, it never returns. *)
Theorem C88_blank : forall oc prog s id rest sz m0, Forall is_u32 prog -> nth 0 prog 0 = 0 ->
  let rom := DRom (BootRom prog (zlen prog) s id) in declares (dev_ops oc) rom sz -> prepare_vm (dev_ops oc) oc (rom :: rest) = Ret m0 ->
  (forall n, exists m, run (dev_ops oc) oc n m0 = Ret m /\ c_halted m = false /\ R m R_pc = 0 /\ c_cycles m = Z.of_nat n mod 2 ^ 128 /\ R m R_et = (if (n =? 0)%nat then 0 else 2 ^ 24 + 2 ^ 16)) /\
  (forall cfg fuel, cf_halt_on_ex cfg = true -> cf_limit cfg = None -> (1 < fuel)%nat ->
    exists m st, run_vm (dev_ops oc) oc fuel cfg m0 = Ret (Some (m, st)) /\ sp_cycles st = 1 /\ sp_addr st = 0 /\ exists e, sp_ex st = Some e /\ xm_sv e = true /\ xm_code e = 1 /\ xm_data e = 0) /\
  (forall cfg fuel, cf_halt_on_ex cfg = false -> cf_limit cfg = None -> forall m st, run_vm (dev_ops oc) oc fuel cfg m0 <> Ret (Some (m, st))).
Proof. exact P_C88_blank. Qed.
Print Assumptions C88_blank.

(** An empty ROM of 0x1000 bytes and a RAM: ten cycles later it is still at address 0. *)
Example C88_blank_example : exists d m0 m, br_with_size [] 4096 7 = Some d /\ br_storage d = [] /\ declares (dev_ops true) (DRom d) 4096 /\
  prepare_vm (dev_ops true) true [DRom d; DRam (StoreMem (zeros 4) 4 8)] = Ret m0 /\ run (dev_ops true) true 10 m0 = Ret m /\ c_cycles m = 10 /\ R m R_pc = 0.
Proof. exact E_C88_blank. Qed.

(** Which values of smt mean userland: writing 0 to it enters userland, writing anything else means supervisor. *)
Theorem C88_mode : forall D (ops : bus_ops D) oc m r mem1 m', typed ops -> wf m -> executes ops oc m (Cpy R_smt (Reg2 r)) mem1 m' -> sup_mode m = true ->
  (sup_mode m' = false <-> R m r = 0) /\ R m' R_smt = R m r.
Proof. exact P_C88_mode. Qed.
Print Assumptions C88_mode.

Example C88_mode_example : demo_case [236912640] 0 (fun m i mem1 m' => i = Cpy R_smt (Reg2 R_a0) /\ sup_mode m = true /\ R m R_a0 = 0 /\ sup_mode m' = false).
Proof. exact E_C88_mode. Qed.

(** The tutorial has it that 1 means userland. *)
Theorem C88_mode_refuted : ~ (forall D (ops : bus_ops D) oc m mem1 m', typed ops -> wf m -> executes ops oc m (Cpy R_smt (Lit2 1)) mem1 m' -> sup_mode m = true -> sup_mode m' = false).
Proof. exact P_C88_mode_refuted. Qed.
Print Assumptions C88_mode_refuted.

(** The tutorial has it that a reset halts the processor (it wakes it up, as C38 proves). *)
Theorem C88_reset_halts_refuted : ~ (forall D (ops : bus_ops D) m m', typed ops -> board_reset ops m = Ret m' -> c_halted m' = true).
Proof. exact P_C88_reset_halts_refuted. Qed.
Print Assumptions C88_reset_halts_refuted.

(** The tutorial says that pushing with ssp at 0x2000 leaves it at 0x1FFD: false. *)
Theorem C88_push_refuted : ~ (forall D (ops : bus_ops D) oc m v mem1 m', typed ops -> wf m -> executes ops oc m (Push v) mem1 m' -> sup_mode m = true -> R m R_ssp = 8192 -> R m' R_et = 0 -> R m' R_ssp = 8189).
Proof. exact P_C88_push_refuted. Qed.
Print Assumptions C88_push_refuted.

(** A reset gives a memory made with a size back the state it was made with, whatever was requested of it. *)
Theorem C88_renewed : forall oc size id d h mk, is_u32 size -> sm_new size id = Some d -> Forall (in_range size) h -> mk = DRam \/ mk = DFlash ->
  exists xs, serve (dev_ops oc) (mk d) (h ++ [ResetReq]) = Ret (mk d, xs).
Proof. exact P_C88_renewed. Qed.
Print Assumptions C88_renewed.

Example C88_renewed_example : exists d d' xs, sm_new 16 7 = Some d /\ serve (dev_ops false) (DRam d) [Write 4 9] = Ret (d', xs) /\ d' <> DRam d /\ Forall (in_range 16) [Write 4 9].
Proof. exact E_C88_renewed. Qed.

(** A memory made from given words does not get them back (the tutorial has it that a reset gives components their initial state). *)
Theorem C88_renewed_refuted : ~ (forall oc l id d, Forall is_u32 l -> sm_from l id = Some d -> exists xs, serve (dev_ops oc) (DRam d) [ResetReq] = Ret (DRam d, xs)).
Proof. exact P_C88_renewed_refuted. Qed.
Print Assumptions C88_renewed_refuted.
