(** Properties proved in ProofMmu.v: statements only. Generated by tools/gen_props.py. *)
From Coq Require Import ZArith List Bool Lia.
From Verif Require Import Base Board Mem Cpu Asm Tools Devices DevTyped SpecMach SpecIsa SpecBus SpecObs SpecTools SpecMap SpecMmu BaseFacts RegFacts MemFacts
  AluFacts IsaFacts IsaStep MonoFacts CycleFacts UndFacts HoareFacts CyclePost InvFacts MapFacts ReachFacts ExecFacts StepCases ProofAlu ProofState ProofReg ProofMem Demo.
From Verif Require Import ProofMmu.
Import ListNotations.
Open Scope Z_scope.

(** * C28 *)

(** With mtt = 0 the MMU answers the address itself, without touching memory, for every kind of access and in both builds. *)
Theorem C28_transparent : forall D (ops : bus_ops D) oc m a act, wf m -> R m R_mtt = 0 ->
  translate ops oc (c_mem m) (c_regs m) a act = Ret (c_mem m, TOk a).
Proof. exact P_C28_transparent. Qed.
Print Assumptions C28_transparent.

Example C28_transparent_example : demo_case (asm [Cpy R_a0 (Lit2 260); Lsa R_a1 (Reg1 R_a0) (Lit1 4)]) 1 (fun m i mem1 m' => R m R_mtt = 0 /\ R m R_a0 = 260 /\ sup_mode m = true).
Proof. exact E_C28_transparent. Qed.

(** Hence the accesses of a cycle are plain accesses of the mapped memory: fetch, *)
Theorem C28_fetch : forall D (ops : bus_ops D) m i mem1, R m R_mtt = 0 ->
  fetches ops m i mem1 <->
  R m R_pc mod 4 = 0 /\ exists w, mem_read ops false (c_mem m) (R m R_pc) = Ret (mem1, 0, w) /\ decode (bytes_of_word w) = ROk i.
Proof. exact P_C28_fetch. Qed.
Print Assumptions C28_fetch.

Example C28_fetch_example : demo_case (asm [Cpy R_a0 (Lit2 260); Lsa R_a1 (Reg1 R_a0) (Lit1 4)]) 1 (fun m i mem1 m' => R m R_mtt = 0 /\ fetches (dev_ops false) m (Lsa R_a1 (Reg1 R_a0) (Lit1 4)) mem1).
Proof. exact E_C28_fetch. Qed.

(** loads (LSA, LEA, POP, SRM use the same access), *)
Theorem C28_load : forall D (ops : bus_ops D) oc m d v add a w mem1 mem2 m', typed ops -> wf m -> R m R_mtt = 0 ->
  executes ops oc m (Lsa d v add) mem1 m' -> load_address m (Lsa d v add) = Some a -> a mod 4 = 0 ->
  mem_read ops false mem1 a = Ret (mem2, 0, w) -> can_write (sup_mode m) d = true ->
  after m m' mem2 [(d, w); (R_pc, (R m R_pc + 4) mod 2 ^ 32)].
Proof. exact P_C28_load. Qed.
Print Assumptions C28_load.

Example C28_load_example : demo_case (asm [Cpy R_a0 (Lit2 260); Wsa (Reg1 R_a0) (Lit1 4) (Lit1 9); Lsa R_a1 (Reg1 R_a0) (Lit1 4)]) 2 (fun m i mem1 m' =>
  R m R_mtt = 0 /\ load_address m i = Some 264 /\ R m' R_a1 = 9).
Proof. exact E_C28_load. Qed.

(** and stores. *)
Theorem C28_store : forall D (ops : bus_ops D) oc m v add val a w mem1 mem2 m', typed ops -> wf m -> R m R_mtt = 0 ->
  executes ops oc m (Wsa v add val) mem1 m' -> store_access m (Wsa v add val) = Some (a, w) -> a mod 4 = 0 ->
  mem_write ops false mem1 a w = Ret (mem2, 0) ->
  after m m' mem2 [(R_pc, (R m R_pc + 4) mod 2 ^ 32)].
Proof. exact P_C28_store. Qed.
Print Assumptions C28_store.

Example C28_store_example : demo_case (asm [Cpy R_a0 (Lit2 260); Wsa (Reg1 R_a0) (Lit1 4) (Lit1 9)]) 1 (fun m i mem1 m' =>
  R m R_mtt = 0 /\ i = Wsa (Reg1 R_a0) (Lit1 4) (Lit1 9) /\ store_access m i = Some (264, 9) /\
  match mem_write (dev_ops false) false mem1 264 9 with Ret (mem2, ex) => ex = 0 /\ mem2 <> mem1 | Panic => False end).
Proof. exact E_C28_store. Qed.

(** * C29 *)

(** With translation on, one page entry is read, at pda + 4 * (a mod 1024); then the address is let through unchanged or refused
    depending on one bit of it: no address is ever translated. *)
Theorem C29_outcome : forall D (ops : bus_ops D) m a act, wf m -> 0 <= a < 2 ^ 32 -> R m R_mtt <> 0 ->
  translate ops false (c_mem m) (c_regs m) a act =
  match mem_read ops false (c_mem m) ((R m R_pda + 4 * (a mod 1024)) mod 2 ^ 32) with
  | Panic => Panic
  | Ret (mem', ex, e) =>
      Ret (mem', if ex =? 0 then (if Z.testbit e (if sup_mode m then 31 else 30) then TRefused else TOk a) else THw ex)
  end.
Proof. exact P_C29_outcome. Qed.
Print Assumptions C29_outcome.

Example C29_outcome_example : demo_case page_prog 8 page_case.
Proof. exact E_C29_outcome. Qed.

(** In either build: an address that is answered is the one asked for. *)
Theorem C29_never_translates : forall D (ops : bus_ops D) oc m a act mem' p, wf m -> 0 <= a < 2 ^ 32 ->
  translate ops oc (c_mem m) (c_regs m) a act = Ret (mem', TOk p) -> p = a.
Proof. exact P_C29_never_translates. Qed.
Print Assumptions C29_never_translates.

(** With translation on and the page tables of the documentation. *)
Example C29_never_translates_example : demo_case page_prog 8 (fun m i mem1 m' => R m R_mtt = 1 /\
  match translate (dev_ops false) false (c_mem m) (c_regs m) 260 ActRead with Ret (mem', TOk p) => p = 260 | _ => False end).
Proof. exact E_C29_never_translates. Qed.

(** The documented translation is not what happens. *)
Theorem C29_documented_refuted : ~ (forall D (ops : bus_ops D) oc m d v add a p w mem1 mem2 mem3 m', typed ops -> wf m -> R m R_mtt <> 0 ->
  executes ops oc m (Lsa d v add) mem1 m' -> load_address m (Lsa d v add) = Some a -> a mod 4 = 0 ->
  documented_translation ops m mem1 ActRead a mem2 p -> mem_read ops false mem2 p = Ret (mem3, 0, w) ->
  can_write (sup_mode m) d = true -> d <> R_pc -> R m' d = w).
Proof. exact P_C29_documented_refuted. Qed.
Print Assumptions C29_documented_refuted.

(** * C30 *)

(** A refused access raises 0x06 with the low half of the address, whether it is a load, *)
Theorem C30_load : forall D (ops : bus_ops D) oc m i a e mem1 mem2 m', typed ops -> wf m -> executes ops oc m i mem1 m' ->
  load_address m i = Some a -> a mod 4 = 0 -> R m R_mtt <> 0 ->
  mem_read ops false mem1 ((R m R_pda + 4 * (a mod 1024)) mod 2 ^ 32) = Ret (mem2, 0, e) ->
  Z.testbit e (if sup_mode m then 31 else 30) = true -> raised m m' mem2 6 (a mod 2 ^ 16).
Proof. exact P_C30_load. Qed.
Print Assumptions C30_load.

(** The entry for address 40 refuses; then a load from there. *)
Example C30_load_example : demo_case (asm [Cpy R_a1 (Lit2 32768); Shl R_a1 (Lit1 16); Cpy R_a0 (Lit2 416); Wsa (Reg1 R_a0) (Lit1 0) (Reg1 R_a1);
       Cpy R_a2 (Lit2 40); Cpy R_pda (Lit2 256); Cpy R_mtt (Lit2 1); Lsa R_a3 (Reg1 R_a2) (Lit1 0)]) 7 (fun m i mem1 m' =>
  load_address m i = Some 40 /\ sup_mode m = true /\ R m R_mtt <> 0 /\ R m R_pda = 256 /\ R m' R_et = et_value true 6 40 /\
  match mem_read (dev_ops false) false mem1 416 with Ret (mem2, ex, e) => ex = 0 /\ e = 2 ^ 31 | Panic => False end).
Proof. exact E_C30_load. Qed.

(** a store, *)
Theorem C30_store : forall D (ops : bus_ops D) oc m i a w e mem1 mem2 m', typed ops -> wf m -> executes ops oc m i mem1 m' ->
  store_access m i = Some (a, w) -> a mod 4 = 0 -> R m R_mtt <> 0 ->
  mem_read ops false mem1 ((R m R_pda + 4 * (a mod 1024)) mod 2 ^ 32) = Ret (mem2, 0, e) ->
  Z.testbit e (if sup_mode m then 31 else 30) = true -> raised m m' mem2 6 (a mod 2 ^ 16).
Proof. exact P_C30_store. Qed.
Print Assumptions C30_store.

Example C30_store_example : demo_case (asm [Cpy R_a1 (Lit2 32768); Shl R_a1 (Lit1 16); Cpy R_a0 (Lit2 416); Wsa (Reg1 R_a0) (Lit1 0) (Reg1 R_a1);
       Cpy R_a2 (Lit2 40); Cpy R_pda (Lit2 256); Cpy R_mtt (Lit2 1); Wsa (Reg1 R_a2) (Lit1 0) (Lit1 1)]) 7 refuse_case.
Proof. exact E_C30_store. Qed.

(** or an instruction fetch. *)
Theorem C30_fetch : forall D (ops : bus_ops D) oc m e mem2 m', typed ops -> wf m -> c_halted m = false -> next ops oc m = Ret m' ->
  R m R_pc mod 4 = 0 -> R m R_mtt <> 0 ->
  mem_read ops false (c_mem m) ((R m R_pda + 4 * (R m R_pc mod 1024)) mod 2 ^ 32) = Ret (mem2, 0, e) ->
  Z.testbit e (if sup_mode m then 31 else 30) = true -> raised m m' mem2 6 (R m R_pc mod 2 ^ 16).
Proof. exact P_C30_fetch. Qed.
Print Assumptions C30_fetch.

(** The entry for address 32 refuses; then the fetch of the instruction there. *)
Example C30_fetch_example : exists m m' mem2, reachable (dev_ops false) false m /\ c_halted m = false /\ next (dev_ops false) false m = Ret m' /\
  R m R_pc = 32 /\ R m R_mtt = 1 /\ R m R_pda = 256 /\ sup_mode m = true /\
  mem_read (dev_ops false) false (c_mem m) 384 = Ret (mem2, 0, 2 ^ 31) /\ R m' R_et = et_value true 6 32.
Proof. exact E_C30_fetch. Qed.

(** The documented code 7 of a refused store is false. *)
Theorem C30_write_code_refuted : ~ (forall D (ops : bus_ops D) oc m i a w e mem1 mem2 m', typed ops -> wf m -> executes ops oc m i mem1 m' ->
  store_access m i = Some (a, w) -> a mod 4 = 0 -> R m R_mtt <> 0 ->
  mem_read ops false mem1 ((R m R_pda + 4 * (a mod 1024)) mod 2 ^ 32) = Ret (mem2, 0, e) ->
  Z.testbit e (if sup_mode m then 31 else 30) = true -> raised m m' mem2 7 (a mod 2 ^ 16)).
Proof. exact P_C30_write_code_refuted. Qed.
Print Assumptions C30_write_code_refuted.

(** The documented code 8 of a refused fetch is false. *)
Theorem C30_exec_code_refuted : ~ (forall D (ops : bus_ops D) oc m e mem2 m', typed ops -> wf m -> c_halted m = false -> next ops oc m = Ret m' ->
  R m R_pc mod 4 = 0 -> R m R_mtt <> 0 ->
  mem_read ops false (c_mem m) ((R m R_pda + 4 * (R m R_pc mod 1024)) mod 2 ^ 32) = Ret (mem2, 0, e) ->
  Z.testbit e (if sup_mode m then 31 else 30) = true -> raised m m' mem2 8 (R m R_pc mod 2 ^ 16)).
Proof. exact P_C30_exec_code_refuted. Qed.
Print Assumptions C30_exec_code_refuted.
