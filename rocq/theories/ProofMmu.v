(** The memory management unit. *)
From Coq Require Import ZArith List Bool Lia.
From Verif Require Import Base Board Mem Cpu Asm Tools Devices DevTyped SpecMach SpecIsa SpecBus SpecObs SpecTools SpecMap SpecMmu BaseFacts RegFacts MemFacts
  AluFacts IsaFacts IsaStep MonoFacts CycleFacts UndFacts HoareFacts CyclePost InvFacts MapFacts ReachFacts ExecFacts StepCases ProofAlu ProofState ProofReg ProofMem Demo.
Import ListNotations.
Open Scope Z_scope.
Ltac Zify.zify_post_hook ::= Z.div_mod_to_equations.

(** * C28 *)
(** With mtt = 0 the MMU answers the address itself, without touching memory, for every kind of access and in both builds. *)
Lemma P_C28_transparent : forall D (ops : bus_ops D) oc m a act, wf m -> R m R_mtt = 0 ->
  translate ops oc (c_mem m) (c_regs m) a act = Ret (c_mem m, TOk a).
Proof. intros D ops oc m a act Hw Hm. unfold translate. rewrite r_mtt_R by apply Hw. rewrite Hm. reflexivity. Qed.
(** Hence the accesses of a cycle are plain accesses of the mapped memory: fetch, *)
Lemma P_C28_fetch : forall D (ops : bus_ops D) m i mem1, R m R_mtt = 0 ->
  fetches ops m i mem1 <->
  R m R_pc mod 4 = 0 /\ exists w, mem_read ops false (c_mem m) (R m R_pc) = Ret (mem1, 0, w) /\ decode (bytes_of_word w) = ROk i.
Proof.
  intros D ops m i mem1 Hm. unfold fetches, loads, passes. rewrite Hm. cbn [Z.eqb]. split.
  - intros (w & (Ha & mem & -> & Hr) & Hd). eauto.
  - intros (Ha & w & Hr & Hd). eauto 10.
Qed.
(** loads (LSA, LEA, POP, SRM use the same access), *)
Lemma P_C28_load : forall D (ops : bus_ops D) oc m d v add a w mem1 mem2 m', typed ops -> wf m -> R m R_mtt = 0 ->
  executes ops oc m (Lsa d v add) mem1 m' -> load_address m (Lsa d v add) = Some a -> a mod 4 = 0 ->
  mem_read ops false mem1 a = Ret (mem2, 0, w) -> can_write (sup_mode m) d = true ->
  after m m' mem2 [(d, w); (R_pc, (R m R_pc + 4) mod 2 ^ 32)].
Proof.
  intros D ops oc m d v add a w mem1 mem2 m' T Hw Hm He Ha Hal Hr Hc. cbn [load_address] in Ha.
  destruct (operand1 m v) as [x|] eqn:Ex; [|discriminate]. destruct (operand1 m add) as [y|] eqn:Ey; [|discriminate]. injection Ha as <-.
  eapply ends_after; eauto. cbn [step]. repeat (erewrite read1_ok by eauto).
  erewrite loads_load. { apply (ends_write_end (start m mem2) []); [sr|exact Hc]. }
  split; auto. exists mem1. split; auto. unfold passes. rewrite Hm. reflexivity.
Qed.
(** and stores. *)
Lemma P_C28_store : forall D (ops : bus_ops D) oc m v add val a w mem1 mem2 m', typed ops -> wf m -> R m R_mtt = 0 ->
  executes ops oc m (Wsa v add val) mem1 m' -> store_access m (Wsa v add val) = Some (a, w) -> a mod 4 = 0 ->
  mem_write ops false mem1 a w = Ret (mem2, 0) ->
  after m m' mem2 [(R_pc, (R m R_pc + 4) mod 2 ^ 32)].
Proof.
  intros D ops oc m v add val a w mem1 mem2 m' T Hw Hm He Ha Hal Hr. cbn [store_access] in Ha.
  destruct (operand1 m v) as [x|] eqn:Ex; [|discriminate]. destruct (operand1 m add) as [y|] eqn:Ey; [|discriminate].
  destruct (operand1 m val) as [z|] eqn:Ez; [|discriminate]. injection Ha as <- <-.
  eapply ends_after; eauto. cbn [step]. repeat (erewrite read1_ok by eauto).
  erewrite stores_store. { apply (ends_advance (start m mem2) [] (start m mem2)). sr. }
  split; auto. exists mem1. split; auto. unfold passes. rewrite Hm. reflexivity.
Qed.
Lemma E_C28_load : demo_case (asm [Cpy R_a0 (Lit2 260); Wsa (Reg1 R_a0) (Lit1 4) (Lit1 9); Lsa R_a1 (Reg1 R_a0) (Lit1 4)]) 2 (fun m i mem1 m' =>
  R m R_mtt = 0 /\ load_address m i = Some 264 /\ R m' R_a1 = 9).
Proof. demo_tac. Qed.

(** * C29 *)
(** With translation on, one page entry is read, at pda + 4 * (a mod 1024); then the address is let through unchanged or refused
    depending on one bit of it: no address is ever translated. *)
Lemma P_C29_outcome : forall D (ops : bus_ops D) m a act, wf m -> 0 <= a < 2 ^ 32 -> R m R_mtt <> 0 ->
  translate ops false (c_mem m) (c_regs m) a act =
  match mem_read ops false (c_mem m) ((R m R_pda + 4 * (a mod 1024)) mod 2 ^ 32) with
  | Panic => Panic
  | Ret (mem', ex, e) =>
      Ret (mem', if ex =? 0 then (if Z.testbit e (if sup_mode m then 31 else 30) then TRefused else TOk a) else THw ex)
  end.
Proof.
  intros D ops m a act Hw Ha Hm. rewrite translate_spec; [|split; apply Hw|exact Ha]. rewrite (proj2 (Z.eqb_neq _ _) Hm).
  change (2 ^ 32) with 4294967296. unfold m32. destruct (mem_read _ _ _ _) as [[[mem' ex] e]|]; auto. f_equal. f_equal.
  destruct (ex =? 0); reflexivity.
Qed.
(** In either build: an address that is answered is the one asked for. *)
Lemma P_C29_never_translates : forall D (ops : bus_ops D) oc m a act mem' p, wf m -> 0 <= a < 2 ^ 32 ->
  translate ops oc (c_mem m) (c_regs m) a act = Ret (mem', TOk p) -> p = a.
Proof.
  intros D ops oc m a act mem' p Hw Ha E.
  assert (E' : translate ops false (c_mem m) (c_regs m) a act = Ret (mem', TOk p)).
  { destruct oc; auto. pose proof (ole_translate ops (c_mem m) (c_regs m) a act) as O. rewrite E in O. cbn in O. auto. }
  destruct (Z.eq_dec (R m R_mtt) 0) as [Hm|Hm].
  - rewrite P_C28_transparent in E' by auto. congruence.
  - rewrite P_C29_outcome in E' by auto. destruct (mem_read _ _ _ _) as [[[mem1 ex] e]|]; [|discriminate].
    injection E' as _ E'. destruct (ex =? 0); [|discriminate]. destruct (Z.testbit _ _); congruence.
Qed.
(** Machines with translation on: executable check of [executes]. *)
Definition pass_check (m : cpu device) (mem : memory device) (a : Z) : option (memory device) :=
  if R m R_mtt =? 0 then Some mem
  else match mem_read (dev_ops false) false mem ((R m R_pda + 4 * (a mod 1024)) mod 2 ^ 32) with
       | Ret (mem1, 0, e) => if Z.testbit e (if sup_mode m then 31 else 30) then None else Some mem1
       | _ => None
       end.
Lemma pass_check_sound m mem a mem1 : pass_check m mem a = Some mem1 -> passes (dev_ops false) m a mem mem1.
Proof.
  unfold pass_check, passes. destruct (R m R_mtt =? 0). { intros E; injection E as <-; reflexivity. }
  destruct (mem_read _ _ _ _) as [[[mem2 ex] e]|]; [|discriminate]. destruct ex; try discriminate.
  destruct (Z.testbit _ _) eqn:Eb; [discriminate|]. intros E; injection E as <-. eauto.
Qed.
Definition exec_check_mmu (m : cpu device) : option (instr * memory device * cpu device) :=
  if c_halted m then None
  else if R m R_pc mod 4 =? 0 then
    match pass_check m (c_mem m) (R m R_pc) with
    | None => None
    | Some mem0 =>
      match mem_read (dev_ops false) false mem0 (R m R_pc) with
      | Ret (mem1, 0, w) =>
          match decode (bytes_of_word w), next (dev_ops false) false m with
          | ROk i, Ret m' => Some (i, mem1, m')
          | _, _ => None
          end
      | _ => None
      end
    end
  else None.
Lemma exec_check_mmu_sound m i mem1 m' : exec_check_mmu m = Some (i, mem1, m') ->
  executes (dev_ops false) false m i mem1 m'.
Proof.
  unfold exec_check_mmu. destruct (c_halted m) eqn:E1; [discriminate|].
  destruct (Z.eqb_spec (R m R_pc mod 4) 0) as [E3|]; [|discriminate].
  destruct (pass_check _ _ _) as [mem0|] eqn:E2; [|discriminate]. apply pass_check_sound in E2.
  destruct (mem_read _ _ _ _) as [[[mem ex] w]|] eqn:E4; [|discriminate]. destruct ex; try discriminate.
  destruct (decode _) eqn:E5; [|discriminate]. destruct (next _ _ _) eqn:E6; [|discriminate].
  intros H; injection H as <- <- <-. split; auto. split; auto. exists w. split; auto. split; auto. eauto.
Qed.
Lemma demo_case_mmu prog n (P : cpu device -> instr -> memory device -> cpu device -> Prop) :
  (match demo_run false prog n with
   | Ret m => match exec_check_mmu m with Some (i, mem1, m') => P m i mem1 m' | None => False end
   | Panic => False
   end) -> demo_case prog n P.
Proof.
  destruct (demo_run false prog n) as [m|] eqn:E; [|intros []]. destruct (exec_check_mmu m) as [[[i mem1] m']|] eqn:E'; [|intros []].
  intros H. exists m, i, mem1, m'. split; [eapply demo_reachable; eauto|]. split; [apply exec_check_mmu_sound; auto|auto].
Qed.
(** A program that builds the page tables of the documentation: the index at 256 has READ permission and page number 0; the entry
    at address 0 (the first instruction) has READ permission and physical page 1. The word 9 is at 260. *)
Definition page_prog : list Z :=
  asm [Sub R_a0 (Lit2 1); Cpy R_a1 (Lit2 8192); Shl R_a1 (Lit1 16); Cpy R_a0 (Lit2 256); Wsa (Reg1 R_a0) (Lit1 0) (Reg1 R_a1);
       Wsa (Reg1 R_a0) (Lit1 4) (Lit1 9); Cpy R_pda (Lit2 256); Cpy R_mtt (Lit2 1); Lsa R_a2 (Reg1 R_a0) (Lit1 4)].
Definition page_case (m : cpu device) (i : instr) (mem1 : memory device) (m' : cpu device) : Prop :=
  i = Lsa R_a2 (Reg1 R_a0) (Lit1 4) /\ load_address m i = Some 260 /\ sup_mode m = true /\ R m R_mtt <> 0 /\ R m R_pda = 256 /\ R m' R_a2 = 9 /\
  match mem_read (dev_ops false) false mem1 256 with
  | Ret (mem2, ex, e1) =>
      ex = 0 /\ e1 = 2 ^ 29 /\
      match mem_read (dev_ops false) false mem2 0 with
      | Ret (mem3, ex, e2) => ex = 0 /\ e2 = 603979777 /\
          match mem_read (dev_ops false) false mem3 1284 with Ret (mem4, ex, w) => ex = 0 /\ w = 0 | Panic => False end
      | Panic => False
      end
  | Panic => False
  end.
Lemma E_C29_outcome : demo_case page_prog 8 page_case.
Proof. apply demo_case_mmu. vm_compute. repeat split; discriminate. Qed.
(** The documented translation is not what happens. *)
Lemma P_C29_documented_refuted : ~ (forall D (ops : bus_ops D) oc m d v add a p w mem1 mem2 mem3 m', typed ops -> wf m -> R m R_mtt <> 0 ->
  executes ops oc m (Lsa d v add) mem1 m' -> load_address m (Lsa d v add) = Some a -> a mod 4 = 0 ->
  documented_translation ops m mem1 ActRead a mem2 p -> mem_read ops false mem2 p = Ret (mem3, 0, w) ->
  can_write (sup_mode m) d = true -> d <> R_pc -> R m' d = w).
Proof.
  intros H. destruct E_C29_outcome as (m & i & mem1 & m' & Hr & He & -> & Ha & Hs & Hm & Hp & Hv & X).
  destruct (mem_read _ _ mem1 256) as [[[mem2 ex] e1]|] eqn:E1; [|destruct X]. destruct X as (-> & -> & X).
  destruct (mem_read _ _ mem2 0) as [[[mem3 ex] e2]|] eqn:E2; [|destruct X]. destruct X as (-> & -> & X).
  destruct (mem_read _ _ mem3 1284) as [[[mem4 ex] w]|] eqn:E3; [|destruct X]. destruct X as (-> & ->).
  assert (Y : R m' R_a2 = 0).
  { eapply (H _ _ _ _ _ _ _ 260 1284 0 mem1 mem3 mem4 m' (dev_typed false) (reachable_wf _ (dev_typed false) _ _ Hr) Hm He Ha eq_refl).
    - change 1284 with (entry_number 603979777 * 1024 + 260 mod 2 ^ 10). apply (doc_page _ _ _ _ _ mem2 (2 ^ 29) mem3 603979777); rewrite ?Hs, ?Hp; auto.
    - exact E3.
    - rewrite Hs. reflexivity.
    - discriminate. }
  rewrite Hv in Y. discriminate Y.
Qed.

(** * C30 *)
(** A refused access raises 0x06 with the low half of the address, whether it is a load, *)
Lemma P_C30_load : forall D (ops : bus_ops D) oc m i a e mem1 mem2 m', typed ops -> wf m -> executes ops oc m i mem1 m' ->
  load_address m i = Some a -> a mod 4 = 0 -> R m R_mtt <> 0 ->
  mem_read ops false mem1 ((R m R_pda + 4 * (a mod 1024)) mod 2 ^ 32) = Ret (mem2, 0, e) ->
  Z.testbit e (if sup_mode m then 31 else 30) = true -> raised m m' mem2 6 (a mod 2 ^ 16).
Proof. intros. eapply P_C22_load; eauto. constructor. econstructor; eauto. Qed.
(** a store, *)
Lemma P_C30_store : forall D (ops : bus_ops D) oc m i a w e mem1 mem2 m', typed ops -> wf m -> executes ops oc m i mem1 m' ->
  store_access m i = Some (a, w) -> a mod 4 = 0 -> R m R_mtt <> 0 ->
  mem_read ops false mem1 ((R m R_pda + 4 * (a mod 1024)) mod 2 ^ 32) = Ret (mem2, 0, e) ->
  Z.testbit e (if sup_mode m then 31 else 30) = true -> raised m m' mem2 6 (a mod 2 ^ 16).
Proof. intros. eapply P_C22_store; eauto. constructor. econstructor; eauto. Qed.
(** or an instruction fetch. *)
Lemma P_C30_fetch : forall D (ops : bus_ops D) oc m e mem2 m', typed ops -> wf m -> c_halted m = false -> next ops oc m = Ret m' ->
  R m R_pc mod 4 = 0 -> R m R_mtt <> 0 ->
  mem_read ops false (c_mem m) ((R m R_pda + 4 * (R m R_pc mod 1024)) mod 2 ^ 32) = Ret (mem2, 0, e) ->
  Z.testbit e (if sup_mode m then 31 else 30) = true -> raised m m' mem2 6 (R m R_pc mod 2 ^ 16).
Proof. intros. eapply P_C06_fetch_fault; eauto. constructor. econstructor; eauto. Qed.
(** The entry for address 40 refuses; then a store there. *)
Definition refuse_case (m : cpu device) (i : instr) (mem1 : memory device) (m' : cpu device) : Prop :=
  i = Wsa (Reg1 R_a2) (Lit1 0) (Lit1 1) /\ store_access m i = Some (40, 1) /\ sup_mode m = true /\ R m R_mtt <> 0 /\ R m R_pda = 256 /\
  R m' R_et = et_value true 6 40 /\
  match mem_read (dev_ops false) false mem1 416 with Ret (mem2, ex, e) => ex = 0 /\ e = 2 ^ 31 | Panic => False end.
Lemma E_C30_store : demo_case (asm [Cpy R_a1 (Lit2 32768); Shl R_a1 (Lit1 16); Cpy R_a0 (Lit2 416); Wsa (Reg1 R_a0) (Lit1 0) (Reg1 R_a1);
       Cpy R_a2 (Lit2 40); Cpy R_pda (Lit2 256); Cpy R_mtt (Lit2 1); Wsa (Reg1 R_a2) (Lit1 0) (Lit1 1)]) 7 refuse_case.
Proof. apply demo_case_mmu. vm_compute. repeat split; discriminate. Qed.
(** The documented code 7 of a refused store is false. *)
Lemma P_C30_write_code_refuted : ~ (forall D (ops : bus_ops D) oc m i a w e mem1 mem2 m', typed ops -> wf m -> executes ops oc m i mem1 m' ->
  store_access m i = Some (a, w) -> a mod 4 = 0 -> R m R_mtt <> 0 ->
  mem_read ops false mem1 ((R m R_pda + 4 * (a mod 1024)) mod 2 ^ 32) = Ret (mem2, 0, e) ->
  Z.testbit e (if sup_mode m then 31 else 30) = true -> raised m m' mem2 7 (a mod 2 ^ 16)).
Proof.
  intros H. destruct E_C30_store as (m & i & mem1 & m' & Hr & He & -> & Ha & Hs & Hm & Hp & Hv & X).
  destruct (mem_read _ _ mem1 416) as [[[mem2 ex] e]|] eqn:E1; [|destruct X]. destruct X as (-> & ->).
  assert (Y : raised m m' mem2 7 (40 mod 2 ^ 16)).
  { eapply H; [apply dev_typed|eapply reachable_wf; eauto; apply dev_typed|exact He|exact Ha|reflexivity|exact Hm| |].
    - rewrite Hp. exact E1.
    - rewrite Hs. reflexivity. }
  destruct Y as [Y _]. specialize (Y R_et). rewrite Hv in Y. cbn in Y. rewrite Hs in Y. discriminate Y.
Qed.
(** The entry for address 32 refuses; then the fetch of the instruction there. *)
Lemma E_C30_fetch : exists m m' mem2, reachable (dev_ops false) false m /\ c_halted m = false /\ next (dev_ops false) false m = Ret m' /\
  R m R_pc = 32 /\ R m R_mtt = 1 /\ R m R_pda = 256 /\ sup_mode m = true /\
  mem_read (dev_ops false) false (c_mem m) 384 = Ret (mem2, 0, 2 ^ 31) /\ R m' R_et = et_value true 6 32.
Proof.
  pose (prog := asm [Cpy R_a1 (Lit2 32768); Shl R_a1 (Lit1 16); Cpy R_a0 (Lit2 384); Wsa (Reg1 R_a0) (Lit1 0) (Reg1 R_a1);
       Cpy R_a2 (Lit2 40); Cpy R_pda (Lit2 256); Cpy R_a3 (Lit2 7); Cpy R_mtt (Lit2 1); Halt]).
  assert (H : match demo_run false prog 8 with
    | Ret m => match next (dev_ops false) false m, mem_read (dev_ops false) false (c_mem m) 384 with
        | Ret m', Ret (mem2, ex, e) => c_halted m = false /\ R m R_pc = 32 /\ R m R_mtt = 1 /\ R m R_pda = 256 /\ sup_mode m = true /\ ex = 0 /\ e = 2 ^ 31 /\
             R m' R_et = et_value true 6 32
        | _, _ => False end
    | Panic => False end) by (vm_compute; repeat split).
  destruct (demo_run false prog 8) as [m|] eqn:E; [|destruct H]. destruct (next _ _ m) as [m'|] eqn:En; [|destruct H].
  destruct (mem_read _ _ _ _) as [[[mem2 ex] e]|] eqn:Er; [|destruct H]. destruct H as (H1 & H2 & H3 & H4 & H5 & -> & -> & H6).
  exists m, m', mem2. split; [eapply demo_reachable; eauto|]. repeat (split; auto).
Qed.
(** The documented code 8 of a refused fetch is false. *)
Lemma P_C30_exec_code_refuted : ~ (forall D (ops : bus_ops D) oc m e mem2 m', typed ops -> wf m -> c_halted m = false -> next ops oc m = Ret m' ->
  R m R_pc mod 4 = 0 -> R m R_mtt <> 0 ->
  mem_read ops false (c_mem m) ((R m R_pda + 4 * (R m R_pc mod 1024)) mod 2 ^ 32) = Ret (mem2, 0, e) ->
  Z.testbit e (if sup_mode m then 31 else 30) = true -> raised m m' mem2 8 (R m R_pc mod 2 ^ 16)).
Proof.
  intros H. destruct E_C30_fetch as (m & m' & mem2 & Hr & Hh & Hn & Hpc & Hm & Hp & Hs & E1 & Hv).
  assert (Y : raised m m' mem2 8 (R m R_pc mod 2 ^ 16)).
  { eapply H; [apply dev_typed|eapply reachable_wf; eauto; apply dev_typed|exact Hh|exact Hn|rewrite Hpc; reflexivity|rewrite Hm; discriminate| |].
    - rewrite Hp, Hpc. exact E1.
    - rewrite Hs. reflexivity. }
  destruct Y as [Y _]. specialize (Y R_et). rewrite Hv in Y. cbn in Y. rewrite Hs, Hpc in Y. discriminate Y.
Qed.

(* Concrete cases for the theorems above that have none beside them. *)
Lemma E_C28_transparent : demo_case (asm [Cpy R_a0 (Lit2 260); Lsa R_a1 (Reg1 R_a0) (Lit1 4)]) 1 (fun m i mem1 m' => R m R_mtt = 0 /\ R m R_a0 = 260 /\ sup_mode m = true).
Proof. demo_tac. Qed.
Lemma E_C28_fetch : demo_case (asm [Cpy R_a0 (Lit2 260); Lsa R_a1 (Reg1 R_a0) (Lit1 4)]) 1 (fun m i mem1 m' => R m R_mtt = 0 /\ fetches (dev_ops false) m (Lsa R_a1 (Reg1 R_a0) (Lit1 4)) mem1).
Proof.
  assert (X : demo_case (asm [Cpy R_a0 (Lit2 260); Lsa R_a1 (Reg1 R_a0) (Lit1 4)]) 1 (fun m i mem1 m' => R m R_mtt = 0 /\ i = Lsa R_a1 (Reg1 R_a0) (Lit1 4))) by demo_tac.
  destruct X as (m & i & mem1 & m' & Hr & He & Ht & ->). exists m, (Lsa R_a1 (Reg1 R_a0) (Lit1 4)), mem1, m'. split; auto. split; auto. split; auto. apply He.
Qed.
Lemma E_C28_store : demo_case (asm [Cpy R_a0 (Lit2 260); Wsa (Reg1 R_a0) (Lit1 4) (Lit1 9)]) 1 (fun m i mem1 m' =>
  R m R_mtt = 0 /\ i = Wsa (Reg1 R_a0) (Lit1 4) (Lit1 9) /\ store_access m i = Some (264, 9) /\
  match mem_write (dev_ops false) false mem1 264 9 with Ret (mem2, ex) => ex = 0 /\ mem2 <> mem1 | Panic => False end).
Proof. demo_tac. Qed.
(** With translation on and the page tables of the documentation. *)
Lemma E_C29_never_translates : demo_case page_prog 8 (fun m i mem1 m' => R m R_mtt = 1 /\
  match translate (dev_ops false) false (c_mem m) (c_regs m) 260 ActRead with Ret (mem', TOk p) => p = 260 | _ => False end).
Proof. apply demo_case_mmu. vm_compute. repeat split; discriminate. Qed.
(** The entry for address 40 refuses; then a load from there. *)
Lemma E_C30_load : demo_case (asm [Cpy R_a1 (Lit2 32768); Shl R_a1 (Lit1 16); Cpy R_a0 (Lit2 416); Wsa (Reg1 R_a0) (Lit1 0) (Reg1 R_a1);
       Cpy R_a2 (Lit2 40); Cpy R_pda (Lit2 256); Cpy R_mtt (Lit2 1); Lsa R_a3 (Reg1 R_a2) (Lit1 0)]) 7 (fun m i mem1 m' =>
  load_address m i = Some 40 /\ sup_mode m = true /\ R m R_mtt <> 0 /\ R m R_pda = 256 /\ R m' R_et = et_value true 6 40 /\
  match mem_read (dev_ops false) false mem1 416 with Ret (mem2, ex, e) => ex = 0 /\ e = 2 ^ 31 | Panic => False end).
Proof. apply demo_case_mmu. vm_compute. repeat split; discriminate. Qed.
