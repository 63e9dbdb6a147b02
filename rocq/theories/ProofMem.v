(** Memory instructions, the stack, calls, exchanges, hardware information, the RESET instruction. *)
From Coq Require Import ZArith List Bool Lia.
From Verif Require Import Base Board Mem Cpu Asm Tools Devices DevTyped SpecMach SpecIsa SpecBus SpecObs SpecTools SpecMap BaseFacts RegFacts MemFacts
  AluFacts IsaFacts IsaStep MonoFacts CycleFacts UndFacts HoareFacts CyclePost InvFacts MapFacts ReachFacts ExecFacts StepCases ProofAlu ProofState ProofReg Demo.
Import ListNotations.
Open Scope Z_scope.
Ltac Zify.zify_post_hook ::= Z.div_mod_to_equations.

Section Inv.
Context {D : Type} (ops : bus_ops D).
Implicit Type m : cpu D.
Notation bs := (board_bus ops false).
Lemma access_inv m mem a k s' : access bs a (start m mem) k = Ret s' ->
  (exists mem1, a mod 4 = 0 /\ passes ops m a mem mem1 /\ k (start m mem1) = Ret s') \/
  (exists mem2 code data, access_faults ops m mem a mem2 code data /\ raise code data (start m mem2) = Ret s').
Proof.
  intros E. destruct (Z.eq_dec (a mod 4) 0) as [Ha|Ha].
  2:{ right. exists mem, 5, (a mod 4). split; [constructor; auto|]. erewrite faults_access in E by (apply fault_align; auto). exact E. }
  destruct (Z.eq_dec (R m R_mtt) 0) as [Hm|Hm].
  { left. exists mem. assert (P : passes ops m a mem mem) by (unfold passes; rewrite Hm; reflexivity).
    split; auto. split; auto. erewrite pass_access in E by eauto. exact E. }
  destruct (mem_read ops false mem ((R m R_pda + 4 * (a mod 1024)) mod 2 ^ 32)) as [[[mem1 ex] e]|] eqn:Er.
  2:{ exfalso. unfold access in E. rewrite (proj2 (Z.eqb_eq _ _) Ha) in E. cbn [negb] in E.
      rewrite get_start, (proj2 (Z.eqb_neq _ _) Hm), get_start in E. cbn [bus_load board_bus start s_bus] in E.
      unfold m32 in E. change (2 ^ 32) with 4294967296 in Er. rewrite Er in E. discriminate E. }
  destruct (Z.eq_dec ex 0) as [->|Hex].
  2:{ right. exists mem1, 160, ex. assert (F : access_faults ops m mem a mem1 160 ex) by (econstructor; eauto).
      split; auto. erewrite faults_access in E by exact F. exact E. }
  destruct (Z.testbit e (if sup_mode m then 31 else 30)) eqn:Eb.
  { right. exists mem1, 6, (a mod 2 ^ 16). assert (F : access_faults ops m mem a mem1 6 (a mod 2 ^ 16)) by (econstructor; eauto).
    split; auto. erewrite faults_access in E by exact F. exact E. }
  left. exists mem1. assert (P : passes ops m a mem mem1).
  { unfold passes. rewrite (proj2 (Z.eqb_neq _ _) Hm). eauto. }
  split; auto. split; auto. erewrite pass_access in E by eauto. exact E.
Qed.
Lemma load_inv m mem a k s' : load bs a (start m mem) k = Ret s' ->
  (exists w mem2, loads ops m mem a w mem2 /\ k w (start m mem2) = Ret s') \/
  (exists mem2 code data, load_faults ops m mem a mem2 code data /\ raise code data (start m mem2) = Ret s').
Proof.
  intros E. apply access_inv in E. destruct E as [(mem1 & Ha & Hp & E)|(mem2 & code & data & F & E)].
  2:{ right. exists mem2, code, data. split; auto. constructor; auto. }
  cbn [bus_load board_bus start s_bus] in E. destruct (mem_read ops false mem1 a) as [[[mem2 ex] w]|] eqn:Er; [|discriminate].
  destruct (Z.eqb_spec ex 0) as [->|Hex]; cbn [negb] in E.
  - left. exists w, mem2. split; [split; eauto|exact E].
  - right. exists mem2, 160, ex. split; [|exact E]. eapply load_fault_component; eauto.
Qed.
Lemma store_inv m mem a w k s' : store bs a w (start m mem) k = Ret s' ->
  (exists mem2, stores ops m mem a w mem2 /\ k (start m mem2) = Ret s') \/
  (exists mem2 code data, store_faults ops m mem a w mem2 code data /\ raise code data (start m mem2) = Ret s').
Proof.
  intros E. apply access_inv in E. destruct E as [(mem1 & Ha & Hp & E)|(mem2 & code & data & F & E)].
  2:{ right. exists mem2, code, data. split; auto. constructor; auto. }
  cbn [bus_store board_bus start s_bus] in E. destruct (mem_write ops false mem1 a w) as [[mem2 ex]|] eqn:Er; [|discriminate].
  destruct (Z.eqb_spec ex 0) as [->|Hex]; cbn [negb] in E.
  - left. exists mem2. split; [split; eauto|exact E].
  - right. exists mem2, 160, ex. split; [|exact E]. eapply store_fault_component; eauto.
Qed.
Context (T : typed ops).
Lemma fin_raise oc m i mem1 m' mem2 code data : wf m -> executes ops oc m i mem1 m' ->
  raise code data (start m mem2) = Ret (abs m') -> raised m m' mem2 code data.
Proof.
  intros Hw He E. eapply executes_raised; eauto. rewrite (exec_step ops T _ _ _ _ _ Hw He). auto.
Qed.
Lemma fin_ends oc m i mem1 m' mem2 l o : wf m -> executes ops oc m i mem1 m' ->
  o = Ret (abs m') -> Ends (start m mem2) l o -> after m m' mem2 l.
Proof.
  intros Hw He E X. eapply ends_after; eauto. rewrite (exec_step ops T _ _ _ _ _ Hw He). rewrite <- E. auto.
Qed.
End Inv.

(** * C21 *)
Ltac sr := apply sets_refl, len_start; auto.
(** LSA reads the word at [v + add] into its destination (0x04 if that may not be written). *)
Lemma P_C21_lsa : forall D (ops : bus_ops D) oc m d v add x y mem1 m', typed ops -> wf m ->
  executes ops oc m (Lsa d v add) mem1 m' -> operand1 m v = Some x -> operand1 m add = Some y ->
  loads_or_faults ops m m' mem1 ((x + y) mod 2 ^ 32) (fun w mem2 =>
    if can_write (sup_mode m) d then after m m' mem2 [(d, w); (R_pc, (R m R_pc + 4) mod 2 ^ 32)]
    else raised m m' mem2 4 (reg_code d)).
Proof.
  intros D ops oc m d v add x y mem1 m' T Hw He Hx Hy. pose proof (exec_step ops T _ _ _ _ _ Hw He) as E. cbn [step] in E.
  erewrite read1_ok in E by eauto. erewrite read1_ok in E by eauto. apply load_inv in E.
  destruct E as [(w & mem2 & Hl & E)|(mem2 & code & data & Hf & E)].
  - left. exists w, mem2. split; [exact Hl|]. destruct (can_write (sup_mode m) d) eqn:Hc.
    + eapply fin_ends; eauto. apply (ends_write_end (start m mem2) []); [sr|exact Hc].
    + eapply fin_raise; eauto. unfold write_end, write in E. rewrite sup_start, Hc in E. exact E.
  - right. exists mem2, code, data. split; [exact Hf|]. eapply fin_raise; eauto.
Qed.
(** LEA reads the word at [v + add * mul] into avr. *)
Lemma P_C21_lea : forall D (ops : bus_ops D) oc m v add mul x y z mem1 m', typed ops -> wf m ->
  executes ops oc m (Lea v add mul) mem1 m' -> operand1 m v = Some x -> operand1 m add = Some y -> operand1 m mul = Some z ->
  loads_or_faults ops m m' mem1 ((x + y * z) mod 2 ^ 32) (fun w mem2 =>
    after m m' mem2 [(R_avr, w); (R_pc, (R m R_pc + 4) mod 2 ^ 32)]).
Proof.
  intros D ops oc m v add mul x y z mem1 m' T Hw He Hx Hy Hz. pose proof (exec_step ops T _ _ _ _ _ Hw He) as E. cbn [step] in E.
  erewrite read1_ok in E by eauto. erewrite read1_ok in E by eauto. erewrite read1_ok in E by eauto. apply load_inv in E.
  destruct E as [(w & mem2 & Hl & E)|(mem2 & code & data & Hf & E)].
  - left. exists w, mem2. split; [exact Hl|]. eapply fin_ends; eauto. eapply ends_ext.
    + apply ends_advance. apply sets_put. sr.
    + intros r. rewrite get_put by (apply len_start; auto). destruct r; reflexivity.
  - right. exists mem2, code, data. split; [exact Hf|]. eapply fin_raise; eauto.
Qed.
(** WSA writes its third operand at [v + add]. *)
Lemma P_C21_wsa : forall D (ops : bus_ops D) oc m v add val x y z mem1 m', typed ops -> wf m ->
  executes ops oc m (Wsa v add val) mem1 m' -> operand1 m v = Some x -> operand1 m add = Some y -> operand1 m val = Some z ->
  stores_or_faults ops m m' mem1 ((x + y) mod 2 ^ 32) z (fun mem2 => after m m' mem2 [(R_pc, (R m R_pc + 4) mod 2 ^ 32)]).
Proof.
  intros D ops oc m v add val x y z mem1 m' T Hw He Hx Hy Hz. pose proof (exec_step ops T _ _ _ _ _ Hw He) as E. cbn [step] in E.
  erewrite read1_ok in E by eauto. erewrite read1_ok in E by eauto. erewrite read1_ok in E by eauto. apply store_inv in E.
  destruct E as [(mem2 & Hl & E)|(mem2 & code & data & Hf & E)].
  - left. exists mem2. split; [exact Hl|]. eapply fin_ends; eauto. apply (ends_advance (start m mem2) [] (start m mem2)). sr.
  - right. exists mem2, code, data. split; [exact Hf|]. eapply fin_raise; eauto.
Qed.
(** WEA writes avr at [v + add * mul]. *)
Lemma P_C21_wea : forall D (ops : bus_ops D) oc m v add mul x y z mem1 m', typed ops -> wf m ->
  executes ops oc m (Wea v add mul) mem1 m' -> operand1 m v = Some x -> operand1 m add = Some y -> operand1 m mul = Some z ->
  stores_or_faults ops m m' mem1 ((x + y * z) mod 2 ^ 32) (R m R_avr) (fun mem2 => after m m' mem2 [(R_pc, (R m R_pc + 4) mod 2 ^ 32)]).
Proof.
  intros D ops oc m v add mul x y z mem1 m' T Hw He Hx Hy Hz. pose proof (exec_step ops T _ _ _ _ _ Hw He) as E. cbn [step] in E.
  erewrite read1_ok in E by eauto. erewrite read1_ok in E by eauto. erewrite read1_ok in E by eauto. apply store_inv in E.
  destruct E as [(mem2 & Hl & E)|(mem2 & code & data & Hf & E)].
  - left. exists mem2. split; [exact Hl|]. eapply fin_ends; eauto. apply (ends_advance (start m mem2) [] (start m mem2)). sr.
  - right. exists mem2, code, data. split; [exact Hf|]. eapply fin_raise; eauto.
Qed.
(** An unaligned effective address raises 0x05 with the address modulo 4, without any access. *)
Lemma P_C21_unaligned : forall D (ops : bus_ops D) oc m i a mem1 m', typed ops -> wf m -> executes ops oc m i mem1 m' ->
  load_address m i = Some a \/ (exists w, store_access m i = Some (a, w)) -> a mod 4 <> 0 -> raised m m' mem1 5 (a mod 4).
Proof.
  intros D ops oc m i a mem1 m' T Hw He Ha Hn. eapply executes_raised; eauto.
  destruct Ha as [Ha|[w Ha]]; destruct i; cbn [load_address store_access] in Ha; try discriminate Ha;
  repeat match type of Ha with context [operand1 m ?v] => let E := fresh "E" in destruct (operand1 m v) eqn:E; try discriminate Ha end;
  repeat match type of Ha with context [operand2 m ?v] => let E := fresh "E" in destruct (operand2 m v) eqn:E; try discriminate Ha end;
  injection Ha as <-; cbn [step]; rewrite ?H;
  repeat (erewrite read1_ok by eauto); repeat (erewrite read2_ok by eauto);
  (apply faults_load || apply faults_store); constructor; apply fault_align; auto.
Qed.
Lemma E_C21_lsa : demo_case (asm [Cpy R_a0 (Lit2 260); Wsa (Reg1 R_a0) (Lit1 4) (Lit1 9); Lsa R_a1 (Reg1 R_a0) (Lit1 4)]) 2 (fun m i mem1 m' =>
  i = Lsa R_a1 (Reg1 R_a0) (Lit1 4) /\ operand1 m (Reg1 R_a0) = Some 260 /\ operand1 m (Lit1 4) = Some 4 /\ R m' R_a1 = 9).
Proof. demo_tac. Qed.
Lemma E_C21_lea : demo_case (asm [Cpy R_a0 (Lit2 260); Wsa (Reg1 R_a0) (Lit1 16) (Lit1 9); Lea (Reg1 R_a0) (Lit1 4) (Lit1 4)]) 2 (fun m i mem1 m' =>
  load_address m i = Some 276 /\ R m' R_avr = 9).
Proof. demo_tac. Qed.
Lemma E_C21_wsa : demo_case (asm [Cpy R_a0 (Lit2 260); Wsa (Reg1 R_a0) (Lit1 16) (Lit1 9)]) 1 (fun m i mem1 m' =>
  store_access m i = Some (276, 9) /\ c_mem m' <> mem1).
Proof. demo_tac. Qed.
Lemma E_C21_wea : demo_case (asm [Cpy R_avr (Lit2 7); Cpy R_a0 (Lit2 260); Wea (Reg1 R_a0) (Lit1 4) (Lit1 2)]) 2 (fun m i mem1 m' =>
  store_access m i = Some (268, 7) /\ c_mem m' <> mem1).
Proof. demo_tac. Qed.
Lemma E_C21_unaligned : demo_case (asm [Cpy R_a0 (Lit2 260); Lsa R_a1 (Reg1 R_a0) (Lit1 3)]) 1 (fun m i mem1 m' =>
  load_address m i = Some 263 /\ R m' R_et = et_value true 5 3).
Proof. demo_tac. Qed.
(** The documented signed displacement: false for literals, which are zero-extended. *)
Lemma P_C21_signed_refuted : ~ (forall D (ops : bus_ops D) oc m d v n x w mem1 mem2 m', typed ops -> wf m ->
  executes ops oc m (Lsa d v (Lit1 n)) mem1 m' -> operand1 m v = Some x -> can_write (sup_mode m) d = true -> d <> R_pc ->
  loads ops m mem1 ((x + (if n <? 128 then n else n - 256)) mod 2 ^ 32) w mem2 -> R m' d = w).
Proof.
  intros H.
  assert (X : demo_case (asm [Cpy R_a0 (Lit2 260); Wsa (Reg1 R_a0) (Lit1 0) (Lit1 9); Cpy R_a0 (Lit2 264); Lsa R_a1 (Reg1 R_a0) (Lit1 252)]) 3 (fun m i mem1 m' =>
    i = Lsa R_a1 (Reg1 R_a0) (Lit1 252) /\ operand1 m (Reg1 R_a0) = Some 264 /\ R m R_mtt = 0 /\ sup_mode m = true /\
    R m' R_a1 = 0 /\ match mem_read (dev_ops false) false mem1 260 with Ret (_, ex, w) => ex = 0 /\ w = 9 | Panic => False end)) by demo_tac.
  destruct X as (m & i & mem1 & m' & Hr & He & -> & Hx & Hm & Hs & Hv & X).
  destruct (mem_read _ _ _ _) as [[[mem2 ex] w]|] eqn:Er; [|destruct X]. destruct X as [-> ->].
  assert (Y : R m' R_a1 = 9).
  { eapply (H _ _ _ _ _ _ _ _ _ _ mem2); [apply dev_typed|eapply reachable_wf; eauto; apply dev_typed|exact He|exact Hx| | |].
    - rewrite Hs. reflexivity.
    - discriminate.
    - split; [reflexivity|]. exists mem1. split; [unfold passes; rewrite Hm; reflexivity|exact Er]. }
  rewrite Hv in Y. discriminate Y.
Qed.

(** * C22 *)
(** When the access of a loading instruction faults, the exception is all that happens. *)
Lemma P_C22_load : forall D (ops : bus_ops D) oc m i a mem1 mem2 code data m', typed ops -> wf m -> executes ops oc m i mem1 m' ->
  load_address m i = Some a -> load_faults ops m mem1 a mem2 code data -> raised m m' mem2 code data.
Proof.
  intros D ops oc m i a mem1 mem2 code data m' T Hw He Ha Hf. eapply executes_raised; eauto.
  destruct i; cbn [load_address] in Ha; try discriminate Ha;
  repeat match type of Ha with context [operand1 m ?v] => let E := fresh "E" in destruct (operand1 m v) eqn:E; try discriminate Ha end;
  injection Ha as <-; cbn [step];
  repeat (erewrite read1_ok by eauto); apply faults_load; auto.
Qed.
(** The same for storing instructions. *)
Lemma P_C22_store : forall D (ops : bus_ops D) oc m i a w mem1 mem2 code data m', typed ops -> wf m -> executes ops oc m i mem1 m' ->
  store_access m i = Some (a, w) -> store_faults ops m mem1 a w mem2 code data -> raised m m' mem2 code data.
Proof.
  intros D ops oc m i a w mem1 mem2 code data m' T Hw He Ha Hf. eapply executes_raised; eauto.
  destruct i; cbn [store_access] in Ha; try discriminate Ha;
  repeat match type of Ha with context [operand1 m ?v] => let E := fresh "E" in destruct (operand1 m v) eqn:E; try discriminate Ha end;
  repeat match type of Ha with context [operand2 m ?v] => let E := fresh "E" in destruct (operand2 m v) eqn:E; try discriminate Ha end;
  injection Ha as <- <-; cbn [step];
  repeat (erewrite read1_ok by eauto); repeat (erewrite read2_ok by eauto); apply faults_store; auto.
Qed.
(** and for the second access of SRM. *)
Lemma P_C22_srm : forall D (ops : bus_ops D) oc m v add r a w z mem1 mem2 mem3 code data m', typed ops -> wf m ->
  executes ops oc m (Srm v add r) mem1 m' -> load_address m (Srm v add r) = Some a -> loads ops m mem1 a w mem2 ->
  reg_value m r = Some z -> store_faults ops m mem2 a z mem3 code data -> raised m m' mem3 code data.
Proof.
  intros D ops oc m v add r a w z mem1 mem2 mem3 code data m' T Hw He Ha Hl Hz Hf. eapply executes_raised; eauto.
  cbn [load_address] in Ha.
  repeat match type of Ha with context [operand1 m ?v] => let E := fresh "E" in destruct (operand1 m v) eqn:E; try discriminate Ha end.
  injection Ha as <-. cbn [step]. repeat (erewrite read1_ok by eauto). erewrite loads_load by (exact Hl).
  erewrite read_ok by eauto. apply faults_store; auto.
Qed.
(** Writing to the ROM. *)
Lemma E_C22_store : demo_case (asm [Cpy R_ssp (Lit2 8); Push (Lit2 5)]) 1 (fun m i mem1 m' =>
  store_access m i = Some (4, 5) /\ R m' R_et = et_value true 160 (49 * 256) /\ R m' R_ssp = 8).
Proof. demo_tac. Qed.
Lemma E_C22_load : demo_case (asm [Cpy R_ssp (Lit2 262); Pop R_a0]) 1 (fun m i mem1 m' =>
  load_address m i = Some 262 /\ R m' R_et = et_value true 5 2 /\ R m' R_ssp = 262).
Proof. demo_tac. Qed.
Lemma E_C22_srm : demo_case (asm [Srm (Lit1 8) (Lit1 4) R_a0]) 0 (fun m i mem1 m' =>
  load_address m i = Some 12 /\ R m' R_et = et_value true 160 (49 * 256) /\ R m' R_a0 = 0).
Proof. demo_tac. Qed.

(** The instruction fetch: when it faults, the exception is all that happens. *)
Lemma P_C22_fetch : forall D (ops : bus_ops D) oc m mem2 code data m', typed ops -> wf m -> c_halted m = false ->
  load_faults ops m (c_mem m) (R m R_pc) mem2 code data -> next ops oc m = Ret m' -> raised m m' mem2 code data.
Proof. exact P_C06_fetch_fault. Qed.
Lemma E_C22_fetch : exists m m', reachable (dev_ops false) false m /\ c_halted m = false /\ next (dev_ops false) false m = Ret m' /\
  R m R_pc = 6 /\ load_faults (dev_ops false) m (c_mem m) (R m R_pc) (c_mem m) 5 2 /\ R m' R_et = et_value true 5 2 /\ R m' R_pc = 0.
Proof.
  assert (H : match demo_run false (asm [Cpy R_pc (Lit2 6)]) 1 with
    | Ret m => match next (dev_ops false) false m with Ret m' => (c_halted m, R m R_pc, R m' R_et, R m' R_pc) = (false, 6, et_value true 5 2, 0) | Panic => False end
    | Panic => False end) by (vm_compute; reflexivity).
  destruct (demo_run false _ 1) as [m|] eqn:E; [|destruct H]. destruct (next _ _ m) as [m'|] eqn:N; [|destruct H]. exists m, m'. injection H as H1 H2 H3 H4.
  split; [eapply demo_reachable; eauto|]. repeat split; auto. rewrite H2. apply load_fault_access. apply (fault_align (dev_ops false) m (c_mem m) 6). discriminate.
Qed.

(** * C23 *)
(** One PUSH. *)
Lemma P_C23_push : forall D (ops : bus_ops D) oc m v x mem1 m', typed ops -> wf m -> executes ops oc m (Push v) mem1 m' ->
  operand2 m v = Some x ->
  let top := (R m (sp_of m) - 4) mod 2 ^ 32 in
  stores_or_faults ops m m' mem1 top x (fun mem2 => after m m' mem2 [(sp_of m, top); (R_pc, (R m R_pc + 4) mod 2 ^ 32)]).
Proof.
  intros D ops oc m v x mem1 m' T Hw He Hx top. pose proof (exec_step ops T _ _ _ _ _ Hw He) as E. cbn [step] in E.
  erewrite read2_ok in E by eauto. apply store_inv in E.
  destruct E as [(mem2 & Hl & E)|(mem2 & code & data & Hf & E)].
  - left. exists mem2. split; [exact Hl|]. eapply fin_ends; eauto. eapply ends_ext.
    + apply ends_advance. apply sets_put. sr.
    + intros r. rewrite get_put by (apply len_start; auto).
      change (sp_reg (start m mem2)) with (sp_of m). change (sp_reg (start m mem1)) with (sp_of m).
      unfold top. unfold sp_of. destruct (sup_mode m), r; reflexivity.
  - right. exists mem2, code, data. split; [exact Hf|]. eapply fin_raise; eauto.
Qed.
(** One POP. If the destination may not be written the stack pointer has moved nevertheless. *)
Lemma P_C23_pop : forall D (ops : bus_ops D) oc m d mem1 m', typed ops -> wf m -> executes ops oc m (Pop d) mem1 m' ->
  let sp := sp_of m in
  loads_or_faults ops m m' mem1 (R m sp) (fun w mem2 =>
    if can_write (sup_mode m) d
    then after m m' mem2 [(d, w); (sp, (R m sp + 4) mod 2 ^ 32); (R_pc, (R m R_pc + 4) mod 2 ^ 32)]
    else after m m' mem2 [(R_smt, 1); (R_pc, R m R_ev); (R_et, et_value (sup_mode m) 4 (reg_code d)); (sp, (R m sp + 4) mod 2 ^ 32)]).
Proof.
  intros D ops oc m d mem1 m' T Hw He sp. pose proof (exec_step ops T _ _ _ _ _ Hw He) as E. cbn [step] in E.
  apply load_inv in E. change (get (start m mem1) (sp_reg (start m mem1))) with (R m sp) in E.
  assert (Ns : sp <> R_smt /\ sp <> R_pc /\ sp <> R_ev) by (unfold sp, sp_of; destruct (sup_mode m); repeat split; discriminate).
  destruct Ns as (Ns & Np & Nv).
  destruct E as [(w & mem2 & Hl & E)|(mem2 & code & data & Hf & E)].
  - left. exists w, mem2. split; [exact Hl|]. 
    change (sp_reg (start m mem2)) with sp in E. change (get (start m mem2) sp) with (R m sp) in E.
    assert (Es : sup (put (start m mem2) sp (m32 (R m sp + 4))) = sup_mode m).
    { rewrite sup_put; auto. apply len_start; auto. }
    assert (Gp : forall r, r <> sp -> get (put (start m mem2) sp (m32 (R m sp + 4))) r = R m r).
    { intros r Hr. rewrite get_put by (apply len_start; auto). destruct (reg_eq_dec r sp); [congruence|reflexivity]. }
    assert (Ss : sets (start m mem2) [(sp, m32 (R m sp + 4))] (put (start m mem2) sp (m32 (R m sp + 4)))) by (apply sets_put; sr).
    destruct (can_write (sup_mode m) d) eqn:Hc.
    + eapply fin_ends; eauto. eapply ends_ext; [apply ends_write_end; [exact Ss|rewrite Es; exact Hc]|].
      rewrite Gp by auto. intros r. cbn [assoc]. destruct (_ =? reg_code d); auto. 
      destruct (Z.eqb_spec (reg_code r) (reg_code R_pc)) as [E1|], (Z.eqb_spec (reg_code r) (reg_code sp)) as [E2|]; auto.
      rewrite E1 in E2. apply reg_code_inj in E2. congruence.
    + eapply fin_ends; eauto. unfold write_end, write. rewrite Es, Hc.
      eexists. split; [reflexivity|]. rewrite Gp, Es by auto. repeat apply sets_put. sr.
  - right. exists mem2, code, data. split; [exact Hf|]. eapply fin_raise; eauto.
Qed.
Lemma E_C23_push : demo_case (asm [Cpy R_ssp (Lit2 272); Push (Lit2 5)]) 1 (fun m i mem1 m' =>
  store_access m i = Some (268, 5) /\ R m' R_ssp = 268).
Proof. demo_tac. Qed.
Lemma E_C23_pop : demo_case (asm [Cpy R_ssp (Lit2 272); Push (Lit2 5); Pop R_a0]) 2 (fun m i mem1 m' =>
  load_address m i = Some 268 /\ R m' R_ssp = 272 /\ R m' R_a0 = 5).
Proof. demo_tac. Qed.

(** * C24 *)
(** CALL saves the address of the next instruction and jumps. *)
Lemma P_C24_call : forall D (ops : bus_ops D) oc m v x mem1 m', typed ops -> wf m -> executes ops oc m (Call v) mem1 m' ->
  operand2 m v = Some x ->
  let top := (R m (sp_of m) - 4) mod 2 ^ 32 in
  stores_or_faults ops m m' mem1 top ((R m R_pc + 4) mod 2 ^ 32) (fun mem2 => after m m' mem2 [(R_pc, x); (sp_of m, top)]).
Proof.
  intros D ops oc m v x mem1 m' T Hw He Hx top. pose proof (exec_step ops T _ _ _ _ _ Hw He) as E. cbn [step] in E.
  erewrite read2_ok in E by eauto. apply store_inv in E.
  destruct E as [(mem2 & Hl & E)|(mem2 & code & data & Hf & E)].
  - left. exists mem2. split; [exact Hl|]. eapply fin_ends; eauto. eexists. split; [reflexivity|].
    apply sets_put, sets_put. sr.
  - right. exists mem2, code, data. split; [exact Hf|]. eapply fin_raise; eauto.
Qed.
(** RET (POP pc) later, with the stack pointer and the saved word as the CALL left them, resumes after the CALL. *)
Lemma P_C24_return : forall D (ops : bus_ops D) oc m v x mem1 memc m1 m2 mem2 mem3 m3, typed ops -> wf m -> wf m2 ->
  executes ops oc m (Call v) mem1 m1 -> operand2 m v = Some x ->
  stores ops m mem1 ((R m (sp_of m) - 4) mod 2 ^ 32) ((R m R_pc + 4) mod 2 ^ 32) memc ->
  sp_of m2 = sp_of m -> R m2 (sp_of m) = R m1 (sp_of m) ->
  executes ops oc m2 (Pop R_pc) mem2 m3 -> loads ops m2 mem2 (R m1 (sp_of m)) ((R m R_pc + 4) mod 2 ^ 32) mem3 ->
  after m2 m3 mem3 [(R_pc, (R m R_pc + 4) mod 2 ^ 32); (sp_of m, R m (sp_of m))].
Proof.
  intros D ops oc m v x mem1 memc m1 m2 mem2 mem3 m3 T Hw Hw2 He Hx Hs Hsp Hsp2 He2 Hl.
  assert (E1 : R m1 (sp_of m) = (R m (sp_of m) - 4) mod 2 ^ 32).
  { assert (A : after m m1 memc [(R_pc, x); (sp_of m, (R m (sp_of m) - 4) mod 2 ^ 32)]).
    { eapply ends_after; eauto. cbn [step]. erewrite read2_ok by eauto. erewrite stores_store by (exact Hs).
      eexists. split; [reflexivity|]. apply sets_put, sets_put. sr. }
    destruct A as [A _]. rewrite A. unfold sp_of. destruct (sup_mode m); reflexivity. }
  assert (Ev : (R m1 (sp_of m) + 4) mod 2 ^ 32 = R m (sp_of m)).
  { rewrite E1. assert (U : is_u32 (R m (sp_of m))) by (apply R_u32, Hw). unfold is_u32 in U. change (2 ^ 32) with 4294967296. lia. }
  eapply ends_after; eauto. cbn [step]. change (get (start m2 mem2) (sp_reg (start m2 mem2))) with (R m2 (sp_of m2)).
  rewrite Hsp, Hsp2. erewrite loads_load by (exact Hl).
  change (sp_reg (start m2 mem3)) with (sp_of m2). change (get (start m2 mem3) (sp_of m2)) with (R m2 (sp_of m2)). rewrite Hsp, Hsp2.
  unfold m32. change 4294967296 with (2 ^ 32). rewrite Ev.
  unfold write_end, write. replace (can_write _ R_pc) with true.
  2:{ destruct (sup _); reflexivity. }
  eexists. split; [reflexivity|]. apply sets_put, sets_put. sr.
Qed.
(** CALL 8 at address 4, with RET at address 8. *)
Lemma E_C24_return : demo_case (asm [Cpy R_ssp (Lit2 272); Call (Lit2 8); Pop R_pc]) 1 (fun m i mem1 m' =>
  i = Call (Lit2 8) /\ store_access m i = Some (268, 8) /\ R m' R_pc = 8 /\ R m' R_ssp = 268 /\
  match next (dev_ops false) false m' with Ret m2 => R m2 R_pc = 8 /\ R m2 R_ssp = 272 | Panic => False end).
Proof. demo_tac. Qed.

(** * C25 *)
(** EX swaps two registers (smt apart, which changes what may be written next). *)
Lemma P_C25_ex : forall D (ops : bus_ops D) oc m a b mem1 m', typed ops -> wf m -> executes ops oc m (Ex a b) mem1 m' ->
  can_read (sup_mode m) a = true -> can_read (sup_mode m) b = true -> can_write (sup_mode m) a = true -> can_write (sup_mode m) b = true ->
  a <> R_smt ->
  after m m' mem1 [(b, R m a); (a, R m b); (R_pc, (R m R_pc + 4) mod 2 ^ 32)].
Proof.
  intros D ops oc m a b mem1 m' T Hw He Ra Rb Wa Wb Na. eapply ends_after; eauto. cbn [step].
  erewrite read_ok by (unfold reg_value; rewrite Ra; reflexivity). erewrite read_ok by (unfold reg_value; rewrite Rb; reflexivity).
  unfold write at 1. rewrite sup_start, Wa. unfold write. rewrite sup_put by (auto; apply len_start; auto). rewrite sup_start, Wb.
  assert (S2 : sets (start m mem1) [(b, R m a); (a, R m b)] (put (put (start m mem1) a (R m b)) b (R m a))) by (apply sets_put, sets_put; sr).
  destruct (reg_eq_dec a R_pc) as [->|Npa].
  { eexists. split; [reflexivity|]. eapply sets_ext; [exact S2|]. intros r. cbn [assoc]. destruct (_ =? reg_code b); auto. destruct (_ =? reg_code R_pc); auto. }
  destruct (reg_eq_dec b R_pc) as [->|Npb].
  { assert (E : match a, R_pc with | R_pc, _ | _, R_pc => Ret (put (put (start m mem1) a (R m R_pc)) R_pc (R m a))
      | _, _ => advance 4 (put (put (start m mem1) a (R m R_pc)) R_pc (R m a)) end = Ret (put (put (start m mem1) a (R m R_pc)) R_pc (R m a))) by (destruct a; reflexivity).
    rewrite E. eexists. split; [reflexivity|]. eapply sets_ext; [exact S2|]. intros r. cbn [assoc]. destruct (_ =? reg_code R_pc); auto. }
  match goal with |- Ends _ _ (match a with _ => _ end) => idtac end.
  set (s2 := put (put (start m mem1) a (R m b)) b (R m a)) in *.
  assert (E : match a, b with | R_pc, _ | _, R_pc => Ret s2 | _, _ => advance 4 s2 end = advance 4 s2) by (destruct a, b; congruence).
  rewrite E. clear E. eapply ends_ext; [apply ends_advance; exact S2|].
  assert (Gp : get s2 R_pc = R m R_pc).
  { destruct S2 as (_ & _ & _ & _ & G). rewrite G. cbn [assoc].
    destruct (Z.eqb_spec (reg_code R_pc) (reg_code b)) as [X|_]; [apply reg_code_inj in X; congruence|].
    destruct (Z.eqb_spec (reg_code R_pc) (reg_code a)) as [X|_]; [apply reg_code_inj in X; congruence|]. reflexivity. }
  rewrite Gp. intros r. cbn [assoc].
  destruct (Z.eqb_spec (reg_code r) (reg_code R_pc)) as [X|_]; [|destruct (reg_code r =? reg_code b), (reg_code r =? reg_code a); reflexivity].
  apply reg_code_inj in X. subst r.
  destruct (Z.eqb_spec (reg_code R_pc) (reg_code b)) as [X|_]; [apply reg_code_inj in X; congruence|].
  destruct (Z.eqb_spec (reg_code R_pc) (reg_code a)) as [X|_]; [apply reg_code_inj in X; congruence|]. reflexivity.
Qed.
(** Twice EX on the same two registers: all registers but pc are as before. *)
Lemma P_C25_ex_twice : forall D (ops : bus_ops D) oc m a b mem1 m1 mem2 m2, typed ops -> wf m ->
  executes ops oc m (Ex a b) mem1 m1 -> executes ops oc m1 (Ex a b) mem2 m2 ->
  can_read (sup_mode m) a = true -> can_read (sup_mode m) b = true -> can_write (sup_mode m) a = true -> can_write (sup_mode m) b = true ->
  a <> R_smt -> b <> R_smt -> a <> R_pc -> b <> R_pc ->
  after m1 m2 mem2 [(a, R m a); (b, R m b); (R_pc, (R m R_pc + 8) mod 2 ^ 32)] /\
  forall r, r <> R_pc -> R m2 r = R m r.
Proof.
  intros D ops oc m a b mem1 m1 mem2 m2 T Hw He1 He2 Ra Rb Wa Wb Na Nb Pa Pb.
  pose proof (P_C25_ex _ _ _ _ _ _ _ _ T Hw He1 Ra Rb Wa Wb Na) as [A1 _].
  assert (Hw1 : wf m1) by (eapply next_wf; [apply T|apply Hw|apply He1]).
  assert (F : forall r, r <> R_pc -> R m1 r = if reg_eq_dec r b then R m a else if reg_eq_dec r a then R m b else R m r).
  { intros r Nr. rewrite A1. cbn [assoc].
    destruct (Z.eqb_spec (reg_code r) (reg_code b)) as [X|X], (reg_eq_dec r b); try congruence; [apply reg_code_inj in X; congruence|].
    destruct (Z.eqb_spec (reg_code r) (reg_code a)) as [Y|Y], (reg_eq_dec r a); try congruence; [apply reg_code_inj in Y; congruence|].
    destruct (Z.eqb_spec (reg_code r) (reg_code R_pc)) as [Z|Z]; [apply reg_code_inj in Z; congruence|]. reflexivity. }
  assert (Fp : R m1 R_pc = (R m R_pc + 4) mod 2 ^ 32).
  { rewrite A1. cbn [assoc]. destruct (Z.eqb_spec (reg_code R_pc) (reg_code b)) as [X|X]; [apply reg_code_inj in X; congruence|].
    destruct (Z.eqb_spec (reg_code R_pc) (reg_code a)) as [Y|Y]; [apply reg_code_inj in Y; congruence|]. reflexivity. }
  assert (Sm : sup_mode m1 = sup_mode m).
  { unfold sup_mode. rewrite F by discriminate. destruct (reg_eq_dec R_smt b); [congruence|]. destruct (reg_eq_dec R_smt a); [congruence|]. reflexivity. }
  rewrite <- Sm in Ra, Rb, Wa, Wb.
  pose proof (P_C25_ex _ _ _ _ _ _ _ _ T Hw1 He2 Ra Rb Wa Wb Na) as A2.
  assert (Fa : R m1 a = R m b). { rewrite F by auto. destruct (reg_eq_dec a b); [congruence|]. destruct (reg_eq_dec a a); congruence. }
  assert (Fb : R m1 b = R m a). { rewrite F by auto. destruct (reg_eq_dec b b); congruence. }
  rewrite Fa, Fb, Fp in A2. rewrite Zplus_mod_idemp_l in A2. replace (R m R_pc + 4 + 4) with (R m R_pc + 8) in A2 by lia.
  assert (A3 : after m1 m2 mem2 [(a, R m a); (b, R m b); (R_pc, (R m R_pc + 8) mod 2 ^ 32)]).
  { destruct A2 as (A2 & B2). split; [|exact B2]. intros r. rewrite A2. cbn [assoc].
    destruct (Z.eqb_spec (reg_code r) (reg_code b)) as [X|X], (Z.eqb_spec (reg_code r) (reg_code a)) as [Y|Y]; auto.
    apply reg_code_inj in X, Y. congruence. }
  split; [exact A3|]. intros r Nr. destruct A3 as (A3 & _). rewrite A3. cbn [assoc].
  destruct (Z.eqb_spec (reg_code r) (reg_code a)) as [Y|Y]; [apply reg_code_inj in Y; congruence|].
  destruct (Z.eqb_spec (reg_code r) (reg_code b)) as [X|X]; [apply reg_code_inj in X; congruence|].
  destruct (Z.eqb_spec (reg_code r) (reg_code R_pc)) as [Z|Z]; [apply reg_code_inj in Z; congruence|].
  rewrite F by auto. destruct (reg_eq_dec r b); [congruence|]. destruct (reg_eq_dec r a); congruence.
Qed.
(** SRM: the register gets the word at the address, the address the register. *)
Lemma P_C25_srm : forall D (ops : bus_ops D) oc m v add r a w z mem1 mem2 mem3 m', typed ops -> wf m ->
  executes ops oc m (Srm v add r) mem1 m' -> load_address m (Srm v add r) = Some a ->
  loads ops m mem1 a w mem2 -> reg_value m r = Some z -> stores ops m mem2 a z mem3 ->
  if can_write (sup_mode m) r then after m m' mem3 [(r, w); (R_pc, (R m R_pc + 4) mod 2 ^ 32)] else raised m m' mem3 4 (reg_code r).
Proof.
  intros D ops oc m v add r a w z mem1 mem2 mem3 m' T Hw He Ha Hl Hz Hs. cbn [load_address] in Ha.
  repeat match type of Ha with context [operand1 m ?v] => let E := fresh "E" in destruct (operand1 m v) eqn:E; try discriminate Ha end.
  injection Ha as <-. pose proof (exec_step ops T _ _ _ _ _ Hw He) as E1. cbn [step] in E1.
  repeat (erewrite read1_ok in E1 by eauto). erewrite loads_load in E1 by (exact Hl).
  erewrite read_ok in E1 by eauto. erewrite stores_store in E1 by (exact Hs).
  destruct (can_write (sup_mode m) r) eqn:Hc.
  - eapply fin_ends; eauto. apply (ends_write_end (start m mem3) []); [sr|exact Hc].
  - eapply fin_raise; eauto. unfold write_end, write in E1. rewrite sup_start, Hc in E1. exact E1.
Qed.
Lemma E_C25_ex : demo_case (asm [Cpy R_a0 (Lit2 260); Cpy R_a1 (Lit2 4); Ex R_a0 R_a1; Ex R_a0 R_a1]) 2 (fun m i mem1 m' =>
  i = Ex R_a0 R_a1 /\ sup_mode m = true /\ R m' R_a0 = 4 /\ R m' R_a1 = 260).
Proof. demo_tac. Qed.
Lemma E_C25_srm : demo_case (asm [Cpy R_a0 (Lit2 260); Wsa (Reg1 R_a0) (Lit1 4) (Lit1 9); Srm (Reg1 R_a0) (Lit1 4) R_a0]) 2 (fun m i mem1 m' =>
  i = Srm (Reg1 R_a0) (Lit1 4) R_a0 /\ load_address m i = Some 264 /\ R m' R_a0 = 9 /\
  match mem_read (dev_ops false) false (c_mem m') 264 with Ret (_, ex, w) => ex = 0 /\ w = 260 | Panic => False end).
Proof. demo_tac. Qed.

(** * C26 *)
(** HWD writes the documented information ([info_spec], SpecBus) or raises the documented exception. *)
Lemma P_C26_hwd : forall D (ops : bus_ops D) oc m d id info x y mem1 m', typed ops -> wf m -> executes ops oc m (Hwd d id info) mem1 m' ->
  operand1 m id = Some x -> operand1 m info = Some y ->
  match (if (x =? 0) && (y =? 0) then inr (Z.of_nat (length (mm_hwb mem1))) else info_spec mem1 x y) with
  | inl (code, data) => raised m m' mem1 code data
  | inr v =>
      if can_write (sup_mode m) d then after m m' mem1 [(d, v); (R_pc, (R m R_pc + 4) mod 2 ^ 32)]
      else raised m m' mem1 4 (reg_code d)
  end.
Proof.
  intros D ops oc m d id info x y mem1 m' T Hw He Hx Hy. pose proof (exec_step ops T _ _ _ _ _ Hw He) as E1. cbn [step] in E1.
  repeat (erewrite read1_ok in E1 by eauto).
  assert (K : forall v, write_end d v (start m mem1) = Ret (abs m') ->
    if can_write (sup_mode m) d then after m m' mem1 [(d, v); (R_pc, (R m R_pc + 4) mod 2 ^ 32)] else raised m m' mem1 4 (reg_code d)).
  { intros v E. destruct (can_write (sup_mode m) d) eqn:Hc.
    - eapply fin_ends; eauto. apply (ends_write_end (start m mem1) []); [sr|exact Hc].
    - eapply fin_raise; eauto. unfold write_end, write in E. rewrite sup_start, Hc in E. exact E. }
  destruct ((x =? 0) && (y =? 0)).
  - apply K. cbn [bus_count board_bus start s_bus] in E1. exact E1.
  - cbn [bus_info board_bus start s_bus] in E1. fold (start m mem1) in E1. destruct (info_spec mem1 x y) as [[code data]|v].
    + eapply fin_raise; eauto.
    + apply K. exact E1.
Qed.
Lemma E_C26_hwd : demo_case (asm [Hwd R_a0 (Lit1 1) (Lit1 161)]) 0 (fun m i mem1 m' =>
  operand1 m (Lit1 1) = Some 1 /\ info_spec mem1 1 161 = inr 256 /\ R m' R_a0 = 256).
Proof. demo_tac. Qed.

(** * C27 *)
Lemma resets_exactly_sel D (ops : bus_ops D) sel (P : Z -> Prop) h h' : (forall k, sel k = true <-> P k) ->
  reset_sel ops 0 sel h = Ret h' -> resets_exactly ops P h h'.
Proof.
  intros HP E. split.
  { apply reset_sel_caches in E. rewrite <- (map_length ae_cache h'), E, map_length. reflexivity. }
  assert (G : forall h h' i k e, reset_sel ops i sel h = Ret h' -> znth h k = Some e ->
    (sel (i + k) = true -> exists d, bo_reset ops (ae_dev e) = Ret d /\ znth h' k = Some (AuxEntry d (ae_cache e))) /\
    (sel (i + k) = false -> znth h' k = Some e)).
  { clear. induction h as [|x t IH]; intros h' i k e E Hk; cbn [znth] in Hk; [discriminate|].
    cbn [reset_sel] in E. destruct (if sel i then bo_reset ops (ae_dev x) else Ret (ae_dev x)) as [d|] eqn:Ed; [|discriminate].
    destruct (reset_sel ops (i + 1) _ t) as [t'|] eqn:Et; [|discriminate]. injection E as <-.
    cbn [znth]. destruct (Z.eqb_spec k 0) as [->|Nk].
    - injection Hk as <-. rewrite Z.add_0_r. destruct (sel i).
      + split; [eauto|discriminate].
      + split; [discriminate|]. injection Ed as <-. destruct x; auto.
    - replace (i + k) with (i + 1 + (k - 1)) by lia. eapply IH; eauto. }
  intros k e Hk. specialize (G _ _ _ _ _ E Hk). cbn [Z.add] in G. destruct G as [G1 G2]. split.
  - intros Hp. apply G1, HP, Hp.
  - intros Hp. apply G2. destruct (sel k) eqn:Es; auto. destruct Hp. apply HP, Es.
Qed.
Lemma selected_picks mode avr n sel : reset_selected (mode mod 16) avr n = Some sel -> forall k, sel k = true <-> reset_picks mode avr k.
Proof.
  unfold reset_selected, reset_picks. set (x := mode mod 16).
  assert (Hx : 0 <= x < 16) by (unfold x; lia). clearbody x. intros E k.
  assert (Y : x = 0 \/ x = 1 \/ x = 2 \/ x = 3 \/ x = 4 \/ 5 <= x) by lia.
  destruct Y as [->|[->|[->|[->|[->|Hy]]]]]; cbn [Z.eqb Pos.eqb] in E.
  - injection E as <-. tauto.
  - destruct (avr <? n); [|discriminate]. injection E as <-. apply Z.eqb_eq.
  - injection E as <-. rewrite negb_true_iff. apply Z.eqb_neq.
  - injection E as <-. apply Z.ltb_lt.
  - injection E as <-. apply Z.ltb_lt.
  - rewrite (proj2 (Z.eqb_neq x 0)), (proj2 (Z.eqb_neq x 1)), (proj2 (Z.eqb_neq x 2)), (proj2 (Z.eqb_neq x 3)), (proj2 (Z.eqb_neq x 4)) in E by lia. injection E as <-. split; [discriminate|].
    assert (Z : x = 5 \/ x = 6 \/ x = 7 \/ x = 8 \/ x = 9 \/ x = 10 \/ x = 11 \/ x = 12 \/ x = 13 \/ x = 14 \/ x = 15) by lia.
    repeat destruct Z as [->|Z]; try tauto. subst x. tauto.
Qed.
(** RESET resets exactly the selected components; the CPU is reset afterwards iff the high half of the mode byte is 0,
    otherwise execution goes on. *)
Lemma P_C27_reset : forall D (ops : bus_ops D) oc m v mode mem1 m', typed ops -> wf m -> executes ops oc m (Reset v) mem1 m' ->
  operand1 m v = Some mode -> (mode mod 16 = 1 -> R m R_avr < Z.of_nat (length (mm_hwb mem1))) ->
  mm_maps (c_mem m') = mm_maps mem1 /\ resets_exactly ops (reset_picks mode (R m R_avr)) (mm_hwb mem1) (c_hwb m') /\
  (if (mode / 16) mod 16 =? 0
   then (forall r, R m' r = if reg_eq_dec r R_smt then 1 else 0) /\ c_cycles m' = 0 /\ c_halted m' = false
   else after m m' (c_mem m') [(R_pc, (R m R_pc + 4) mod 2 ^ 32)]).
Proof.
  intros D ops oc m v mode mem1 m' T Hw He Hx Hb. pose proof (exec_step ops T _ _ _ _ _ Hw He) as E1. cbn [step] in E1.
  erewrite read1_ok in E1 by eauto. change (get (start m mem1) R_avr) with (R m R_avr) in E1.
  cbn [bus_count board_bus start s_bus bus_reset] in E1. fold (start m mem1) in E1.
  destruct (reset_selected (mode mod 16) (R m R_avr) (zlen (mm_hwb mem1))) as [sel|] eqn:Es.
  2:{ exfalso. unfold reset_selected in Es. destruct (Z.eqb_spec (mode mod 16) 0); [discriminate|].
      destruct (Z.eqb_spec (mode mod 16) 1) as [E|].
      2:{ repeat (destruct (_ =? _) in Es; try discriminate Es). }
      specialize (Hb E). fold (zlen (mm_hwb mem1)) in Hb. apply Z.ltb_lt in Hb. rewrite Hb in Es. discriminate Es. }
  destruct (reset_sel ops 0 sel (mm_hwb mem1)) as [h|] eqn:Er; [|discriminate].
  pose proof (resets_exactly_sel _ _ _ _ _ _ (selected_picks _ _ _ _ Es) Er) as X.
  destruct (_ =? 0) eqn:Ec in E1 |- *.
  - apply Ret_inj in E1.
    assert (Eb : c_mem m' = Memory h (mm_maps mem1)). { apply (f_equal (@s_bus _)) in E1. cbn in E1. auto. }
    unfold c_hwb. rewrite Eb. split; auto. split; auto.
    split. { intros r. change (R m' r) with (get (abs m') r). rewrite <- E1. destruct r; reflexivity. }
    split. { apply (f_equal (@s_cyc _)) in E1. cbn in E1. auto. }
    apply (f_equal (@s_halt _)) in E1. cbn in E1. auto.
  - unfold advance in E1. apply Ret_inj in E1.
    assert (Eb : c_mem m' = Memory h (mm_maps mem1)). { apply (f_equal (@s_bus _)) in E1. cbn in E1. auto. }
    assert (A : after m m' (Memory h (mm_maps mem1)) [(R_pc, (R m R_pc + 4) mod 2 ^ 32)]).
    { refine (fin_ends _ T _ _ _ _ _ _ _ (advance 4 (start m (Memory h (mm_maps mem1)))) Hw He _ _). 2:{ apply (ends_advance (start m (Memory h (mm_maps mem1))) [] (start m (Memory h (mm_maps mem1)))). sr. }
      unfold advance. rewrite <- E1. reflexivity. }
    unfold c_hwb. rewrite Eb. auto.
Qed.
(** An unknown component in avr (mode 1) raises 0x10. *)
Lemma P_C27_unknown : forall D (ops : bus_ops D) oc m v mode mem1 m', typed ops -> wf m -> executes ops oc m (Reset v) mem1 m' ->
  operand1 m v = Some mode -> mode mod 16 = 1 -> Z.of_nat (length (mm_hwb mem1)) <= R m R_avr -> raised m m' mem1 16 (R m R_avr mod 2 ^ 16).
Proof.
  intros D ops oc m v mode mem1 m' T Hw He Hx Hm Hb. eapply executes_raised; eauto. cbn [step].
  erewrite read1_ok by eauto. change (get (start m mem1) R_avr) with (R m R_avr).
  cbn [bus_count board_bus start s_bus]. fold (start m mem1). unfold reset_selected. rewrite Hm.
  cbn [Z.eqb Pos.eqb]. fold (zlen (mm_hwb mem1)) in Hb. apply Z.ltb_ge in Hb. rewrite Hb. reflexivity.
Qed.
(** Writing to RAM, then RESET mode 0x11 with avr = 1: the RAM is zero again, the CPU goes on. *)
Lemma E_C27_reset : demo_case (asm [Cpy R_a0 (Lit2 256); Wsa (Reg1 R_a0) (Lit1 4) (Lit1 9); Cpy R_avr (Lit2 1); Reset (Lit1 17)]) 3 (fun m i mem1 m' =>
  i = Reset (Lit1 17) /\ operand1 m (Lit1 17) = Some 17 /\ R m R_avr = 1 /\ (length (mm_hwb mem1) = 2)%nat /\
  match mem_read (dev_ops false) false mem1 260, mem_read (dev_ops false) false (c_mem m') 260 with
  | Ret (_, _, x), Ret (_, _, y) => x = 9 /\ y = 0 | _, _ => False end /\ R m' R_pc = 16).
Proof. demo_tac. Qed.
Lemma E_C27_unknown : demo_case (asm [Cpy R_avr (Lit2 2); Reset (Lit1 1)]) 1 (fun m i mem1 m' =>
  i = Reset (Lit1 1) /\ R m R_avr = 2 /\ (length (mm_hwb mem1) = 2)%nat /\ R m' R_et = et_value true 16 2).
Proof. demo_tac. Qed.
(** The documented selections `smaller than or equal' and `greater than or equal' do not include the component in avr. *)
Lemma P_C27_inclusive_refuted : ~ (forall D (ops : bus_ops D) oc m v mode mem1 m', typed ops -> wf m -> executes ops oc m (Reset v) mem1 m' ->
  operand1 m v = Some mode -> mode mod 16 = 3 ->
  resets_exactly ops (fun id => id <= R m R_avr) (mm_hwb mem1) (c_hwb m')).
Proof.
  intros H.
  assert (X : demo_case (asm [Cpy R_a0 (Lit2 256); Wsa (Reg1 R_a0) (Lit1 4) (Lit1 9); Cpy R_avr (Lit2 1); Reset (Lit1 19)]) 3 (fun m i mem1 m' =>
    i = Reset (Lit1 19) /\ R m R_avr = 1 /\
    match znth (mm_hwb mem1) 1, znth (c_hwb m') 1 with
    | Some e, Some e' => match bo_reset (dev_ops false) (ae_dev e), mem_read (dev_ops false) false (c_mem m') 260 with
        | Ret d, Ret (_, _, x) => d <> ae_dev e' | _, _ => False end
    | _, _ => False end)) by demo_tac.
  destruct X as (m & i & mem1 & m' & Hr & He & -> & Ha & X).
  destruct (znth (mm_hwb mem1) 1) as [e|] eqn:E1; [|destruct X]. destruct (znth (c_hwb m') 1) as [e'|] eqn:E2; [|destruct X].
  destruct (bo_reset _ _) as [d|] eqn:E3; [|destruct X]. destruct (mem_read _ _ _ _) as [[[? ?] ?]|]; [|destruct X].
  destruct (H _ _ _ _ _ _ _ _ (dev_typed false) (reachable_wf _ (dev_typed false) _ _ Hr) He eq_refl eq_refl) as [_ Y].
  destruct (Y _ _ E1) as [Y1 _]. destruct Y1 as (d' & E3' & E2'); [lia|].
  rewrite E3 in E3'. injection E3' as <-. rewrite E2 in E2'. injection E2' as ->. apply X. reflexivity.
Qed.

(* Concrete cases for the theorems above that have none beside them. *)
Lemma E_C24_call : demo_case (asm [Cpy R_ssp (Lit2 512); Call (Lit2 32)]) 1 (fun m i mem1 m' =>
  i = Call (Lit2 32) /\ operand2 m (Lit2 32) = Some 32 /\ R m' R_pc = 32 /\ R m' R_ssp = 508).
Proof. demo_tac. Qed.
Lemma E_C25_ex_twice : demo_case (asm [Cpy R_a0 (Lit2 7); Cpy R_rr0 (Lit2 9); Ex R_a0 R_rr0; Ex R_a0 R_rr0]) 2 (fun m i mem1 m1 =>
  i = Ex R_a0 R_rr0 /\ match exec_check m1 with Some (i2, mem2, m2) => i2 = Ex R_a0 R_rr0 /\ R m1 R_a0 = 9 /\ R m2 R_a0 = 7 /\ R m2 R_rr0 = 9 | None => False end).
Proof. demo_tac. Qed.
