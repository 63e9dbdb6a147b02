(** Conformance of a cycle with the instruction set; conditionals, register access rights, exception words,
    supervisor instructions. *)
From Coq Require Import ZArith List Bool Lia.
From Verif Require Import Base Board Mem Cpu Asm Tools Devices DevTyped SpecMach SpecIsa SpecBus SpecObs SpecTools SpecMap BaseFacts RegFacts MemFacts
  AluFacts IsaFacts IsaStep MonoFacts CycleFacts UndFacts HoareFacts CyclePost InvFacts MapFacts ReachFacts ExecFacts StepCases ProofAlu ProofState Demo.
Import ListNotations.
Open Scope Z_scope.
Ltac Zify.zify_post_hook ::= Z.div_mod_to_equations.

(** * C06 *)
(** A cycle that fetches instruction [i] ends exactly in the state given by the instruction-set specification (SpecIsa.step),
    in registers, memory, cycle counter and halting; it crashes exactly when the specification's bus does. *)
Lemma P_C06_conformance : forall D (ops : bus_ops D) m i mem1, typed ops -> wf m -> c_halted m = false -> fetches ops m i mem1 ->
  omap abs (next ops false m) =
  step (board_bus ops false) i (St (file (c_regs m)) mem1 ((c_cycles m + 1) mod 2 ^ 128) false).
Proof.
  intros D ops m i mem1 T Hw Hh (w & Hl & Hd). rewrite (next_refines ops T m Hw).
  unfold cycle_spec. cbn [abs s_halt s_reg s_bus s_cyc]. rewrite Hh. unfold fetch.
  change (St (file (c_regs m)) (c_mem m) ((c_cycles m + 1) mod 2 ^ 128) false) with (start m (c_mem m)).
  rewrite get_start. erewrite loads_load by eauto. rewrite Hd. reflexivity.
Qed.
(** The same for a debug build, when its cycle does not panic. *)
Lemma P_C06_debug : forall D (ops : bus_ops D) m i mem1 m', typed ops -> wf m -> executes ops true m i mem1 m' ->
  step (board_bus ops false) i (St (file (c_regs m)) mem1 ((c_cycles m + 1) mod 2 ^ 128) false) = Ret (abs m').
Proof. intros D ops m i mem1 m' T Hw He. exact (exec_step ops T _ _ _ _ _ Hw He). Qed.
Section Raw.
Context {D : Type} (ops : bus_ops D) (T : typed ops).
Implicit Type m : cpu D.
Definition fetched m mem1 : cpu D := with_mem mem1 (with_cycles ((c_cycles m + 1) mod two128) m).
Lemma raw_cycle m w mem1 : wf m -> c_halted m = false -> loads ops m (c_mem m) (R m R_pc) w mem1 ->
  W (fetched m mem1) /\ omap abs (next ops false m) = fin (exec_word ops w (fetched m mem1)).
Proof.
  intros Hw Hh Hl.
  assert (HW : W (fetched m mem1)).
  { split; [apply Hw|]. eapply mem_wf_ext; [|apply Hw]. destruct Hl as (_ & mem0 & Hp & Hr). unfold passes in Hp.
    eapply mem_ext_trans; [|eapply mem_read_ext; eauto]. destruct (_ =? 0); [subst; apply mem_ext_refl|].
    destruct Hp as (e & He & _). eapply mem_read_ext; eauto. }
  split; auto. rewrite (next_refines ops T m Hw).
  unfold cycle_spec. cbn [abs s_halt s_reg s_bus s_cyc]. rewrite Hh. unfold fetch.
  change (St (file (c_regs m)) (c_mem m) ((c_cycles m + 1) mod 2 ^ 128) false) with (start m (c_mem m)).
  rewrite get_start. erewrite loads_load by eauto.
  assert (E : start m mem1 = abs (fetched m mem1)). { unfold abs, fetched, start. cbn. rewrite Hh. reflexivity. }
  rewrite E. destruct (decode (bytes_of_word w)) as [i|e] eqn:Ed.
  - symmetry. apply exec_word_refines; auto.
  - apply und_abs; auto.
Qed.
Lemma raw_raised oc m w mem1 m' code data : wf m -> c_halted m = false -> loads ops m (c_mem m) (R m R_pc) w mem1 -> next ops oc m = Ret m' ->
  (W (with_chg false (fetched m mem1)) -> exec_word ops w (fetched m mem1) = CErr (exception code data (with_chg false (fetched m mem1)))) ->
  raised m m' mem1 code data.
Proof.
  intros Hw Hh Hl Hn E. apply next_oc in Hn. destruct (raw_cycle m w mem1 Hw Hh Hl) as [HW X]. rewrite Hn, E in X.
  2:{ apply W_chg; auto. }
  cbn [omap fin] in X. apply Ret_inj in X. pose proof (exc_raise code data _ (W_chg false _ HW)) as Y. rewrite <- X in Y.
  rewrite abs_chg in Y.
  assert (E1 : start m mem1 = abs (fetched m mem1)). { unfold abs, fetched, start. cbn. rewrite Hh. reflexivity. }
  rewrite <- E1 in Y.
  destruct (ends_raise m mem1 code data Hw) as (s' & Z1 & Z2). rewrite <- Y in Z1. apply Ret_inj in Z1. subst s'.
  destruct Z2 as (H1 & H2 & H3 & H4 & H5). split; [exact H5|]. split; [exact H2|]. split; [|exact H3]. rewrite Hh. exact H4.
Qed.
End Raw.
(** Opcode 0 raises 0x01. *)
Lemma P_C06_opcode0 : forall D (ops : bus_ops D) oc m w mem1 m', typed ops -> wf m -> c_halted m = false ->
  loads ops m (c_mem m) (R m R_pc) w mem1 -> 0 <= w < 2 ^ 27 -> next ops oc m = Ret m' -> raised m m' mem1 1 0.
Proof.
  intros D ops oc m w mem1 m' T Hw Hh Hl Hr Hn. eapply raw_raised; eauto. intros HW. unfold exec_word. cbv zeta.
  rewrite !Z.shiftr_div_pow2 by lia. change (2 ^ 27) with 134217728 in Hr. change (2 ^ 24) with 16777216. change (2 ^ 3) with 8.
  replace (u8 (w / 16777216) / 8) with 0 by (unfold u8; lia). reflexivity.
Qed.
(** An access that fails during the fetch leaves only the exception. *)
Lemma P_C06_fetch_fault : forall D (ops : bus_ops D) oc m mem2 code data m', typed ops -> wf m -> c_halted m = false ->
  load_faults ops m (c_mem m) (R m R_pc) mem2 code data -> next ops oc m = Ret m' -> raised m m' mem2 code data.
Proof.
  intros D ops oc m mem2 code data m' T Hw Hh Hl Hn. apply next_oc in Hn.
  pose proof (next_refines ops T m Hw) as HR. rewrite Hn in HR. cbn [omap] in HR.
  unfold cycle_spec in HR. cbn [abs s_halt s_reg s_bus s_cyc] in HR. rewrite Hh in HR. unfold fetch in HR.
  change (St (file (c_regs m)) (c_mem m) ((c_cycles m + 1) mod 2 ^ 128) false) with (start m (c_mem m)) in HR.
  rewrite get_start in HR. erewrite faults_load in HR by eauto.
  destruct (ends_raise m mem2 code data Hw) as (s' & Z1 & Z2). rewrite <- HR in Z1. apply Ret_inj in Z1. subst s'.
  destruct Z2 as (H1 & H2 & H3 & H4 & H5). split; [exact H5|]. split; [exact H2|]. split; [|exact H3]. rewrite Hh. exact H4.
Qed.
(** A word that is no instruction always ends in an exception. *)
Lemma P_C06_garbage : forall D (ops : bus_ops D) oc m m', typed ops -> wf m -> c_halted m = false ->
  fetches_garbage ops m -> next ops oc m = Ret m' ->
  exists code data, ex_code code /\ ex_data code data /\ R m' R_et = et_value (sup_mode m) code data /\ R m' R_smt = 1 /\ R m' R_pc = R m R_ev /\
    c_halted m' = false /\ forall r, R m' r <> R m r -> In r [R_et; R_smt; R_pc; sp_of m].
Proof.
  intros D ops oc m m' T Hw Hh (w & mem1 & e & Hl & Hd) Hn. apply next_oc in Hn.
  destruct (raw_cycle ops T m w mem1 Hw Hh Hl) as [HW X]. rewrite Hn in X. cbn [omap] in X.
  pose proof (exec_word_und ops T w _ e HW Hd) as HU. unfold U in HU.
  destruct (exec_word ops w (fetched m mem1)) as [|m2|]; [destruct HU| |discriminate].
  cbn [fin] in X. apply Ret_inj in X.
  destruct HU as (m3 & code & a & -> & Hr3 & Hc & Ha' & Hf & Hcy & Hhl & Hbs).
  assert (M3 : mem_wf (c_mem m3)) by (eapply mem_wf_ext; [apply (bsteps_ext ops); eauto|apply HW]).
  assert (E : abs m' = raise_st code a (abs m3)).
  { rewrite X. apply Ret_inj. rewrite exc_raise by (split; auto). reflexivity. }
  assert (G : forall r, R m' r = get (raise_st code a (abs m3)) r) by (intros r; rewrite <- E; reflexivity).
  assert (L3 : length (s_reg (abs m3)) = 32%nat) by (apply file_length; auto).
  assert (Q : forall r, r <> sp_of m -> R m3 r = R m r).
  { intros r N. unfold R. destruct Hf as [-> | ->]; [reflexivity|]. rewrite rg_rs by apply file_length, Hw.
    change (sp_reg (abs (fetched m mem1))) with (sp_of m). destruct (reg_eq_dec r (sp_of m)); [congruence|reflexivity]. }
  exists code, a. split; auto. split; auto.
  assert (S : sup (abs m3) = sup_mode m).
  { unfold sup, sup_mode. rewrite get_abs, Q; auto. unfold sp_of. destruct (sup_mode m); discriminate. }
  split. { rewrite G, raise_gets by auto. cbn. rewrite S. reflexivity. }
  split. { rewrite G, raise_gets by auto. reflexivity. }
  split. { rewrite G, raise_gets by auto. change (R m3 R_ev = R m R_ev). apply Q. unfold sp_of. destruct (sup_mode m); discriminate. }
  split. { apply (f_equal (@s_halt _)) in E. cbn in E. rewrite E, Hhl. exact Hh. }
  intros r N. rewrite G, raise_gets in N by auto. cbn.
  destruct (reg_eq_dec r R_smt); [auto|]. destruct (reg_eq_dec r R_pc); [auto|]. destruct (reg_eq_dec r R_et); [auto|].
  destruct (reg_eq_dec r (sp_of m)); [auto 6|]. exfalso. apply N. apply Q; auto.
Qed.

Lemma E_C06_conformance : demo_case (asm [Cpy R_a0 (Lit2 260); Wsa (Reg1 R_a0) (Lit1 4) (Lit1 9)]) 1 (fun m i mem1 m' =>
  wf m /\ c_halted m = false /\ i = Wsa (Reg1 R_a0) (Lit1 4) (Lit1 9) /\
  exists mem2, mem_read (dev_ops false) false (c_mem m') 264 = Ret (mem2, 0, 9)).
Proof.
  apply demo_case_intro. 
  destruct (demo_run false (asm [Cpy R_a0 (Lit2 260); Wsa (Reg1 R_a0) (Lit1 4) (Lit1 9)]) 1) as [m|] eqn:E; [|vm_compute in E; discriminate].
  assert (Hw : wf m) by (eapply reachable_wf; [apply dev_typed|eapply demo_reachable; eauto]).
  vm_compute in E. injection E as <-. 
  match goal with |- match ?x with _ => _ end => let y := eval vm_compute in x in change x with y end. cbv iota beta.
  split; [exact Hw|]. split; [reflexivity|]. split; [reflexivity|]. eexists. vm_compute. reflexivity.
Qed.

(** * C13 *)
(** IF runs the next instruction iff the flag is set, IFN iff it is clear; flags 0..7 are bits 7..0 of [af]. *)
Lemma P_C13_if : forall D (ops : bus_ops D) oc m i v f neg mem1 m', typed ops -> wf m -> executes ops oc m i mem1 m' ->
  i = (if neg : bool then IfN v else If v) -> operand1 m v = Some f ->
  (7 < f -> raised m m' mem1 12 (f mod 256)) /\
  (f <= 7 -> after m m' mem1 [(R_pc, (R m R_pc + (if xorb neg (flag m (7 - f)) then 4 else 8)) mod 2 ^ 32)]).
Proof.
  intros D ops oc m i v f neg mem1 m' T Hw He Hi Hv.
  assert (S : step (board_bus ops false) i (start m mem1) =
     if 7 <? f then raise 12 (f mod 256) (start m mem1)
     else if xorb neg (flag m (7 - f)) then advance 4 (start m mem1) else advance 8 (start m mem1)).
  { subst i. destruct neg; cbn [step]; erewrite read1_ok by eauto; destruct (7 <? f); auto;
    change (flag_of (start m mem1) f) with (flag m (7 - f)); destruct (flag m (7 - f)); reflexivity. }
  split; intros Hf.
  - eapply executes_raised; eauto. rewrite S. rewrite (proj2 (Z.ltb_lt _ _) Hf). reflexivity.
  - eapply ends_after; eauto. rewrite S. replace (7 <? f) with false by (symmetry; apply Z.ltb_ge; lia).
    destruct (xorb neg _).
    + apply (ends_advance (start m mem1) []). apply sets_refl, len_start; auto.
    + apply (ends_advance (start m mem1) []). apply sets_refl, len_start; auto.
Qed.
(** IF2: truth table (conditions 1..7: or, and, xor, nor, nand, left, right) and unknown conditions. *)
Lemma P_C13_if2 : forall D (ops : bus_ops D) oc m a b c fa fb cc mem1 m', typed ops -> wf m ->
  executes ops oc m (If2 a b c) mem1 m' -> operand1 m a = Some fa -> operand1 m b = Some fb -> operand1 m c = Some cc ->
  (forall holds, 0 <= fa <= 7 -> 0 <= fb <= 7 -> cond_spec cc (flag m (7 - fa)) (flag m (7 - fb)) = Some holds ->
     after m m' mem1 [(R_pc, (R m R_pc + (if holds then 4 else 8)) mod 2 ^ 32)]) /\
  (~ 1 <= cc <= 7 -> raised m m' mem1 13 (cc mod 256)).
Proof.
  intros D ops oc m a b c fa fb cc mem1 m' T Hw He Ha Hb Hc.
  assert (S : step (board_bus ops false) (If2 a b c) (start m mem1) =
    match cond_spec cc (flag_of_unchecked (start m mem1) fa) (flag_of_unchecked (start m mem1) fb) with
    | None => raise 13 (cc mod 256) (start m mem1)
    | Some true => advance 4 (start m mem1)
    | Some false => advance 8 (start m mem1)
    end).
  { cbn [step]. erewrite read1_ok by eauto. erewrite read1_ok by eauto. erewrite read1_ok by eauto. reflexivity. }
  split.
  - intros holds Hfa Hfb Hs. eapply ends_after; eauto. rewrite S.
    unfold flag_of_unchecked. rewrite (Z.mod_small (7 - fa) 32), (Z.mod_small (7 - fb) 32) by lia. change (get (start m mem1) R_af) with (R m R_af).
    unfold flag in Hs. rewrite Hs. destruct holds; apply (ends_advance (start m mem1) []), sets_refl, len_start; auto.
  - intros Hcc. eapply executes_raised; eauto. rewrite S.
    assert (E : forall x y, cond_spec cc x y = None).
    { intros x y. unfold cond_spec.
      repeat match goal with |- context [cc =? ?k] => destruct (Z.eqb_spec cc k); [lia|] end. reflexivity. }
    rewrite E. reflexivity.
Qed.
(** What an unknown flag does in IF2, in a release build: the bit of af it tests is 7 - flag modulo 32, and no exception is raised about it. *)
Lemma P_C13_if2_unknown_flag : forall D (ops : bus_ops D) m a b c fa fb cc mem1 m', typed ops -> wf m ->
  executes ops false m (If2 a b c) mem1 m' -> operand1 m a = Some fa -> operand1 m b = Some fb -> operand1 m c = Some cc -> 1 <= cc <= 7 ->
  exists holds, cond_spec cc (flag m ((7 - fa) mod 32)) (flag m ((7 - fb) mod 32)) = Some holds /\
    after m m' mem1 [(R_pc, (R m R_pc + (if holds then 4 else 8)) mod 2 ^ 32)].
Proof.
  intros D ops m a b c fa fb cc mem1 m' T Hw He Ha Hb Hc Hcc.
  assert (S : step (board_bus ops false) (If2 a b c) (start m mem1) =
    match cond_spec cc (flag_of_unchecked (start m mem1) fa) (flag_of_unchecked (start m mem1) fb) with
    | None => raise 13 (cc mod 256) (start m mem1)
    | Some true => advance 4 (start m mem1)
    | Some false => advance 8 (start m mem1)
    end).
  { cbn [step]. erewrite read1_ok by eauto. erewrite read1_ok by eauto. erewrite read1_ok by eauto. reflexivity. }
  destruct (cond_spec cc (flag m ((7 - fa) mod 32)) (flag m ((7 - fb) mod 32))) as [holds|] eqn:E.
  - exists holds. split; [reflexivity|]. eapply ends_after; eauto. rewrite S. unfold flag_of_unchecked. change (get (start m mem1) R_af) with (R m R_af).
    unfold flag in E. rewrite E. destruct holds; apply (ends_advance (start m mem1) []), sets_refl, len_start; auto.
  - exfalso. unfold cond_spec in E. repeat match type of E with context [cc =? ?k] => destruct (Z.eqb_spec cc k); [discriminate E|] end. lia.
Qed.
Lemma E_C13_if2_unknown_flag : demo_case (asm [Cmp R_a0 (Lit2 0); If2 (Lit1 32) (Lit1 8) (Lit1 6)]) 1 (fun m i mem1 m' =>
  i = If2 (Lit1 32) (Lit1 8) (Lit1 6) /\ flag m ((7 - 32) mod 32) = true /\ flag m ((7 - 8) mod 32) = false /\ R m' R_pc = 8).
Proof. demo_tac. Qed.
Lemma E_C13_if2 : demo_case (asm [Cmp R_a0 (Lit2 5); If2 (Lit1 0) (Lit1 1) (Lit1 1)]) 1 (fun m i mem1 m' =>
  i = If2 (Lit1 0) (Lit1 1) (Lit1 1) /\ cond_spec 1 (flag m 7) (flag m 6) = Some true /\ R m' R_pc = 8).
Proof. demo_tac. Qed.
Lemma E_C13_if : demo_case (asm [Cmp R_a0 (Lit2 0); If (Lit1 0)]) 1 (fun m i mem1 m' =>
  i = If (Lit1 0) /\ flag m 7 = true /\ R m' R_pc = 8).
Proof. demo_tac. Qed.
(** An unknown flag in IF2 does not raise 0x0C. *)
Lemma P_C13_if2_flag_refuted : ~ (forall D (ops : bus_ops D) oc m a b c fa fb cc mem1 m', typed ops -> wf m ->
  executes ops oc m (If2 a b c) mem1 m' -> operand1 m a = Some fa -> operand1 m b = Some fb -> operand1 m c = Some cc ->
  7 < fa -> R m' R_pc = R m R_ev /\ R m' R_et = et_value (sup_mode m) 12 (fa mod 256)).
Proof.
  intros H.
  assert (X : demo_case (asm [If2 (Lit1 8) (Lit1 1) (Lit1 1)]) 0 (fun m i mem1 m' =>
    i = If2 (Lit1 8) (Lit1 1) (Lit1 1) /\ R m R_ev = 0 /\ R m' R_pc = 8)) by demo_tac.
  destruct X as (m & i & mem1 & m' & Hr & He & -> & E1 & E2).
  destruct (H _ _ _ _ _ _ _ 8 1 1 _ _ (dev_typed false) (reachable_wf _ (dev_typed false) _ _ Hr) He) as [A _]; auto; try lia.
Qed.

(** * C14 *)
(** The access table. *)
Lemma P_C14_table : forall sup r,
  (can_read sup r = false <-> sup = false /\ In r [R_ssp; R_usp; R_et; R_era; R_ev; R_mtt; R_pda; R_smt]) /\
  (can_write sup r = false <->
     In r [R_af; R_et; R_era] \/ sup = false /\ In r [R_ssp; R_usp; R_et; R_era; R_ev; R_mtt; R_pda; R_smt]).
Proof. intros [] []; cbn; intuition (try discriminate; auto 20). Qed.
(** CPY between registers succeeds exactly as the table says, and a refused access changes nothing else. *)
Lemma P_C14_cpy : forall D (ops : bus_ops D) oc m d r mem1 m', typed ops -> wf m -> executes ops oc m (Cpy d (Reg2 r)) mem1 m' ->
  (can_read (sup_mode m) r = false -> raised m m' mem1 3 (reg_code r)) /\
  (can_read (sup_mode m) r = true -> can_write (sup_mode m) d = false -> raised m m' mem1 4 (reg_code d)) /\
  (can_read (sup_mode m) r = true -> can_write (sup_mode m) d = true ->
     after m m' mem1 [(d, R m r); (R_pc, (R m R_pc + 4) mod 2 ^ 32)]).
Proof.
  intros D ops oc m d r mem1 m' T Hw He. split; [|split].
  - intros Hr. eapply executes_raised; eauto. cbn [step read2]. apply read_no; auto.
  - intros Hr Hd. eapply executes_raised; eauto. cbn [step read2]. erewrite read_ok by (unfold reg_value; rewrite Hr; reflexivity).
    unfold write_end, write. rewrite sup_start, Hd. reflexivity.
  - intros Hr Hd. eapply ends_after; eauto. cbn [step read2]. erewrite read_ok by (unfold reg_value; rewrite Hr; reflexivity).
    apply (ends_write_end (start m mem1) []); auto. apply sets_refl, len_start; auto.
Qed.
(** In every instruction the first operand register that may not be read raises 0x03 with its code, and nothing else happens. *)
Lemma P_C14_operands : forall D (ops : bus_ops D) oc m i mem1 m' r, typed ops -> wf m -> executes ops oc m i mem1 m' ->
  find (fun r => negb (can_read (sup_mode m) r)) (reads i) = Some r -> raised m m' mem1 3 (reg_code r).
Proof.
  intros D ops oc m i mem1 m' r T Hw He. 
  assert (K : forall s, s = step (board_bus ops false) i (start m mem1) -> s = raise 3 (reg_code r) (start m mem1) -> raised m m' mem1 3 (reg_code r)).
  { intros s -> E. eapply executes_raised; eauto. }
  intros Hf. eapply K; [reflexivity|]. clear K He.
  destruct i; cbn [step];
  repeat match goal with v : rl1 |- _ => destruct v | v : rl2 |- _ => destruct v end;
  cbn [reads regs1 regs2 app find] in Hf; cbn [read1 read2]; unfold arith; try discriminate Hf;
  repeat match goal with |- context [read ?r (start m mem1) _] => unfold read at 1; rewrite sup_start; 
     destruct (can_read (sup_mode m) r); cbn [negb] in Hf end;
  try discriminate Hf; try (injection Hf as <-; reflexivity).
Qed.
(** Destinations: arithmetic on a register that may be read but not written raises 0x04; only the flags have changed. *)
Lemma P_C14_arith_dest : forall D (ops : bus_ops D) oc m i d x mem1 m', typed ops -> wf m -> executes ops oc m i mem1 m' ->
  arith_dest i = Some d -> sources_readable m i -> reg_value m d = Some x -> can_write (sup_mode m) d = false ->
  raised m m' mem1 10 0 \/ raised m m' mem1 11 0 \/
  exists fl, after m m' mem1 [(R_smt, 1); (R_pc, R m R_ev); (R_et, et_value (sup_mode m) 4 (reg_code d)); (R_af, fl)].
Proof.
  intros D ops oc m i d x mem1 m' T Hw He Hd Hs Hx Hc.
  destruct (sources_alu _ _ _ _ Hd Hs) as [[a y] Ha].
  pose proof (step_arith ops m mem1 i d a y Hd Ha) as S.
  destruct (alu_spec a x y) as [r c o|code] eqn:E.
  - right. right. exists (flags_spec r c o). eapply ends_after; eauto. rewrite S. eapply arith_noends; eauto.
  - assert (Q : code = 10 \/ code = 11) by (eapply alu_fault; eauto).
    assert (G : raised m m' mem1 code 0).
    { eapply executes_raised; eauto. rewrite S. unfold arith. erewrite read_ok by eauto. rewrite E. reflexivity. }
    destruct Q as [-> | ->]; auto.
Qed.
(** Over whole cycles: a register the current mode may not write changes only by exception entry (et, smt), as the flags of an
    arithmetic instruction (af), as the stack pointer of a stack instruction, or by a CPU reset. *)
Lemma P_C14_protected : forall D (ops : bus_ops D) oc m m' r, typed ops -> wf m -> c_halted m = false -> next ops oc m = Ret m' ->
  can_write (sup_mode m) r = false -> R m' r <> R m r ->
  (exists i mem1, fetches ops m i mem1 /\ resets_cpu m i) \/
  (In r [R_et; R_smt] /\ R m' R_smt = 1 /\ R m' R_pc = R m' R_ev /\ exists sup code data, R m' R_et = et_value sup code data) \/
  (r = R_af /\ exists i mem1, fetches ops m i mem1 /\ (arith_dest i <> None \/ exists d v, i = Cmp d v)) \/
  (r = sp_of m /\ (R m' r = (R m r - 4) mod 2 ^ 32 \/ R m' r = (R m r + 4) mod 2 ^ 32) /\
   (pops ops m \/ exists v mem1, fetches ops m (Push v) mem1 \/ fetches ops m (Call v) mem1)).
Proof.
  intros D ops oc m m' r T Hw Hh Hn Hc Hr. apply next_oc in Hn.
  destruct (cycle_cases ops T m m' Hw Hh Hn) as [(s1 & code & data & Hcd & Hd & E & Hw1 & _ & _ & Hh1 & Hpr & Hch)|(i & mem1 & Hf & _ & HN)].
  - right. assert (G : forall r, R m' r = get (raise_st code data s1) r) by (intros q; rewrite <- E; reflexivity).
    rewrite G, raise_gets in Hr by apply Hw1.
    assert (Ent : R m' R_smt = 1 /\ R m' R_pc = R m' R_ev /\ exists sup code data, R m' R_et = et_value sup code data).
    { rewrite !G, !raise_gets by apply Hw1. split; [reflexivity|]. split; [reflexivity|]. exists (sup s1), code, data. reflexivity. }
    destruct (reg_eq_dec r R_smt); [left; cbn; auto|].
    destruct (reg_eq_dec r R_pc); [subst; destruct (sup_mode m); discriminate|].
    destruct (reg_eq_dec r R_et); [left; cbn; auto|].
    right.
    assert (AF : forall i, snd (is_stack i) = true -> arith_dest i <> None \/ exists d v, i = Cmp d v).
    { intros i Hi. destruct i; cbn in *; try discriminate Hi; eauto; left; discriminate. }
    destruct (Hpr r Hc Hr) as [(-> & i & mem1 & Hf & Hi)|(-> & Hv & Hp)]; [left; split; eauto|].
    right. split; auto. split; [|auto].
    rewrite G, raise_gets by apply Hw1.
    destruct (reg_eq_dec _ R_smt); [congruence|]. destruct (reg_eq_dec _ R_pc); [congruence|].
    destruct (reg_eq_dec _ R_et); [congruence|]. exact Hv.
  - destruct HN as [(Hrs & _)|(_ & _ & _ & _ & _ & Hok & _)]; [left; eauto|].
    right. right. destruct (Hok r) as [X|[X|[[X1 X]|(Hk & X & Hv)]]]; [destruct Hr; exact X| | |].
    + change (sup (start m mem1)) with (sup_mode m) in X. congruence.
    + left. split; auto. exists i, mem1. split; auto.
      destruct i; cbn in *; try discriminate X1; eauto; left; discriminate.
    + right. change (sp_reg (start m mem1)) with (sp_of m) in X. split; auto. split; [exact Hv|].
      destruct i; cbn in Hk; try discriminate Hk; [right; eauto|left; left; eauto|right; eauto].
Qed.
(** POP into et from supervisor mode: refused, but the stack pointer has moved; ADD on af from userland: refused, but the flags
    have been set. *)
Lemma E_C14_protected : demo_case (asm [Cpy R_ssp (Lit2 256); Pop R_et]) 1 (fun m i mem1 m' =>
  c_halted m = false /\ can_write (sup_mode m) R_et = false /\ R m' R_et = et_value true 4 (reg_code R_et) /\ R m' R_ssp = 260).
Proof. demo_tac. Qed.
Lemma E_C14_arith_dest : demo_case (asm [Add R_af (Lit2 0)]) 0 (fun m i mem1 m' =>
  arith_dest i = Some R_af /\ sources_readable m i /\ reg_value m R_af = Some 0 /\ can_write (sup_mode m) R_af = false /\ R m' R_et = et_value true 4 (reg_code R_af)).
Proof. demo_tac. Qed.
(** a userland EX with a supervisor register (the word is given raw). *)
Lemma E_C14_operands : demo_case (asm [Lsm (Lit2 0); Cpy R_a0 (Lit2 1); Ex R_a0 R_ev]) 2 (fun m i mem1 m' =>
  i = Ex R_a0 R_ev /\ find (fun r => negb (can_read (sup_mode m) r)) (reads i) = Some R_ev /\ R m' R_et = et_value false 3 28).
Proof. demo_tac. Qed.
Lemma E_C14_cpy : demo_case [167845632] 0 (fun m i mem1 m' =>
  i = Cpy R_a1 (Reg2 R_smt) /\ can_read (sup_mode m) R_smt = true /\ can_write (sup_mode m) R_a1 = true /\ R m' R_a1 = 1).
Proof. demo_tac. Qed.

Lemma split_word b0 b1 b2 b3 : 0 <= b0 < 256 -> 0 <= b1 < 256 -> 0 <= b2 < 256 -> 0 <= b3 < 256 ->
  let w := b0 * 2 ^ 24 + b1 * 2 ^ 16 + b2 * 2 ^ 8 + b3 in
  u8 (Z.shiftr w 24) = b0 /\ u8 (Z.shiftr w 16) = b1 /\ u8 (Z.shiftr w 8) = b2 /\ u8 w = b3.
Proof.
  intros H0 H1 H2 H3 w. rewrite !Z.shiftr_div_pow2 by lia. unfold u8, w.
  change (2 ^ 24) with 16777216. change (2 ^ 16) with 65536. change (2 ^ 8) with 256. repeat split; lia.
Qed.
(** Unknown register codes: CPY to one, in either mode. *)
Lemma P_C14_unknown_dest : forall D (ops : bus_ops D) oc m c hi lo mem1 m', typed ops -> wf m -> c_halted m = false ->
  32 <= c < 256 -> 0 <= hi < 256 -> 0 <= lo < 256 ->
  loads ops m (c_mem m) (R m R_pc) (8 * 2 ^ 24 + c * 2 ^ 16 + hi * 2 ^ 8 + lo) mem1 -> next ops oc m = Ret m' ->
  raised m m' mem1 (if sup_mode m then 2 else 4) c.
Proof.
  intros D ops oc m c hi lo mem1 m' T Hw Hh Hc Hhi Hlo Hl Hn.
  eapply (raw_raised ops T); eauto. intros HW. unfold exec_word. cbv zeta.
  destruct (split_word 8 c hi lo) as (E0 & E1 & E2 & E3); try lia. rewrite E0, E1, E2, E3.
  change (Z.shiftr 8 3) with 1. cbn [run_instr]. change (negb (Z.land 8 2 =? 0)) with false.
  unfold reg_or_lit2. cbn [cbind]. rewrite write_reg_bad; [reflexivity|apply HW|lia].
Qed.
(** and CPY from one. *)
Lemma P_C14_unknown_source : forall D (ops : bus_ops D) oc m c d lo mem1 m', typed ops -> wf m -> c_halted m = false ->
  32 <= c < 256 -> 0 <= d < 256 -> 0 <= lo < 256 ->
  loads ops m (c_mem m) (R m R_pc) (10 * 2 ^ 24 + d * 2 ^ 16 + c * 2 ^ 8 + lo) mem1 -> next ops oc m = Ret m' ->
  raised m m' mem1 (if sup_mode m then 2 else 3) c.
Proof.
  intros D ops oc m c d lo mem1 m' T Hw Hh Hc Hhi Hlo Hl Hn.
  eapply (raw_raised ops T); eauto. intros HW. unfold exec_word. cbv zeta.
  destruct (split_word 10 d c lo) as (E0 & E1 & E2 & E3); try lia. rewrite E0, E1, E2, E3.
  change (Z.shiftr 10 3) with 1. cbn [run_instr]. change (negb (Z.land 10 2 =? 0)) with true.
  unfold reg_or_lit2. rewrite read_reg_bad by (try apply HW; lia). reflexivity.
Qed.
(** A reachable machine about to execute the word [w]. *)
Definition demo_raw (prog : list Z) (n : nat) (w : Z) (P : cpu device -> memory device -> cpu device -> Prop) : Prop :=
  exists m mem1 m', reachable (dev_ops false) false m /\ c_halted m = false /\
    loads (dev_ops false) m (c_mem m) (R m R_pc) w mem1 /\ next (dev_ops false) false m = Ret m' /\ P m mem1 m'.
Lemma demo_raw_intro prog n w (P : cpu device -> memory device -> cpu device -> Prop) :
  match demo_run false prog n with
  | Ret m =>
      c_halted m = false /\ R m R_mtt = 0 /\ R m R_pc mod 4 = 0 /\
      match mem_read (dev_ops false) false (c_mem m) (R m R_pc), next (dev_ops false) false m with
      | Ret (mem1, ex, w'), Ret m' => ex = 0 /\ w' = w /\ P m mem1 m'
      | _, _ => False
      end
  | Panic => False
  end -> demo_raw prog n w P.
Proof.
  destruct (demo_run false prog n) as [m|] eqn:E; [|intros []]. intros (H1 & H2 & H3 & H4).
  destruct (mem_read _ _ _ _) as [[[mem1 ex] w']|] eqn:Er; [|destruct H4]. destruct (next _ _ m) as [m'|] eqn:En; [|destruct H4].
  destruct H4 as (-> & -> & HP). exists m, mem1, m'. split; [eapply demo_reachable; eauto|]. split; auto. split; auto.
  split; auto. exists (c_mem m). split; auto. unfold passes. rewrite H2. reflexivity.
Qed.
Lemma E_C14_unknown_dest : demo_raw (asm [Lsm (Lit2 0)] ++ [8 * 2 ^ 24 + 32 * 2 ^ 16 + 0 * 2 ^ 8 + 5]) 1 (8 * 2 ^ 24 + 32 * 2 ^ 16 + 0 * 2 ^ 8 + 5)
  (fun m mem1 m' => sup_mode m = false /\ R m' R_et = et_value false 4 32).
Proof. apply demo_raw_intro. vm_compute. repeat split. Qed.
Lemma E_C14_unknown_source : demo_raw [10 * 2 ^ 24 + 0 * 2 ^ 16 + 32 * 2 ^ 8 + 5] 0 (10 * 2 ^ 24 + 0 * 2 ^ 16 + 32 * 2 ^ 8 + 5)
  (fun m mem1 m' => sup_mode m = true /\ R m' R_et = et_value true 2 32).
Proof. apply demo_raw_intro. vm_compute. repeat split. Qed.
(** The claim that unknown codes are always reported as 0x02 is false in userland. *)
Lemma P_C14_unknown_userland_refuted : ~ (forall D (ops : bus_ops D) oc m c hi lo mem1 m', typed ops -> wf m -> c_halted m = false ->
  32 <= c < 256 -> 0 <= hi < 256 -> 0 <= lo < 256 ->
  loads ops m (c_mem m) (R m R_pc) (8 * 2 ^ 24 + c * 2 ^ 16 + hi * 2 ^ 8 + lo) mem1 -> next ops oc m = Ret m' ->
  raised m m' mem1 2 c).
Proof.
  intros H. destruct E_C14_unknown_dest as (m & mem1 & m' & Hr & Hh & Hl & Hn & Hs & He).
  assert (X : raised m m' mem1 2 32) by (eapply H; eauto; try lia; [apply dev_typed|eapply reachable_wf; eauto; apply dev_typed]).
  destruct X as [X _]. specialize (X R_et). rewrite He in X. cbn in X. rewrite Hs in X. discriminate X.
Qed.

(** * C16 *)
(** The words the CPU stores decode to the documented exception, mode included (hardware exceptions and 8-bit data apart). *)
Lemma P_C16_decode : forall sup code data, ex_code code -> ex_data code data -> code <> 160 -> (code = 17 \/ code = 240 -> data < 256) ->
  exists e, documented code data = Some e /\ native_decode_with_mode (et_value sup code data) = Some (e, sup).
Proof.
  intros sup code data Hc Hd N H8.
  assert (V : forall e, documented code data = Some e -> native_decode_parts code (Some data) = Some e ->
    exists e, documented code data = Some e /\ native_decode_with_mode (et_value sup code data) = Some (e, sup)).
  { intros e E1 E2. exists e. split; auto. unfold native_decode_with_mode.
    assert (C : 0 <= code < 256) by (unfold ex_code in Hc; lia). assert (Dt : 0 <= data < 65536) by apply Hd.
    replace (u8 (et_value sup code data / 65536)) with code by (unfold u8, et_value; destruct sup; lia).
    replace (of_be2 _ _) with data by (unfold of_be2, u8, et_value; destruct sup; lia).
    rewrite E2. f_equal. f_equal. replace (u8 (et_value sup code data / 16777216)) with (if sup then 1 else 0) by (unfold u8, et_value; destruct sup; lia).
    destruct sup; reflexivity. }
  unfold ex_code in Hc. unfold ex_data in Hd.
  assert (C : In code [1;2;3;4;5;6;9;10;11;12;13;16;17;18;240]).
  { assert (X : code = 1 \/ code = 2 \/ code = 3 \/ code = 4 \/ code = 5 \/ code = 6 \/ code = 9 \/ code = 10 \/ code = 11 \/ code = 12 \/ code = 13
      \/ code = 16 \/ code = 17 \/ code = 18 \/ code = 240) by lia. cbn. intuition. }
  assert (U : forall x, 0 <= x < 256 -> u8 x = x) by (intros; apply Z.mod_small; lia).
  repeat (destruct C as [<-|C]; [eapply V; [reflexivity|]; cbn [native_decode_parts option_map]; rewrite ?U by lia; reflexivity|]).
  destruct C.
Qed.
(** Hardware exceptions decode to the component's exception, when it is a documented one. *)
Lemma P_C16_hardware : forall sup data, 0 <= data < 65536 ->
  native_decode_with_mode (et_value sup 160 data) = option_map (fun e => (NHardwareException e, sup)) (aux_decode data) /\
  (aux_decode data = None <-> ~ In (data / 256) [0; 1; 2; 16; 17; 32; 33; 48; 49]).
Proof.
  intros sup data Hd. split.
  - unfold native_decode_with_mode.
    replace (u8 (et_value sup 160 data / 65536)) with 160 by (unfold u8, et_value; destruct sup; lia).
    replace (of_be2 _ _) with data by (unfold of_be2, u8, et_value; destruct sup; lia).
    replace (u8 (et_value sup 160 data / 16777216)) with (if sup then 1 else 0) by (unfold u8, et_value; destruct sup; lia).
    cbn [native_decode_parts]. destruct (aux_decode data); cbn; destruct sup; reflexivity.
  - unfold aux_decode. rewrite Z.shiftr_div_pow2 by lia. change (2 ^ 8) with 256.
    replace (u8 (data / 256)) with (data / 256) by (unfold u8; lia). set (c := data / 256).
    assert (F : forallb (fun k => Bool.eqb (match aux_decode_parts (Z.of_nat k) (Some (u8 data)) with None => true | _ => false end)
       (negb (existsb (Z.eqb (Z.of_nat k)) [0; 1; 2; 16; 17; 32; 33; 48; 49]))) (seq 0 256) = true) by reflexivity.
    rewrite forallb_forall in F. specialize (F (Z.to_nat c)). rewrite Z2Nat.id in F by lia.
    assert (I : In (Z.to_nat c) (seq 0 256)) by (apply in_seq; lia). apply F, Bool.eqb_prop in I. clear F.
    split.
    + intros H X. rewrite H in I. symmetry in I. apply negb_true_iff in I. rewrite <- not_true_iff_false in I. apply I.
      apply existsb_exists. exists c. split; auto. apply Z.eqb_refl.
    + intros H. destruct (existsb _ _) eqn:Ee in I.
      { apply existsb_exists in Ee. destruct Ee as (y & Hy & E). apply Z.eqb_eq in E. subst y. destruct (H Hy). }
      destruct (aux_decode_parts c _); [discriminate I|reflexivity].
Qed.
(** Along every history, et holds 0 or a word of the above kinds. *)
Section History.
Context {D : Type} (ops : bus_ops D) (T : typed ops).
Definition et_ok (m : cpu D) : Prop :=
  R m R_et = 0 \/ exists sup code data, ex_code code /\ ex_data code data /\ R m R_et = et_value sup code data.
Lemma et_api oc c m m' : wf m -> et_ok m -> api_wf c -> api_call ops oc c m = Ret m' -> et_ok m'.
Proof.
  intros Hw Ht Hc. destruct c; cbn [api_call]; intros E;
  try (match type of E with (match ?x with _ => _ end) = _ => destruct x as [[? ?]|]; [|discriminate]; injection E as <-; exact Ht end; fail);
  try (match type of E with (match ?x with _ => _ end) = _ => destruct x as [[[? ?] ?]|]; [|discriminate]; injection E as <-; exact Ht end; fail).
  - destruct (c_halted m) eqn:Hh.
    { unfold next in E. rewrite Hh in E. injection E as <-. auto. }
    apply next_oc in E.
    destruct (cycle_cases ops T m m' Hw Hh E) as [(s1 & code & data & Hcd & Hd & E1 & Hw1 & _)|(i & mem1 & Hf & _ & HN)].
    + right. exists (sup s1), code, data. split; auto. split; auto.
      change (get (abs m') R_et = et_value (sup s1) code data). rewrite E1, raise_gets by apply Hw1. reflexivity.
    + destruct HN as [(_ & Ef & _)|(_ & _ & _ & _ & _ & Hok & _)].
      * left. unfold R. cbn [abs s_reg] in Ef. rewrite Ef. reflexivity.
      * destruct (Hok R_et) as [X|[X|[[_ X]|(_ & X & _)]]]; try discriminate X.
        -- unfold et_ok. change (R m' R_et) with (get (abs m') R_et). rewrite X. exact Ht.
        -- unfold sp_reg in X. destruct (sup (start m mem1)); discriminate X.
  - apply board_reset_inv in E. destruct E as (h & _ & ->). left. reflexivity.
Qed.
End History.
(** On every reachable machine et is 0 or encodes a native exception together with the mode it was raised in. *)
Lemma P_C16_history : forall D (ops : bus_ops D) oc m, typed ops -> reachable ops oc m ->
  R m R_et = 0 \/ exists sup code data, ex_code code /\ ex_data code data /\ R m R_et = et_value sup code data.
Proof.
  intros D ops oc m T H. apply (reachable_ind ops T oc et_ok) in H; [apply H| |].
  - intros ds m0 E _. apply board_new_spec in E; auto. destruct E as (_ & _ & _ & E & _). left. unfold R. rewrite E. reflexivity.
  - intros. eapply et_api; eauto.
Qed.
Lemma E_C16_history : demo_case (asm [Lsm (Lit2 4); Halt; Itr (Lit1 7)]) 1 (fun m i mem1 m' =>
  R m R_et = 0 /\ R m' R_et = et_value false 240 7).
Proof. demo_tac. Qed.
Lemma E_C16_decode : demo_case (asm [Lsm (Lit2 4); Halt; Itr (Lit1 7)]) 1 (fun m i mem1 m' =>
  native_decode_with_mode (R m' R_et) = Some (NInterruption 7, false)).
Proof. demo_tac. Qed.
Lemma E_C16_hardware : demo_case (asm [Wsa (Lit1 0) (Lit1 4) (Lit1 7)]) 0 (fun m i mem1 m' =>
  native_decode_with_mode (R m' R_et) = Some (NHardwareException MemoryNotWritable, true)).
Proof. demo_tac. Qed.
(** The tools keep only 8 bits of data for interruptions and unknown information codes; the CPU stores 16: two different
    interruptions decode to the same exception. *)
Lemma P_C16_data_refuted : ~ (forall sup code data, ex_code code -> ex_data code data -> code <> 160 ->
  exists e, documented code data = Some e /\ native_decode_with_mode (et_value sup code data) = Some (e, sup)).
Proof.
  intros H. destruct (H true 240 256) as (e & E1 & E2).
  - unfold ex_code. lia.
  - unfold ex_data. lia.
  - lia.
  - cbn in E1. injection E1 as <-. vm_compute in E2. discriminate E2.
Qed.
(** It happens: ITR with a register operand holding 256. *)
Lemma E_C16_data_refuted : demo_case (asm [Cpy R_a0 (Lit2 256); Itr (Reg1 R_a0)]) 1 (fun m i mem1 m' =>
  R m' R_et = et_value true 240 256 /\ native_decode_with_mode (R m' R_et) = Some (NInterruption 0, true)).
Proof. demo_tac. Qed.

(** * C18 *)
(** LSM in userland: exception 0x09 with its opcode, and nothing else. *)
Lemma P_C18_lsm : forall D (ops : bus_ops D) oc m v mem1 m', typed ops -> wf m -> executes ops oc m (Lsm v) mem1 m' ->
  sup_mode m = false -> raised m m' mem1 9 15.
Proof.
  intros D ops oc m v mem1 m' T Hw He Hs. eapply executes_raised; eauto. cbn [step]. rewrite sup_start, Hs. reflexivity.
Qed.
Lemma E_C18_lsm : demo_case (asm [Cpy R_ev (Lit2 64); Lsm (Lit2 4); Lsm (Lit2 0)]) 2 (fun m i mem1 m' =>
  i = Lsm (Lit2 0) /\ sup_mode m = false /\ R m' R_smt = 1 /\ R m' R_pc = 64 /\ R m' R_et = et_value false 9 15).
Proof. demo_tac. Qed.
(** The other three ignore the mode. *)
Lemma P_C18_cycles : forall D (ops : bus_ops D) oc m d mem1 m', typed ops -> wf m -> executes ops oc m (Cycles d) mem1 m' ->
  (can_write (sup_mode m) d = true ->
     after m m' mem1 [(d, (c_cycles m + 1) mod 2 ^ 32); (R_pc, (R m R_pc + 4) mod 2 ^ 32)]) /\
  (can_write (sup_mode m) d = false -> raised m m' mem1 4 (reg_code d)).
Proof.
  intros D ops oc m d mem1 m' T Hw He. split; intros Hc.
  - eapply ends_after; eauto. cbn [step].
    replace ((c_cycles m + 1) mod 2 ^ 32) with (m32 (s_cyc (start m mem1))).
    { apply (ends_write_end (start m mem1) []); auto. apply sets_refl, len_start; auto. }
    cbn [start s_cyc]. unfold m32. change 4294967296 with (2 ^ 32). change (2 ^ 128) with (2 ^ 32 * 2 ^ 96).
    set (x := c_cycles m + 1). rewrite Z.rem_mul_r by lia. rewrite (Z.mul_comm (2 ^ 32)), Z_mod_plus_full, Z.mod_mod by lia. reflexivity.
  - eapply executes_raised; eauto. cbn [step]. unfold write_end, write. rewrite sup_start, Hc. reflexivity.
Qed.
(** HALT halts, advances pc by one instruction and counts a cycle, in either mode. *)
Lemma P_C18_halt : forall D (ops : bus_ops D) oc m mem1 m', typed ops -> wf m -> executes ops oc m Halt mem1 m' ->
  c_halted m' = true /\ regs_after m m' [(R_pc, (R m R_pc + 4) mod 2 ^ 32)] /\ c_mem m' = mem1 /\ c_cycles m' = (c_cycles m + 1) mod 2 ^ 128.
Proof.
  intros D ops oc m mem1 m' T Hw He. pose proof (exec_step ops T _ _ _ _ _ Hw He) as E. cbn [step] in E. unfold advance in E.
  apply Ret_inj in E.
  split. { apply (f_equal (@s_halt _)) in E. cbn in E. auto. }
  split. { intros r. change (R m' r) with (get (abs m') r). rewrite <- E, get_put by (apply (len_start m mem1 Hw)). cbn [assoc].
    destruct (reg_eq_dec r R_pc) as [->|N]; [reflexivity|]. destruct (Z.eqb_spec (reg_code r) (reg_code R_pc)) as [X|_]; [|reflexivity].
    apply reg_code_inj in X. congruence. }
  split. { apply (f_equal (@s_bus _)) in E. cbn in E. auto. }
  apply (f_equal (@s_cyc _)) in E. cbn in E. auto.
Qed.
Lemma E_C18_cycles : demo_case (asm [Lsm (Lit2 0); Cycles R_a0]) 1 (fun m i mem1 m' =>
  i = Cycles R_a0 /\ sup_mode m = false /\ R m' R_a0 = 2).
Proof. demo_tac. Qed.
Lemma E_C18_halt : demo_case (asm [Lsm (Lit2 0); Halt]) 1 (fun m i mem1 m' => i = Halt /\ sup_mode m = false /\ c_halted m' = true).
Proof. demo_tac. Qed.
Lemma E_C18_reset : demo_case (asm [Lsm (Lit2 0); Reset (Lit1 8)]) 1 (fun m i mem1 m' =>
  i = Reset (Lit1 8) /\ sup_mode m = false /\ R m' R_smt = 1 /\ R m' R_pc = 0 /\ c_cycles m = 1 /\ c_cycles m' = 0).
Proof. demo_tac. Qed.
(** The documentation says that CYCLES in userland raises exception 9: false. *)
Lemma P_C18_cycles_refuted : ~ (forall D (ops : bus_ops D) oc m d mem1 m', typed ops -> wf m -> executes ops oc m (Cycles d) mem1 m' ->
  sup_mode m = false -> exists data, raised m m' mem1 9 data).
Proof.
  intros H. destruct E_C18_cycles as (m & i & mem1 & m' & Hr & He & -> & Hs & Hv).
  destruct (H _ _ _ _ _ _ _ (dev_typed false) (reachable_wf _ (dev_typed false) _ _ Hr) He Hs) as (data & X & _).
  pose proof (X R_smt) as Y. destruct (P_C18_cycles _ _ _ _ _ _ _ (dev_typed false) (reachable_wf _ (dev_typed false) _ _ Hr) He) as [Z _].
  destruct Z as [Z _]; [destruct (sup_mode m); reflexivity|]. pose proof (Z R_smt) as W1. cbn in Y, W1. rewrite Y in W1.
  unfold sup_mode in Hs. rewrite <- W1 in Hs. discriminate Hs.
Qed.
(** The documentation says that HALT in userland raises exception 9: false. *)
Lemma P_C18_halt_refuted : ~ (forall D (ops : bus_ops D) oc m mem1 m', typed ops -> wf m -> executes ops oc m Halt mem1 m' ->
  sup_mode m = false -> exists data, raised m m' mem1 9 data).
Proof.
  intros H. destruct E_C18_halt as (m & i & mem1 & m' & Hr & He & -> & Hs & Hv).
  destruct (H _ _ _ _ _ _ (dev_typed false) (reachable_wf _ (dev_typed false) _ _ Hr) He Hs) as (data & _ & _ & X & _).
  destruct He as [Hh _]. congruence.
Qed.
(** The documentation says that RESET in userland raises exception 9: false. *)
Lemma P_C18_reset_refuted : ~ (forall D (ops : bus_ops D) oc m v mem1 m', typed ops -> wf m -> executes ops oc m (Reset v) mem1 m' ->
  sup_mode m = false -> exists data, raised m m' mem1 9 data).
Proof.
  intros H. destruct E_C18_reset as (m & i & mem1 & m' & Hr & He & -> & Hs & _ & _ & H1 & H2).
  destruct (H _ _ _ _ _ _ _ (dev_typed false) (reachable_wf _ (dev_typed false) _ _ Hr) He Hs) as (data & _ & _ & _ & X).
  rewrite H1, H2 in X. discriminate X.
Qed.

(** * C19 *)
(** LSM in supervisor mode goes to userland at its operand plus 4. *)
Lemma P_C19_lsm : forall D (ops : bus_ops D) oc m v x mem1 m', typed ops -> wf m -> executes ops oc m (Lsm v) mem1 m' ->
  sup_mode m = true -> operand2 m v = Some x ->
  after m m' mem1 [(R_smt, 0); (R_pc, (x + 4) mod 2 ^ 32)].
Proof.
  intros D ops oc m v x mem1 m' T Hw He Hs Hx. eapply ends_after; eauto. cbn [step]. rewrite sup_start, Hs.
  erewrite read2_ok by eauto. unfold advance. eexists. split; [reflexivity|].
  eapply sets_ext; [apply sets_put, sets_put, sets_put, sets_refl, len_start; auto|].
  intros r. rewrite get_put. 2:{ unfold put, rs. cbn [s_reg]. rewrite upd_length. apply (len_start m mem1 Hw). }
  rewrite get_put by apply (len_start m mem1 Hw).
  destruct (reg_eq_dec R_pc R_smt) as [X|_]; [discriminate X|]. destruct (reg_eq_dec R_pc R_pc) as [_|X]; [|congruence].
  destruct r; reflexivity.
Qed.
Lemma E_C19_lsm : demo_case (asm [Lsm (Lit2 8)]) 0 (fun m i mem1 m' =>
  i = Lsm (Lit2 8) /\ sup_mode m = true /\ operand2 m (Lit2 8) = Some 8 /\ R m' R_smt = 0 /\ R m' R_pc = 12).
Proof. demo_tac. Qed.
(** Hence the documented target is not the one reached. *)
Lemma P_C19_target_refuted : ~ (forall D (ops : bus_ops D) oc m v x mem1 m', typed ops -> wf m -> executes ops oc m (Lsm v) mem1 m' ->
  sup_mode m = true -> operand2 m v = Some x -> R m' R_pc = x).
Proof.
  intros H. destruct E_C19_lsm as (m & i & mem1 & m' & Hr & He & -> & Hs & Hx & _ & Hv).
  rewrite (H _ _ _ _ _ _ _ _ (dev_typed false) (reachable_wf _ (dev_typed false) _ _ Hr) He Hs Hx) in Hv. discriminate Hv.
Qed.

(* Concrete cases for the theorems above that have none beside them. *)
Lemma E_C06_debug : exists m m', reachable (dev_ops true) true m /\ c_halted m = false /\ R m R_mtt = 0 /\ next (dev_ops true) true m = Ret m' /\
  (exists mem1, fetches (dev_ops true) m (Sub R_a0 (Lit2 8)) mem1) /\ R m R_a0 = 7 /\ R m' R_a0 = 4294967295.
Proof.
  assert (H : match demo_run true (asm [Cpy R_a0 (Lit2 7); Sub R_a0 (Lit2 8)]) 1 with
    | Ret m => match next (dev_ops true) true m, mem_read (dev_ops true) false (c_mem m) (R m R_pc) with
        | Ret m', Ret (mem1, ex, w) => c_halted m = false /\ R m R_mtt = 0 /\ R m R_pc = 4 /\ ex = 0 /\ decode (bytes_of_word w) = ROk (Sub R_a0 (Lit2 8)) /\
            R m R_a0 = 7 /\ R m' R_a0 = 4294967295
        | _, _ => False end
    | Panic => False end) by (vm_compute; repeat split).
  destruct (demo_run true _ 1) as [m|] eqn:E; [|destruct H]. destruct (next _ _ m) as [m'|] eqn:En; [|destruct H].
  destruct (mem_read _ _ _ _) as [[[mem1 ex] w]|] eqn:Er; [|destruct H]. destruct H as (Hh & Ht & Hpc & -> & Hd & H1 & H2).
  exists m, m'. split; [eapply demo_reachable; eauto|]. split; auto. split; auto. split; auto. split; auto.
  exists mem1, w. split; auto. split; [rewrite Hpc; reflexivity|]. exists (c_mem m). split; auto. unfold passes. rewrite Ht. reflexivity.
Qed.
Lemma E_C06_opcode0 : demo_raw (asm [Lsm (Lit2 0)] ++ [2 ^ 27 - 5]) 1 (2 ^ 27 - 5)
  (fun m mem1 m' => sup_mode m = false /\ 0 <= 2 ^ 27 - 5 < 2 ^ 27 /\ R m' R_et = et_value false 1 0).
Proof. apply demo_raw_intro. vm_compute. repeat split; congruence. Qed.
Lemma E_C06_fetch_fault : exists m m', reachable (dev_ops false) false m /\ c_halted m = false /\
  load_faults (dev_ops false) m (c_mem m) (R m R_pc) (c_mem m) 5 2 /\ next (dev_ops false) false m = Ret m' /\ R m R_pc = 18.
Proof.
  assert (H : match demo_run false (asm [Cpy R_pc (Lit2 18)]) 1 with
    | Ret m => match next (dev_ops false) false m with
        | Ret m' => c_halted m = false /\ R m R_pc = 18
        | _ => False end
    | Panic => False end) by (vm_compute; repeat split).
  destruct (demo_run false _ 1) as [m|] eqn:E; [|destruct H]. destruct (next _ _ m) as [m'|] eqn:En; [|destruct H]. destruct H as (Hh & Hpc).
  exists m, m'. split; [eapply demo_reachable; eauto|]. split; auto. split; auto. rewrite Hpc. constructor. apply (fault_align _ _ _ 18). discriminate.
Qed.
(** POP into an unknown register. *)
Lemma E_C06_garbage : demo_raw (asm [Cpy R_ssp (Lit2 256); Cpy R_ev (Lit2 64)] ++ [26 * 2 ^ 27 + 32 * 2 ^ 16]) 2 (26 * 2 ^ 27 + 32 * 2 ^ 16) (fun m mem1 m' =>
  fetches_garbage (dev_ops false) m /\ R m R_ssp = 256 /\ R m' R_ssp = 260 /\ R m' R_pc = 64).
Proof.
  assert (X : demo_raw (asm [Cpy R_ssp (Lit2 256); Cpy R_ev (Lit2 64)] ++ [26 * 2 ^ 27 + 32 * 2 ^ 16]) 2 (26 * 2 ^ 27 + 32 * 2 ^ 16) (fun m mem1 m' =>
    R m R_ssp = 256 /\ R m' R_ssp = 260 /\ R m' R_pc = 64)) by (apply demo_raw_intro; vm_compute; repeat split).
  destruct X as (m & mem1 & m' & Hr & Hh & Hl & Hn & H). exists m, mem1, m'. repeat (split; [assumption|]). split; [|exact H].
  eexists _, mem1, _. split; [exact Hl|]. vm_compute. reflexivity.
Qed.
Lemma E_C14_table : can_read false R_pda = false /\ can_read true R_pda = true /\ can_write true R_af = false /\ can_write false R_af = false /\ can_read false R_af = true.
Proof. repeat split. Qed.
