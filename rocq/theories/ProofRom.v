(** Proofs about programs stored in a boot ROM, and about machines whose components answer alike. *)
From Coq Require Import ZArith List Bool Lia.
From Verif Require Import Base Board Mem Cpu Asm Tools Devices Runner SpecMach SpecIsa SpecBus SpecObs SpecAsm SpecMap SpecDev SpecRun SpecSim BaseFacts RegFacts MemFacts MonoFacts IsaFacts CyclePost InvFacts MapFacts DevTyped ReachFacts ExecFacts Demo ProofState ProofBoard ProofPanic ProofReg ProofMap ProofHist ProofDev ProofRun ProofSim.
Import ListNotations.
Open Scope Z_scope.
Ltac Zify.zify_post_hook ::= Z.div_mod_to_equations.

(** Boards whose components answer alike cannot be told apart: for every history of calls both crash or both are in states that look alike. *)
Lemma P_C70_histories : forall D1 D2 (o1 : bus_ops D1) (o2 : bus_ops D2) Rel oc ds1 ds2 cs, answer_alike o1 o2 Rel -> Forall2 Rel ds1 ds2 ->
  both (look_alike Rel) (obind (board_new o1 ds1) (api_run o1 oc cs)) (obind (board_new o2 ds2) (api_run o2 oc cs)).
Proof.
  intros D1 D2 o1 o2 Rel oc ds1 ds2 cs AA H. eapply both_bind; [apply (board_new_sim o1 o2 Rel AA _ _ H)|]. intros m1 m2 X.
  pose proof (api_run_sim o1 o2 Rel AA oc cs _ _ X) as Y. destruct (api_run o1 oc cs m1), (api_run o2 oc cs m2); cbn in *; auto. eapply same_look; eauto.
Qed.
(** The same for a whole execution: same stop state, same answer about being still running, or both crash. *)
Lemma P_C70_exec : forall D1 D2 (o1 : bus_ops D1) (o2 : bus_ops D2) Rel oc fuel cfg ds1 ds2, answer_alike o1 o2 Rel -> Forall2 Rel ds1 ds2 ->
  both (fun x y => match x, y with Some (m1, s1), Some (m2, s2) => look_alike Rel m1 m2 /\ s1 = s2 | None, None => True | _, _ => False end)
    (exec_vm o1 oc fuel cfg ds1) (exec_vm o2 oc fuel cfg ds2).
Proof.
  intros D1 D2 o1 o2 Rel oc fuel cfg ds1 ds2 AA H. unfold exec_vm. eapply both_bind; [apply (prepare_sim o1 o2 Rel AA oc _ _ H)|]. intros m1 m2 X.
  pose proof (run_vm_sim o1 o2 Rel AA oc fuel cfg _ _ X) as Y. destruct (run_vm o1 oc fuel cfg m1) as [[[n1 s1]|]|], (run_vm o2 oc fuel cfg m2) as [[[n2 s2]|]|]; cbn in *; try contradiction; auto.
  destruct Y as (Y & ->). split; auto. eapply same_look; eauto.
Qed.

Lemma run_api D (ops : bus_ops D) oc n : forall m, api_run ops oc (repeat ANext n) m = run ops oc n m.
Proof. induction n as [|n IH]; intros m; cbn; [auto|]. destruct (next ops oc m); cbn; auto. Qed.
Lemma run_maps D (ops : bus_ops D) oc n : typed ops -> forall m m', wf m -> run ops oc n m = Ret m' -> mm_maps (c_mem m') = mm_maps (c_mem m).
Proof.
  intros T. induction n as [|n IH]; intros m m' W E; cbn [run] in E; [injection E as <-; auto|]. destruct (next ops oc m) as [m1|] eqn:En; cbn [obind] in E; [|discriminate].
  rewrite (IH m1 m'); auto; [apply (next_maps ops) in En; auto; apply En|eapply next_wf; eauto].
Qed.
Lemma set_dev_same D (h : hwb D) k e : znth h k = Some e -> set_dev h k (ae_dev e) = h.
Proof.
  revert k. induction h as [|x t IH]; intros k; cbn [znth set_dev]; [discriminate|]. destruct (k =? 0). { intros H; injection H as <-. destruct x; reflexivity. } intros H. rewrite IH; auto.
Qed.

Section Rom.
Context (oc : bool) (prog : list Z) (Hp : Forall is_u32 prog) (s id : Z).
Let rom := DRom (BootRom prog (zlen prog) s id).
Definition romed (sz : Z) (m : cpu device) : Prop :=
  exists mp mps e, mm_maps (c_mem m) = mp :: mps /\ mp_addr mp = 0 /\ mp_size mp = sz /\ 0 < sz /\ sz <= 2 ^ 32 /\ mp_aux_id mp = 0 /\ znth (c_hwb m) 0 = Some e /\ ae_dev e = rom.

Lemma romed_boot rest sz m : declares (dev_ops oc) rom sz -> prepare_vm (dev_ops oc) oc (rom :: rest) = Ret m -> romed sz m /\ wf m /\ reachable (dev_ops oc) oc m.
Proof.
  intros (md & Hmd & Hsz) H. pose proof (dev_typed oc) as T. unfold prepare_vm in H. destruct (board_new (dev_ops oc) (rom :: rest)) as [c|] eqn:Ec; cbn [obind] in H; [|discriminate].
  destruct (board_new_spec _ T _ c Ec) as (W & Em & Ed & _ & _ & _ & Es).
  destruct (map_contiguous oc (c_mem c) 0 (zrange (length (rom :: rest)))) as [[[mem [rg|e]] sts]|] eqn:EM; cbn [obind] in H; try discriminate.
  assert (Ht : tidy oc (c_mem c)). { unfold tidy. rewrite Em. cbn. split; [constructor|]. split; intros; contradiction. }
  destruct (P_C35_contiguous _ (c_mem c) oc 0 _ mem _ sts (proj1 (proj2 W)) Ht ltac:(unfold is_u32; lia) EM) as (l & _ & HP & -> & (Eok & _) & _).
  rewrite Eok in HP. rewrite Em in *. cbn [app] in *. set (m1 := with_mem (Memory (mm_hwb (c_mem c)) l) c) in *.
  assert (Rm : reachable (dev_ops oc) oc m).
  { exists (rom :: rest), [AMapContiguous 0 (zrange (length (rom :: rest))); AReset], c. split; [|split; [exact Ec|]].
    - constructor; [split|constructor; [exact I|constructor]]. { unfold is_u32; lia. } apply Forall_forall. intros x I. unfold zrange in I. apply in_map_iff in I. destruct I as (k & <- & I). apply in_seq in I. lia.
    - cbn [api_run api_call]. rewrite EM. fold m1. rewrite H. reflexivity. }
  split; [|split; auto; eapply reachable_wf; eauto].
  destruct (P_C38_reset_state _ _ m1 m H) as (P1 & P2 & P3 & P4 & _). destruct (P_C39_each_once _ _ m1 m H) as (_ & P5).
  assert (ZR : exists t, zrange (length (rom :: rest)) = 0 :: t) by (eexists; reflexivity). destruct ZR as (t & ZR). rewrite ZR in HP, EM. inversion HP as [|? ? ? mp mps (e & En & Emp) HP']; subst. cbn [mm_maps] in *.
  destruct (Es 0 e En) as (md' & Hmd' & Hce). assert (De : ae_dev e = rom). { unfold c_hwb in Ed. destruct (mm_hwb (c_mem c)) as [|x y]; [discriminate|]. cbn in Ed, En. injection En as ->. congruence. }
  rewrite De, Hmd in Hmd'. injection Hmd' as <-. destruct (P5 0 e En) as (d' & Hr & Hz). rewrite De in Hr. cbn in Hr. injection Hr as <-.
  unfold map_contiguous in EM. cbn [map_contiguous_loop] in EM. pose proof (mem_map_table oc (c_mem c) 0 0 (proj1 (proj2 W)) Ht ltac:(unfold is_u32; lia)) as MT.
  assert (B : 0 < w2 md /\ w2 md <= 2 ^ 32).
  { assert (w2 md = ac_size (ae_cache e)) as -> by (rewrite Hce; reflexivity). destruct (mem_map oc (c_mem c) 0 0) as [[mx [rr|er]]|] eqn:E0; cbn [obind] in EM; try discriminate.
    - destruct MT as (sz & mp' & V & _). destruct V as (V1 & _ & V3 & _ & V5 & _). unfold comp_size in V1. unfold c_hwb in En. rewrite En in V1. injection V1 as <-. lia.
    - exfalso. destruct (unwrap (hw_id_of (mm_hwb mx) 0)); cbn [obind] in EM; [|discriminate]. destruct (unwrap (name_of (mm_hwb mx) 0)); cbn [obind] in EM; [|discriminate].
      destruct MT as (-> & _). destruct (map_contiguous_loop _ _ _ _ _ _ _) as [[[[q1 q2] q3] q4]|] eqn:El; cbn [obind] in EM; [|discriminate].
      destruct (contiguous_loop oc t (c_mem c) 0 _ _ _ q1 q2 q3 q4 (proj1 (proj2 W)) Ht ltac:(unfold is_u32; lia) El) as (new & l & _ & _ & X & _). subst q3. discriminate. }
  exists (Mapping 0 (ac_hw_id (ae_cache e)) 0 (ac_size (ae_cache e))), mps, (AuxEntry rom (ae_cache e)). rewrite P4. cbn [m1 with_mem c_mem mm_maps mp_addr mp_size mp_aux_id]. rewrite Hce. cbn [ac_size ac_hw_id].
  do 2 (split; [reflexivity|]). split; [reflexivity|]. destruct B. do 2 (split; auto). split; auto. split; [|reflexivity]. rewrite Hz. f_equal. f_equal. congruence.
Qed.
Lemma romed_run sz n m m' : romed sz m -> wf m -> run (dev_ops oc) oc n m = Ret m' -> romed sz m'.
Proof.
  intros (mp & mps & e & H1 & H2 & H3 & H4 & H5 & H6 & H7 & H8) W E. pose proof (run_maps _ (dev_ops oc) oc n (dev_typed oc) m m' W E) as M. rewrite <- run_api in E.
  assert (F : Forall api_wf (repeat ANext n)) by (apply Forall_forall; intros x I; apply repeat_spec in I; subst; exact I0 || exact Logic.I).
  pose proof (P_C57_program oc _ m m' 0 e _ W F E H7 H8 eq_refl Hp) as Z1. exists mp, mps, e. rewrite M. auto 10.
Qed.
Lemma romed_loads sz m j w : romed sz m -> R m R_mtt = 0 -> nth_error prog j = Some w -> 4 * Z.of_nat j < sz -> loads (dev_ops oc) m (c_mem m) (4 * Z.of_nat j) w (c_mem m).
Proof.
  intros (mp & mps & e & H1 & H2 & H3 & H4 & H5 & H6 & H7 & H8) Hm Hj Hs. split; [lia|]. exists (c_mem m). split. { unfold passes. rewrite Hm. reflexivity. }
  unfold mem_read. destruct (Z.eqb_spec ((4 * Z.of_nat j) mod 4) 0); [|lia]. rewrite H1. cbn [find_o]. unfold covers, end_addr. rewrite H2, H3.
  destruct (Z.leb_spec 0 (4 * Z.of_nat j)); [|lia]. unfold add_u32, sub_u32. cbn [Z.add]. unfold u32.
  assert (X : exists ee, (do! s0 <- (if sz <? 4294967296 then Ret sz else Ret (sz mod 4294967296)); (if 1 <=? s0 then Ret (s0 - 1) else Ret ((s0 - 1) mod 4294967296))) = Ret ee /\ ee = sz - 1).
  { destruct (Z.ltb_spec sz 4294967296); cbn [obind].
    - destruct (Z.leb_spec 1 sz); [|lia]. eauto.
    - assert (sz = 4294967296) as -> by lia. change (4294967296 mod 4294967296) with 0. change (1 <=? 0) with false. eauto. }
  destruct X as (ee & X & ->).
  match goal with |- (do! f <- (do! b <- (do! e0 <- ?t; _); _); _) = _ => replace t with (Ret (sz - 1)) by (symmetry; exact X) end. cbn [obind].
  destruct (Z.leb_spec (4 * Z.of_nat j) (sz - 1)); [|lia]. cbn [obind]. rewrite H6, H2. unfold hwb_read. rewrite Z.sub_0_r. destruct (Z.eqb_spec ((4 * Z.of_nat j) mod 4) 0); [|lia].
  unfold c_hwb in H7. rewrite H7. rewrite H8. unfold rom at 1. cbn [bo_read dev_ops]. unfold br_read. cbn [br_len br_storage].
  replace (4 * Z.of_nat j / 4) with (Z.of_nat j) by lia.
  assert (Lj : (j < length prog)%nat) by (apply nth_error_Some; congruence). destruct (Z.ltb_spec (Z.of_nat j) (zlen prog)); [|unfold zlen in *; lia].
  unfold vget. rewrite znth_nth by lia. rewrite Nat2Z.id, Hj. cbn [obind unwrap wrap_r]. unfold rom in H8. rewrite <- H8, (set_dev_same _ _ _ _ H7). rewrite <- H1. assert (Uw : is_u32 w) by (eapply Forall_forall; [exact Hp|eapply nth_error_In; eauto]). rewrite (u32_id w Uw). destruct (c_mem m); reflexivity.
Qed.
Lemma follows_run : forall n sz m s', romed sz m -> wf m -> zlen prog * 4 <= sz -> follows (dev_ops oc) prog n (abs m) s' ->
  match run (dev_ops oc) oc n m with Ret m' => abs m' = s' | Panic => oc = true end.
Proof.
  induction n as [|n IH]; intros sz m s' HR W Hs H; inversion H as [|? j w i ? s1 ? F1 F2 F3 F4 F5 F6 F7]; subst.
  { reflexivity. }
  assert (Lj : (j < length prog)%nat) by (apply nth_error_Some; congruence).
  pose proof (romed_loads sz m j w HR F2 F4 ltac:(unfold zlen in Hs; lia)) as HL.
  assert (HF : fetches (dev_ops oc) m i (c_mem m)). { exists w. split; auto. rewrite <- F3 in HL. exact HL. }
  pose proof (P_C06_conformance _ (dev_ops oc) m i (c_mem m) (dev_typed oc) W F1 HF) as X. cbn [abs s_reg s_bus s_cyc] in F6. rewrite F6 in X.
  destruct (next (dev_ops oc) false m) as [m0|] eqn:En0; cbn [omap] in X; [|discriminate]. apply Ret_inj in X. subst s1.
  cbn [run]. destruct (next (dev_ops oc) oc m) as [m1|] eqn:En; cbn [obind].
  2:{ destruct oc; [reflexivity|congruence]. }
  pose proof (next_oc (dev_ops oc) _ _ _ En) as En'. assert (m0 = m1) as -> by congruence.
  apply (IH sz m1 s'); auto.
  - apply (romed_run sz 1 m m1 HR W). cbn [run]. rewrite En. reflexivity.
  - eapply next_wf; [apply dev_typed|exact W|exact En].
Qed.
End Rom.

(** A program in a boot ROM, first on the board, is what the processor executes, for ever: whatever the cycles before have done,
    the word fetched at [4 j] (translation off) is the [j]-th word of the program, and fetching it changes nothing. *)
Lemma P_C70_fetch : forall oc prog s id rest sz m0 k m j w, Forall is_u32 prog ->
  let rom := DRom (BootRom prog (zlen prog) s id) in declares (dev_ops oc) rom sz ->
  prepare_vm (dev_ops oc) oc (rom :: rest) = Ret m0 -> run (dev_ops oc) oc k m0 = Ret m ->
  R m R_mtt = 0 -> nth_error prog j = Some w -> 4 * Z.of_nat j < sz -> loads (dev_ops oc) m (c_mem m) (4 * Z.of_nat j) w (c_mem m).
Proof.
  intros oc prog s id rest sz m0 k m j w Hp rom Hd Hb Hr Hm Hj Hs. destruct (romed_boot oc prog s id rest sz m0 Hd Hb) as (H1 & H2 & _).
  pose proof (romed_run oc prog Hp s id sz k m0 m H1 H2 Hr) as H3. eapply romed_loads; eauto.
Qed.
(** Such a program runs exactly as the instruction-set specification composes along it; in a debug build the only other possibility
    is a crash. *)
Lemma P_C70_program : forall oc prog s id rest sz m0 n s', Forall is_u32 prog ->
  let rom := DRom (BootRom prog (zlen prog) s id) in declares (dev_ops oc) rom sz -> zlen prog * 4 <= sz ->
  prepare_vm (dev_ops oc) oc (rom :: rest) = Ret m0 -> follows (dev_ops oc) prog n (abs m0) s' ->
  match run (dev_ops oc) oc n m0 with Ret m' => abs m' = s' | Panic => oc = true end.
Proof.
  intros oc prog s id rest sz m0 n s' Hp rom Hd Hs Hb Hf. destruct (romed_boot oc prog s id rest sz m0 Hd Hb) as (H1 & H2 & _).
  eapply follows_run; eauto.
Qed.
(** A component that also counts the requests it got answers like one that does not. *)
Definition counted_ops : bus_ops (list Z * nat) :=
  {| bo_name := fun _ => []; bo_metadata := fun _ => Ret (W8 0 1 64 0 0 0 0 0);
     bo_read := fun d off => Ret ((fst d, S (snd d)), 0, m32 (nth (Z.to_nat (off / 4)) (fst d) 0));
     bo_write := fun d _ _ => Ret ((fst d, S (snd d)), 0); bo_reset := fun d => Ret (fst d, O) |}.
Lemma counted_alike : answer_alike words_ops counted_ops (fun d d' => d = fst d').
Proof. split; cbn; intros; subst; auto. Qed.
Lemma E_C70_histories : exists m1 m2, answer_alike words_ops counted_ops (fun d d' => d = fst d') /\
  obind (board_new words_ops [asm [Cpy R_a0 (Lit2 4); Halt]]) (api_run words_ops false [AMap 0 0; AReset; ANext; ANext]) = Ret m1 /\
  obind (board_new counted_ops [(asm [Cpy R_a0 (Lit2 4); Halt], O)]) (api_run counted_ops false [AMap 0 0; AReset; ANext; ANext]) = Ret m2 /\
  R m2 R_a0 = 4 /\ map ae_dev (c_hwb m2) <> map (fun d => (d, O)) (map ae_dev (c_hwb m1)).
Proof.
  set (x := obind (board_new words_ops _) _). set (y := obind (board_new counted_ops _) _).
  assert (H : match x, y with Ret m1, Ret m2 => R m2 R_a0 = 4 /\ map ae_dev (c_hwb m2) <> map (fun d => (d, O)) (map ae_dev (c_hwb m1)) | _, _ => False end) by (vm_compute; split; [reflexivity|discriminate]).
  destruct x as [m1|]; [|destruct H]. destruct y as [m2|]; [|destruct H]. exists m1, m2. split; [apply counted_alike|]. auto 10.
Qed.
Lemma E_C70_exec : answer_alike words_ops counted_ops (fun d d' => d = fst d') /\ Forall2 (fun d d' => d = fst d') [asm [Halt]; []] [(asm [Halt], 5%nat); ([], O)].
Proof. split; [apply counted_alike|]. repeat constructor. Qed.
(** A loop in ROM, with a RAM behind it: add 5 three times. *)
Definition loop_prog : list Z := asm [Cpy R_a1 (Lit2 3); Add R_a0 (Lit2 5); Sub R_a1 (Lit2 1); IfN (Lit1 0); Cpy R_pc (Lit2 4); Halt].
Lemma follows_check : forall n (m : cpu device), wf m ->
  (fix chk n (m : cpu device) : bool :=
     match n with
     | O => true
     | S k => negb (c_halted m) && (R m R_mtt =? 0) && (R m R_pc mod 4 =? 0) && (0 <=? R m R_pc) &&
         match nth_error loop_prog (Z.to_nat (R m R_pc / 4)) with
         | Some w => match decode (bytes_of_word w) with
                     | ROk i => match step (board_bus (dev_ops false) false) i (St (file (c_regs m)) (c_mem m) ((c_cycles m + 1) mod 2 ^ 128) false), next (dev_ops false) false m with
                                | Ret s1, Ret m1 => chk k m1 | _, _ => false end
                     | RErr _ => false end
         | None => false end
     end) n m = true ->
  (forall k m1, run (dev_ops false) false k m = Ret m1 -> (k < n)%nat -> R m1 R_mtt = 0 -> forall j w, nth_error loop_prog j = Some w -> loads (dev_ops false) m1 (c_mem m1) (4 * Z.of_nat j) w (c_mem m1)) ->
  exists s', follows (dev_ops false) loop_prog n (abs m) s'.
Proof.
  induction n as [|n IH]; intros m W H HL; [eexists; constructor|]. apply andb_prop in H. destruct H as (H & H5). apply andb_prop in H. destruct H as (H & H4). apply andb_prop in H. destruct H as (H & H3). apply andb_prop in H. destruct H as (H1 & H2).
  apply negb_true_iff in H1. apply Z.eqb_eq in H2, H3. apply Z.leb_le in H4. destruct (nth_error loop_prog _) as [w|] eqn:Ew; [|discriminate]. destruct (decode (bytes_of_word w)) as [i|] eqn:Ei; [|discriminate].
  destruct (step _ _ _) as [s1|] eqn:Es; [|discriminate]. destruct (next (dev_ops false) false m) as [m1|] eqn:En; [|discriminate].
  set (j := Z.to_nat (R m R_pc / 4)) in *. assert (EJ : R m R_pc = 4 * Z.of_nat j) by (unfold j; lia).
  assert (HF : fetches (dev_ops false) m i (c_mem m)). { exists w. split; auto. rewrite EJ. apply (HL O m eq_refl); auto; lia. }
  pose proof (P_C06_conformance _ (dev_ops false) m i (c_mem m) (dev_typed false) W H1 HF) as X. rewrite Es, En in X. cbn [omap] in X. apply Ret_inj in X. subst s1.
  destruct (IH m1) as (s' & F); auto. { eapply next_wf; [apply dev_typed|exact W|exact En]. }
  { intros k m2 E Hk. apply (HL (S k)); [|lia]. cbn [run]. rewrite En. exact E. }
  exists s'. eapply follows_S; eauto.
Qed.
Lemma E_C70_program : exists m0 s', declares (dev_ops false) (DRom (BootRom loop_prog (zlen loop_prog) 64 1)) 256 /\ zlen loop_prog * 4 <= 256 /\ Forall is_u32 loop_prog /\
  prepare_vm (dev_ops false) false (demo_devs loop_prog) = Ret m0 /\ follows (dev_ops false) loop_prog 13 (abs m0) s' /\ get s' R_a0 = 15.
Proof.
  assert (Dc : declares (dev_ops false) (DRom (BootRom loop_prog (zlen loop_prog) 64 1)) 256) by (apply (br_declares false (BootRom loop_prog (zlen loop_prog) 64 1)); cbn; unfold is_u64; lia).
  assert (U : Forall is_u32 loop_prog) by (repeat constructor; vm_compute; repeat split; congruence).
  set (o := prepare_vm (dev_ops false) false (demo_devs loop_prog)).
  assert (X : then_check o (fun m =>
    (fix chk n (m : cpu device) : bool :=
     match n with
     | O => true
     | S k => negb (c_halted m) && (R m R_mtt =? 0) && (R m R_pc mod 4 =? 0) && (0 <=? R m R_pc) &&
         match nth_error loop_prog (Z.to_nat (R m R_pc / 4)) with
         | Some w => match decode (bytes_of_word w) with
                     | ROk i => match step (board_bus (dev_ops false) false) i (St (file (c_regs m)) (c_mem m) ((c_cycles m + 1) mod 2 ^ 128) false), next (dev_ops false) false m with
                                | Ret s1, Ret m1 => chk k m1 | _, _ => false end
                     | RErr _ => false end
         | None => false end
     end) 13%nat m && then_check (run (dev_ops false) false 13 m) (fun m' => R m' R_a0 =? 15)) = true) by (vm_compute; reflexivity).
  apply then_check_sound in X. destruct X as (m0 & E0 & X). apply andb_prop in X. destruct X as (X1 & X2). apply then_check_sound in X2. destruct X2 as (m' & E' & X2). apply Z.eqb_eq in X2.
  destruct (romed_boot false loop_prog 64 1 _ 256 m0 Dc E0) as (RM & W & _).
  destruct (follows_check 13 m0 W X1) as (s' & F).
  { intros k m1 Ek _ Hm j w Hj. assert (Lj : (j < 6)%nat) by (change 6%nat with (length loop_prog); apply nth_error_Some; congruence).
    apply (P_C70_fetch false loop_prog 64 1 [DRam (StoreMem (zeros 256) 64 2)] 256 m0 k m1 j w U Dc E0 Ek Hm Hj). lia. }
  exists m0, s'. do 3 (split; [auto; vm_compute; discriminate|]). split; [exact E0|]. split; auto.
  pose proof (P_C70_program false loop_prog 64 1 [DRam (StoreMem (zeros 256) 64 2)] 256 m0 13 s' U Dc ltac:(vm_compute; discriminate) E0 F) as Y. rewrite E' in Y. rewrite <- Y. exact X2.
Qed.
Lemma E_C70_fetch : exists m0 m w, declares (dev_ops false) (DRom (BootRom loop_prog (zlen loop_prog) 64 1)) 256 /\ prepare_vm (dev_ops false) false (demo_devs loop_prog) = Ret m0 /\
  run (dev_ops false) false 6 m0 = Ret m /\ R m R_mtt = 0 /\ R m R_pc = 4 * 2 /\ R m R_a0 = 10 /\ nth_error loop_prog 2 = Some w.
Proof.
  set (o := prepare_vm (dev_ops false) false (demo_devs loop_prog)).
  assert (X : then_check o (fun m0 => then_check (run (dev_ops false) false 6 m0) (fun m => (R m R_mtt =? 0) && (R m R_pc =? 8) && (R m R_a0 =? 10))) = true) by (vm_compute; reflexivity).
  apply then_check_sound in X. destruct X as (m0 & E0 & X). apply then_check_sound in X. destruct X as (m & E & X). apply andb_prop in X. destruct X as (X & X3). apply andb_prop in X. destruct X as (X1 & X2). apply Z.eqb_eq in X1, X2, X3.
  eexists m0, m, _. split. { apply (br_declares false (BootRom loop_prog (zlen loop_prog) 64 1)); cbn; unfold is_u64; lia. } repeat (split; [eassumption|]). reflexivity.
Qed.
