(** Proofs of C88: what the tutorial says about blank programs, modes, resets and stacks. *)
From Coq Require Import ZArith List Bool Lia.
From Verif Require Import Base Board Mem Cpu Asm Tools Devices Runner SpecMach SpecIsa SpecBus SpecObs SpecMap SpecDev SpecRun BaseFacts RegFacts MemFacts AluFacts IsaFacts IsaStep CycleFacts MonoFacts InvFacts ReachFacts CyclePost
  DevTyped ProofPanic ProofRun Demo ProofState ProofMap ProofBoard ProofReg ProofMem ProofDev ProofRom SymFacts.
Import ListNotations.
Open Scope Z_scope.

(** The processor fell on a word of opcode 0 at the address its exception vector points to: it stays there for ever. *)
Lemma P_C88_stuck : forall D (ops : bus_ops D) oc a w m n, wf m -> c_halted m = false -> sup_mode m = true -> R m R_mtt = 0 -> R m R_pc = a -> R m R_ev = a -> a mod 4 = 0 ->
  mem_read ops oc (c_mem m) a = Ret (c_mem m, 0, w) -> 0 <= w < 2 ^ 27 ->
  exists m', run ops oc (S n) m = Ret m' /\ c_halted m' = false /\ R m' R_pc = a /\ R m' R_et = et_value true 1 0 /\ c_mem m' = c_mem m /\
    c_cycles m' = (c_cycles m + Z.of_nat (S n)) mod 2 ^ 128 /\ forall r, r <> R_et -> R m' r = if reg_eq_dec r R_smt then 1 else R m r.
Proof.
  intros D ops oc a w m n W Hh Hs Hm Hp He Ha Hr Hw.
  assert (G : forall m, wf m -> c_halted m = false -> sup_mode m = true -> R m R_mtt = 0 -> R m R_pc = a -> R m R_ev = a -> mem_read ops oc (c_mem m) a = Ret (c_mem m, 0, w) ->
    exists m', next ops oc m = Ret m' /\ wf m' /\ c_halted m' = false /\ sup_mode m' = true /\ R m' R_et = et_value true 1 0 /\ c_mem m' = c_mem m /\ c_cycles m' = (c_cycles m + 1) mod 2 ^ 128 /\
      forall r, r <> R_et -> R m' r = if reg_eq_dec r R_smt then 1 else R m r).
  { clear m W Hh Hs Hm Hp He Hr. intros m W Hh Hs Hm Hp He Hr.
    pose proof W as (Wr & Wm & Wc). assert (V : sv_mode m = true) by (unfold sv_mode, sup_mode in *; rewrite (r_smt_R _ Wr); exact Hs).
    assert (E : next ops oc m = Ret (exception 1 0 (with_chg false (with_cycles ((c_cycles m + 1) mod two128) m)))).
    { set (m1 := with_cycles ((c_cycles m + 1) mod two128) m).
      assert (EX : cpu_mem_exec ops oc (r_pc (c_regs m1)) m1 = COk w m1).
      { unfold cpu_mem_exec, mem_do. change (c_regs m1) with (c_regs m). change (c_mem m1) with (c_mem m). rewrite (r_pc_R _ Wr), Hp. unfold ensure_aligned. rewrite (proj2 (Z.eqb_eq _ _) Ha). cbn [cbind].
        assert (TR : translate ops oc (c_mem m1) (c_regs m1) a ActExec = Ret (c_mem m, TOk a)).
        { unfold translate. change (c_regs m1) with (c_regs m). rewrite (r_mtt_R _ Wr), Hm. reflexivity. }
        rewrite TR. cbn [cpure]. cbv beta iota zeta. change (c_mem (with_mem (c_mem m) m1)) with (c_mem m). rewrite Hr. cbn [cpure]. destruct m; reflexivity. }
      unfold next. rewrite Hh. cbv zeta. fold m1. rewrite EX.
      assert (Z24 : u8 (Z.shiftr w 24) = w / 2 ^ 24). { unfold u8. rewrite Z.shiftr_div_pow2 by lia. change (2 ^ 24) with 16777216. change (2 ^ 27) with 134217728 in Hw. rewrite Z.mod_small; lia. }
      rewrite Z24. assert (Z3 : Z.shiftr (w / 2 ^ 24) 3 = 0). { rewrite Z.shiftr_div_pow2 by lia. change (2 ^ 24) with 16777216. change (2 ^ 3) with 8. change (2 ^ 27) with 134217728 in Hw. lia. }
      rewrite Z3. destruct m; reflexivity. }
    set (m1 := with_chg false (with_cycles ((c_cycles m + 1) mod two128) m)) in *.
    assert (Wr1 : regs_wf (c_regs m1)) by exact Wr.
    assert (S1 : is_sup m1 = true) by (rewrite <- (sv_mode_sup m1 Wr1); exact V).
    assert (L : length (file (c_regs m1)) = 32%nat) by (apply file_length, Wr1).
    assert (F : forall r, R (exception 1 0 m1) r = if reg_eq_dec r R_smt then 1 else if reg_eq_dec r R_pc then R m R_ev else if reg_eq_dec r R_et then et_value true 1 0 else R m r).
    { intros r. unfold R at 1. rewrite exception_file by exact Wr1. rewrite S1. rewrite !rg_rs by (rewrite ?rs_length; exact L). reflexivity. }
    exists (exception 1 0 m1). split; [exact E|]. split.
    { split; [apply exception_wf; [exact Wr1|unfold is_u8; lia|unfold is_u16; lia]|]. split; [exact Wm|]. cbn. change two128 with (2 ^ 128). apply Z.mod_pos_bound. reflexivity. }
    split; [exact Hh|]. split; [unfold sup_mode; rewrite F; reflexivity|]. split; [rewrite F; reflexivity|]. split; [reflexivity|]. split; [reflexivity|].
    intros r N. rewrite F. destruct (reg_eq_dec r R_smt); auto. destruct (reg_eq_dec r R_pc) as [->|]; [congruence|]. destruct (reg_eq_dec r R_et); [contradiction|reflexivity]. }
  revert m W Hh Hs Hm Hp He Hr. induction n as [|n IH]; intros m W Hh Hs Hm Hp He Hr.
  - destruct (G m W Hh Hs Hm Hp He Hr) as (m' & E & W' & H1 & H2 & H3 & H4 & H5 & H6). exists m'. cbn [run]. rewrite E. cbn [obind]. split; [reflexivity|]. split; [exact H1|].
    split; [rewrite H6 by discriminate; exact Hp|]. split; [exact H3|]. split; [exact H4|]. split; [exact H5|exact H6].
  - destruct (G m W Hh Hs Hm Hp He Hr) as (m' & E & W' & H1 & H2 & H3 & H4 & H5 & H6).
    destruct (IH m' W' H1 H2) as (m2 & E2 & K1 & K2 & K3 & K4 & K5 & K6); try (rewrite H6 by discriminate; assumption).
    { rewrite H4. exact Hr. }
    exists m2. change (run ops oc (S (S n)) m) with (obind (next ops oc m) (run ops oc (S n))). rewrite E. cbn [obind]. split; [exact E2|]. split; [exact K1|]. split; [exact K2|]. split; [exact K3|]. split; [congruence|].
    split. { rewrite K5, H5. rewrite Zplus_mod_idemp_l. f_equal. lia. }
    intros r N. rewrite (K6 r N). destruct (reg_eq_dec r R_smt) as [->|N1]; [reflexivity|]. rewrite (H6 r N). destruct (reg_eq_dec r R_smt); [contradiction|reflexivity].
Qed.

Lemma rom_reads_zero oc prog s id sz m : Forall is_u32 prog -> nth 0 prog 0 = 0 -> romed prog s id sz m -> mem_wf (c_mem m) -> tidy oc (c_mem m) -> mem_read (dev_ops oc) oc (c_mem m) 0 = Ret (c_mem m, 0, 0).
Proof.
  intros Hp H0 (mp & mps & e & H1 & H2 & H3 & H4 & H5 & H6 & H7 & H8) W T.
  destruct (P_C33_dispatch _ (dev_ops oc) oc (c_mem m) 0 mp W T eq_refl) as (e' & E1 & _ & _ & E2 & _).
  { rewrite H1. left. reflexivity. }
  { unfold occupies. rewrite H2, H3. lia. }
  rewrite H6 in E1. unfold c_hwb in H7. rewrite H7 in E1. injection E1 as <-. rewrite E2, H8, H2. cbn [bo_read dev_ops]. unfold br_read. cbn [br_len br_storage]. rewrite H6.
  change (0 - 0) with 0. change (0 / 4) with 0. destruct prog as [|p t].
  - change (0 <? zlen []) with false. cbn [wrap_r obind]. cbv beta iota zeta. rewrite <- H8, (set_dev_same _ _ _ _ H7). destruct (c_mem m); reflexivity.
  - cbn in H0. subst p. replace (0 <? zlen (0 :: t)) with true by (symmetry; apply Z.ltb_lt; rewrite zlen_cons; pose proof (zlen_nonneg t); lia). cbn [vget znth Z.eqb unwrap obind wrap_r]. cbv beta iota zeta. change (u32 0) with 0.
    rewrite <- H8, (set_dev_same _ _ _ _ H7). destruct (c_mem m); reflexivity.
Qed.
(** A board whose first component is a boot ROM with nothing in it, or a zero as first word: after any number of cycles it is still running at address 0, having raised exception 0x01 each time; and
    [run_vm] told to stop on exceptions stops after one cycle, reporting it; told to go on, it never returns. *)
Lemma P_C88_blank : forall oc prog s id rest sz m0, Forall is_u32 prog -> nth 0 prog 0 = 0 ->
  let rom := DRom (BootRom prog (zlen prog) s id) in declares (dev_ops oc) rom sz -> prepare_vm (dev_ops oc) oc (rom :: rest) = Ret m0 ->
  (forall n, exists m, run (dev_ops oc) oc n m0 = Ret m /\ c_halted m = false /\ R m R_pc = 0 /\ c_cycles m = Z.of_nat n mod 2 ^ 128 /\ R m R_et = (if (n =? 0)%nat then 0 else 2 ^ 24 + 2 ^ 16)) /\
  (forall cfg fuel, cf_halt_on_ex cfg = true -> cf_limit cfg = None -> (1 < fuel)%nat ->
    exists m st, run_vm (dev_ops oc) oc fuel cfg m0 = Ret (Some (m, st)) /\ sp_cycles st = 1 /\ sp_addr st = 0 /\ exists e, sp_ex st = Some e /\ xm_sv e = true /\ xm_code e = 1 /\ xm_data e = 0) /\
  (forall cfg fuel, cf_halt_on_ex cfg = false -> cf_limit cfg = None -> forall m st, run_vm (dev_ops oc) oc fuel cfg m0 <> Ret (Some (m, st))).
Proof.
  intros oc prog s id rest sz m0 Hp H0 rom Hd Hb. pose proof (dev_typed oc) as T.
  destruct (romed_boot oc prog s id rest sz m0 Hd Hb) as (HR & W & _).
  destruct (boot_history _ _ _ _ _ Hb) as (c & cs & B1 & B2 & B3 & B4). destruct (P_C31_tidy _ _ _ _ _ _ _ T B2 B3 B1 B4) as (Ht & _).
  pose proof (rom_reads_zero oc prog s id sz m0 Hp H0 HR (proj1 (proj2 W)) Ht) as Hz.
  assert (X : (forall r, R m0 r = match r with R_smt => 1 | _ => 0 end) /\ c_cycles m0 = 0 /\ c_halted m0 = false).
  { unfold prepare_vm in Hb. destruct (board_new (dev_ops oc) (rom :: rest)) as [b|]; cbn [obind] in Hb; [|discriminate].
    destruct (map_contiguous oc (c_mem b) 0 _) as [[[mem [rg|e]] sts]|]; cbn [obind] in Hb; try discriminate. destruct (P_C38_reset_state _ _ _ _ Hb) as (P1 & P2 & P3 & _). auto. }
  destruct X as (X1 & X2 & X3).
  assert (S0 : sup_mode m0 = true) by (unfold sup_mode; rewrite X1; reflexivity).
  assert (G : forall n, exists m, run (dev_ops oc) oc n m0 = Ret m /\ c_halted m = false /\ R m R_pc = 0 /\ c_cycles m = Z.of_nat n mod 2 ^ 128 /\ R m R_et = (if (n =? 0)%nat then 0 else 2 ^ 24 + 2 ^ 16)).
  { intros [|n].
    - exists m0. rewrite !X1, X2, X3. cbn [Nat.eqb run]. auto.
    - destruct (P_C88_stuck _ (dev_ops oc) oc 0 0 m0 n W X3 S0 (X1 R_mtt) (X1 R_pc) (X1 R_ev) eq_refl Hz ltac:(lia)) as (m & E & E1 & E2 & E3 & _ & E4 & _).
      exists m. split; [exact E|]. split; [exact E1|]. split; [exact E2|]. split; [rewrite E4, X2; reflexivity|]. rewrite E3. reflexivity. }
  split; [exact G|]. split.
  - intros cfg fuel Hc Hl Hf. destruct (G 1%nat) as (m1 & E1 & K1 & K2 & K3 & K4). cbn [Nat.eqb] in K4.
    assert (HS : stops_after (dev_ops oc) oc cfg m0 1 m1).
    { split; [exact E1|]. split. { right. right. split; [lia|]. split; [exact Hc|]. rewrite K4. discriminate. }
      intros k mk Hk Ek. assert (k = 0%nat) as -> by lia. cbn [run] in Ek. apply Ret_inj in Ek. subst mk. intros [Y|[(l & Y & _)|(Y & _)]]; [congruence|congruence|lia]. }
    destruct (P_C65_returns _ (dev_ops oc) oc cfg m0 1 m1 T W HS) with (fuel := fuel) as (st & Er); [|exact Hf|].
    { right. intros k mk Hk Ek. assert (k = 1%nat) as -> by lia. rewrite E1 in Ek. apply Ret_inj in Ek. subst mk. rewrite K4. unfold unprintable. intros ([Y|Y] & _); vm_compute in Y; discriminate Y. }
    exists m1, st. split; [exact Er|]. destruct (P_C65_stops _ (dev_ops oc) oc fuel cfg m0 m1 st T W Er) as (n & (F1 & F2 & F3) & F4 & F5 & F6).
    assert (n = 1%nat) as ->.
    { destruct n as [|[|n]]; [|reflexivity|].
      - exfalso. cbn [run] in F1. apply Ret_inj in F1. subst m1. destruct F2 as [Y|[(l & Y & _)|(Y & _)]]; [congruence|congruence|lia].
      - exfalso. apply (F3 1%nat m1 ltac:(lia) E1). right. right. split; [lia|]. split; [exact Hc|]. rewrite K4. discriminate. }
    split; [rewrite F4, K3; reflexivity|]. split. { destruct F5 as (mk & Ek & ->). cbn [pred run] in Ek. apply Ret_inj in Ek. subst mk. apply X1. }
    unfold reported in F6. rewrite Hc, K4 in F6. change ((0 <? Z.of_nat 1) && true && negb (2 ^ 24 + 2 ^ 16 =? 0)) with true in F6. cbv iota in F6. destruct F6 as (e & -> & _ & Y1 & Y2 & Y3). exists e. split; [reflexivity|]. split; [exact Y1|]. split; [exact Y2|exact Y3].
  - intros cfg fuel Hc Hl m st Er. destruct (P_C65_stops _ (dev_ops oc) oc fuel cfg m0 m st T W Er) as (n & (F1 & F2 & _) & _). destruct (G n) as (m' & E & K1 & _). rewrite F1 in E. apply Ret_inj in E. subst m'.
    destruct F2 as [Y|[(l & Y & _)|(_ & Y & _)]]; congruence.
Qed.
(** An empty ROM of 0x1000 bytes and a RAM: ten cycles later it is still at address 0. *)
Lemma E_C88_blank : exists d m0 m, br_with_size [] 4096 7 = Some d /\ br_storage d = [] /\ declares (dev_ops true) (DRom d) 4096 /\
  prepare_vm (dev_ops true) true [DRom d; DRam (StoreMem (zeros 4) 4 8)] = Ret m0 /\ run (dev_ops true) true 10 m0 = Ret m /\ c_cycles m = 10 /\ R m R_pc = 0.
Proof.
  assert (X : exists m0, prepare_vm (dev_ops true) true [DRom (BootRom [] 0 1024 7); DRam (StoreMem (zeros 4) 4 8)] = Ret m0 /\
    then_check (run (dev_ops true) true 10 m0) (fun m => (c_cycles m =? 10) && (R m R_pc =? 0)) = true) by (apply then_check_sound; vm_compute; reflexivity).
  destruct X as (m0 & E0 & X). apply then_check_sound in X. destruct X as (m & E & X). apply andb_prop in X. destruct X as (X1 & X2). apply Z.eqb_eq in X1, X2.
  exists (BootRom [] 0 1024 7), m0, m. split; [reflexivity|]. split; [reflexivity|]. split. { eexists. split; [vm_compute; reflexivity|reflexivity]. } auto.
Qed.
Lemma E_C88_stuck : exists m, wf m /\ c_halted m = false /\ sup_mode m = true /\ R m R_mtt = 0 /\ R m R_pc = 4 /\ R m R_ev = 4 /\ mem_read words_ops false (c_mem m) 4 = Ret (c_mem m, 0, 99) /\
  exists m', run words_ops false 7 m = Ret m' /\ c_cycles m' = 8 /\ R m' R_pc = 4.
Proof.
  assert (X : exists m, words_run false 0 (asm [Cpy R_ev (Lit2 4)] ++ [99]) 1 = Ret m /\
    (negb (c_halted m) && sup_mode m && (R m R_mtt =? 0) && (R m R_pc =? 4) && (R m R_ev =? 4) && (then_check (run words_ops false 7 m) (fun m' => (c_cycles m' =? 8) && (R m' R_pc =? 4)))) = true)
    by (apply then_check_sound; vm_compute; reflexivity).
  destruct X as (m & E & X). assert (E' := E). destruct (words_wf false 0 _ _ m ltac:(unfold is_u32; lia) E) as (_ & W).
  apply andb_prop in X. destruct X as (X & X6). apply andb_prop in X. destruct X as (X & X5). apply andb_prop in X. destruct X as (X & X4). apply andb_prop in X. destruct X as (X & X3). apply andb_prop in X. destruct X as (X1 & X2).
  apply then_check_sound in X6. destruct X6 as (m' & E6 & X6). apply andb_prop in X6. destruct X6 as (X6 & X7). apply negb_true_iff in X1. apply Z.eqb_eq in X3, X4, X5, X6, X7.
  exists m. split; [exact W|]. split; [exact X1|]. split; [exact X2|]. split; [exact X3|]. split; [exact X4|]. split; [exact X5|]. split; [|exists m'; auto].
  clear - E. vm_compute in E. injection E as <-. reflexivity.
Qed.

(** Which values of smt mean userland: writing 0 to it enters userland, writing anything else means supervisor. *)
Lemma P_C88_mode : forall D (ops : bus_ops D) oc m r mem1 m', typed ops -> wf m -> executes ops oc m (Cpy R_smt (Reg2 r)) mem1 m' -> sup_mode m = true ->
  (sup_mode m' = false <-> R m r = 0) /\ R m' R_smt = R m r.
Proof.
  intros D ops oc m r mem1 m' T Hw He Hs. destruct (P_C14_cpy D ops oc m R_smt r mem1 m' T Hw He) as (_ & _ & K). rewrite Hs in K.
  assert (C : can_read true r = true) by (destruct r; reflexivity). destruct (K C eq_refl) as (A & _).
  assert (E : R m' R_smt = R m r). { rewrite A. cbn [assoc]. reflexivity. }
  split; [|exact E]. unfold sup_mode. rewrite E. rewrite negb_false_iff. apply Z.eqb_eq.
Qed.
Lemma E_C88_mode : demo_case [236912640] 0 (fun m i mem1 m' => i = Cpy R_smt (Reg2 R_a0) /\ sup_mode m = true /\ R m R_a0 = 0 /\ sup_mode m' = false).
Proof. demo_tac. Qed.
(** The tutorial has it that 1 means userland. *)
Lemma P_C88_mode_refuted : ~ (forall D (ops : bus_ops D) oc m mem1 m', typed ops -> wf m -> executes ops oc m (Cpy R_smt (Lit2 1)) mem1 m' -> sup_mode m = true -> sup_mode m' = false).
Proof.
  intros H. assert (C : demo_case (asm [Cpy R_smt (Lit2 1)]) 0 (fun m i mem1 m' => i = Cpy R_smt (Lit2 1) /\ sup_mode m = true /\ sup_mode m' = true)) by demo_tac.
  destruct C as (m & i & mem1 & m' & Hr & He & -> & H1 & H2). pose proof (H device (dev_ops false) false m mem1 m' (dev_typed false) (reachable_wf _ (dev_typed false) _ _ Hr) He H1) as X. congruence.
Qed.
(** The tutorial has it that a reset halts the processor (it wakes it up, as C38 proves). *)
Lemma P_C88_reset_halts_refuted : ~ (forall D (ops : bus_ops D) m m', typed ops -> board_reset ops m = Ret m' -> c_halted m' = true).
Proof.
  intros H. assert (X : exists m0, board_new words_ops [[]] = Ret m0 /\ then_check (board_reset words_ops m0) (fun m => negb (c_halted m)) = true) by (apply then_check_sound; vm_compute; reflexivity).
  destruct X as (m0 & _ & X). apply then_check_sound in X. destruct X as (m & E & X). apply negb_true_iff in X. pose proof (H _ words_ops m0 m words_typed E). congruence.
Qed.
(** The tutorial says that pushing with ssp at 0x2000 leaves it at 0x1FFD: false. *)
Lemma P_C88_push_refuted : ~ (forall D (ops : bus_ops D) oc m v mem1 m', typed ops -> wf m -> executes ops oc m (Push v) mem1 m' -> sup_mode m = true -> R m R_ssp = 8192 -> R m' R_et = 0 -> R m' R_ssp = 8189).
Proof.
  intros H. assert (C : demo_case (asm [Cpy R_ssp (Lit2 8192); Push (Lit2 7)]) 1 (fun m i mem1 m' => i = Push (Lit2 7) /\ sup_mode m = true /\ R m R_ssp = 8192 /\ R m' R_et = 0 /\ R m' R_ssp = 8188)) by demo_tac.
  destruct C as (m & i & mem1 & m' & Hr & He & -> & H1 & H2 & H3 & H4). pose proof (H device (dev_ops false) false m _ mem1 m' (dev_typed false) (reachable_wf _ (dev_typed false) _ _ Hr) He H1 H2 H3) as X. congruence.
Qed.

Lemma serve_app {D} (ops : bus_ops D) h1 : forall d h2 d1 xs1, serve ops d h1 = Ret (d1, xs1) -> serve ops d (h1 ++ h2) = match serve ops d1 h2 with Ret (d2, xs2) => Ret (d2, xs1 ++ xs2) | Panic => Panic end.
Proof.
  induction h1 as [|r t IH]; intros d h2 d1 xs1 E. { cbn [serve] in E. apply Ret_inj in E. injection E as <- <-. cbn [app]. destruct (serve ops d h2) as [[? ?]|]; reflexivity. }
  cbn [serve app] in E |- *. destruct r as [a|a w|].
  - destruct (bo_read ops d a) as [[[d' ex] v]|]; [|discriminate E]. destruct (serve ops d' t) as [[d2 xs2]|] eqn:E2; [|discriminate E]. apply Ret_inj in E. injection E as <- <-. rewrite (IH _ h2 _ _ E2). destruct (serve ops d2 h2) as [[? ?]|]; reflexivity.
  - destruct (bo_write ops d a w) as [[d' ex]|]; [|discriminate E]. destruct (serve ops d' t) as [[d2 xs2]|] eqn:E2; [|discriminate E]. apply Ret_inj in E. injection E as <- <-. rewrite (IH _ h2 _ _ E2). destruct (serve ops d2 h2) as [[? ?]|]; reflexivity.
  - destruct (bo_reset ops d) as [d'|]; [|discriminate E]. destruct (serve ops d' t) as [[d2 xs2]|] eqn:E2; [|discriminate E]. apply Ret_inj in E. injection E as <- <-. rewrite (IH _ h2 _ _ E2). destruct (serve ops d2 h2) as [[? ?]|]; reflexivity.
Qed.
Lemma store_keeps oc (mk : store_mem -> device) (HM : mk = DRam \/ mk = DFlash) h : forall l s id d xs, serve (dev_ops oc) (mk (StoreMem l s id)) h = Ret (d, xs) -> exists l', d = mk (StoreMem l' s id) /\ zlen l' = zlen l.
Proof.
  induction h as [|r t IH]; intros l s id d xs E. { cbn [serve] in E. apply Ret_inj in E. injection E as <- <-. eauto. }
  cbn [serve] in E. destruct r as [a|a w|].
  - destruct (bo_read (dev_ops oc) (mk (StoreMem l s id)) a) as [[[d' ex] v]|] eqn:E1; [|discriminate E].
    assert (d' = mk (StoreMem l s id)) as ->. { destruct HM as [-> | ->]; cbn [bo_read dev_ops] in E1; unfold sm_read in E1; destruct (vget _ _); cbn [obind wrap_r] in E1; try discriminate; injection E1 as <- _ _; reflexivity. }
    destruct (serve (dev_ops oc) _ t) as [[d2 xs2]|] eqn:E2; [|discriminate E]. apply Ret_inj in E. injection E as <- <-. eapply IH, E2.
  - destruct (bo_write (dev_ops oc) (mk (StoreMem l s id)) a w) as [[d' ex]|] eqn:E1; [|discriminate E].
    assert (X : exists l', d' = mk (StoreMem l' s id) /\ zlen l' = zlen l).
    { destruct HM as [-> | ->]; cbn [bo_write dev_ops] in E1; unfold sm_write, vset in E1; cbn [sm_storage sm_size sm_hw_id] in E1; destruct (zset l (a / 4) _) as [l'|] eqn:El; cbn [unwrap obind wrap_w] in E1; try discriminate; injection E1 as <- _;
        exists l'; (split; [reflexivity|]); unfold zlen; rewrite (zset_length _ _ _ _ El); reflexivity. }
    destruct X as (l' & -> & L). destruct (serve (dev_ops oc) _ t) as [[d2 xs2]|] eqn:E2; [|discriminate E]. apply Ret_inj in E. injection E as <- <-. destruct (IH _ _ _ _ _ E2) as (l2 & -> & L2). exists l2. split; [reflexivity|lia].
  - assert (X : bo_reset (dev_ops oc) (mk (StoreMem l s id)) = Ret (mk (StoreMem (zeros (zlen l)) s id))) by (destruct HM as [-> | ->]; reflexivity).
    rewrite X in E. destruct (serve (dev_ops oc) _ t) as [[d2 xs2]|] eqn:E2; [|discriminate E]. apply Ret_inj in E. injection E as <- <-. destruct (IH _ _ _ _ _ E2) as (l2 & -> & L2). exists l2. split; [reflexivity|].
    rewrite L2. apply zeros_length, zlen_nonneg.
Qed.
(** A reset gives a memory made with a size back the state it was made with, whatever was requested of it. *)
Lemma P_C88_renewed : forall oc size id d h mk, is_u32 size -> sm_new size id = Some d -> Forall (in_range size) h -> mk = DRam \/ mk = DFlash ->
  exists xs, serve (dev_ops oc) (mk d) (h ++ [ResetReq]) = Ret (mk d, xs).
Proof.
  intros oc size id d h mk Hs E Hh HM. unfold sm_new in E. destruct (Z.eqb_spec size 0); [discriminate|]. destruct (negb _); [discriminate|]. injection E as <-.
  assert (W : word_store (dev_ops oc) erased size (word_at (zeros size)) (mk (StoreMem (zeros size) (size / 4) id))).
  { unfold is_u32 in Hs. destruct HM as [-> | ->]; [apply P_C56_ram|apply P_C58_flash]; try apply zeros_u32; rewrite zeros_length; lia. }
  destruct (W h Hh) as (d' & xs & E & _ & _). rewrite (serve_app _ _ _ [ResetReq] _ _ E). destruct (store_keeps oc mk HM h _ _ _ _ _ E) as (l' & -> & L). cbn [serve].
  assert (X : bo_reset (dev_ops oc) (mk (StoreMem l' (size / 4) id)) = Ret (mk (StoreMem (zeros (zlen l')) (size / 4) id))) by (destruct HM as [-> | ->]; reflexivity).
  rewrite X. rewrite L, zeros_length by (unfold is_u32 in Hs; lia). eauto.
Qed.
Lemma E_C88_renewed : exists d d' xs, sm_new 16 7 = Some d /\ serve (dev_ops false) (DRam d) [Write 4 9] = Ret (d', xs) /\ d' <> DRam d /\ Forall (in_range 16) [Write 4 9].
Proof.
  eexists _, _, _. split; [reflexivity|]. split; [vm_compute; reflexivity|]. split; [discriminate|]. constructor; [|constructor]. cbn. unfold is_u32. lia.
Qed.
(** A memory made from given words does not get them back (the tutorial has it that a reset gives components their initial state). *)
Lemma P_C88_renewed_refuted : ~ (forall oc l id d, Forall is_u32 l -> sm_from l id = Some d -> exists xs, serve (dev_ops oc) (DRam d) [ResetReq] = Ret (DRam d, xs)).
Proof.
  intros H. destruct (H false [5; 6; 7; 8] 1 _ ltac:(repeat constructor; unfold is_u32; lia) eq_refl) as (xs & E). vm_compute in E. discriminate E.
Qed.
