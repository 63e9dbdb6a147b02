(** Proofs about panics of a CPU cycle. *)
From Coq Require Import ZArith List Bool Lia.
From Verif Require Import Base Board Mem Cpu Asm Tools Devices DevTyped SpecMach SpecIsa SpecBus SpecObs SpecMap BaseFacts RegFacts MemFacts
  AluFacts IsaFacts IsaStep MonoFacts CycleFacts UndFacts HoareFacts CyclePost InvFacts MapFacts ReachFacts ExecFacts StepCases ProofAlu Demo.
Import ListNotations.
Open Scope Z_scope.
Ltac Zify.zify_post_hook ::= Z.div_mod_to_equations.

Section NoPanic.
Context {D : Type} (ops : bus_ops D) (T : typed ops) (inv : Z -> D -> Prop) (B : behaved ops inv).
Implicit Type m : cpu D.

Definition Kw m : Prop := W m /\ devs_ok inv (c_mem m).
Definition K m : Prop := Kw m /\ (R m R_mtt = 0 \/ R m R_pda mod 4 = 0).
Definition NP {A} (x : cres D A) : Prop :=
  match x with COk _ m | CErr m => devs_ok inv (c_mem m) | CPanic => False end.

Lemma NP_exc {A} code a m : Kw m -> @NP A (CErr (exception code a m)).
Proof. intros [_ H]. exact H. Qed.
Lemma NP_ok {A} (a : A) m : Kw m -> NP (COk a m).
Proof. intros [_ H]. exact H. Qed.
Lemma NP_read {A} c m (k : Z -> cpu D -> cres D A) : Kw m -> 0 <= c -> (forall v, is_u32 v -> NP (k v m)) -> NP (cbind (read_reg c m) k).
Proof.
  intros HK Hc Hk. destruct (Z.lt_ge_cases c 32).
  - destruct (reg_from_code_total c ltac:(lia)) as [r E]. apply reg_code_from_code in E. subst c.
    rewrite read_reg_lemma by apply HK. destruct (can_read _ r); cbn [cbind]; [|apply NP_exc; auto].
    apply Hk. apply R_u32, HK.
  - rewrite read_reg_bad by (try apply HK; auto). apply NP_exc; auto.
Qed.
Lemma NP_rl1 {A} b p m (k : Z -> cpu D -> cres D A) : Kw m -> is_u8 p -> (forall v, is_u32 v -> NP (k v m)) -> NP (cbind (reg_or_lit1 b p m) k).
Proof.
  intros HK Hp Hk. unfold reg_or_lit1. destruct b; [apply NP_read; auto; apply Hp|]. cbn [cbind]. apply Hk.
  unfold is_u8, is_u32 in *; lia.
Qed.
Lemma NP_rl2 {A} b p q m (k : Z -> cpu D -> cres D A) : Kw m -> is_u8 p -> is_u8 q -> (forall v, is_u32 v -> NP (k v m)) -> NP (cbind (reg_or_lit2 b p q m) k).
Proof.
  intros HK Hp Hq Hk. unfold reg_or_lit2. destruct b; [apply NP_read; auto; apply Hp|]. cbn [cbind]. apply Hk.
  unfold of_be2, is_u8, is_u32 in *; lia.
Qed.
Lemma Kw_wri r v m : Kw m -> is_u32 v -> Kw (wri r v m).
Proof. intros [H1 H2] Hv. split; [apply W_wri; auto|]. destruct r; exact H2. Qed.
Lemma NP_write c v m : Kw m -> 0 <= c -> is_u32 v -> NP (write_reg c v m).
Proof.
  intros HK Hc Hv. destruct (Z.lt_ge_cases c 32).
  - destruct (reg_from_code_total c ltac:(lia)) as [r E]. apply reg_code_from_code in E. subst c.
    rewrite write_reg_lemma by apply HK. destruct (can_write _ r); [apply NP_ok, Kw_wri; auto|apply NP_exc; auto].
  - rewrite write_reg_bad by (try apply HK; auto). apply NP_exc; auto.
Qed.
Lemma NP_write_bind {A} c v m (k : unit -> cpu D -> cres D A) : Kw m -> 0 <= c -> is_u32 v -> (forall m', Kw m' -> NP (k tt m')) ->
  NP (cbind (write_reg c v m) k).
Proof.
  intros HK Hc Hv Hk. destruct (Z.lt_ge_cases c 32).
  - destruct (reg_from_code_total c ltac:(lia)) as [r E]. apply reg_code_from_code in E. subst c.
    rewrite write_reg_lemma by apply HK. destruct (can_write _ r); cbn [cbind]; [apply Hk, Kw_wri; auto|apply NP_exc; auto].
  - rewrite write_reg_bad by (try apply HK; auto). apply NP_exc; auto.
Qed.
Definition alu_op (o : op) : Prop := exists a, o = op_of_alu a.
Lemma NP_compute {A} x y o m (k : Z -> cpu D -> cres D A) : alu_op o -> Kw m -> is_u32 x -> is_u32 y ->
  (forall v m', Kw m' -> is_u32 v -> NP (k v m')) -> NP (cbind (compute x y o m) k).
Proof.
  intros [a ->] HK Hx Hy Hk. unfold compute. rewrite compute_core_spec by auto.
  destruct (alu_spec a x y) as [r c o|code] eqn:E; cbn [cbind].
  - pose proof (alu_range _ _ _ _ _ _ Hx Hy E). rewrite flags_of_spec by auto.
    apply Hk; auto. split; [|apply HK]. unfold with_regs. rewrite set_af_wr by apply HK. apply W_af. apply HK.
  - apply NP_exc; auto.
Qed.
Lemma K_mem mem m : K m -> mem_ext (c_mem m) mem -> devs_ok inv mem -> K (with_mem mem m).
Proof. intros [[H1 H2] H3] He Hd. split; [split; [apply W_mem; auto|auto]|exact H3]. Qed.
Lemma NP_mem_do {A C} act a (h : memory D -> Z -> outcome (memory D * Z * A)) m (k : A -> cpu D -> cres D C) (Q : A -> Prop) :
  K m -> is_u32 a ->
  (forall mem, mem_wf mem -> devs_ok inv mem -> a mod 4 = 0 -> exists mem' ex v, h mem a = Ret (mem', ex, v) /\ mem_ext mem mem' /\ devs_ok inv mem' /\ Q v) ->
  (forall v m', K m' -> Q v -> NP (k v m')) ->
  NP (cbind (mem_do ops false act a h m) k).
Proof.
  intros HK Ha Hh Hk. destruct HK as [[HW HD] HM]. unfold mem_do, ensure_aligned.
  destruct (Z.eqb_spec (a mod 4) 0) as [Hal|]; cbn [cbind]; [|exact HD].
  rewrite translate_spec by auto.
  assert (G : forall mem1, mem_ext (c_mem m) mem1 -> devs_ok inv mem1 ->
    NP (cbind (dop (mem'', ex, ret) <- h (c_mem (with_mem mem1 m)) a;
           let m := with_mem mem'' (with_mem mem1 m) in
           if negb (ex =? 0) then CErr (exception 160 ex m) else COk ret m) k)).
  { intros mem1 He Hd. destruct (Hh mem1) as (mem2 & ex & v & E & He2 & Hd2 & HQ); auto.
    { eapply mem_wf_ext; [eauto|apply HW]. }
    cbn [c_mem with_mem]. rewrite E. cbn [cpure]. cbv zeta. destruct (negb (ex =? 0)); cbn [cbind]; [exact Hd2|].
    apply Hk; auto. change (with_mem mem2 (with_mem mem1 m)) with (with_mem mem2 m). apply K_mem; auto.
    - split; [split; auto|auto].
    - eapply mem_ext_trans; eauto. }
  destruct (Z.eqb_spec (R m R_mtt) 0) as [E0|E0].
  - cbn [cpure]. apply G; auto. apply mem_ext_refl.
  - destruct HM as [HM|HM]; [congruence|].
    destruct (mem_read_safe ops inv B (c_mem m) (m32 (R m R_pda + 4 * (a mod 1024)))) as (mem1 & ex & v & E & Hd).
    { apply HW. } { auto. } { apply u32_range. } { unfold m32; lia. }
    rewrite E. cbn [cpure]. pose proof (mem_read_ext _ _ _ _ _ _ _ E).
    destruct (negb (ex =? 0)); [exact Hd|]. destruct (Z.testbit v _); [exact Hd|]. apply G; auto.
Qed.
Lemma NP_load {C} act a m (k : Z -> cpu D -> cres D C) : K m -> is_u32 a ->
  (forall v m', K m' -> is_u32 v -> NP (k v m')) -> NP (cbind (mem_do ops false act a (mem_read ops false) m) k).
Proof.
  intros HK Ha Hk. apply NP_mem_do with (Q := is_u32); auto.
  intros mem Hw Hd Hal. destruct (mem_read_safe ops inv B mem a) as (mem1 & ex & v & E & Hd1); auto.
  exists mem1, ex, v. repeat split; auto; try (eapply mem_read_ext; eauto); eapply mem_read_typed; eauto.
Qed.
Lemma NP_store {C} a w m (k : unit -> cpu D -> cres D C) : K m -> is_u32 a -> is_u32 w ->
  (forall m', K m' -> NP (k tt m')) -> NP (cbind (cpu_mem_write ops false a w m) k).
Proof.
  intros HK Ha Hw Hk. unfold cpu_mem_write. apply NP_mem_do with (Q := fun _ => True); auto.
  - intros mem Hwf Hd Hal. destruct (mem_write_safe ops inv B mem a w) as (mem1 & ex & E & Hd1); auto.
    exists mem1, ex, tt. rewrite E. cbn. split; [reflexivity|]. split; [eapply mem_write_ext; eauto|]. auto.
  - intros [] m' ? _. auto.
Qed.
Lemma cbind_id {A} (x : cres D A) : cbind x (fun a m => COk a m) = x.
Proof. destruct x; reflexivity. Qed.
Lemma NP_store_end a w m : K m -> is_u32 a -> is_u32 w -> NP (cpu_mem_write ops false a w m).
Proof. intros. rewrite <- cbind_id. apply NP_store; auto. intros. apply NP_ok. apply H2. Qed.
Lemma NP_info {C} i id m (k : Z -> cpu D -> cres D C) : Kw m -> is_u32 i -> is_u32 id ->
  (forall v, is_u32 v -> NP (k v m)) -> NP (cbind (get_hw_info false i id m) k).
Proof.
  intros HK Hi Hid Hk. destruct (get_hw_info_spec i id m ltac:(apply HK) Hi Hid) as [E H]. rewrite E.
  destruct (info_spec (c_mem m) id i) as [[c d]|v] eqn:Es; cbn [cbind]; [apply NP_exc; auto|]. apply Hk.
  eapply H; eauto.
Qed.
Lemma reset_sel_safe sel (h : hwb D) j : Forall (fun e => inv (ac_size (ae_cache e)) (ae_dev e)) h ->
  exists h', reset_sel ops j sel h = Ret h' /\ Forall (fun e => inv (ac_size (ae_cache e)) (ae_dev e)) h'.
Proof.
  intros H. revert j. induction H as [|e t He Ht IH]; intros j; cbn [reset_sel]; [eauto|].
  assert (X : exists d, (if sel j then bo_reset ops (ae_dev e) else Ret (ae_dev e)) = Ret d /\ inv (ac_size (ae_cache e)) d).
  { destruct (sel j); [|eauto]. destruct (bh_reset _ _ B _ _ He) as (d & ? & ?); eauto. }
  destruct X as (d & -> & Hd). destruct (IH (j + 1)) as (t' & -> & Ht'). eexists. split; [reflexivity|]. constructor; auto.
Qed.
Lemma Kw_upd h m : Kw m -> map ae_cache h = map ae_cache (c_hwb m) -> Forall (fun e => inv (ac_size (ae_cache e)) (ae_dev e)) h ->
  Kw (with_mem (Memory h (mm_maps (c_mem m))) m).
Proof. intros [H1 H2] E Hh. split; [apply W_mem; auto; split; auto|exact Hh]. Qed.
Lemma NP_reset {C} test m (k : hwb D -> cres D C) : Kw m ->
  (forall h, Kw (with_mem (Memory h (mm_maps (c_mem m))) m) -> NP (k h)) -> NP (cpure (reset_where ops test (c_hwb m)) k).
Proof.
  intros HK Hk. rewrite reset_where_sel. destruct (reset_sel_safe test (c_hwb m) 0) as (h & E & Hh); [apply HK|].
  rewrite E. cbn [cpure]. apply Hk. apply Kw_upd; auto. eapply reset_sel_caches; eauto.
Qed.
Lemma NP_cpu_reset m u : Kw m -> NP (COk (A := unit) u (cpu_reset m)).
Proof. intros [_ H]. exact H. Qed.
Lemma Kw_pc v m : Kw m -> is_u32 v -> Kw (with_regs (set_pc v) m).
Proof. intros [H1 H2] Hv. rewrite set_pc_spec by auto. split; [apply W_wr; auto|exact H2]. Qed.

Lemma cbind_assoc {A C E} (x : cres D A) (f : A -> cpu D -> cres D C) (g : C -> cpu D -> cres D E) :
  cbind (cbind x f) g = cbind x (fun a m => cbind (f a m) g).
Proof. destruct x; reflexivity. Qed.
Lemma Kw_sp v m : Kw m -> is_u32 v -> Kw (set_sp v m).
Proof. intros [H1 H2] Hv. rewrite set_sp_spec by auto. split; [apply W_wr; auto|exact H2]. Qed.
Lemma sp_u32 m : W m -> is_u32 (sp m).
Proof. intros H. rewrite sp_spec by auto. apply R_u32, H. Qed.
Lemma NP_set_sp {A} (a : A) v m : Kw m -> NP (COk a (set_sp v m)).
Proof. intros [_ H]. unfold set_sp. destruct (sv_mode m); exact H. Qed.

Lemma Kw_K m : K m -> Kw m. Proof. intros [H _]; auto. Qed.
Lemma NP_run op b0 b1 b2 p0 p1 p2 m : 0 <= op < 32 -> is_u8 p0 -> is_u8 p1 -> is_u8 p2 -> K m ->
  NP (run_instr ops false op b0 b1 b2 p0 p1 p2 m).
Proof.
  intros Hop Hp0 Hp1 Hp2 HK. assert (HKw := Kw_K _ HK).
  pose proof (proj1 Hp0) as Q0. pose proof (proj1 Hp1) as Q1. pose proof (proj1 Hp2) as Q2.
  assert (Hsh : forall v, is_u32 v -> is_u32 (Z.shiftr v 8)).
  { intros v Hv. rewrite Z.shiftr_div_pow2 by lia. unfold is_u32 in *. change (2 ^ 8) with 256. lia. }
  destruct (op_cases op Hop) as [E|[E|[E|[E|[E|[E|[E|[E|[E|[E|[E|[E|[E|[E|[E|[E|[E|[E|[E|[E|[E|[E|[E|[E|[E|[E|[E|[E|[E|[E|[E|E]]]]]]]]]]]]]]]]]]]]]]]]]]]]]]];
    subst op; cbn [run_instr].
  all: repeat first
    [ apply NP_exc; assumption
    | apply NP_rl1; [assumption|assumption|intros]
    | apply NP_rl2; [assumption|assumption|assumption|intros]
    | apply NP_read; [solve [auto using Kw_K]|assumption|intros]
    | apply NP_write; [solve [auto using Kw_K]|assumption|solve [auto using u32_range]]
    | apply NP_write_bind; [solve [auto using Kw_K]|assumption|solve [auto]|intros] 
    | progress cbn [op_of_opcode unwrap cpure Z.eqb Pos.eqb orb andb]
    | apply NP_compute; [solve [first [exists AAdd; reflexivity|exists ASub; reflexivity|exists AMul; reflexivity|exists AAnd; reflexivity|exists ABor; reflexivity|exists AXor; reflexivity|exists AShl; reflexivity|exists AShr; reflexivity|eexists (ADiv _); reflexivity|eexists (AMod _); reflexivity]]|assumption|assumption|try assumption|intros]
    | apply NP_load; [assumption|solve [apply u32_range]|intros]
    | apply NP_store; [assumption|solve [apply u32_range]|solve [auto using u32_range]|intros]
    | apply NP_store_end; [assumption|solve [apply u32_range]|solve [auto using u32_range]] 
    | apply NP_ok; assumption ].
  - destruct b1; cbn [negb]; auto.
  - destruct b1; cbn [negb]; auto.
  - apply NP_ok. apply (Kw_pc _ _ HKw). apply u32_range.
  - destruct (sv_mode m); [|apply NP_exc; auto]. apply NP_rl2; auto. intros. exact (proj2 HKw).
  - exact (proj2 HKw).
  - destruct (7 <? v); [apply NP_exc; auto|]. destruct (negb _); exact (proj2 HKw).
  - destruct (7 <? v); [apply NP_exc; auto|]. destruct (negb _); exact (proj2 HKw).
  - rewrite !af_test_spec by (try apply HKw; auto). cbn [cpure].
    destruct (match v1 with 1 => _ | _ => _ end) as [[]|]; exact (proj2 HKw).
  - exact (proj2 (proj1 H2)).
  - apply NP_store_end; auto. apply u32_range. rewrite r_avr_R by apply HKw. apply R_u32, HKw.
  - rewrite add_u32_release by (unfold is_u32 in *; lia). cbn [cpure].
    apply NP_load; [auto|apply u32_range|]. intros w m1 HK1 Hw1.
    apply NP_read; auto using Kw_K. intros z Hz. apply NP_store; auto using u32_range.
    intros m2 HK2. apply NP_write; auto using Kw_K.
  - apply NP_set_sp. apply Kw_K; auto.
  - rewrite cbind_assoc. apply NP_load; [auto|apply sp_u32, HKw|]. intros w m1 HK1 Hw1. cbn [cbind].
    apply NP_write; auto. apply Kw_sp; [apply Kw_K; auto|apply u32_range].
  - rewrite r_pc_R by apply HKw. assert (Hpc := R_u32 m R_pc (proj1 (proj1 HKw))).
    rewrite add_u32_release by (unfold is_u32 in *; lia). cbn [cpure].
    apply NP_store; [auto|apply u32_range|apply u32_range|]. intros m1 HK1. cbv zeta.
    apply Kw_K in HK1. pose proof (Kw_sp (wrapping_sub (sp m) 4) m1 HK1 (u32_range _)) as [_ X]. exact X.
  - destruct (_ && _); [apply NP_write; auto using u32_range|].
    apply NP_info; auto. intros. apply NP_write; auto.
  - cbv zeta. assert (F : forall m, Kw m -> NP (if u8 (Z.land v 240) =? 0 then COk tt (cpu_reset m) else COk tt m)).
    { intros m1 H1. destruct (_ =? 0); [apply NP_cpu_reset|apply NP_ok]; auto. }
    assert (G : forall test, NP (cbind (cpure (reset_where ops test (c_hwb m)) (fun h => COk tt (with_mem (Memory h (mm_maps (c_mem m))) m)))
       (fun (_ : unit) m => if u8 (Z.land v 240) =? 0 then COk tt (cpu_reset m) else COk tt m))).
    { intros test. rewrite reset_where_sel. destruct (reset_sel_safe test (c_hwb m) 0) as (h & E & Hh); [apply HKw|].
      rewrite E. cbn [cpure cbind]. apply F. apply Kw_upd; auto. eapply reset_sel_caches; eauto. }
    assert (G1 : NP (cbind (cpure (hwb_reset ops (c_hwb m) (r_avr (c_regs m))) (fun r => match r with
               | Some h => COk tt (with_mem (Memory h (mm_maps (c_mem m))) m)
               | None => CErr (exception 16 (u16 (r_avr (c_regs m))) m) end))
       (fun (_ : unit) m => if u8 (Z.land v 240) =? 0 then COk tt (cpu_reset m) else COk tt m))).
    { unfold hwb_reset. destruct (znth (c_hwb m) (r_avr (c_regs m))) as [e|] eqn:Ez; cbn [cpure cbind]; [|apply NP_exc; auto].
      pose proof (devs_znth inv _ _ _ (proj2 HKw) Ez) as Hi. destruct (bh_reset _ _ B _ _ Hi) as (d & E & Hd).
      rewrite E. cbn [obind cpure cbind]. apply F. apply Kw_upd; auto; [apply set_dev_caches|]. eapply set_dev_Forall; eauto. apply HKw. }
    pose proof (F m HKw) as G2.
    destruct (u8 (Z.land v 15)) as [|p|p]; [apply G| |exact G2].
    destruct p as [[[|[]|]|[|[]|]|]|[[|[]|]|[[]|[]|]|]|]; first [exact G2|apply G|exact G1].
Qed.

Lemma next_safe m : wf m -> devs_ok inv (c_mem m) -> (R m R_mtt = 0 \/ R m R_pda mod 4 = 0) ->
  exists m', next ops false m = Ret m' /\ devs_ok inv (c_mem m').
Proof.
  intros Hw Hd Hm. unfold next. destruct (c_halted m); [eauto|].
  set (m1 := with_cycles _ m). assert (HK : K m1). { split; [split; [split; apply Hw|exact Hd]|exact Hm]. }
  assert (Hpc : is_u32 (r_pc (c_regs m1))). { rewrite r_pc_R by apply Hw. apply R_u32, Hw. }
  pose proof (NP_load ActExec (r_pc (c_regs m1)) m1 (fun w m => exec_word ops w m) HK Hpc) as X.
  assert (Y : forall v m', K m' -> is_u32 v -> NP (exec_word ops v m')).
  { intros v m' H' Hv. apply NP_run; auto using u8_range.
    rewrite Z.shiftr_div_pow2 by lia. pose proof (u8_range (Z.shiftr v 24)). unfold is_u8 in *. change (2 ^ 3) with 8. lia. }
  specialize (X Y). unfold cpu_mem_exec. destruct (mem_do _ _ _ _ _ _) as [w m2|m2|]; cbn [cbind NP] in X; [|eauto|destruct X].
  unfold exec_word in X. cbv zeta in X |- *.
  destruct (run_instr _ _ _ _ _ _ _ _ _) as [u m3|m3|]; cbn [NP] in X; [|eauto|destruct X].
  destruct (c_chg m3); eauto.
Qed.
Lemma run_safe n m : wf m -> devs_ok inv (c_mem m) -> run ops false n m = Panic ->
  exists k m1, (k < n)%nat /\ run ops false k m = Ret m1 /\ R m1 R_mtt <> 0 /\ R m1 R_pda mod 4 <> 0.
Proof.
  revert m. induction n as [|n IH]; intros m Hw Hd E; cbn [run] in E; [discriminate|].
  destruct (Z.eq_dec (R m R_mtt) 0) as [E1|E1], (Z.eq_dec (R m R_pda mod 4) 0) as [E2|E2].
  4:{ exists O, m. split; [lia|]. auto. }
  all: destruct (next_safe m Hw Hd) as (m1 & E3 & Hd1); [auto|];
    rewrite E3 in E; cbn [obind] in E;
    destruct (IH m1) as (k & m2 & Hk & E4 & H4); auto; try (eapply next_wf; eauto; fail);
    exists (S k), m2; (split; [lia|]); split; auto; cbn [run]; rewrite E3; exact E4.
Qed.
End NoPanic.

(** * C02 *)
(** With components that do not panic on aligned in-range accesses ([behaved]: [inv] is any invariant of theirs), a
    release-build cycle of any reachable machine returns, provided the page directory address is aligned
    or translation is off. *)
Lemma aligned_no_panic : forall D (ops : bus_ops D) inv m, typed ops -> behaved ops inv -> wf m ->
  devs_ok inv (c_mem m) -> (R m R_mtt = 0 \/ R m R_pda mod 4 = 0) ->
  exists m', next ops false m = Ret m' /\ wf m' /\ devs_ok inv (c_mem m').
Proof.
  intros D ops inv m T B Hw Hd Hm. destruct (next_safe ops T inv B m Hw Hd Hm) as (m' & E & Hd').
  exists m'. split; auto. split; auto. eapply next_wf; eauto.
Qed.
(** A run panics only after reaching such a state. *)
Lemma run_panic_cause : forall D (ops : bus_ops D) inv n m, typed ops -> behaved ops inv -> wf m -> devs_ok inv (c_mem m) ->
  run ops false n m = Panic ->
  exists k m1, (k < n)%nat /\ run ops false k m = Ret m1 /\ R m1 R_mtt <> 0 /\ R m1 R_pda mod 4 <> 0.
Proof. intros. eapply run_safe; eauto. Qed.

(** A board with one component, a 64-byte store of words that ignores writes and never fails. *)
Definition words_ops : bus_ops (list Z) :=
  {| bo_name := fun _ => []; bo_metadata := fun _ => Ret (W8 0 1 64 0 0 0 0 0);
     bo_read := fun d off => Ret (d, 0, m32 (nth (Z.to_nat (off / 4)) d 0));
     bo_write := fun d _ _ => Ret (d, 0); bo_reset := fun d => Ret d |}.
Lemma words_typed : typed words_ops.
Proof.
  split; cbn.
  - intros d off d' ex v E. injection E as <- <- <-. split; [unfold is_u16; lia|apply u32_range].
  - intros d off w d' ex E. injection E as <- <-. unfold is_u16; lia.
  - intros d md E. injection E as <-. cbn. unfold is_u32. repeat split; lia.
  - intros d. constructor.
Qed.
Lemma words_behaved : behaved words_ops (fun _ _ => True).
Proof. split; cbn; intros; repeat eexists. Qed.
Definition words_run (oc : bool) (at_addr : Z) (prog : list Z) (n : nat) : outcome (cpu (list Z)) :=
  match board_new words_ops [prog] with
  | Ret m => api_run words_ops oc (AMap at_addr 0 :: AReset :: repeat ANext n) m
  | Panic => Panic
  end.
Lemma words_reachable oc a prog n m : is_u32 a -> words_run oc a prog n = Ret m -> reachable words_ops oc m.
Proof.
  unfold words_run. destruct (board_new _ _) as [m0|] eqn:E; [|discriminate]. intros Ha H.
  exists [prog], (AMap a 0 :: AReset :: repeat ANext n), m0. split; auto.
  constructor; [split; [auto|lia]|]. constructor; [exact I|]. apply Forall_forall. intros c Hc. apply repeat_spec in Hc. subst. exact I.
Qed.
Definition then_check {A} (o : outcome A) (f : A -> bool) : bool := match o with Ret a => f a | Panic => false end.
Definition panics {A} (o : outcome A) : bool := match o with Panic => true | _ => false end.
Lemma then_check_sound {A} (o : outcome A) f : then_check o f = true -> exists a, o = Ret a /\ f a = true.
Proof. destruct o; cbn; [eauto|discriminate]. Qed.
Lemma panics_sound {A} (o : outcome A) : panics o = true -> o = Panic.
Proof. destruct o; [discriminate|auto]. Qed.
Lemma all_devs_ok D (mem : memory D) : devs_ok (fun _ _ => True) mem.
Proof. apply Forall_forall. auto. Qed.

(** The guest can crash the host, in every build, by pointing the page directory at an unaligned address. *)
Lemma P_C02_no_panic_refuted : ~ (forall D (ops : bus_ops D) inv m, typed ops -> behaved ops inv ->
  reachable ops false m -> devs_ok inv (c_mem m) -> exists m', next ops false m = Ret m').
Proof.
  intros H.
  assert (X : exists m, words_run false 0 (asm [Cpy R_pda (Lit2 2); Cpy R_mtt (Lit2 1); Halt]) 2 = Ret m /\ panics (next words_ops false m) = true)
    by (apply then_check_sound; vm_compute; reflexivity).
  destruct X as (m & E & P). apply panics_sound in P. destruct (H _ words_ops (fun _ _ => True) m words_typed words_behaved) as (m' & E').
  - eapply words_reachable; [|exact E]. unfold is_u32; lia.
  - apply all_devs_ok.
  - congruence.
Qed.

(** * C03 *)
(** A debug build that returns agrees with the release build. *)
Lemma P_C03_agree : forall D (ops : bus_ops D) n m m', run ops true n m = Ret m' -> run ops false n m = Ret m'.
Proof. intros. eapply run_oc; eauto. Qed.
(** In a debug build the guest can crash the host even without translation (the exact conditions are those of [C03_exact]). *)
Lemma P_C03_no_panic_refuted : ~ (forall D (ops : bus_ops D) inv m, typed ops -> behaved ops inv -> reachable ops true m ->
  devs_ok inv (c_mem m) -> R m R_mtt = 0 -> exists m', next ops true m = Ret m').
Proof.
  intros H.
  assert (X : exists m, words_run true 0 (asm [If2 (Lit1 8) (Lit1 0) (Lit1 1)]) 0 = Ret m /\ (panics (next words_ops true m) && (R m R_mtt =? 0) = true))
    by (apply then_check_sound; vm_compute; reflexivity).
  destruct X as (m & E & P). apply andb_prop in P. destruct P as (P & M). apply panics_sound in P. apply Z.eqb_eq in M. destruct (H _ words_ops (fun _ _ => True) m words_typed words_behaved) as (m' & E'); auto.
  - eapply words_reachable; [|exact E]. unfold is_u32; lia.
  - apply all_devs_ok.
  - congruence.
Qed.

(* Concrete cases for the theorems above that have none beside them. *)
Lemma E_C03_agree : exists m m', words_run true 0 (map encode_word [Cpy R_a0 (Lit2 7); Sub R_a0 (Lit2 8); Halt]) 0 = Ret m /\ run words_ops true 3 m = Ret m' /\
  R m' R_a0 = 4294967295 /\ c_halted m' = true.
Proof. eexists. eexists. split; [vm_compute; reflexivity|]. split; [vm_compute; reflexivity|]. split; vm_compute; reflexivity. Qed.
