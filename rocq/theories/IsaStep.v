(** Refinement, instruction by instruction, and for a whole cycle. *)
From Coq Require Import ZArith List Bool Lia.
From Verif Require Import Base Board Mem Cpu Asm SpecMach SpecIsa SpecBus BaseFacts RegFacts MemFacts AluFacts IsaFacts.
Import ListNotations.
Open Scope Z_scope.
Ltac Zify.zify_post_hook ::= Z.div_mod_to_equations.

Section Step.
Context {D : Type} (ops : bus_ops D) (T : typed ops).
Implicit Type m : cpu D.
Notation bs := (board_bus ops false).

Lemma m32_u32 x : is_u32 (m32 x).
Proof. apply u32_range. Qed.
Lemma wadd a b : wrapping_add a b = m32 (a + b). Proof. reflexivity. Qed.
Lemma wmul a b : wrapping_mul a b = m32 (a * b). Proof. reflexivity. Qed.
Lemma waddmul a b c : wrapping_add a (wrapping_mul b c) = m32 (a + b * c).
Proof.
  unfold wrapping_add, wrapping_mul, m32, u32. rewrite Zplus_mod_idemp_r. reflexivity.
Qed.

Hint Resolve m32_u32 W_mem W_wr W_wri W_chg W_halted W_af : isa.

Lemma fin_skip m u : W m -> c_chg m = false ->
  fin (COk u (with_regs (set_pc (wrapping_add (r_pc (c_regs m)) 4)) m)) = advance 8 (abs m).
Proof.
  intros HW Hc. rewrite set_pc_spec, r_pc_R by (auto; apply HW).
  rewrite fin_ok; auto with isa. 2: apply W_wr; [auto|apply u32_range].
  unfold advance. rewrite !get_abs, R_wr_same, !abs_wr by apply HW.
  unfold put; cbn [s_reg s_bus s_cyc s_halt]. rewrite rs_rs_same.
  f_equal. f_equal. f_equal. unfold wrapping_add, u32, m32. lia.
Qed.

Lemma shift_lit b p q v : den1 b p v -> is_u8 p -> is_u8 q ->
  forall m (K : Z -> cpu D -> cres D unit),
  cbind (reg_or_lit2 b p q m) (fun x m => K (if negb b then Z.shiftr x 8 else x) m) = cbind (reg_or_lit1 b p m) K.
Proof.
  intros Hv Hp Hq m K. unfold reg_or_lit2, reg_or_lit1. destruct v; cbn in Hv.
  - destruct Hv as [-> ->]. destruct (read_reg (reg_code r) m); reflexivity.
  - destruct Hv as (-> & -> & _). cbn [cbind negb]. f_equal.
    rewrite Z.shiftr_div_pow2 by lia. change (2 ^ 8) with 256.
    unfold of_be2, is_u8 in *. lia.
Qed.

Lemma cpure_unwrap {A B} (x : A) (f : A -> cres D B) : cpure (unwrap (Some x)) f = f x.
Proof. reflexivity. Qed.

Lemma fin_binop a b p q v d m : W m -> c_chg m = false -> den2 b p q v ->
  fin (cbind (reg_or_lit2 b p q m) (fun y m => cbind (read_reg (reg_code d) m) (fun x m =>
     cbind (compute x y (op_of_alu a) m) (fun r m => write_reg (reg_code d) r m))))
  = read2 v (abs m) (fun y => arith a d y (abs m) true).
Proof. intros. apply fin_rl2; auto. intros. apply fin_arith; auto. Qed.

Lemma fin_shift a b p v d m : W m -> c_chg m = false -> den1 b p v ->
  fin (cbind (reg_or_lit1 b p m) (fun y m => cbind (read_reg (reg_code d) m) (fun x m =>
     cbind (compute x y (op_of_alu a) m) (fun r m => write_reg (reg_code d) r m))))
  = read1 v (abs m) (fun y => arith a d y (abs m) true).
Proof. intros. eapply fin_rl1; eauto. intros. apply fin_arith; auto. Qed.

Lemma fin_write_last b x m : W m -> is_u32 x ->
  fin (write_reg (reg_code b) x m) = write b x (abs m) (fun s =>
     if c_chg m then Ret s else match b with R_pc => Ret s | _ => advance 4 s end).
Proof.
  intros HW Hx. destruct (c_chg m) eqn:Hc.
  - rewrite write_reg_lemma by apply HW. unfold write. rewrite sup_abs.
    destruct (can_write (is_sup m) b); [|apply fin_err; auto].
    rewrite fin_ok_chg, abs_wri; auto; [apply HW|].
    rewrite chg_wri. destruct b; auto.
  - apply fin_write_end; auto.
Qed.

Lemma land_240 x : u8 (Z.land x 240) = 16 * ((x / 16) mod 16).
Proof.
  replace (Z.land x 240) with (16 * ((x / 16) mod 16)). { unfold u8. apply Z.mod_small. lia. }
  change 240 with (Z.ldiff 255 15). 
  apply Z.bits_inj'. intros n Hn.
  rewrite Z.land_spec, Z.ldiff_spec.
  change 255 with (Z.ones 8). change 15 with (Z.ones 4).
  replace (16 * ((x / 16) mod 16)) with (Z.shiftl (Z.shiftr x 4 mod 2 ^ 4) 4).
  2:{ rewrite Z.shiftl_mul_pow2, Z.shiftr_div_pow2 by lia. change (2 ^ 4) with 16. lia. }
  destruct (Z.ltb_spec n 4).
  - rewrite Z.shiftl_spec_low by lia. rewrite (Z.ones_spec_low 4 n) by lia.
    cbn. rewrite andb_false_r. rewrite andb_false_r. reflexivity.
  - rewrite Z.shiftl_spec_high by lia. rewrite (Z.ones_spec_high 4 n) by lia. cbn [negb]. rewrite andb_true_r.
    destruct (Z.ltb_spec n 8).
    + rewrite Z.mod_pow2_bits_low by lia. rewrite Z.shiftr_spec by lia. rewrite Z.ones_spec_low by lia.
      rewrite andb_true_r. f_equal. lia.
    + rewrite Z.mod_pow2_bits_high by lia. rewrite Z.ones_spec_high by lia. rewrite andb_false_r. reflexivity.
Qed.

Lemma aux_match {A} (k : Z) (v0 v1 v2 v3 v4 d : A) : 0 <= k < 16 ->
  match k with 0 => v0 | 1 => v1 | 2 => v2 | 3 => v3 | 4 => v4 | _ => d end =
  if k =? 0 then v0 else if k =? 1 then v1 else if k =? 2 then v2 else if k =? 3 then v3 else if k =? 4 then v4 else d.
Proof.
  intros H. destruct k as [|p|p]; try reflexivity. do 5 (destruct p as [p|p|]; try reflexivity).
Qed.

Definition c_upd (h : hwb D) m : cpu D := with_mem (Memory h (mm_maps (c_mem m))) m.

Lemma fin_reset_tail mode m : W m -> c_chg m = false ->
  fin (if u8 (Z.land mode 240) =? 0 then COk tt (cpu_reset m) else COk tt m) =
  if (mode / 16) mod 16 =? 0 then Ret (St reset_file (c_mem m) 0 false) else advance 4 (abs m).
Proof.
  intros HW Hc. rewrite land_240.
  replace (16 * ((mode / 16) mod 16) =? 0) with ((mode / 16) mod 16 =? 0).
  2:{ destruct (Z.eqb_spec ((mode / 16) mod 16) 0), (Z.eqb_spec (16 * ((mode / 16) mod 16)) 0); auto; lia. }
  destruct ((mode / 16) mod 16 =? 0).
  - rewrite fin_ok_chg by reflexivity. reflexivity.
  - apply fin_ok; auto.
Qed.

Lemma c_upd_ext h h' m : map ae_cache h = map ae_cache h' -> h' = c_hwb m -> mem_ext (c_mem m) (Memory h (mm_maps (c_mem m))).
Proof. intros E ->. split; auto. Qed.

Lemma run_instr_refines op b0 b1 b2 p0 p1 p2 i m :
  W m -> c_chg m = false -> is_u8 p0 -> is_u8 p1 -> is_u8 p2 ->
  dec_rel op b0 b1 b2 p0 p1 p2 i ->
  fin (run_instr ops false op b0 b1 b2 p0 p1 p2 m) = step bs i (abs m).
Proof.
  intros HW Hc Hp0 Hp1 Hp2 Hd.
  destruct i; cbn [dec_rel] in Hd;
    repeat match goal with H : _ /\ _ |- _ => destruct H end; subst; unfold run_instr; cbn [step].
  - (* Cpy *) eapply fin_rl2; eauto. intros x Hx. apply fin_write_end; auto.
  - (* Ex *)
    apply fin_read; auto. intros x Hx. apply fin_read; auto. intros y Hy.
    apply fin_write; auto. rewrite fin_write_last by (auto with isa).
    rewrite abs_wri by apply HW. rewrite chg_wri.
    unfold write. destruct (can_write _ _); auto.
    destruct a; auto; rewrite Hc; destruct b; auto.
  - (* Add *) cbn [Z.eqb Pos.eqb orb andb op_of_opcode]. exact (fin_binop AAdd _ _ _ _ _ _ HW Hc H1).
  - exact (fin_binop ASub _ _ _ _ _ _ HW Hc H1).
  - exact (fin_binop AMul _ _ _ _ _ _ HW Hc H1).
  - (* Div *) eapply fin_rl1; eauto. intros y Hy. eapply fin_rl1; eauto. intros md Hmd.
    apply (fin_arith (ADiv md)); auto.
  - (* Mod *) eapply fin_rl1; eauto. intros y Hy. eapply fin_rl1; eauto. intros md Hmd.
    apply (fin_arith (AMod md)); auto.
  - exact (fin_binop AAnd _ _ _ _ _ _ HW Hc H1).
  - exact (fin_binop ABor _ _ _ _ _ _ HW Hc H1).
  - exact (fin_binop AXor _ _ _ _ _ _ HW Hc H1).
  - (* Shl *) cbn [Z.eqb Pos.eqb orb andb op_of_opcode].
    refine (eq_trans _ (fin_shift AShl _ _ _ a _ HW Hc H1)). f_equal.
    exact (shift_lit _ _ _ _ H1 Hp1 Hp2 m (fun y m => cbind (read_reg (reg_code a) m) (fun x m =>
     cbind (compute x y OpShl m) (fun r m => write_reg (reg_code a) r m)))).
  - (* Shr *) cbn [Z.eqb Pos.eqb orb andb op_of_opcode].
    refine (eq_trans _ (fin_shift AShr _ _ _ a _ HW Hc H1)). f_equal.
    exact (shift_lit _ _ _ _ H1 Hp1 Hp2 m (fun y m => cbind (read_reg (reg_code a) m) (fun x m =>
     cbind (compute x y OpShr m) (fun r m => write_reg (reg_code a) r m)))).
  - (* Cmp *) eapply fin_rl2; eauto. intros y Hy. unfold arith. apply fin_read; auto. intros x Hx.
    refine (fin_compute ASub x y m _ (fun r s => advance 4 s) HW Hx Hy _).
    intros r c o Hr. rewrite fin_ok by (auto with isa). rewrite abs_wr by apply HW. reflexivity.
  - (* Jpr *) eapply fin_rl2; eauto. intros x Hx. cbv zeta.
    rewrite set_pc_spec, r_pc_R by (auto; apply HW). rewrite fin_ok_chg by reflexivity.
    rewrite abs_chg, abs_wr by apply HW. unfold advance. rewrite get_abs. do 2 f_equal.
    unfold wrapping_add, i16, u16, m32, u32.
    rewrite Zplus_mod_idemp_r. reflexivity.
  - (* Lsm *) rewrite sv_mode_sup, sup_abs by apply HW. destruct (is_sup m); [|apply fin_err; auto].
    eapply fin_rl2; eauto. intros x Hx.
    rewrite set_pc_spec by auto. rewrite set_smt_spec by (auto with isa).
    rewrite fin_ok; auto. 2:{ apply W_wr; auto with isa. unfold is_u32; lia. }
    rewrite abs_wr by (apply W_wr; auto). rewrite abs_wr by apply HW. reflexivity.
  - (* Itr *) eapply fin_rl1; eauto. intros x Hx. rewrite fin_ok_chg by reflexivity. apply exc_raise; auto.
  - (* If *) eapply fin_rl1; eauto. intros f Hf. destruct (Z.ltb_spec 7 f).
    + rewrite fin_err by auto. unfold u16, u8. f_equal. lia.
    + unfold flag_of. rewrite get_abs. rewrite r_af_R by apply HW.
      unfold is_u32 in Hf. rewrite land_pow2_zero by lia. rewrite negb_involutive.
      cbn [Z.eqb Pos.eqb]. destruct (Z.testbit _ _); cbn [Bool.eqb negb].
      * apply fin_ok; auto.
      * apply fin_skip; auto.
  - (* IfN *) eapply fin_rl1; eauto. intros f Hf. destruct (Z.ltb_spec 7 f).
    + rewrite fin_err by auto. unfold u16, u8. f_equal. lia.
    + unfold flag_of. rewrite get_abs. rewrite r_af_R by apply HW.
      unfold is_u32 in Hf. rewrite land_pow2_zero by lia. rewrite negb_involutive.
      cbn [Z.eqb Pos.eqb]. destruct (Z.testbit _ _); cbn [Bool.eqb negb].
      * apply fin_skip; auto.
      * apply fin_ok; auto.
  - (* If2 *) eapply fin_rl1; eauto. intros fa Hfa. eapply fin_rl1; eauto. intros fb Hfb.
    eapply fin_rl1; eauto. intros cd Hcd.
    rewrite !af_test_spec by auto. cbn [cpure].
    set (x := flag_of_unchecked (abs m) fa). set (y := flag_of_unchecked (abs m) fb). clearbody x y.
    match goal with |- context [match cd with Z0 => _ | _ => _ end] =>
      replace (match cd with
        | 1 => Some (x || y) | 2 => Some (x && y) | 3 => Some (xorb x y) | 4 => Some (negb x && negb y)
        | 5 => Some (negb (x && y)) | 6 => Some (x && negb y) | 7 => Some (y && negb x) | _ => None end)
        with (cond_spec cd x y) end.
    2:{ unfold cond_spec. destruct cd as [|p|p]; try reflexivity.
        destruct p as [[[p|p|]|[p|p|]|]|[[p|p|]|[p|p|]|]|]; try reflexivity; destruct x, y; reflexivity. }
    destruct (cond_spec cd x y) as [[|]|].
    + apply fin_ok; auto.
    + apply fin_skip; auto.
    + rewrite fin_err by auto. unfold u16, u8. f_equal. lia.
  - (* Lsa *) eapply fin_rl1; eauto. intros x Hx. eapply fin_rl1; eauto. intros y Hy.
    apply fin_load; auto with isa. intros mem v Hm Hv.
    rewrite fin_write_end; auto. apply W_mem; auto.
  - (* Lea *) eapply fin_rl1; eauto. intros x Hx. eapply fin_rl1; eauto. intros y Hy.
    eapply fin_rl1; eauto. intros z Hz. rewrite waddmul.
    apply fin_load; auto with isa. intros mem v Hm Hv.
    assert (HW' : W (with_mem mem m)) by (apply W_mem; auto).
    rewrite set_avr_spec by auto. rewrite fin_ok; auto with isa.
    rewrite abs_wr by apply HW'. reflexivity.
  - (* Wsa *) eapply fin_rl1; eauto. intros x Hx. eapply fin_rl1; eauto. intros y Hy.
    eapply fin_rl1; eauto. intros z Hz. apply fin_store_end; auto with isa.
  - (* Wea *) eapply fin_rl1; eauto. intros x Hx. eapply fin_rl1; eauto. intros y Hy.
    eapply fin_rl1; eauto. intros z Hz. rewrite waddmul. rewrite r_avr_R by apply HW.
    apply fin_store_end; auto with isa.
  - (* Srm *) eapply fin_rl1; eauto. intros x Hx. eapply fin_rl1; eauto. intros y Hy.
    unfold is_u32 in Hx, Hy. rewrite add_u32_release by lia. cbn [cpure].
    change (u32 (x + y)) with (m32 (x + y)).
    apply fin_load; auto with isa. intros mem v Hm Hv.
    assert (HW' : W (with_mem mem m)) by (apply W_mem; auto).
    rewrite <- abs_mem. apply fin_read; auto. intros z Hz.
    apply fin_store; auto with isa. intros mem' Hm'.
    rewrite fin_write_end; auto. apply W_mem; auto.
  - (* Push *) eapply fin_rl2; eauto. intros x Hx. cbv zeta. rewrite sp_spec by auto. rewrite get_abs.
    change (wrapping_sub (R m (sp_reg (abs m))) 4) with (m32 (R m (sp_reg (abs m)) - 4)).
    apply fin_store; auto with isa. intros mem Hm.
    assert (HW' : W (with_mem mem m)) by (apply W_mem; auto).
    rewrite set_sp_spec by auto. rewrite fin_ok; auto with isa.
    rewrite abs_wr by apply HW'. reflexivity.
  - (* Pop *) rewrite sp_spec by auto. rewrite get_abs.
    replace (fin _) with (fin (doc v, m0 <- cpu_mem_read ops false (R m (sp_reg (abs m))) m;
       write_reg (reg_code a) v (set_sp (wrapping_add (sp m0) 4) m0)))
      by (destruct (cpu_mem_read ops false (R m (sp_reg (abs m))) m); reflexivity).
    apply fin_load; auto. { apply R_u32, HW. }
    intros mem v Hm Hv. assert (HW' : W (with_mem mem m)) by (apply W_mem; auto).
    rewrite set_sp_spec, sp_spec by auto.
    rewrite fin_write_end; auto. 2:{ apply W_wr; auto. apply u32_range. }
    rewrite abs_wr by apply HW'. reflexivity.
  - (* Call *) eapply fin_rl2; eauto. intros x Hx. cbv zeta. rewrite sp_spec by auto. rewrite !get_abs.
    rewrite r_pc_R by apply HW. pose proof (R_u32 m R_pc (proj1 HW)) as Hpc. unfold is_u32 in Hpc.
    rewrite add_u32_release by lia. cbn [cpure].
    change (wrapping_sub (R m (sp_reg (abs m))) 4) with (m32 (R m (sp_reg (abs m)) - 4)).
    apply fin_store; auto with isa. intros mem Hm.
    assert (HW' : W (with_mem mem m)) by (apply W_mem; auto).
    rewrite set_sp_spec by auto. rewrite set_pc_spec by (auto with isa).
    rewrite fin_ok_chg by reflexivity. rewrite abs_chg.
    rewrite abs_wr by (apply W_wr; auto with isa). rewrite abs_wr by apply HW'. reflexivity.
  - (* Hwd *) eapply fin_rl1; eauto. intros x Hx. eapply fin_rl1; eauto. intros y Hy.
    destruct ((x =? 0) && (y =? 0)).
    + rewrite fin_write_end; auto; [|apply u32_range].
      cbn [bus_count board_bus abs s_bus]. unfold hwb_count.
      rewrite u32_id; auto. destruct HW as [_ (_ & _ & Hl)].
      pose proof (zlen_nonneg (c_hwb m)). unfold c_hwb, is_u32 in *. lia.
    + destruct (get_hw_info_spec y x m HW Hy Hx) as [E Hv]. rewrite E.
      cbn [bus_info board_bus abs s_bus].
      destruct (info_spec (c_mem m) x y) as [[code data]|v]; cbn [cbind].
      * apply fin_err; auto.
      * apply fin_write_end; auto.
  - (* Cycles *) apply fin_write_end; auto. apply u32_range.
  - (* Halt *) rewrite fin_ok by (auto with isa). reflexivity.
  - (* Reset *) eapply fin_rl1; eauto. intros mode Hmode. cbv zeta.
    replace (u8 (Z.land mode 15)) with (mode mod 16).
    2:{ rewrite land_15. unfold u8. lia. }
    rewrite aux_match by lia.
    rewrite r_avr_R by apply HW. unfold reset_selected. rewrite !get_abs.
    change (bus_count bs (s_bus (abs m))) with (zlen (c_hwb m)).
    assert (G : forall sel,
      fin (cbind (dop h <- reset_where ops sel (c_hwb m); COk tt (with_mem (Memory h (mm_maps (c_mem m))) m))
        (fun _ m => if u8 (Z.land mode 240) =? 0 then COk tt (cpu_reset m) else COk tt m)) =
      match bus_reset bs (s_bus (abs m)) sel with
      | Panic => Panic
      | Ret b => let s := with_bus (abs m) b in
         if (mode / 16) mod 16 =? 0 then Ret (St reset_file (s_bus s) 0 false) else advance 4 s
      end).
    { intros sel. rewrite reset_where_sel. cbn [bus_reset board_bus abs s_bus].
      change (mm_hwb (c_mem m)) with (c_hwb m).
      destruct (reset_sel ops 0 sel (c_hwb m)) as [h|] eqn:E; cbn [cpure cbind]; auto.
      apply reset_sel_caches in E.
      rewrite fin_reset_tail; auto. apply W_mem; auto. split; auto. }
    assert (G0 : fin (cbind (COk tt m)
        (fun _ m => if u8 (Z.land mode 240) =? 0 then COk tt (cpu_reset m) else COk tt m)) =
      match bus_reset bs (s_bus (abs m)) (fun _ => false) with
      | Panic => Panic
      | Ret b => let s := with_bus (abs m) b in
         if (mode / 16) mod 16 =? 0 then Ret (St reset_file (s_bus s) 0 false) else advance 4 s
      end).
    { cbn [cbind bus_reset board_bus abs s_bus]. rewrite reset_sel_none by auto.
      rewrite fin_reset_tail by auto. destruct (c_mem m) as [hh mps] eqn:Em. cbn [mm_hwb mm_maps].
      unfold with_bus, abs. rewrite <- Em. reflexivity. }
    destruct (mode mod 16 =? 0); [apply G|].
    destruct (mode mod 16 =? 1).
    + unfold hwb_reset. pose proof (R_u32 m R_avr (proj1 HW)) as Ha.
      destruct (Z.ltb_spec (R m R_avr) (zlen (c_hwb m))) as [Hlt|Hge].
      * destruct (znth_some (c_hwb m) (R m R_avr)) as [e He]. { unfold is_u32 in Ha; lia. }
        rewrite <- G. rewrite reset_where_sel, reset_sel_one by (unfold is_u32 in Ha; lia).
        rewrite Z.sub_0_r, He. destruct (bo_reset ops (ae_dev e)); reflexivity.
      * rewrite znth_none by auto. cbn [cpure cbind]. apply fin_err; auto.
    + destruct (mode mod 16 =? 2); [apply G|]. destruct (mode mod 16 =? 3); [apply G|].
      destruct (mode mod 16 =? 4); [apply G|]. apply G0.
Qed.
End Step.
