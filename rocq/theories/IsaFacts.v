(** Refinement: one CPU cycle (release build) is one cycle of the instruction-set specification. *)
From Coq Require Import ZArith List Bool Lia.
From Verif Require Import Base Board Mem Cpu Asm SpecMach SpecIsa SpecBus BaseFacts RegFacts MemFacts AluFacts.
Import ListNotations.
Open Scope Z_scope.
Ltac Zify.zify_post_hook ::= Z.div_mod_to_equations.

(** Operand decoding relations. *)
Definition den1 (b : bool) (p : Z) (v : rl1) : Prop :=
  match v with Reg1 r => b = true /\ p = reg_code r | Lit1 n => b = false /\ p = n /\ is_u8 n end.
Definition den2 (b : bool) (p q : Z) (v : rl2) : Prop :=
  match v with
  | Reg2 r => b = true /\ p = reg_code r
  | Lit2 n => b = false /\ n = of_be2 p q /\ is_u8 p /\ is_u8 q
  end.

Section Isa.
Context {D : Type} (ops : bus_ops D) (T : typed ops).
Implicit Type m : cpu D.
Notation bs := (board_bus ops false).

Definition W m : Prop := regs_wf (c_regs m) /\ mem_wf (c_mem m).

(** What [next] does with the result of an instruction, as an architectural state. *)
Definition fin (x : cres D unit) : outcome (st (memory D)) :=
  match x with
  | COk _ m => Ret (abs (if c_chg m then m
                         else with_regs (set_pc (wrapping_add (r_pc (c_regs m)) 4)) m))
  | CErr m => Ret (abs m)
  | CPanic => Panic
  end.

Lemma abs_wr r v m : regs_wf (c_regs m) -> abs (wr r v m) = put (abs m) r v.
Proof. intros H. unfold abs, put. cbn [s_reg s_bus s_cyc s_halt]. rewrite file_wr by auto. reflexivity. Qed.
Lemma abs_wri r v m : regs_wf (c_regs m) -> abs (wri r v m) = put (abs m) r v.
Proof. intros H. rewrite <- abs_wr by auto. destruct r; reflexivity. Qed.
Lemma get_abs m r : get (abs m) r = R m r.
Proof. reflexivity. Qed.
Lemma sup_abs m : sup (abs m) = is_sup m.
Proof. reflexivity. Qed.
Lemma W_wr r v m : W m -> is_u32 v -> W (wr r v m).
Proof. intros [? ?] ?; split; [apply wr_wf; auto|auto]. Qed.
Lemma W_wri r v m : W m -> is_u32 v -> W (wri r v m).
Proof. intros [? H] ?; split; [apply wri_wf; auto|destruct r; exact H]. Qed.
Lemma W_mem mem m : W m -> mem_ext (c_mem m) mem -> W (with_mem mem m).
Proof. intros [? ?] ?; split; [auto|]. eapply mem_wf_ext; eauto. Qed.
Lemma W_chg b m : W m -> W (with_chg b m).
Proof. intros [? ?]; split; auto. Qed.
Lemma W_halted b m : W m -> W (with_halted b m).
Proof. intros [? ?]; split; auto. Qed.
Lemma abs_mem mem m : abs (with_mem mem m) = with_bus (abs m) mem.
Proof. reflexivity. Qed.
Lemma abs_chg b m : abs (with_chg b m) = abs m.
Proof. reflexivity. Qed.

Lemma exc_raise code a m : W m -> Ret (abs (exception code a m)) = raise code a (abs m).
Proof.
  intros [H _]. unfold raise, abs, put. cbn [s_reg s_bus s_cyc s_halt]. rewrite exception_file by auto.
  reflexivity.
Qed.
Lemma fin_err code a m : W m -> fin (CErr (exception code a m)) = raise code a (abs m).
Proof. intros; unfold fin. apply exc_raise; auto. Qed.
Lemma fin_ok m u : W m -> c_chg m = false -> fin (COk u m) = advance 4 (abs m).
Proof.
  intros [H _] Hc. unfold fin, advance. rewrite Hc, get_abs, <- abs_wr by auto.
  unfold wr. rewrite <- r_pc_R by auto. f_equal. f_equal. unfold with_regs. rewrite set_pc_wr by auto. reflexivity.
Qed.
Lemma fin_ok_chg m u : c_chg m = true -> fin (COk u m) = Ret (abs m).
Proof. intros Hc. unfold fin. rewrite Hc. reflexivity. Qed.

Lemma fin_read r m (K : Z -> cpu D -> cres D unit) K' : W m ->
  (forall x, is_u32 x -> fin (K x m) = K' x) ->
  fin (cbind (read_reg (reg_code r) m) K) = read r (abs m) K'.
Proof.
  intros HW HK. rewrite read_reg_lemma by apply HW. unfold read. rewrite sup_abs, get_abs.
  destruct (can_read (is_sup m) r); cbn [cbind].
  - apply HK. apply R_u32, HW.
  - apply fin_err; auto.
Qed.
Lemma fin_rl1 b p v m (K : Z -> cpu D -> cres D unit) K' : W m -> den1 b p v ->
  (forall x, is_u32 x -> fin (K x m) = K' x) ->
  fin (cbind (reg_or_lit1 b p m) K) = read1 v (abs m) K'.
Proof.
  intros HW Hv HK. unfold reg_or_lit1, read1. destruct v; cbn in Hv.
  - destruct Hv as [-> ->]. apply fin_read; auto.
  - destruct Hv as (-> & -> & Hn). cbn [cbind]. apply HK. unfold is_u8, is_u32 in *; lia.
Qed.
Lemma fin_rl2 b p q v m (K : Z -> cpu D -> cres D unit) K' : W m -> den2 b p q v ->
  (forall x, is_u32 x -> fin (K x m) = K' x) ->
  fin (cbind (reg_or_lit2 b p q m) K) = read2 v (abs m) K'.
Proof.
  intros HW Hv HK. unfold reg_or_lit2, read2. destruct v; cbn in Hv.
  - destruct Hv as [-> ->]. apply fin_read; auto.
  - destruct Hv as (-> & -> & Hp & Hq). cbn [cbind]. apply HK.
    pose proof (of_be2_range _ _ Hp Hq). unfold is_u16, is_u32 in *; lia.
Qed.

Lemma chg_wri r v m : c_chg (wri r v m) = match r with R_pc => true | _ => c_chg m end.
Proof. destruct r; reflexivity. Qed.

Lemma fin_write r v m K K' : W m ->
  fin (K tt (wri r v m)) = K' (put (abs m) r v) ->
  fin (cbind (write_reg (reg_code r) v m) K) = write r v (abs m) K'.
Proof.
  intros HW HK. rewrite write_reg_lemma by apply HW. unfold write. rewrite sup_abs.
  destruct (can_write (is_sup m) r); cbn [cbind]; auto. apply fin_err; auto.
Qed.
Lemma fin_write_end r v m : W m -> is_u32 v -> c_chg m = false ->
  fin (write_reg (reg_code r) v m) = write_end r v (abs m).
Proof.
  intros HW Hv Hc. rewrite write_reg_lemma by apply HW. unfold write_end, write. rewrite sup_abs.
  destruct (can_write (is_sup m) r).
  - destruct (reg_eq_dec r R_pc) as [->|N].
    + rewrite fin_ok_chg by reflexivity. rewrite abs_wri by apply HW. reflexivity.
    + rewrite fin_ok; [|apply W_wri; auto|rewrite chg_wri; destruct r; auto; congruence].
      rewrite abs_wri by apply HW. destruct r; auto; congruence.
  - apply fin_err; auto.
Qed.

(** MMU. *)
Lemma decode_entry_spec mem g a act :
  decode_entry ops false mem g a act =
  match mem_read ops false mem a with
  | Panic => Panic
  | Ret (mem', ex, e) =>
      Ret (mem', if negb (ex =? 0) then EHwException ex
                 else if Z.testbit e (if negb (r_smt g =? 0) then 31 else 30) then EPermNotSet
                 else EPassThrough)
  end.
Proof.
  unfold decode_entry. destruct (mem_read ops false mem a) as [[[mem' ex] e]|]; cbn [obind]; auto.
  destruct (negb (ex =? 0)); auto.
  rewrite land_shiftl1_zero by (destruct (negb (r_smt g =? 0)); lia).
  destruct (Z.testbit e _); cbn [negb]; auto.
  rewrite land_shiftl1_one; auto.
  destruct act, (negb (r_smt g =? 0)); lia.
Qed.

Lemma translate_spec m a act : W m -> is_u32 a ->
  translate ops false (c_mem m) (c_regs m) a act =
  if R m R_mtt =? 0 then Ret (c_mem m, TOk a)
  else match mem_read ops false (c_mem m) (m32 (R m R_pda + 4 * (a mod 1024))) with
       | Panic => Panic
       | Ret (mem', ex, e) =>
           Ret (mem', if negb (ex =? 0) then THw ex
                      else if Z.testbit e (if is_sup m then 31 else 30) then TRefused else TOk a)
       end.
Proof.
  intros [H _] Ha. unfold translate. rewrite r_mtt_R by auto.
  destruct (R m R_mtt =? 0); auto.
  rewrite land_1023.
  rewrite mul_u32_release by lia. cbn [obind].
  rewrite r_pda_R by auto. pose proof (R_u32 m R_pda H) as Hp.
  rewrite add_u32_release by (unfold is_u32, u32 in *; lia). cbn [obind].
  replace (u32 (R m R_pda + u32 (a mod 1024 * 4))) with (m32 (R m R_pda + 4 * (a mod 1024)))
    by (unfold m32, u32; lia).
  rewrite decode_entry_spec.
  destruct (mem_read ops false (c_mem m) _) as [[[mem' ex] e]|]; cbn [obind]; auto.
  rewrite r_smt_R by auto. change (negb (R m R_smt =? 0)) with (is_sup m).
  destruct (negb (ex =? 0)); auto. destruct (Z.testbit e _); auto.
Qed.

Lemma fin_mem_do {A} act a (h : memory D -> Z -> outcome (memory D * Z * A)) m
    (K : A -> cpu D -> cres D unit) K' : W m -> is_u32 a ->
  (forall mem1, mem_ext (c_mem m) mem1 -> a mod 4 = 0 ->
     match h mem1 a with
     | Panic => Panic
     | Ret (mem2, ex, v) => if negb (ex =? 0) then raise 160 ex (with_bus (abs m) mem2)
                            else fin (K v (with_mem mem2 m))
     end = K' (with_bus (abs m) mem1)) ->
  (forall mem1 mem2 ex v, mem_ext (c_mem m) mem1 -> h mem1 a = Ret (mem2, ex, v) -> mem_ext (c_mem m) mem2) ->
  fin (cbind (mem_do ops false act a h m) K) = access bs a (abs m) K'.
Proof.
  intros HW Ha HK Hext. unfold mem_do, ensure_aligned, access.
  destruct (Z.eqb_spec (a mod 4) 0) as [Hal|Hal]; cbn [negb cbind].
  2:{ apply fin_err; auto. }
  rewrite translate_spec by auto. rewrite !get_abs.
  assert (G : forall mem1, mem_ext (c_mem m) mem1 ->
    fin (cbind (dop (mem'', ex, ret) <- h (c_mem (with_mem mem1 m)) a;
           let m := with_mem mem'' (with_mem mem1 m) in
           if negb (ex =? 0) then CErr (exception 160 ex m) else COk ret m) K)
    = K' (with_bus (abs m) mem1)).
  { intros mem1 E. rewrite <- HK by auto. cbn [c_mem with_mem]. destruct (h mem1 a) as [[[mem2 ex] v]|] eqn:Eh; cbn [cpure].
    - destruct (negb (ex =? 0)); cbn [cbind].
      + change (with_mem mem2 (with_mem mem1 m)) with (with_mem mem2 m).
        rewrite fin_err by (apply W_mem; auto; eapply Hext; eauto). reflexivity.
      + reflexivity.
    - reflexivity. }
  destruct (R m R_mtt =? 0) eqn:Emtt.
  - cbn [cpure]. rewrite G by apply mem_ext_refl. reflexivity.
  - change (bus_load bs (s_bus (abs m))) with (mem_read ops false (c_mem m)).
    destruct (mem_read ops false (c_mem m) _) as [[[mem' ex] e]|] eqn:Er; cbn [cpure]; [|reflexivity].
    assert (E' : mem_ext (c_mem m) mem') by (eapply mem_read_ext; eauto).
    destruct (negb (ex =? 0)); cbn [cpure].
    + cbn [cbind]. rewrite fin_err by (apply W_mem; auto). reflexivity.
    + change (sup (with_bus (abs m) mem')) with (is_sup m).
      destruct (Z.testbit e _); cbn [cpure].
      * cbn [cbind]. rewrite fin_err by (apply W_mem; auto). reflexivity.
      * apply G; auto.
Qed.

Lemma fin_load act a m (K : Z -> cpu D -> cres D unit) K' : W m -> is_u32 a ->
  (forall mem v, mem_ext (c_mem m) mem -> is_u32 v ->
     fin (K v (with_mem mem m)) = K' v (with_bus (abs m) mem)) ->
  fin (cbind (mem_do ops false act a (mem_read ops false) m) K) = load bs a (abs m) K'.
Proof.
  intros HW Ha HK. unfold load. apply fin_mem_do; auto.
  - intros mem1 E Hal. cbn [bus_load board_bus with_bus s_bus].
    destruct (mem_read ops false mem1 a) as [[[mem2 ex] v]|] eqn:Er; auto.
    destruct (negb (ex =? 0)); auto.
    rewrite HK; auto.
    + eapply mem_ext_trans; [eauto|]. eapply mem_read_ext; eauto.
    + eapply mem_read_typed; eauto.
  - intros mem1 mem2 ex v E Er. eapply mem_ext_trans; [eauto|]. eapply mem_read_ext; eauto.
Qed.
Lemma fin_store a w m (K : unit -> cpu D -> cres D unit) K' : W m -> is_u32 a ->
  (forall mem, mem_ext (c_mem m) mem ->
     fin (K tt (with_mem mem m)) = K' (with_bus (abs m) mem)) ->
  fin (cbind (cpu_mem_write ops false a w m) K) = store bs a w (abs m) K'.
Proof.
  intros HW Ha HK. unfold store, cpu_mem_write. apply fin_mem_do; auto.
  - intros mem1 E Hal. cbn [bus_store board_bus with_bus s_bus].
    destruct (mem_write ops false mem1 a w) as [[mem2 ex]|] eqn:Er; cbn [obind]; auto.
    destruct (negb (ex =? 0)); auto.
    rewrite HK; auto.
    eapply mem_ext_trans; [eauto|]. eapply mem_write_ext; eauto.
  - intros mem1 mem2 ex v E Er. inv_bind Er. destruct a0 as [mem3 ex3]. injection Er as <- <- <-.
    eapply mem_ext_trans; [eauto|]. eapply mem_write_ext; eauto.
Qed.
Lemma fin_store_end a w m : W m -> is_u32 a -> c_chg m = false ->
  fin (cpu_mem_write ops false a w m) = store bs a w (abs m) (advance 4).
Proof.
  intros HW Ha Hc.
  replace (cpu_mem_write ops false a w m)
    with (cbind (cpu_mem_write ops false a w m) (fun u m => COk u m))
    by (destruct (cpu_mem_write ops false a w m); reflexivity).
  apply fin_store; auto. intros mem E. rewrite fin_ok; auto. apply W_mem; auto.
Qed.

(** ALU. *)
Lemma fin_compute a x y m (K : Z -> cpu D -> cres D unit) K' : W m -> is_u32 x -> is_u32 y ->
  (forall r c o, is_u32 r ->
     fin (K r (wr R_af (flags_spec r c o) m)) = K' r (put (abs m) R_af (flags_spec r c o))) ->
  fin (cbind (compute x y (op_of_alu a) m) K) =
  match alu_spec a x y with
  | AluFault code => raise code 0 (abs m)
  | AluOk r c o => K' r (put (abs m) R_af (flags_spec r c o))
  end.
Proof.
  intros HW Hx Hy HK. unfold compute. rewrite compute_core_spec by auto.
  destruct (alu_spec a x y) as [r c o|code] eqn:E; cbn [cbind].
  - pose proof (alu_range _ _ _ _ _ _ Hx Hy E). rewrite flags_of_spec by auto.
    rewrite <- HK by auto. unfold wr, with_regs. rewrite set_af_wr by apply HW. reflexivity.
  - apply fin_err; auto.
Qed.

Lemma W_af r c o m : W m -> W (wr R_af (flags_spec r c o) m).
Proof. intros. apply W_wr; auto. pose proof (flags_range r c o). unfold is_u32; lia. Qed.

Lemma fin_arith a d y m : W m -> is_u32 y -> c_chg m = false ->
  fin (cbind (read_reg (reg_code d) m) (fun x m => cbind (compute x y (op_of_alu a) m)
          (fun r m => write_reg (reg_code d) r m)))
  = arith a d y (abs m) true.
Proof.
  intros HW Hy Hc. unfold arith. apply fin_read; auto. intros x Hx.
  rewrite (fin_compute a x y m _ (fun r s => write_end d r s)); auto.
  intros r c o Hr. rewrite fin_write_end; auto using W_af. rewrite abs_wr by apply HW. reflexivity.
Qed.

(** Stack pointer. *)
Lemma sp_spec m : W m -> sp m = R m (sp_reg (abs m)).
Proof.
  intros [H _]. unfold sp, sp_reg. rewrite sv_mode_sup, sup_abs, r_ssp_R, r_usp_R by auto.
  destruct (is_sup m); reflexivity.
Qed.
Lemma set_sp_spec v m : W m -> set_sp v m = wr (sp_reg (abs m)) v m.
Proof.
  intros [H _]. unfold set_sp, sp_reg. rewrite sv_mode_sup, sup_abs by auto.
  destruct (is_sup m); unfold wr, with_regs; [rewrite set_ssp_wr by auto|rewrite set_usp_wr by auto]; reflexivity.
Qed.
Lemma set_pc_spec v m : W m -> with_regs (set_pc v) m = wr R_pc v m.
Proof. intros [H _]. unfold wr, with_regs. rewrite set_pc_wr by auto. reflexivity. Qed.
Lemma set_avr_spec v m : W m -> with_regs (set_avr v) m = wr R_avr v m.
Proof. intros [H _]. unfold wr, with_regs. rewrite set_avr_wr by auto. reflexivity. Qed.
Lemma set_smt_spec v m : W m -> with_regs (set_smt v) m = wr R_smt v m.
Proof. intros [H _]. unfold wr, with_regs. rewrite set_smt_wr by auto. reflexivity. Qed.

(** Flags. *)
Lemma af_test_spec n m : W m -> is_u32 n -> af_test false n m = Ret (flag_of_unchecked (abs m) n).
Proof.
  intros [H _] Hn. unfold af_test, flag_of_unchecked. rewrite get_abs.
  rewrite sub_u32_release by (unfold is_u32 in Hn; lia). cbn [obind].
  rewrite shl1_release by (unfold u32; lia). cbn [obind].
  rewrite land_pow2_zero by lia. rewrite negb_involutive, r_af_R by auto.
  replace (u32 (7 - n) mod 32) with ((7 - n) mod 32) by (unfold u32; lia). reflexivity.
Qed.

(** Component resets. *)
Lemma zrange_S k n : map (fun j => k + Z.of_nat j) (seq 0 (S n)) =
  k :: map (fun j => (k + 1) + Z.of_nat j) (seq 0 n).
Proof.
  cbn [seq map]. f_equal; [lia|]. rewrite <- seq_shift, map_map. apply map_ext. intros; lia.
Qed.
Lemma znth_app_r {A} (l l' : list A) i : 0 <= i -> znth (l ++ l') (zlen l + i) = znth l' i.
Proof.
  intros Hi. induction l as [|x t IH].
  - unfold zlen; cbn. reflexivity.
  - rewrite zlen_cons. cbn [app znth]. pose proof (zlen_nonneg t).
    destruct (Z.eqb_spec (zlen t + 1 + i) 0); [lia|].
    replace (zlen t + 1 + i - 1) with (zlen t + i) by lia. auto.
Qed.
Lemma set_dev_app_r (l l' : hwb D) i d : 0 <= i -> set_dev (l ++ l') (zlen l + i) d = l ++ set_dev l' i d.
Proof.
  intros Hi. induction l as [|x t IH].
  - reflexivity.
  - rewrite zlen_cons. cbn [app set_dev]. pose proof (zlen_nonneg t).
    destruct (Z.eqb_spec (zlen t + 1 + i) 0); [lia|].
    replace (zlen t + 1 + i - 1) with (zlen t + i) by lia. rewrite IH. reflexivity.
Qed.
Lemma reset_loop_sel (test : Z -> bool) (post pre : hwb D) :
  reset_loop ops test (map (fun j => zlen pre + Z.of_nat j) (seq 0 (length post))) (pre ++ post) =
  match reset_sel ops (zlen pre) test post with Panic => Panic | Ret h => Ret (pre ++ h) end.
Proof.
  revert pre; induction post as [|e t IH]; intros pre.
  - cbn. reflexivity.
  - cbn [length reset_sel]. rewrite zrange_S. cbn [reset_loop].
    assert (En : znth (pre ++ e :: t) (zlen pre) = Some e).
    { replace (zlen pre) with (zlen pre + 0) by lia. rewrite znth_app_r by lia. reflexivity. }
    assert (G : forall d,
      reset_loop ops test (map (fun j => zlen pre + 1 + Z.of_nat j) (seq 0 (length t)))
         (pre ++ AuxEntry d (ae_cache e) :: t) =
      match match reset_sel ops (zlen pre + 1) test t with
            | Panic => Panic | Ret t' => Ret (AuxEntry d (ae_cache e) :: t') end with
      | Panic => Panic | Ret h => Ret (pre ++ h) end).
    { intros d. specialize (IH (pre ++ [AuxEntry d (ae_cache e)])).
      rewrite zlen_app in IH. change (zlen [AuxEntry d (ae_cache e)]) with 1 in IH.
      rewrite <- app_assoc in IH. cbn [app] in IH. rewrite IH.
      destruct (reset_sel ops (zlen pre + 1) test t); auto. rewrite <- app_assoc. reflexivity. }
    destruct (test (zlen pre)).
    + unfold hwb_reset. rewrite En. destruct (bo_reset ops (ae_dev e)) as [d|]; cbn [obind unwrap]; auto.
      replace (set_dev (pre ++ e :: t) (zlen pre) d) with (pre ++ AuxEntry d (ae_cache e) :: t).
      2:{ replace (zlen pre) with (zlen pre + 0) at 1 by lia.
          rewrite set_dev_app_r by lia. cbn. reflexivity. }
      apply G.
    + rewrite <- G. destruct e; reflexivity.
Qed.
Lemma reset_where_sel test (h : hwb D) : reset_where ops test h = reset_sel ops 0 test h.
Proof.
  unfold reset_where, zrange. pose proof (reset_loop_sel test h []) as E. cbn [app] in E.
  change (zlen (@nil (aux_entry D))) with 0 in E.
  etransitivity; [etransitivity; [|exact E]|].
  - f_equal.
  - destruct (reset_sel ops 0 test h); reflexivity.
Qed.
Lemma reset_sel_none sel (h : hwb D) k : (forall j, k <= j < k + zlen h -> sel j = false) -> reset_sel ops k sel h = Ret h.
Proof.
  revert k; induction h as [|e t IH]; intros k H; cbn [reset_sel]; auto.
  rewrite zlen_cons in H. pose proof (zlen_nonneg t).
  rewrite H by lia. rewrite IH by (intros; apply H; lia). destruct e; reflexivity.
Qed.
Lemma reset_sel_one i (h : hwb D) : forall k, k <= i ->
  reset_sel ops k (fun j => j =? i) h =
  match znth h (i - k) with
  | None => Ret h
  | Some e => match bo_reset ops (ae_dev e) with Panic => Panic | Ret d => Ret (set_dev h (i - k) d) end
  end.
Proof.
  induction h as [|e t IH]; intros k Hk; cbn [reset_sel znth set_dev]; auto.
  destruct (Z.eqb_spec k i) as [->|N].
  - rewrite Z.sub_diag. cbn [Z.eqb]. destruct (bo_reset ops (ae_dev e)); auto.
    rewrite reset_sel_none. reflexivity. intros; apply Z.eqb_neq; lia.
  - destruct (Z.eqb_spec (i - k) 0); [lia|]. rewrite IH by lia.
    replace (i - (k + 1)) with (i - k - 1) by lia.
    destruct (znth t (i - k - 1)); [|destruct e; reflexivity].
    destruct (bo_reset ops (ae_dev a)); auto. destruct e; reflexivity.
Qed.
Lemma reset_sel_caches sel (h h' : hwb D) k : reset_sel ops k sel h = Ret h' -> map ae_cache h' = map ae_cache h.
Proof.
  revert k h'; induction h as [|e t IH]; intros k h' H; cbn [reset_sel] in H.
  - injection H as <-; reflexivity.
  - destruct (if sel k then _ else _); [|discriminate].
    destruct (reset_sel ops (k + 1) sel t) eqn:E; [|discriminate]. injection H as <-. cbn. f_equal. eauto.
Qed.
Lemma reset_sel_ext sel sel' (h : hwb D) k : (forall j, sel j = sel' j) -> reset_sel ops k sel h = reset_sel ops k sel' h.
Proof. intros H. revert k; induction h as [|e t IH]; intros k; cbn [reset_sel]; auto. rewrite H, IH. reflexivity. Qed.

(** Hardware information. *)
Lemma nth_skipn_Z (l : list Z) n k : nth k (skipn n l) 0 = nth (n + k) l 0.
Proof. revert l; induction n; intros l; cbn; auto. destruct l; cbn; auto. destruct k; auto. Qed.
Lemma name_word_eq name k : 0 <= k -> name_word name k = name_word_spec name k.
Proof.
  intros Hk. unfold name_word, name_word_spec. rewrite !nth_skipn_Z.
  replace (Z.to_nat (4 * k + 0)) with (Z.to_nat (k * 4) + 0)%nat by lia.
  replace (Z.to_nat (4 * k + 1)) with (Z.to_nat (k * 4) + 1)%nat by lia.
  replace (Z.to_nat (4 * k + 2)) with (Z.to_nat (k * 4) + 2)%nat by lia.
  replace (Z.to_nat (4 * k + 3)) with (Z.to_nat (k * 4) + 3)%nat by lia.
  reflexivity.
Qed.

Lemma get_mapping_wf m id mp : W m -> get_mapping (mm_maps (c_mem m)) id = Some mp ->
  is_u32 (mp_addr mp) /\ 0 < mp_size mp < 4294967296.
Proof.
  intros [_ (HC & HM & _)] H. unfold get_mapping in H. apply find_some in H. destruct H as [I _].
  rewrite Forall_forall in HM. apply HM in I. split. apply I. eapply mapping_size_u32; eauto.
Qed.
Lemma end_addr_release mp : is_u32 (mp_addr mp) -> 0 < mp_size mp < 4294967296 ->
  end_addr false mp = Ret (m32 (mp_addr mp + mp_size mp - 1)).
Proof.
  unfold is_u32. intros. unfold end_addr. rewrite add_u32_release by lia. cbn [obind].
  rewrite sub_u32_release by (unfold u32; lia). f_equal. unfold u32, m32. lia.
Qed.

(** What a match on small integer patterns does outside them. *)
Ltac zcase x := destruct x as [|?p|?p]; try reflexivity.

Lemma info_match {A} (info : Z) (v1 v2 v16 v32 v33 v34 v35 v36 v37 v160 v161 v162 dflt : A) :
  match info with
  | 1 => v1 | 2 => v2 | 16 => v16 | 32 => v32 | 33 => v33 | 34 => v34 | 35 => v35
  | 36 => v36 | 37 => v37 | 160 => v160 | 161 => v161 | 162 => v162 | _ => dflt
  end =
  if info =? 1 then v1 else if info =? 2 then v2 else if info =? 16 then v16
  else if info =? 32 then v32 else if info =? 33 then v33 else if info =? 34 then v34
  else if info =? 35 then v35 else if info =? 36 then v36 else if info =? 37 then v37
  else if info =? 160 then v160 else if info =? 161 then v161 else if info =? 162 then v162 else dflt.
Proof.
  destruct info as [|p|p]; try reflexivity.
  do 8 (destruct p as [p|p|]; try reflexivity).
Qed.
Lemma nth_byte_utf8 name k : (forall b, In b (utf8 name) -> is_u8 b) -> is_u8 (nth k (utf8 name) 0).
Proof.
  intros H. destruct (Nat.lt_ge_cases k (length (utf8 name))).
  - apply H, nth_In; auto.
  - rewrite nth_overflow by auto. unfold is_u8; lia.
Qed.
Lemma utf8_u8 name : Forall scalar name -> forall b, In b (utf8 name) -> is_u8 b.
Proof.
  intros H b. unfold utf8. rewrite in_flat_map. intros (c & Ic & Ib).
  rewrite Forall_forall in H. apply H in Ic. unfold scalar in Ic. unfold is_u8.
  unfold utf8_char in Ib.
  destruct (Z.ltb_spec c 128); [|destruct (Z.ltb_spec c 2048); [|destruct (Z.ltb_spec c 65536)]];
    cbn [In] in Ib; repeat (destruct Ib as [<-|Ib]; [lia|]); destruct Ib.
Qed.
Lemma name_word_u32 name k : Forall scalar name -> is_u32 (name_word name k).
Proof.
  intros H. unfold name_word. rewrite !nth_skipn_Z.
  apply be_of_bytes; apply nth_byte_utf8, utf8_u8; auto.
Qed.

Lemma cache_of_wf m id c : W m -> cache_of (c_hwb m) id = Some c -> cache_wf c.
Proof.
  intros [_ (HC & _ & _)] H. unfold cache_of in H. destruct (znth (c_hwb m) id) eqn:E; [|discriminate].
  injection H as <-. apply znth_In in E. rewrite Forall_forall in HC. auto.
Qed.

Lemma get_hw_info_spec info id m : W m -> is_u32 info -> is_u32 id ->
  get_hw_info false info id m =
    match info_spec (c_mem m) id info with
    | inl (code, data) => CErr (exception code data m)
    | inr v => COk v m
    end /\
  (forall v, info_spec (c_mem m) id info = inr v -> is_u32 v).
Proof.
  intros HW Hi Hid. unfold get_hw_info, info_spec.
  pose proof (cache_of_wf m id) as HC. unfold cache_of in *.
  change (mm_hwb (c_mem m)) with (c_hwb m).
  destruct (znth (c_hwb m) id) as [e|] eqn:En; cbn [option_map] in *.
  2:{ split; [reflexivity|discriminate]. }
  specialize (HC _ HW eq_refl). destruct HC as (H0 & H1 & H2 & H3 & H4 & H5 & H6 & H7 & Hs & Hh & Hn & Hsc).
  change (find (fun mp => mp_aux_id mp =? id) (mm_maps (c_mem m))) with (get_mapping (mm_maps (c_mem m)) id).
  rewrite info_match.
  assert (HM : forall mp, get_mapping (mm_maps (c_mem m)) id = Some mp ->
     is_u32 (mp_addr mp) /\ end_addr false mp = Ret (m32 (mp_addr mp + mp_size mp - 1))).
  { intros mp Hmp. destruct (get_mapping_wf _ _ _ HW Hmp). split; auto. apply end_addr_release; auto. }
  destruct ((17 <=? info) && (info <=? 24)) eqn:Er.
  - apply andb_prop in Er. destruct Er as [E1 E2]. apply Z.leb_le in E1, E2.
    assert (F : forall k, info <> k -> (info =? k) = false) by (intros; apply Z.eqb_neq; auto).
    rewrite !F by lia.
    rewrite name_word_eq by lia. split; auto. intros v Ev; injection Ev as <-.
    rewrite <- name_word_eq by lia. apply name_word_u32; auto.
  - assert (U1 : forall v : Z, is_u32 v -> forall v', @inr (Z*Z) Z v = inr v' -> is_u32 v')
      by (intros ? ? ? X; injection X as <-; auto).
    repeat match goal with |- context [info =? ?k] => destruct (info =? k) end;
      try (split; [reflexivity|]; solve [apply U1; auto | discriminate]).
    + split; [reflexivity|]. apply U1. unfold str_len in Hn. pose proof (zlen_nonneg (utf8 (ac_name (ae_cache e)))).
      unfold is_u32; lia.
    + split; [reflexivity|]. apply U1. destruct (get_mapping _ _); unfold is_u32; lia.
    + destruct (get_mapping (mm_maps (c_mem m)) id) eqn:Em; (split; [reflexivity|]); [|discriminate].
      apply U1. apply (HM _ eq_refl).
    + destruct (get_mapping (mm_maps (c_mem m)) id) eqn:Em; [|split; [reflexivity|discriminate]].
      destruct (HM _ eq_refl) as [_ ->]. cbn [cpure]. split; auto. apply U1. apply u32_range.
Qed.

(** Operand decoding. *)
Lemma arg_reg_inv i0 i1 i2 i3 p r : arg_reg (i0, i1, i2, i3) p = ROk r ->
  byte_at (i0, i1, i2, i3) p = reg_code r.
Proof.
  unfold arg_reg. destruct (reg_from_code _) eqn:E; [|discriminate]. intros H; injection H as <-.
  symmetry. apply reg_code_from_code; auto.
Qed.
Lemma arg_rl1_inv i0 i1 i2 i3 p v : is_u8 (byte_at (i0, i1, i2, i3) p) -> arg_rl1 (i0, i1, i2, i3) p = ROk v ->
  den1 (negb (Z.land i0 (2 ^ (3 - p)) =? 0)) (byte_at (i0, i1, i2, i3) p) v.
Proof.
  intros Hb. unfold arg_rl1. change (byte_at (i0, i1, i2, i3) 0) with i0.
  destruct (Z.land i0 (2 ^ (3 - p)) =? 0).
  - intros H; injection H as <-. cbn. auto.
  - destruct (arg_reg _ p) eqn:E; cbn [rbind]; [|discriminate]. intros H; injection H as <-.
    cbn. split; auto. apply arg_reg_inv; auto.
Qed.
Lemma arg_rl2_inv i0 i1 i2 i3 p v : is_u8 (byte_at (i0, i1, i2, i3) p) ->
  is_u8 (byte_at (i0, i1, i2, i3) (p + 1)) -> arg_rl2 (i0, i1, i2, i3) p = ROk v ->
  den2 (negb (Z.land i0 (2 ^ (3 - p)) =? 0)) (byte_at (i0, i1, i2, i3) p) (byte_at (i0, i1, i2, i3) (p + 1)) v.
Proof.
  intros Hb Hb'. unfold arg_rl2. change (byte_at (i0, i1, i2, i3) 0) with i0.
  destruct (Z.land i0 (2 ^ (3 - p)) =? 0).
  - intros H; injection H as <-. cbn [den2]. auto.
  - destruct (arg_reg _ p) eqn:E; cbn [rbind]; [|discriminate]. intros H; injection H as <-.
    cbn. split; auto. apply arg_reg_inv; auto.
Qed.

(** Relation between raw operands and a decoded instruction, opcode by opcode. *)
Definition dec_rel (op : Z) (b0 b1 b2 : bool) (p0 p1 p2 : Z) (i : instr) : Prop :=
  match i with
  | Cpy a v => op = 1 /\ p0 = reg_code a /\ den2 b1 p1 p2 v
  | Ex a b => op = 2 /\ p0 = reg_code a /\ p1 = reg_code b
  | Add a v => op = 3 /\ p0 = reg_code a /\ den2 b1 p1 p2 v
  | Sub a v => op = 4 /\ p0 = reg_code a /\ den2 b1 p1 p2 v
  | Mul a v => op = 5 /\ p0 = reg_code a /\ den2 b1 p1 p2 v
  | Div a v w => op = 6 /\ p0 = reg_code a /\ den1 b1 p1 v /\ den1 b2 p2 w
  | Mod a v w => op = 7 /\ p0 = reg_code a /\ den1 b1 p1 v /\ den1 b2 p2 w
  | And a v => op = 8 /\ p0 = reg_code a /\ den2 b1 p1 p2 v
  | Bor a v => op = 9 /\ p0 = reg_code a /\ den2 b1 p1 p2 v
  | Xor a v => op = 10 /\ p0 = reg_code a /\ den2 b1 p1 p2 v
  | Shl a v => op = 11 /\ p0 = reg_code a /\ den1 b1 p1 v
  | Shr a v => op = 12 /\ p0 = reg_code a /\ den1 b1 p1 v
  | Cmp a v => op = 13 /\ p0 = reg_code a /\ den2 b1 p1 p2 v
  | Jpr v => op = 14 /\ den2 b0 p0 p1 v
  | Lsm v => op = 15 /\ den2 b0 p0 p1 v
  | Itr v => op = 16 /\ den1 b0 p0 v
  | If v => op = 17 /\ den1 b0 p0 v
  | IfN v => op = 18 /\ den1 b0 p0 v
  | If2 u v w => op = 19 /\ den1 b0 p0 u /\ den1 b1 p1 v /\ den1 b2 p2 w
  | Lsa a v w => op = 20 /\ p0 = reg_code a /\ den1 b1 p1 v /\ den1 b2 p2 w
  | Lea u v w => op = 21 /\ den1 b0 p0 u /\ den1 b1 p1 v /\ den1 b2 p2 w
  | Wsa u v w => op = 22 /\ den1 b0 p0 u /\ den1 b1 p1 v /\ den1 b2 p2 w
  | Wea u v w => op = 23 /\ den1 b0 p0 u /\ den1 b1 p1 v /\ den1 b2 p2 w
  | Srm u v a => op = 24 /\ den1 b0 p0 u /\ den1 b1 p1 v /\ p2 = reg_code a
  | Push v => op = 25 /\ den2 b0 p0 p1 v
  | Pop a => op = 26 /\ p0 = reg_code a
  | Call v => op = 27 /\ den2 b0 p0 p1 v
  | Hwd a v w => op = 28 /\ p0 = reg_code a /\ den1 b1 p1 v /\ den1 b2 p2 w
  | Cycles a => op = 29 /\ p0 = reg_code a
  | Halt => op = 30
  | Reset v => op = 31 /\ den1 b0 p0 v
  end.

Lemma op_cases x : 0 <= x < 32 ->
  x = 0 \/ x = 1 \/ x = 2 \/ x = 3 \/ x = 4 \/ x = 5 \/ x = 6 \/ x = 7 \/ x = 8 \/ x = 9 \/
  x = 10 \/ x = 11 \/ x = 12 \/ x = 13 \/ x = 14 \/ x = 15 \/ x = 16 \/ x = 17 \/ x = 18 \/
  x = 19 \/ x = 20 \/ x = 21 \/ x = 22 \/ x = 23 \/ x = 24 \/ x = 25 \/ x = 26 \/ x = 27 \/
  x = 28 \/ x = 29 \/ x = 30 \/ x = 31.
Proof. lia. Qed.

Lemma decode_rel i0 i1 i2 i3 i : is_u8 i0 -> is_u8 i1 -> is_u8 i2 -> is_u8 i3 ->
  decode (i0, i1, i2, i3) = ROk i ->
  dec_rel (Z.shiftr i0 3) (negb (Z.land i0 4 =? 0)) (negb (Z.land i0 2 =? 0)) (negb (Z.land i0 1 =? 0)) i1 i2 i3 i.
Proof.
  intros H0 H1 H2 H3. unfold decode. cbv zeta. change (byte_at (i0, i1, i2, i3) 0) with i0.
  assert (Hop : 0 <= Z.shiftr i0 3 < 32).
  { rewrite Z.shiftr_div_pow2 by lia. unfold is_u8 in H0. change (2 ^ 3) with 8. lia. }
  pose proof (fun v => arg_rl1_inv i0 i1 i2 i3 1 v H1) as A1.
  pose proof (fun v => arg_rl1_inv i0 i1 i2 i3 2 v H2) as A2.
  pose proof (fun v => arg_rl1_inv i0 i1 i2 i3 3 v H3) as A3.
  pose proof (fun v => arg_rl2_inv i0 i1 i2 i3 1 v H1 H2) as B1.
  pose proof (fun v => arg_rl2_inv i0 i1 i2 i3 2 v H2 H3) as B2.
  pose proof (fun r => arg_reg_inv i0 i1 i2 i3 1 r) as C1.
  pose proof (fun r => arg_reg_inv i0 i1 i2 i3 2 r) as C2.
  pose proof (fun r => arg_reg_inv i0 i1 i2 i3 3 r) as C3.
  change (2 ^ (3 - 1)) with 4 in *. change (2 ^ (3 - 2)) with 2 in *. change (2 ^ (3 - 3)) with 1 in *.
  cbn [byte_at Z.eqb Pos.eqb Z.add Pos.add] in *.
  assert (Hcases := op_cases (Z.shiftr i0 3) Hop).
  set (op := Z.shiftr i0 3) in *. clearbody op. clear Hop.
  repeat (destruct Hcases as [-> | Hcases]); [..|subst op]; cbv beta iota;
    repeat match goal with
    | |- context [rbind (arg_reg ?b ?p) _] => destruct (arg_reg b p) eqn:?
    | |- context [rbind (arg_rl1 ?b ?p) _] => destruct (arg_rl1 b p) eqn:?
    | |- context [rbind (arg_rl2 ?b ?p) _] => destruct (arg_rl2 b p) eqn:?
    | |- context [rbind (ROk _) _] => cbn [rbind]
    | |- context [rbind (RErr _) _] => cbn [rbind]
    end; intros HH; try discriminate HH; injection HH as <-; cbn [dec_rel]; auto 10.
Qed.
End Isa.
