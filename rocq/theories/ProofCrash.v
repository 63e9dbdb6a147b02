(** Exactly when a cycle panics, in release and in debug builds. *)
From Coq Require Import ZArith List Bool Lia.
From Verif Require Import Base Board Mem Cpu Asm Tools Devices DevTyped SpecMach SpecIsa SpecBus SpecObs SpecMap SpecAsm SpecDev SpecPanic BaseFacts RegFacts MemFacts
  AluFacts IsaFacts IsaStep MonoFacts CycleFacts UndFacts HoareFacts CyclePost InvFacts MapFacts ReachFacts ExecFacts StepCases ProofAlu ProofReg ProofMap ProofPanic ProofIo ProofCrate Demo.
Import ListNotations.
Open Scope Z_scope.
Ltac Zify.zify_post_hook ::= Z.div_mod_to_equations.

Section Crash.
Context {D : Type} (ops : bus_ops D).
Implicit Type m : cpu D.

Lemma misaligned_release m : wf m -> misaligned_table m -> next ops false m = Panic.
Proof.
  intros Hw (Hh & Hp & Hm & Hd). unfold next. rewrite Hh. cbv zeta. set (m1 := with_cycles _ m).
  assert (HW : W m1) by (split; apply Hw).
  assert (Epc : r_pc (c_regs m1) = R m R_pc) by (rewrite r_pc_R by apply HW; reflexivity).
  rewrite Epc. unfold cpu_mem_exec, mem_do, ensure_aligned. rewrite Hp. cbn [Z.eqb cbind].
  rewrite translate_spec; [|auto|apply R_u32, Hw].
  change (R m1 R_mtt) with (R m R_mtt). change (R m1 R_pda) with (R m R_pda).
  destruct (Z.eqb_spec (R m R_mtt) 0); [lia|]. unfold mem_read.
  replace (m32 (R m R_pda + 4 * (R m R_pc mod 1024)) mod 4 =? 0) with false; [reflexivity|].
  symmetry. apply Z.eqb_neq. unfold m32. lia.
Qed.
Lemma misaligned_panics oc m : wf m -> misaligned_table m -> next ops oc m = Panic.
Proof.
  intros Hw H. destruct (next ops oc m) as [m'|] eqn:E; auto. apply next_oc in E. rewrite misaligned_release in E by auto. discriminate.
Qed.
Lemma unaligned_pc_safe m : wf m -> c_halted m = false -> R m R_pc mod 4 <> 0 -> exists m', next ops false m = Ret m' /\ c_mem m' = c_mem m.
Proof.
  intros Hw Hh Hp. unfold next. rewrite Hh. cbv zeta. set (m1 := with_cycles _ m).
  assert (Epc : r_pc (c_regs m1) = R m R_pc) by (rewrite r_pc_R by apply Hw; reflexivity).
  rewrite Epc. unfold cpu_mem_exec, mem_do, ensure_aligned.
  destruct (Z.eqb_spec (R m R_pc mod 4) 0); [lia|]. cbn [cbind]. eexists. split; reflexivity.
Qed.
Lemma halted_safe oc m : c_halted m = true -> next ops oc m = Ret m.
Proof. intros H. unfold next. rewrite H. reflexivity. Qed.
Lemma release_exact inv m : typed ops -> behaved ops inv -> wf m -> devs_ok inv (c_mem m) ->
  (misaligned_table m /\ next ops false m = Panic) \/
  (~ misaligned_table m /\ exists m', next ops false m = Ret m' /\ devs_ok inv (c_mem m')).
Proof.
  intros T B Hw Hd. destruct (c_halted m) eqn:Hh.
  { right. split; [intros (H & _); congruence|]. exists m. split; auto. apply halted_safe; auto. }
  destruct (Z.eq_dec (R m R_pc mod 4) 0) as [Hp|Hp].
  2:{ right. split; [intros (_ & H & _); congruence|]. destruct (unaligned_pc_safe m Hw Hh Hp) as (m' & E & E'). exists m'. rewrite E'. auto. }
  destruct (Z.eq_dec (R m R_mtt) 0) as [H1|H1].
  { right. split; [intros (_ & _ & H & _); congruence|]. apply (next_safe ops T inv B); auto. }
  destruct (Z.eq_dec (R m R_pda mod 4) 0) as [H2|H2].
  { right. split; [intros (_ & _ & _ & H); congruence|]. apply (next_safe ops T inv B); auto. }
  left. assert (X : misaligned_table m) by (repeat split; auto). split; auto. apply misaligned_release; auto.
Qed.
Lemma release_run inv n : forall m, typed ops -> behaved ops inv -> wf m -> devs_ok inv (c_mem m) ->
  run ops false n m = Panic <-> exists k m1, (k < n)%nat /\ run ops false k m = Ret m1 /\ misaligned_table m1.
Proof.
  induction n as [|n IH]; intros m T B Hw Hd; cbn [run].
  { split; [discriminate|intros (k & ? & ? & _); lia]. }
  destruct (release_exact inv m T B Hw Hd) as [[Hm E]|[Hm (m' & E & Hd')]]; rewrite E; cbn [obind].
  - split; auto. intros _. exists O, m. split; [lia|]. split; auto.
  - assert (Hw' : wf m') by (eapply next_wf; eauto). rewrite (IH m' T B Hw' Hd'). split.
    + intros (k & m1 & Hk & Er & Hx). exists (S k), m1. split; [lia|]. split; auto. cbn [run]. rewrite E. exact Er.
    + intros ([|k] & m1 & Hk & Er & Hx); cbn [run] in Er.
      * injection Er as <-. contradiction.
      * rewrite E in Er. exists k, m1. split; [lia|]. auto.
Qed.

(** Debug builds. *)
Definition J (m : cpu D) : Prop := W m /\ ends_below (c_mem m).
Lemma covers_debug (mem : memory D) mp a : mem_wf mem -> ends_below mem -> In mp (mm_maps mem) -> covers true a mp = covers false a mp.
Proof.
  intros (_ & HM & _) He Hi. rewrite Forall_forall in HM. destruct (HM _ Hi) as (Ha & _ & Hs & _). apply He in Hi.
  unfold covers, end_addr. destruct (mp_addr mp <=? a); auto. unfold is_u32 in Ha. change (2 ^ 32) with 4294967296 in Hi.
  unfold add_u32. destruct (Z.ltb_spec (mp_addr mp + mp_size mp) 4294967296); [|lia]. cbn [obind].
  unfold sub_u32. destruct (Z.leb_spec 1 (mp_addr mp + mp_size mp)); [reflexivity|lia].
Qed.
Lemma find_o_ext {A : Type} (p q : A -> outcome bool) l : (forall x, In x l -> p x = q x) -> find_o p l = find_o q l.
Proof.
  induction l as [|y t IH]; intros H; cbn [find_o]; auto. rewrite H by (left; auto). rewrite IH; auto. intros; apply H; right; auto.
Qed.
Lemma mem_read_debug mem a : mem_wf mem -> ends_below mem -> mem_read ops true mem a = mem_read ops false mem a.
Proof.
  intros Hw He. unfold mem_read. rewrite (find_o_ext (covers true a) (covers false a)); auto. intros mp Hi. eapply covers_debug; eauto.
Qed.
Lemma mem_write_debug mem a w : mem_wf mem -> ends_below mem -> mem_write ops true mem a w = mem_write ops false mem a w.
Proof.
  intros Hw He. unfold mem_write. rewrite (find_o_ext (covers true a) (covers false a)); auto. intros mp Hi. eapply covers_debug; eauto.
Qed.
Definition over m a : bool := negb (R m R_mtt =? 0) && (4294967296 <=? R m R_pda + 4 * (a mod 1024)).
Lemma over_iff m a : over m a = true <-> entry_overflows m a.
Proof. unfold over, entry_overflows. change (2 ^ 32) with 4294967296. rewrite andb_true_iff, negb_true_iff, Z.eqb_neq, Z.leb_le. tauto. Qed.
Lemma translate_debug m a act : J m -> is_u32 a ->
  translate ops true (c_mem m) (c_regs m) a act = if over m a then Panic else translate ops false (c_mem m) (c_regs m) a act.
Proof.
  intros (HW & He) Ha. rewrite translate_spec by auto. unfold translate, over. rewrite r_mtt_R by apply HW.
  destruct (R m R_mtt =? 0); [reflexivity|]. cbn [negb andb]. rewrite land_1023.
  unfold mul_u32. destruct (Z.ltb_spec (a mod 1024 * 4) 4294967296); [|lia]. cbn [obind].
  rewrite r_pda_R by apply HW. pose proof (R_u32 m R_pda (proj1 HW)) as Hp. unfold is_u32 in Hp.
  replace (a mod 1024 * 4) with (4 * (a mod 1024)) by lia. unfold add_u32.
  destruct (Z.ltb_spec (R m R_pda + 4 * (a mod 1024)) 4294967296) as [L|L], (Z.leb_spec 4294967296 (R m R_pda + 4 * (a mod 1024))) as [L'|L']; try lia; [|reflexivity].
  cbn [obind]. replace (m32 (R m R_pda + 4 * (a mod 1024))) with (R m R_pda + 4 * (a mod 1024)) by (unfold m32; lia).
  assert (Ed : forall b, decode_entry ops true (c_mem m) (c_regs m) b act = decode_entry ops false (c_mem m) (c_regs m) b act).
  { intros b. unfold decode_entry. rewrite mem_read_debug by (auto; apply HW). reflexivity. }
  rewrite Ed, decode_entry_spec. destruct (mem_read ops false (c_mem m) _) as [[[mem' ex] e]|]; cbn [obind]; auto.
  rewrite r_smt_R by apply HW. change (negb (R m R_smt =? 0)) with (is_sup m).
  destruct (negb (ex =? 0)); auto. destruct (Z.testbit e _); auto.
Qed.
Lemma ends_ext (mem mem' : memory D) : mem_ext mem mem' -> ends_below mem -> ends_below mem'.
Proof. intros [E _] H mp. rewrite E. apply H. Qed.
Lemma J_mem m mem : J m -> mem_ext (c_mem m) mem -> J (with_mem mem m).
Proof. intros (HW & He) Hx. split; [apply W_mem; auto|]. eapply ends_ext; eauto. Qed.
Lemma mem_do_debug {A} act a (hT hF : memory D -> Z -> outcome (memory D * Z * A)) m : J m -> is_u32 a ->
  (forall mem, mem_wf mem -> ends_below mem -> hT mem a = hF mem a) ->
  mem_do ops true act a hT m = if (a mod 4 =? 0) && over m a then CPanic else mem_do ops false act a hF m.
Proof.
  intros HJ Ha Hh. unfold mem_do, ensure_aligned. destruct (a mod 4 =? 0); cbn [cbind andb]; [|reflexivity].
  rewrite translate_debug by auto. destruct (over m a); [reflexivity|].
  destruct (translate ops false (c_mem m) (c_regs m) a act) as [[mem' t]|] eqn:E; cbn [cpure]; [|reflexivity].
  assert (Hx : mem_ext (c_mem m) mem').
  { rewrite translate_spec in E by (auto; apply HJ). destruct (R m R_mtt =? 0); [injection E as <- <-; apply mem_ext_refl|].
    destruct (mem_read _ _ _ _) as [[[mem1 ex] e]|] eqn:E1; [|discriminate]. injection E as <- _. eapply mem_read_ext; eauto. }
  destruct t; auto. replace p_addr with a.
  2:{ rewrite translate_spec in E by (auto; apply HJ). destruct (R m R_mtt =? 0); [congruence|].
    destruct (mem_read _ _ _ _) as [[[mem1 ex] e]|]; [|discriminate]. destruct (negb (ex =? 0)); [discriminate|]. destruct (Z.testbit e _); congruence. }
  destruct (J_mem m mem' HJ Hx) as (HW' & He'). rewrite Hh; [reflexivity|apply HW'|exact He'].
Qed.
Lemma read_debug a m : J m -> is_u32 a -> cpu_mem_read ops true a m = if (a mod 4 =? 0) && over m a then CPanic else cpu_mem_read ops false a m.
Proof. intros HJ Ha. apply mem_do_debug; auto. intros. apply mem_read_debug; auto. Qed.
Lemma exec_debug a m : J m -> is_u32 a -> cpu_mem_exec ops true a m = if (a mod 4 =? 0) && over m a then CPanic else cpu_mem_exec ops false a m.
Proof. intros HJ Ha. apply mem_do_debug; auto. intros. apply mem_read_debug; auto. Qed.
Lemma write_debug a w m : J m -> is_u32 a -> cpu_mem_write ops true a w m = if (a mod 4 =? 0) && over m a then CPanic else cpu_mem_write ops false a w m.
Proof. intros HJ Ha. apply mem_do_debug; auto. intros. rewrite mem_write_debug; auto. Qed.
Lemma read_after a m v m' : J m -> is_u32 a -> cpu_mem_read ops false a m = COk v m' -> J m' /\ (forall b, over m' b = over m b) /\ a mod 4 = 0.
Proof.
  intros HJ Ha. unfold cpu_mem_read, mem_do, ensure_aligned. destruct (Z.eqb_spec (a mod 4) 0) as [Hal|]; cbn [cbind]; [|discriminate].
  rewrite translate_spec by (auto; apply HJ).
  assert (G : forall mem1, mem_ext (c_mem m) mem1 ->
    (dop (mem'', ex, ret) <- mem_read ops false mem1 a;
           let m := with_mem mem'' (with_mem mem1 m) in
           if negb (ex =? 0) then CErr (exception 160 ex m) else COk ret m) = COk v m' -> J m' /\ (forall b, over m' b = over m b) /\ a mod 4 = 0).
  { intros mem1 Hx E. destruct (mem_read ops false mem1 a) as [[[mem2 ex] w]|] eqn:Er; [|discriminate]. cbn [cpure] in E. cbv zeta in E.
    destruct (negb (ex =? 0)); [discriminate|]. injection E as <- <-. split; [|split; auto]. change (with_mem mem2 (with_mem mem1 m)) with (with_mem mem2 m).
    apply J_mem; auto. eapply mem_ext_trans; [eauto|]. eapply mem_read_ext; eauto. }
  destruct (R m R_mtt =? 0); cbn [cpure]; [apply G, mem_ext_refl|].
  destruct (mem_read ops false (c_mem m) _) as [[[mem1 ex] e]|] eqn:E1; cbn [cpure]; [|discriminate].
  destruct (negb (ex =? 0)); [discriminate|]. destruct (Z.testbit e _); [discriminate|]. apply G. eapply mem_read_ext; eauto.
Qed.

Definition arg m (b : bool) (p : Z) : option Z :=
  if b then match reg_from_code p with Some r => reg_value m r | None => None end else Some p.
Lemma read_reg_arg p m : W m -> 0 <= p -> exists e, read_reg p m = match arg m true p with Some v => COk v m | None => CErr e end.
Proof.
  intros HW Hp. unfold arg. destruct (Z.lt_ge_cases p 32).
  - destruct (reg_from_code_total p ltac:(lia)) as [r E]. rewrite E. apply reg_code_from_code in E. subst p.
    rewrite read_reg_lemma by apply HW. unfold reg_value. change (sup_mode m) with (is_sup m). destruct (can_read _ r); [exists m|eexists]; reflexivity.
  - rewrite reg_from_code_none by lia. rewrite read_reg_bad by (auto; apply HW). eexists; reflexivity.
Qed.
Lemma rl1_arg b p m : W m -> 0 <= p -> exists e, reg_or_lit1 b p m = match arg m b p with Some v => COk v m | None => CErr e end.
Proof. intros HW Hp. destruct b; [apply read_reg_arg; auto|]. exists m. reflexivity. Qed.
Lemma rl2_arg b p q m : W m -> 0 <= p -> exists e v, reg_or_lit2 b p q m = match arg m b p with Some _ => COk v m | None => CErr e end.
Proof.
  intros HW Hp. destruct b; [|exists m; eexists; reflexivity]. cbn [reg_or_lit2].
  destruct (read_reg_arg p m HW Hp) as (e & E). rewrite E. destruct (arg m true p) as [v|]; [exists m, v|exists e, 0]; reflexivity.
Qed.
Lemma arg_u32 m b p v : W m -> is_u8 p -> arg m b p = Some v -> is_u32 v.
Proof.
  intros HW Hp. unfold arg, reg_value. destruct b; [|intros E; injection E as <-; unfold is_u8, is_u32 in *; lia].
  destruct (reg_from_code p); [|discriminate]. destruct (can_read _ _); [|discriminate]. intros E; injection E as <-. apply R_u32, HW.
Qed.
Definition touch m (a : Z) : bool := (a mod 4 =? 0) && over m a.
Definition raw_over m (op : Z) (b0 b1 b2 : bool) (p0 p1 p2 : Z) : bool :=
  match op with
  | 19 => match arg m b0 p0, arg m b1 p1, arg m b2 p2 with Some f, Some g, Some c => (7 <? f) || (7 <? g) | _, _, _ => false end
  | 20 => match arg m b1 p1, arg m b2 p2 with Some x, Some y => touch m (u32 (x + y)) | _, _ => false end
  | 21 | 23 => match arg m b0 p0, arg m b1 p1, arg m b2 p2 with Some x, Some y, Some z => touch m (u32 (x + y * z)) | _, _, _ => false end
  | 22 => match arg m b0 p0, arg m b1 p1, arg m b2 p2 with Some x, Some y, Some z => touch m (u32 (x + y)) | _, _, _ => false end
  | 24 => match arg m b0 p0, arg m b1 p1 with Some x, Some y => (4294967296 <=? x + y) || touch m (u32 (x + y)) | _, _ => false end
  | 25 => match arg m b0 p0 with Some _ => touch m (u32 (R m (sp_of m) - 4)) | None => false end
  | 26 => touch m (R m (sp_of m))
  | 27 => match arg m b0 p0 with Some _ => (4294967296 <=? R m R_pc + 4) || touch m (u32 (R m (sp_of m) - 4)) | None => false end
  | _ => false
  end.
Lemma info_debug i id m : J m -> get_hw_info true i id m = get_hw_info false i id m.
Proof.
  intros (HW & He). unfold get_hw_info. destruct (cache_of _ _); auto. destruct (get_mapping (mm_maps (c_mem m)) id) as [mp|] eqn:Em; [|reflexivity].
  assert (Hi : In mp (mm_maps (c_mem m))). { unfold get_mapping in Em. apply find_some in Em. apply Em. }
  destruct HW as (_ & _ & HM & _). rewrite Forall_forall in HM. destruct (HM _ Hi) as (Ha & _ & Hs & _). apply He in Hi.
  assert (E : end_addr true mp = end_addr false mp).
  { unfold end_addr. unfold is_u32 in Ha. change (2 ^ 32) with 4294967296 in Hi.
    unfold add_u32. destruct (Z.ltb_spec (mp_addr mp + mp_size mp) 4294967296); [|lia]. cbn [obind].
    unfold sub_u32. destruct (Z.leb_spec 1 (mp_addr mp + mp_size mp)); [reflexivity|lia]. }
  rewrite E. reflexivity.
Qed.
Lemma sp_J m : J m -> sp m = R m (sp_of m).
Proof. intros (HW & _). rewrite sp_spec by auto. reflexivity. Qed.
Ltac arg_step :=
  match goal with
  | HW : W ?m |- context [cbind (reg_or_lit1 ?b ?p ?m) _] =>
      let e := fresh "e" in let E := fresh "E" in
      destruct (rl1_arg b p m HW) as (e & E); [assumption|]; rewrite E; clear E;
      destruct (arg m b p) eqn:?; cbn [cbind]
  | HW : W ?m |- context [cbind (reg_or_lit2 ?b ?p ?q ?m) _] =>
      let e := fresh "e" in let v := fresh "v" in let E := fresh "E" in
      destruct (rl2_arg b p q m HW) as (e & v & E); [assumption|]; rewrite E; clear E;
      destruct (arg m b p) eqn:?; cbn [cbind]
  end.
Lemma lea_addr x y z : wrapping_add x (wrapping_mul y z) = u32 (x + y * z).
Proof. unfold wrapping_add, wrapping_mul, u32. rewrite Zplus_mod_idemp_r. reflexivity. Qed.
Lemma run_debug op b0 b1 b2 p0 p1 p2 m : 0 <= op < 32 -> is_u8 p0 -> is_u8 p1 -> is_u8 p2 -> J m ->
  run_instr ops true op b0 b1 b2 p0 p1 p2 m = if raw_over m op b0 b1 b2 p0 p1 p2 then CPanic else run_instr ops false op b0 b1 b2 p0 p1 p2 m.
Proof.
  intros Hop Hp0 Hp1 Hp2 HJ. assert (HW : W m) by apply HJ.
  pose proof (proj1 Hp0) as Q0. pose proof (proj1 Hp1) as Q1. pose proof (proj1 Hp2) as Q2.
  destruct (op_cases op Hop) as [E|[E|[E|[E|[E|[E|[E|[E|[E|[E|[E|[E|[E|[E|[E|[E|[E|[E|[E|[E|[E|[E|[E|[E|[E|[E|[E|[E|[E|[E|[E|E]]]]]]]]]]]]]]]]]]]]]]]]]]]]]]];
    subst op; cbn [run_instr raw_over]; try reflexivity.
  - (* IF2 *) repeat arg_step; try reflexivity. unfold af_test, sub_u32.
    destruct (Z.ltb_spec 7 z) as [L|L]; cbn [orb].
    { destruct (Z.leb_spec z 7); [lia|]. reflexivity. }
    destruct (Z.leb_spec z 7); [|lia]. cbn [obind cpure].
    assert (Hz : is_u32 z) by (eapply arg_u32; [exact HW| |eassumption]; assumption).
    assert (Hz0 : is_u32 z0) by (eapply arg_u32; [exact HW| |eassumption]; assumption). unfold is_u32 in *.
    unfold shl1_u32 at 1 3. destruct (Z.ltb_spec (7 - z) 32); [|lia]. cbn [obind cpure].
    destruct (Z.ltb_spec 7 z0) as [L0|L0].
    { destruct (Z.leb_spec z0 7); [lia|]. reflexivity. }
    destruct (Z.leb_spec z0 7); [|lia]. cbn [obind cpure]. unfold shl1_u32. destruct (Z.ltb_spec (7 - z0) 32); [|lia]. reflexivity.
  - (* LSA *) repeat arg_step; try reflexivity. rewrite read_debug by (auto; apply u32_range). unfold wrapping_add. fold (touch m (u32 (z + z0))). destruct (touch _ _); reflexivity.
  - (* LEA *) repeat arg_step; try reflexivity. rewrite read_debug by (auto; apply u32_range). rewrite lea_addr. fold (touch m (u32 (z + z0 * z1))). destruct (touch _ _); reflexivity.
  - (* WSA *) repeat arg_step; try reflexivity. rewrite write_debug by (auto; apply u32_range). unfold wrapping_add. fold (touch m (u32 (z + z0))). destruct (touch _ _); reflexivity.
  - (* WEA *) repeat arg_step; try reflexivity. rewrite write_debug by (auto; apply u32_range). rewrite lea_addr. fold (touch m (u32 (z + z0 * z1))). destruct (touch _ _); reflexivity.
  - (* SRM *) repeat arg_step; try reflexivity.
    assert (Hz : is_u32 z) by (eapply arg_u32; [exact HW| |eassumption]; assumption).
    assert (Hz0 : is_u32 z0) by (eapply arg_u32; [exact HW| |eassumption]; assumption). unfold is_u32 in Hz, Hz0.
    unfold add_u32. destruct (Z.leb_spec 4294967296 (z + z0)) as [L|L]; cbn [orb].
    { destruct (Z.ltb_spec (z + z0) 4294967296); [lia|]. reflexivity. }
    destruct (Z.ltb_spec (z + z0) 4294967296); [|lia]. cbn [cpure].
    replace (u32 (z + z0)) with (z + z0) by (unfold u32; lia).
    assert (Ha : is_u32 (z + z0)) by (unfold is_u32; lia).
    rewrite read_debug by auto. fold (touch m (z + z0)). destruct (touch m (z + z0)) eqn:Et; [reflexivity|].
    destruct (cpu_mem_read ops false (z + z0) m) as [w m1|m1|] eqn:Er; cbn [cbind]; try reflexivity.
    destruct (read_after _ _ _ _ HJ Ha Er) as (HJ1 & Ho & Hal).
    destruct (read_reg_arg p2 m1) as (e9 & E9); [apply HJ1|auto|]. rewrite E9. destruct (arg m1 true p2); cbn [cbind]; [|reflexivity].
    rewrite write_debug by auto. rewrite Ho. fold (touch m (z + z0)). rewrite Et. reflexivity.
  - (* PUSH *) arg_step; try reflexivity. rewrite write_debug by (auto; apply u32_range). unfold wrapping_sub. rewrite sp_J by auto.
    fold (touch m (u32 (R m (sp_of m) - 4))). destruct (touch _ _); reflexivity.
  - (* POP *) rewrite sp_J by auto. rewrite read_debug by (auto; apply R_u32, HW). fold (touch m (R m (sp_of m))). destruct (touch _ _); reflexivity.
  - (* CALL *) arg_step; try reflexivity. rewrite r_pc_R by apply HW. pose proof (R_u32 m R_pc (proj1 HW)) as Hpc. unfold is_u32 in Hpc.
    unfold add_u32. destruct (Z.leb_spec 4294967296 (R m R_pc + 4)) as [L|L]; cbn [orb].
    { destruct (Z.ltb_spec (R m R_pc + 4) 4294967296); [lia|]. reflexivity. }
    destruct (Z.ltb_spec (R m R_pc + 4) 4294967296); [|lia]. cbn [cpure].
    rewrite write_debug by (auto; apply u32_range). unfold wrapping_sub. rewrite sp_J by auto.
    fold (touch m (u32 (R m (sp_of m) - 4))). destruct (touch _ _); reflexivity.
  - (* HWD *) repeat arg_step; try reflexivity. rewrite info_debug by auto. reflexivity.
Qed.

Lemma exec_loads a m w m' : W m -> is_u32 a -> cpu_mem_exec ops false a m = COk w m' <-> exists mem1, loads ops m (c_mem m) a w mem1 /\ m' = with_mem mem1 m.
Proof.
  intros HW Ha. unfold cpu_mem_exec, mem_do, ensure_aligned, loads, passes. destruct (Z.eqb_spec (a mod 4) 0) as [Hal|Hal]; cbn [cbind].
  2:{ split; [discriminate|intros (? & (? & _) & _); contradiction]. }
  rewrite translate_spec by auto. change (sup_mode m) with (is_sup m). destruct (R m R_mtt =? 0); cbn [cpure].
  - cbn [c_mem with_mem]. destruct (mem_read ops false (c_mem m) a) as [[[mem2 ex] v]|] eqn:E; cbn [cpure]; cbv zeta.
    + destruct (Z.eqb_spec ex 0) as [->|N]; cbn [negb]; split; intros H.
      * injection H as <- <-. exists mem2. split; [|reflexivity]. split; auto. eexists. split; [reflexivity|auto].
      * destruct H as (mem1 & (_ & x & -> & E') & ->). rewrite E' in E. injection E as <- <-. reflexivity.
      * discriminate.
      * destruct H as (mem1 & (_ & x & -> & E') & ->). rewrite E' in E. injection E as _ <- _. congruence.
    + split; [discriminate|]. intros (mem1 & (_ & x & -> & E') & ->). congruence.
  - change (m32 (R m R_pda + 4 * (a mod 1024))) with ((R m R_pda + 4 * (a mod 1024)) mod 2 ^ 32). destruct (mem_read ops false (c_mem m) ((R m R_pda + 4 * (a mod 1024)) mod 2 ^ 32)) as [[[mem0 ex] e]|] eqn:E0; cbn [cpure].
    2:{ split; [discriminate|]. intros (mem1 & (_ & x & (e & E' & _) & _) & ->). congruence. }
    destruct (Z.eqb_spec ex 0) as [->|N]; cbn [negb].
    2:{ split; [discriminate|]. intros (mem1 & (_ & x & (e' & E' & _) & _) & ->). congruence. }
    destruct (Z.testbit e _) eqn:Eb.
    { split; [discriminate|]. intros (mem1 & (_ & x & (e' & E' & Eb') & _) & ->). congruence. }
    cbn [c_mem with_mem]. destruct (mem_read ops false mem0 a) as [[[mem2 ex] v]|] eqn:E; cbn [cpure]; cbv zeta.
    + destruct (Z.eqb_spec ex 0) as [->|N]; cbn [negb]; split; intros H.
      * injection H as <- <-. exists mem2. split; [|reflexivity]. split; auto. exists mem0. split; [|auto]. exists e. auto.
      * destruct H as (mem1 & (_ & x & (e' & E1 & _) & E') & ->). injection E1 as <- <-. rewrite E' in E. injection E as <- <-. reflexivity.
      * discriminate.
      * destruct H as (mem1 & (_ & x & (e' & E1 & _) & E') & ->). injection E1 as <- <-. rewrite E' in E. injection E as _ <- _. congruence.
    + split; [discriminate|]. intros (mem1 & (_ & x & (e' & E1 & _) & E') & ->). injection E1 as <- <-. congruence.
Qed.

Lemma bit_of w k : 0 <= k < 8 -> negb (Z.land (u8 (Z.shiftr w 24)) (2 ^ k) =? 0) = Z.testbit w (24 + k).
Proof.
  intros Hk. rewrite land_pow2_zero by lia. rewrite negb_involutive. unfold u8. change 256 with (2 ^ 8).
  rewrite Z.mod_pow2_bits_low by lia. rewrite Z.shiftr_spec by lia. f_equal. lia.
Qed.
Lemma touch_iff m a : touch m a = true <-> a mod 4 = 0 /\ entry_overflows m a.
Proof. unfold touch. rewrite andb_true_iff, Z.eqb_eq, over_iff. tauto. Qed.
Lemma word_over_iff m w : raw_over m (Z.shiftr (u8 (Z.shiftr w 24)) 3) (negb (Z.land (u8 (Z.shiftr w 24)) 4 =? 0)) (negb (Z.land (u8 (Z.shiftr w 24)) 2 =? 0))
    (negb (Z.land (u8 (Z.shiftr w 24)) 1 =? 0)) (u8 (Z.shiftr w 16)) (u8 (Z.shiftr w 8)) (u8 w) = true <->
  word_overflows m w \/ (word_op w = 27 /\ exists x, word_arg m w 0 = Some x /\ 2 ^ 32 <= R m R_pc + 4).
Proof.
  change (Z.land (u8 (Z.shiftr w 24)) 4) with (Z.land (u8 (Z.shiftr w 24)) (2 ^ 2)). change (Z.land (u8 (Z.shiftr w 24)) 2) with (Z.land (u8 (Z.shiftr w 24)) (2 ^ 1)).
  change (Z.land (u8 (Z.shiftr w 24)) 1) with (Z.land (u8 (Z.shiftr w 24)) (2 ^ 0)).
  rewrite !bit_of by lia.
  replace (Z.shiftr (u8 (Z.shiftr w 24)) 3) with (word_op w).
  2:{ unfold word_op, u8. rewrite !Z.shiftr_div_pow2 by lia. change (2 ^ 27) with 134217728. change (2 ^ 24) with 16777216. change (2 ^ 3) with 8. lia. }
  unfold word_overflows, word_address.
  assert (E0 : word_arg m w 0 = arg m (Z.testbit w (24 + 2)) (u8 (Z.shiftr w 16))) by (unfold word_arg, arg, word_isreg, word_byte, u8; rewrite Z.shiftr_div_pow2 by lia; reflexivity).
  assert (E1 : word_arg m w 1 = arg m (Z.testbit w (24 + 1)) (u8 (Z.shiftr w 8))) by (unfold word_arg, arg, word_isreg, word_byte, u8; rewrite Z.shiftr_div_pow2 by lia; reflexivity).
  assert (E2 : word_arg m w 2 = arg m (Z.testbit w (24 + 0)) (u8 w)) by (unfold word_arg, arg, word_isreg, word_byte, u8; change (8 * (2 - 2)) with 0; rewrite Z.pow_0_r, Z.div_1_r; reflexivity).
  rewrite E0, E1, E2. clear E0 E1 E2. unfold raw_over.
  assert (Ho : 0 <= word_op w < 32) by (unfold word_op; lia).
  generalize (arg m (Z.testbit w (24 + 2)) (u8 (Z.shiftr w 16))) as x0.
  generalize (arg m (Z.testbit w (24 + 1)) (u8 (Z.shiftr w 8))) as x1.
  generalize (arg m (Z.testbit w (24 + 0)) (u8 w)) as x2. intros x2 x1 x0.
  generalize dependent (word_op w). intros o Ho. change (2 ^ 32) with 4294967296.
  assert (T : forall a, (touch m a = true) <-> exists b, Some a = Some b /\ b mod 4 = 0 /\ entry_overflows m b).
  { intros a. rewrite touch_iff. split; [eauto|]. intros (b & E & H). injection E as <-. exact H. }
  destruct (op_cases o Ho) as [E|[E|[E|[E|[E|[E|[E|[E|[E|[E|[E|[E|[E|[E|[E|[E|[E|[E|[E|[E|[E|[E|[E|[E|[E|[E|[E|[E|[E|[E|[E|E]]]]]]]]]]]]]]]]]]]]]]]]]]]]]]]; subst o; cbv iota;
    try (split; [discriminate|intros [[(? & _)|[(? & _)|(? & ? & _)]]|(? & _)]; discriminate]).
  - (* IF2 *) destruct x0 as [f|], x1 as [g|], x2 as [c|]; (split; [|intros [[(_ & f' & g' & c' & ? & ? & ? & ?)|[(? & _)|(? & ? & _)]]|(? & _)]; try discriminate]); try discriminate; try congruence.
    + rewrite orb_true_iff, !Z.ltb_lt. intros H. left. left. split; auto. exists f, g, c. auto.
    + rewrite orb_true_iff, !Z.ltb_lt. congruence.
  - destruct x1, x2; (split; [|intros [[(? & _)|[(? & _)|X]]|(? & _)]]); try discriminate; try (destruct X; intuition discriminate).
    + intros X. apply T in X. auto.
    + apply T. exact X.
  - destruct x0, x1, x2; (split; [|intros [[(? & _)|[(? & _)|X]]|(? & _)]]); try discriminate; try (destruct X; intuition discriminate).
    + intros X. apply T in X. auto.
    + apply T. exact X.
  - destruct x0, x1, x2; (split; [|intros [[(? & _)|[(? & _)|X]]|(? & _)]]); try discriminate; try (destruct X; intuition discriminate).
    + intros X. apply T in X. auto.
    + apply T. exact X.
  - destruct x0, x1, x2; (split; [|intros [[(? & _)|[(? & _)|X]]|(? & _)]]); try discriminate; try (destruct X; intuition discriminate).
    + intros X. apply T in X. auto.
    + apply T. exact X.
  - destruct x0 as [x|], x1 as [y|]; (split; [|intros [[(? & _)|[(_ & x' & y' & ? & ? & ?)|X]]|(? & _)]]); try discriminate; try (destruct X; intuition discriminate); rewrite orb_true_iff, Z.leb_le.
    + intros [H|H]; [left; right; left; eauto 10|]. apply T in H. auto.
    + left. congruence.
    + right. apply T. exact X.
  - destruct x0; (split; [|intros [[(? & _)|[(? & _)|X]]|(? & _)]]); try discriminate; try (destruct X; intuition discriminate).
    + intros X. apply T in X. auto.
    + apply T. exact X.
  - split; [|intros [[(? & _)|[(? & _)|X]]|(? & _)]]; try discriminate.
    + intros X. apply T in X. auto.
    + apply T. exact X.
  - destruct x0 as [x|]; (split; [|intros [[(? & _)|[(? & _)|X]]|(_ & x' & ? & ?)]]); try discriminate; try (destruct X; intuition discriminate); rewrite orb_true_iff, Z.leb_le.
    + intros [H|H]; [right; eauto 10|]. apply T in H. auto.
    + right. apply T. exact X.
    + left. auto.
Qed.
Lemma loads_ext m mem a w mem1 : loads ops m mem a w mem1 -> mem_ext mem mem1.
Proof.
  intros (_ & mem0 & Hp & Hr). unfold passes in Hp. eapply mem_ext_trans; [|eapply mem_read_ext; eauto].
  destruct (_ =? 0); [subst; apply mem_ext_refl|]. destruct Hp as (e & He & _). eapply mem_read_ext; eauto.
Qed.
Lemma loads_det m mem a w mem1 w' mem1' : loads ops m mem a w mem1 -> loads ops m mem a w' mem1' -> w = w' /\ mem1 = mem1'.
Proof.
  intros (_ & x & Hp & Hr) (_ & x' & Hp' & Hr'). unfold passes in *. destruct (_ =? 0).
  - subst. rewrite Hr in Hr'. injection Hr' as <- <-. auto.
  - destruct Hp as (e & E & _), Hp' as (e' & E' & _). rewrite E in E'. injection E' as <- _. rewrite Hr in Hr'. injection Hr' as <- <-. auto.
Qed.
Lemma no_last_call m w mem1 : wf m -> ends_below (c_mem m) -> loads ops m (c_mem m) (R m R_pc) w mem1 -> word_op w = 27 -> 2 ^ 32 <= R m R_pc + 4 -> False.
Proof.
  intros Hw He Hl Ho Hp. destruct Hl as (_ & mem0 & Hpa & Hr). assert (Hx : mem_ext (c_mem m) mem0).
  { unfold passes in Hpa. destruct (_ =? 0); [subst; apply mem_ext_refl|]. destruct Hpa as (e & E & _). eapply mem_read_ext; eauto. }
  assert (Hpc : is_u32 (R m R_pc)) by apply R_u32, Hw. unfold is_u32 in Hpc. change (2 ^ 32) with 4294967296 in Hp.
  assert (Hf : forall mp, In mp (mm_maps mem0) -> covers false (R m R_pc) mp = Ret false).
  { destruct Hx as (Em & _). rewrite Em. intros mp Hi. assert (Hb := He _ Hi). change (2 ^ 32) with 4294967296 in Hb.
    destruct Hw as (_ & (_ & HM & _) & _). rewrite Forall_forall in HM. destruct (HM _ Hi) as (Ha & Ha4 & Hs & Hs4 & _). unfold is_u32 in Ha.
    unfold covers, end_addr. destruct (Z.leb_spec (mp_addr mp) (R m R_pc)); [|reflexivity].
    unfold add_u32. destruct (Z.ltb_spec (mp_addr mp + mp_size mp) 4294967296); [|lia]. cbn [obind].
    unfold sub_u32. destruct (Z.leb_spec 1 (mp_addr mp + mp_size mp)); [|lia]. cbn [obind].
    destruct (Z.leb_spec (R m R_pc) (mp_addr mp + mp_size mp - 1)); [lia|reflexivity]. }
  unfold mem_read in Hr. destruct (_ =? 0); [|discriminate].
  assert (E : find_o (covers false (R m R_pc)) (mm_maps mem0) = Ret None).
  { clear Hr. induction (mm_maps mem0) as [|mp t IH]; cbn [find_o]; auto. rewrite Hf by (left; auto). cbn [obind]. apply IH. intros; apply Hf; right; auto. }
  rewrite E in Hr. cbn [obind] in Hr. injection Hr as _ <-. discriminate.
Qed.
Lemma debug_exact m : typed ops -> wf m -> ends_below (c_mem m) ->
  (overflows ops m /\ next ops true m = Panic) \/ (~ overflows ops m /\ next ops true m = next ops false m).
Proof.
  intros T Hw He. unfold overflows. destruct (c_halted m) eqn:Hh.
  { right. split; [intros (H & _); discriminate|]. rewrite !halted_safe by auto. reflexivity. }
  set (m1 := with_cycles ((c_cycles m + 1) mod two128) m).
  assert (HJ : J m1). { split; [split; apply Hw|exact He]. }
  assert (Epc : r_pc (c_regs m1) = R m R_pc) by (rewrite r_pc_R by apply HJ; reflexivity).
  assert (Hpc : is_u32 (R m R_pc)) by apply R_u32, Hw.
  unfold next. rewrite Hh. cbv zeta. fold m1. rewrite Epc, exec_debug by auto. change (over m1 (R m R_pc)) with (over m (R m R_pc)).
  destruct ((R m R_pc mod 4 =? 0) && over m (R m R_pc)) eqn:Eo.
  { left. apply andb_true_iff in Eo. destruct Eo as (E1 & E2). apply Z.eqb_eq in E1. apply over_iff in E2. split; [|reflexivity]. auto. }
  assert (No : R m R_pc mod 4 = 0 -> ~ entry_overflows m (R m R_pc)).
  { intros H X. apply over_iff in X. rewrite X, H in Eo. discriminate. }
  assert (EL : forall w mem1, loads ops m1 (c_mem m1) (R m R_pc) w mem1 <-> loads ops m (c_mem m) (R m R_pc) w mem1) by (intros; reflexivity).
  destruct (cpu_mem_exec ops false (R m R_pc) m1) as [w m2|m2|] eqn:Ex.
  - apply exec_loads in Ex; [|apply HJ|auto]. destruct Ex as (mem1 & Hl & ->).
    assert (HJ2 : J (with_chg false (with_mem mem1 m1))).
    { assert (X : J (with_mem mem1 m1)) by (apply J_mem; [auto|eapply loads_ext; eauto]). split; [apply W_chg, X|apply X]. }
    rewrite run_debug; auto using u8_range.
    2:{ pose proof (u8_range (Z.shiftr w 24)) as H. unfold is_u8 in H. rewrite Z.shiftr_div_pow2 by lia. change (2 ^ 3) with 8. lia. }
    match goal with |- context [if raw_over ?a ?b ?c ?d ?e ?f ?g ?h then _ else _] => destruct (raw_over a b c d e f g h) eqn:Er end.
    + left. apply word_over_iff in Er.
      assert (Er' : word_overflows m w).
      { destruct Er as [Er|(Eo27 & x & _ & Hx)]; [exact Er|]. exfalso. eapply no_last_call; eauto. }
      clear Er. split; [|reflexivity]. split; auto. split; [apply Hl|]. right. exists w, mem1. split; [apply Hl|exact Er'].
    + right. split; [|reflexivity]. intros (_ & Hp & [X|X]); [exact (No Hp X)|]. destruct X as (w' & mem1' & Hl' & X).
      destruct (loads_det _ _ _ _ _ _ _ Hl Hl') as (-> & ->).
      assert (X' := proj2 (word_over_iff m w') (or_introl X)). clear X. rename X' into X.
      change (raw_over m) with (raw_over (with_chg false (with_mem mem1' m1))) in X. congruence.
  - right. split; [|reflexivity]. intros (_ & Hp & [X|X]); [exact (No Hp X)|]. destruct X as (w' & mem1' & Hl' & X).
    assert (Y : cpu_mem_exec ops false (R m R_pc) m1 = COk w' (with_mem mem1' m1)) by (apply exec_loads; [apply HJ|auto|eauto]). congruence.
  - right. split; [|reflexivity]. intros (_ & Hp & [X|X]); [exact (No Hp X)|]. destruct X as (w' & mem1' & Hl' & X).
    assert (Y : cpu_mem_exec ops false (R m R_pc) m1 = COk w' (with_mem mem1' m1)) by (apply exec_loads; [apply HJ|auto|eauto]). congruence.
Qed.
End Crash.

(** * C02 *)
(** With components that do not panic on aligned in-range accesses ([behaved]: [inv] is any invariant of theirs), a release-build
    cycle panics exactly when it starts with translation on and a page directory address that is not a multiple of 4. *)
Lemma P_C02_no_panic : forall D (ops : bus_ops D) inv m, typed ops -> behaved ops inv -> wf m -> devs_ok inv (c_mem m) ->
  (next ops false m = Panic <-> misaligned_table m) /\
  (forall m', next ops false m = Ret m' -> wf m' /\ devs_ok inv (c_mem m')).
Proof.
  intros D ops inv m T B Hw Hd. destruct (release_exact ops inv m T B Hw Hd) as [[H E]|[H (m' & E & Hd')]]; rewrite E.
  - split; [tauto|discriminate].
  - split; [split; [discriminate|contradiction]|]. intros m1 E1. injection E1 as <-. split; auto. eapply next_wf; eauto.
Qed.
(** A run of any length panics exactly when it reaches such a state before its last cycle. *)
Lemma P_C02_run : forall D (ops : bus_ops D) inv n m, typed ops -> behaved ops inv -> wf m -> devs_ok inv (c_mem m) ->
  run ops false n m = Panic <-> exists k m1, (k < n)%nat /\ run ops false k m = Ret m1 /\ misaligned_table m1.
Proof. intros. eapply release_run; eauto. Qed.
(** In particular a machine that never turns translation on with a misaligned directory never panics. *)
Lemma P_C02_translation_off : forall D (ops : bus_ops D) inv n m, typed ops -> behaved ops inv -> wf m -> devs_ok inv (c_mem m) ->
  (forall k m1, run ops false k m = Ret m1 -> R m1 R_mtt = 0 \/ R m1 R_pda mod 4 = 0) -> exists m', run ops false n m = Ret m'.
Proof.
  intros D ops inv n m T B Hw Hd H. destruct (run ops false n m) as [m'|] eqn:E; [eauto|]. apply (release_run ops inv) in E; auto.
  destruct E as (k & m1 & _ & E1 & _ & _ & H1 & H2). destruct (H _ _ E1); congruence.
Qed.
(** The same exact condition for any board made of the crate's own components, after any history of calls. *)
Lemma P_C02_crate_run : forall ds cs m0 m n, Forall crate_component ds -> Forall api_wf cs -> board_new (dev_ops false) ds = Ret m0 ->
  api_run (dev_ops false) false cs m0 = Ret m ->
  run (dev_ops false) false n m = Panic <-> exists k m1, (k < n)%nat /\ run (dev_ops false) false k m = Ret m1 /\ misaligned_table m1.
Proof.
  intros ds cs m0 m n Hd Hc Hb Hr. destruct (crate_devs_ok ds cs m0 m Hd Hc Hb Hr) as (Hw & Hi).
  apply (release_run (dev_ops false) dev_inv n m); auto. apply dev_typed. apply dev_behaved.
Qed.
Lemma E_C02_crate_run : exists rom ram kbd m0 m,
  br_new (asm [Cpy R_pda (Lit2 2); Cpy R_mtt (Lit2 1); Halt]) 1 = Some rom /\ sm_new 256 2 = Some ram /\ lk_new 16 3 (fun _ => [72; 105]) = Some kbd /\
  Forall crate_component [DRom rom; DRam ram; DKeyLine kbd; DClock (Clock 4 7 (fun _ => Some 5) (fun _ => 7) 1)] /\
  board_new (dev_ops false) [DRom rom; DRam ram; DKeyLine kbd; DClock (Clock 4 7 (fun _ => Some 5) (fun _ => 7) 1)] = Ret m0 /\
  api_run (dev_ops false) false [AMapContiguous 0 [0; 1; 2; 3]; AReset; ANext] m0 = Ret m /\ panics (run (dev_ops false) false 2 m) = true.
Proof.
  do 3 eexists. set (w := asm [Cpy R_pda (Lit2 2); Cpy R_mtt (Lit2 1); Halt]). vm_compute in w.
  assert (X : exists m0, board_new (dev_ops false) [DRom (BootRom w 3 3 1); DRam (StoreMem (zeros 256) 64 2); DKeyLine (LineKeyboard (zeros 3) 3 3 (fun _ => [72; 105]) 0);
     DClock (Clock 4 7 (fun _ => Some 5) (fun _ => 7) 1)] = Ret m0 /\
     then_check (api_run (dev_ops false) false [AMapContiguous 0 [0; 1; 2; 3]; AReset; ANext] m0) (fun m => panics (run (dev_ops false) false 2 m)) = true)
    by (apply (then_check_sound (board_new _ _) (fun m0 => then_check (api_run (dev_ops false) false [AMapContiguous 0 [0; 1; 2; 3]; AReset; ANext] m0) (fun m => panics (run (dev_ops false) false 2 m)))); vm_compute; reflexivity).
  destruct X as (m0 & E & X). apply then_check_sound in X. destruct X as (m & E1 & P). exists m0, m.
  split; [reflexivity|]. split; [reflexivity|]. split; [reflexivity|]. split; [|auto].
  constructor. { apply (cc_rom_new w 1); [unfold w; apply Forall_cons; [unfold is_u32; lia|]; apply Forall_cons; [unfold is_u32; lia|]; apply Forall_cons; [unfold is_u32; lia|apply Forall_nil]|unfold is_u64; lia|reflexivity]. }
  constructor. { apply (cc_ram_new 256 2); [unfold is_u32; lia|unfold is_u64; lia|reflexivity]. }
  constructor. { apply (cc_key_line 16 3 (fun _ => [72; 105])); [unfold is_u32; lia|unfold is_u64; lia|intros; repeat constructor; unfold is_u8; lia|reflexivity]. }
  constructor; [|constructor]. apply (cc_clock 4 (fun _ => Some 5) (fun _ => 7)). unfold is_u64; lia.
Qed.

(** A machine about to execute with misaligned tables (it panics); one with aligned tables (it executes its CPY). *)
Lemma E_C02_no_panic : exists m1 m2 m3, reachable words_ops false m1 /\ reachable words_ops false m2 /\ typed words_ops /\ behaved words_ops (fun _ _ => True) /\
  misaligned_table m1 /\ next words_ops false m1 = Panic /\
  R m2 R_mtt = 1 /\ ~ misaligned_table m2 /\ next words_ops false m2 = Ret m3 /\ R m3 R_a0 = 5.
Proof.
  assert (X1 : exists m, words_run false 0 (asm [Cpy R_pda (Lit2 2); Cpy R_mtt (Lit2 1); Halt]) 2 = Ret m /\
     panics (next words_ops false m) && negb (c_halted m) && (R m R_pc mod 4 =? 0) && (R m R_mtt =? 1) && (R m R_pda mod 4 =? 2) = true)
    by (apply then_check_sound; vm_compute; reflexivity).
  destruct X1 as (m1 & E1 & P1). rewrite !andb_true_iff, negb_true_iff, !Z.eqb_eq in P1. destruct P1 as ((((P1 & P2) & P3) & P4) & P5). apply panics_sound in P1.
  assert (X2 : exists m, words_run false 0 (asm [Cpy R_mtt (Lit2 1); Cpy R_a0 (Lit2 5)]) 1 = Ret m /\
     then_check (next words_ops false m) (fun m' => (R m' R_a0 =? 5) && (R m R_mtt =? 1) && (R m R_pda mod 4 =? 0)) = true)
    by (apply then_check_sound; vm_compute; reflexivity).
  destruct X2 as (m2 & E2 & Q). apply then_check_sound in Q. destruct Q as (m3 & E3 & Q). rewrite !andb_true_iff, !Z.eqb_eq in Q. destruct Q as ((Q1 & Q2) & Q3).
  exists m1, m2, m3. split; [eapply words_reachable; [|exact E1]; unfold is_u32; lia|]. split; [eapply words_reachable; [|exact E2]; unfold is_u32; lia|].
  split; [apply words_typed|]. split; [apply words_behaved|]. split; [split; [auto|]; split; [auto|]; split; lia|]. split; auto. split; auto.
  split; [intros (_ & _ & _ & X); congruence|]. auto.
Qed.

(** * C03 *)
(** In a debug build (overflow checks on), with every mapping ending below 2^32: a cycle panics when it meets one of the listed
    unchecked overflows, and otherwise does exactly what the release build does. *)
Lemma P_C03_exact : forall D (ops : bus_ops D) m, typed ops -> wf m -> ends_below (c_mem m) ->
  (overflows ops m -> next ops true m = Panic) /\ (~ overflows ops m -> next ops true m = next ops false m).
Proof. intros D ops m T Hw He. destruct (debug_exact ops m T Hw He) as [[H E]|[H E]]; split; tauto. Qed.
(** So with well-behaved components it panics exactly on those overflows and on misaligned page tables. *)
Lemma P_C03_panic : forall D (ops : bus_ops D) inv m, typed ops -> behaved ops inv -> wf m -> devs_ok inv (c_mem m) -> ends_below (c_mem m) ->
  next ops true m = Panic <-> overflows ops m \/ misaligned_table m.
Proof.
  intros D ops inv m T B Hw Hd He. destruct (debug_exact ops m T Hw He) as [[H E]|[H E]]; rewrite E; [tauto|].
  destruct (release_exact ops inv m T B Hw Hd) as [[H' E']|[H' (m' & E' & _)]]; rewrite E'; [tauto|]. split; [discriminate|tauto].
Qed.
(** A debug run panics exactly when it reaches such a state before its last cycle. *)
Lemma P_C03_run : forall D (ops : bus_ops D) inv n m, typed ops -> behaved ops inv -> wf m -> devs_ok inv (c_mem m) -> ends_below (c_mem m) ->
  run ops true n m = Panic <->
  exists k m1, (k < n)%nat /\ run ops true k m = Ret m1 /\ (overflows ops m1 \/ misaligned_table m1).
Proof.
  intros D ops inv n. induction n as [|n IH]; intros m T B Hw Hd He; cbn [run].
  { split; [discriminate|intros (k & ? & ? & _); lia]. }
  pose proof (P_C03_panic D ops inv m T B Hw Hd He) as P. destruct (next ops true m) as [m'|] eqn:E; cbn [obind].
  - assert (Hn : ~ (overflows ops m \/ misaligned_table m)) by (intros X; apply P in X; discriminate).
    assert (Hw' : wf m') by (eapply next_wf; eauto).
    assert (Hd' : devs_ok inv (c_mem m')). { apply (P_C02_no_panic D ops inv m T B Hw Hd). apply next_mono; auto. }
    assert (He' : ends_below (c_mem m')). { intros mp Hi. rewrite (next_maps ops true m m' T Hw E) in Hi. auto. }
    rewrite (IH m' T B Hw' Hd' He'). split.
    + intros (k & m1 & Hk & Er & Hx). exists (S k), m1. split; [lia|]. split; auto. cbn [run]. rewrite E. exact Er.
    + intros ([|k] & m1 & Hk & Er & Hx); cbn [run] in Er.
      * injection Er as <-. contradiction.
      * rewrite E in Er. exists k, m1. split; [lia|]. auto.
  - split; auto. intros _. exists O, m. split; [lia|]. split; [reflexivity|]. apply P. reflexivity.
Qed.
(** Boards set up without [map_abs] satisfy the condition on mappings. *)
Lemma P_C03_mappings : forall D (ops : bus_ops D) ds cs m0 m, typed ops -> Forall api_wf cs -> Forall no_map_abs cs ->
  board_new ops ds = Ret m0 -> api_run ops true cs m0 = Ret m -> ends_below (c_mem m).
Proof.
  intros D ops ds cs m0 m T Hc Hn H0 Hr mp Hi. destruct (P_C31_tidy D ops true ds cs m0 m T Hc Hn H0 Hr) as ((_ & H & _) & _).
  destruct (H mp Hi) as (_ & _ & _ & _ & _ & X). auto.
Qed.
(** Four debug-build machines that panic: IF2 with flag number 8; SRM at 0xFFFFFFFF + 1; a fetch with the page directory at
    0xFFFFFFFC; a store whose page-table entry is out of the address space while that of the fetch is not. *)
Definition crashes_at (prog : list Z) (n : nat) : Prop :=
  exists m, words_run true 0 prog n = Ret m /\ reachable words_ops true m /\ ends_below (c_mem m) /\ overflows words_ops m /\ ~ misaligned_table m /\ next words_ops true m = Panic /\
  exists m', next words_ops false m = Ret m'.
Definition crash_test (prog : list Z) (n : nat) : bool :=
  then_check (words_run true 0 prog n) (fun m => panics (next words_ops true m) &&
    ((R m R_mtt =? 0) || (R m R_pda mod 4 =? 0)) && then_check (next words_ops false m) (fun _ => true)).
Lemma crash_test_sound prog n : crash_test prog n = true -> crashes_at prog n.
Proof.
  intros H. apply then_check_sound in H. destruct H as (m & E & H). rewrite !andb_true_iff, orb_true_iff, !Z.eqb_eq in H. destruct H as ((H1 & H2) & H3).
  apply panics_sound in H1. apply then_check_sound in H3. destruct H3 as (m' & E' & _).
  assert (Hr : reachable words_ops true m) by (eapply words_reachable; [|exact E]; unfold is_u32; lia).
  assert (Hw : wf m) by (eapply reachable_wf; [apply words_typed|eauto]).
  assert (He : ends_below (c_mem m)).
  { unfold words_run in E. destruct (board_new _ _) as [m0|] eqn:E0; [|discriminate]. eapply P_C03_mappings; [apply words_typed| | |exact E0|exact E].
    - constructor; [split; unfold is_u32; lia|]. constructor; [exact I|]. apply Forall_forall. intros c Hc. apply repeat_spec in Hc. subst. exact I.
    - constructor; [exact I|]. constructor; [exact I|]. apply Forall_forall. intros c Hc. apply repeat_spec in Hc. subst. exact I. }
  exists m. split; auto. split; auto. split; auto. destruct (debug_exact words_ops m words_typed Hw He) as [[X1 X2]|[X1 X2]].
  - split; auto. split; [intros (_ & _ & A & B); destruct H2; congruence|]. split; eauto.
  - congruence.
Qed.
Lemma E_C03_exact :
  crashes_at (asm [If2 (Lit1 8) (Lit1 0) (Lit1 1)]) 0 /\
  crashes_at (asm [Cpy R_a0 (Lit2 0); Sub R_a0 (Lit2 1); Srm (Reg1 R_a0) (Lit1 1) R_a1]) 2 /\
  crashes_at (asm [Cpy R_pda (Lit2 0); Sub R_pda (Lit2 8); Cpy R_mtt (Lit2 1)]) 3 /\
  crashes_at (asm [Cpy R_pda (Lit2 0); Sub R_pda (Lit2 128); Cpy R_mtt (Lit2 1); Wsa (Lit1 200) (Lit1 0) (Lit1 1)]) 3.
Proof. split; [|split; [|split]]; apply crash_test_sound; vm_compute; reflexivity. Qed.

(* Concrete cases for the theorems above that have none beside them. *)
Lemma words_ends prog n m : words_run true 0 prog n = Ret m -> ends_below (c_mem m).
Proof.
  intros E. unfold words_run in E. destruct (board_new _ _) as [m0|] eqn:E0; [|discriminate]. eapply P_C03_mappings; [apply words_typed| | |exact E0|exact E].
  - constructor; [split; unfold is_u32; lia|]. constructor; [exact I|]. apply Forall_forall. intros c Hc. apply repeat_spec in Hc. subst. exact I.
  - constructor; [exact I|]. constructor; [exact I|]. apply Forall_forall. intros c Hc. apply repeat_spec in Hc. subst. exact I.
Qed.
(** A page directory at address 2: the third cycle panics. *)
Lemma E_C02_run : exists m, reachable words_ops false m /\ wf m /\ behaved words_ops (fun _ _ => True) /\ devs_ok (fun _ _ => True) (c_mem m) /\
  (exists m', run words_ops false 2 m = Ret m') /\ run words_ops false 3 m = Panic.
Proof.
  assert (X : exists m, words_run false 0 (asm [Cpy R_pda (Lit2 2); Cpy R_mtt (Lit2 1); Halt]) 0 = Ret m /\ then_check (run words_ops false 2 m) (fun _ => true) && panics (run words_ops false 3 m) = true)
    by (apply then_check_sound; vm_compute; reflexivity).
  destruct X as (m & E & P). rewrite andb_true_iff in P. destruct P as (P & Q). apply then_check_sound in P. destruct P as (m' & P & _). apply panics_sound in Q.
  assert (Hr : reachable words_ops false m) by (eapply words_reachable; [|exact E]; unfold is_u32; lia).
  exists m. split; [exact Hr|]. split; [eapply reachable_wf; [apply words_typed|exact Hr]|]. split; [apply words_behaved|]. split; [apply all_devs_ok|]. split; eauto.
Qed.
(** A program that never touches mtt: whatever the number of cycles, translation is off. *)
Lemma E_C02_translation_off : exists m, reachable words_ops false m /\ wf m /\ devs_ok (fun _ _ => True) (c_mem m) /\ c_halted m = false /\
  forall k m1, run words_ops false k m = Ret m1 -> R m1 R_mtt = 0 \/ R m1 R_pda mod 4 = 0.
Proof.
  assert (X : exists m, words_run false 0 (asm [Cpy R_a0 (Lit2 5); Halt]) 0 = Ret m /\
    negb (c_halted m) && (R m R_mtt =? 0) && then_check (next words_ops false m) (fun m1 => (R m1 R_mtt =? 0) && then_check (next words_ops false m1) (fun m2 => (R m2 R_mtt =? 0) && c_halted m2)) = true)
    by (apply then_check_sound; vm_compute; reflexivity).
  destruct X as (m & E & P). rewrite !andb_true_iff, negb_true_iff, !Z.eqb_eq in P. destruct P as ((H0 & P0) & P). apply then_check_sound in P. destruct P as (m1 & N1 & P).
  rewrite andb_true_iff, Z.eqb_eq in P. destruct P as (P1 & P). apply then_check_sound in P. destruct P as (m2 & N2 & P). rewrite andb_true_iff, Z.eqb_eq in P. destruct P as (P2 & H2).
  assert (Hr : reachable words_ops false m) by (eapply words_reachable; [|exact E]; unfold is_u32; lia).
  exists m. split; [exact Hr|]. split; [eapply reachable_wf; [apply words_typed|exact Hr]|]. split; [apply all_devs_ok|]. split; [exact H0|].
  assert (S : forall k, run words_ops false k m2 = Ret m2). { induction k as [|k IH]; [reflexivity|]. cbn [run]. assert (next words_ops false m2 = Ret m2) as -> by (unfold next; rewrite H2; reflexivity). cbn [obind]. exact IH. }
  intros [|[|k]] x; cbn [run].
  - intros X; injection X as <-. auto.
  - rewrite N1. cbn [obind]. intros X; injection X as <-. auto.
  - rewrite N1. cbn [obind]. rewrite N2. cbn [obind]. rewrite S. intros X; injection X as <-. auto.
Qed.
Lemma E_C03_panic : exists m, reachable words_ops true m /\ wf m /\ behaved words_ops (fun _ _ => True) /\ devs_ok (fun _ _ => True) (c_mem m) /\ ends_below (c_mem m) /\ next words_ops true m = Panic.
Proof.
  destruct E_C03_exact as ((m & _ & Hr & He & _ & _ & Hn & _) & _). exists m. split; [exact Hr|]. split; [eapply reachable_wf; [apply words_typed|exact Hr]|].
  split; [apply words_behaved|]. split; [apply all_devs_ok|]. auto.
Qed.
(** An IF2 with flag number 8 in the second cycle. *)
Lemma E_C03_run : exists m, reachable words_ops true m /\ wf m /\ devs_ok (fun _ _ => True) (c_mem m) /\ ends_below (c_mem m) /\ (exists m1, run words_ops true 1 m = Ret m1) /\ run words_ops true 2 m = Panic.
Proof.
  assert (X : exists m, words_run true 0 (asm [Cpy R_a0 (Lit2 5); If2 (Lit1 8) (Lit1 0) (Lit1 1)]) 0 = Ret m /\ then_check (run words_ops true 1 m) (fun _ => true) && panics (run words_ops true 2 m) = true)
    by (apply then_check_sound; vm_compute; reflexivity).
  destruct X as (m & E & P). rewrite andb_true_iff in P. destruct P as (P & Q). apply then_check_sound in P. destruct P as (m' & P & _). apply panics_sound in Q.
  assert (Hr : reachable words_ops true m) by (eapply words_reachable; [|exact E]; unfold is_u32; lia).
  exists m. split; [exact Hr|]. split; [eapply reachable_wf; [apply words_typed|exact Hr]|]. split; [apply all_devs_ok|]. split; [eapply words_ends; exact E|]. split; eauto.
Qed.
Lemma E_C03_mappings : let cs := [AMap 0 0; AReset; ANext] in Forall api_wf cs /\ Forall no_map_abs cs /\ exists m0 m, board_new words_ops [asm [Halt]] = Ret m0 /\ api_run words_ops true cs m0 = Ret m /\ length (mm_maps (c_mem m)) = 1%nat.
Proof.
  split; [|split].
  - constructor; [split; unfold is_u32; lia|]. constructor; [exact I|]. constructor; [exact I|constructor].
  - constructor; [exact I|]. constructor; [exact I|]. constructor; [exact I|constructor].
  - eexists. eexists. split; [vm_compute; reflexivity|]. split; vm_compute; reflexivity.
Qed.
