(** Proofs of C06 for whole cycles and whole runs, whatever the memory holds. *)
From Coq Require Import ZArith List Bool Lia.
From Verif Require Import Base Board Mem Cpu Asm SpecMach SpecIsa SpecBus SpecObs SpecTotal BaseFacts RegFacts MemFacts AluFacts IsaFacts IsaStep CycleFacts MonoFacts InvFacts ProofPanic Demo ProofRun.
Import ListNotations.
Open Scope Z_scope.
Ltac Zify.zify_post_hook ::= Z.div_mod_to_equations.

Section Total.
Context {D : Type} (ops : bus_ops D) (T : typed ops).
Implicit Type m : cpu D.
Notation bs := (board_bus ops false).

Lemma unknown_code p : is_u8 p -> reg_from_code p = None -> 32 <= p.
Proof.
  unfold is_u8. intros Hp H. destruct (Z_lt_dec p 32) as [L|]; [|lia]. exfalso.
  assert (C : exists r, reg_from_code p = Some r).
  { destruct p as [|p|p]; [eexists; reflexivity| |lia]. do 5 (try (match goal with q : positive |- _ => destruct q as [q|q|]; try lia end)); eexists; reflexivity. }
  destruct C as (r & C). congruence.
Qed.
Lemma read_missing p m : regs_wf (c_regs m) -> is_u8 p -> reg_from_code p = None -> read_reg p m = CErr (exception (if is_sup m then 2 else 3) p m).
Proof.
  intros H Hp E. apply unknown_code in E; auto. unfold is_u8 in Hp. unfold read_reg. rewrite (sv_mode_sup m H). destruct (Z.leb_spec 24 p); [|lia]. destruct (is_sup m); cbn [negb andb]; [|reflexivity].
  destruct (Z.leb_spec p 7); [lia|]. destruct (Z.leb_spec p 9); [lia|]. destruct (Z.leb_spec p 12); [lia|]. destruct (Z.leb_spec p 20); [lia|].
  destruct p as [|p|p]; try lia. do 6 (try (match goal with q : positive |- _ => destruct q as [q|q|]; try lia; try reflexivity end)).
Qed.
Lemma write_missing p v m : regs_wf (c_regs m) -> is_u8 p -> reg_from_code p = None -> write_reg p v m = CErr (exception (if is_sup m then 2 else 4) p m).
Proof.
  intros H Hp E. apply unknown_code in E; auto. unfold is_u8 in Hp. unfold write_reg. rewrite (sv_mode_sup m H). destruct (Z.leb_spec 23 p); [|lia]. destruct (is_sup m); cbn [negb andb]; [|reflexivity].
  destruct (Z.eqb_spec p 23); [lia|]. destruct (Z.eqb_spec p 26); [lia|]. destruct (Z.eqb_spec p 27); [lia|]. cbn [orb]. destruct (Z.eqb_spec p 22); [lia|].
  destruct (Z.leb_spec p 7); [lia|]. destruct (Z.leb_spec p 9); [lia|]. destruct (Z.leb_spec p 12); [lia|]. destruct (Z.leb_spec p 20); [lia|].
  destruct p as [|p|p]; try lia. do 6 (try (match goal with q : positive |- _ => destruct q as [q|q|]; try lia; try reflexivity end)).
Qed.
Lemma fin_read_missing p m K : W m -> is_u8 p -> reg_from_code p = None -> fin (cbind (read_reg p m) K) = missing 3 p (abs m).
Proof. intros HW Hp E. rewrite read_missing by (auto; apply HW). cbn [cbind]. rewrite fin_err by auto. reflexivity. Qed.
Lemma fin_write_missing p v m : W m -> is_u8 p -> reg_from_code p = None -> fin (write_reg p v m) = missing 4 p (abs m).
Proof. intros HW Hp E. rewrite write_missing by (auto; apply HW). rewrite fin_err by auto. reflexivity. Qed.

(** An operand that exists. *)
Definition present (b : bool) (p : Z) : Prop := b = true -> reg_from_code p <> None.
Lemma fin_source b p m (K : Z -> cpu D -> cres D unit) K' : W m -> is_u8 p -> (present b p -> forall x, is_u32 x -> fin (K x m) = K' x) ->
  fin (cbind (reg_or_lit1 b p m) K) = source b p (abs m) K'.
Proof.
  intros HW Hp HK. unfold reg_or_lit1, source. destruct b.
  - destruct (reg_from_code p) as [r|] eqn:E.
    + rewrite <- (reg_code_from_code _ _ E). apply fin_read; auto. apply HK. intros _. congruence.
    + apply fin_read_missing; auto.
  - cbn [cbind]. apply HK; [discriminate|]. unfold is_u8, is_u32 in *. lia.
Qed.
Lemma fin_source2 b p q m (K : Z -> cpu D -> cres D unit) K' : W m -> is_u8 p -> is_u8 q -> (present b p -> forall x, is_u32 x -> fin (K x m) = K') ->
  fin (cbind (reg_or_lit2 b p q m) K) = source b p (abs m) (fun _ => K').
Proof.
  intros HW Hp Hq HK. unfold reg_or_lit2, source. destruct b.
  - destruct (reg_from_code p) as [r|] eqn:E.
    + rewrite <- (reg_code_from_code _ _ E). apply fin_read; auto. apply HK. intros _. congruence.
    + apply fin_read_missing; auto.
  - cbn [cbind]. apply HK; [discriminate|]. pose proof (of_be2_range _ _ Hp Hq). unfold is_u16, is_u32 in *. lia.
Qed.
Lemma fin_source_reg p m (K : Z -> cpu D -> cres D unit) K' : W m -> is_u8 p -> (present true p -> forall x, is_u32 x -> fin (K x m) = K' x) ->
  fin (cbind (read_reg p m) K) = source true p (abs m) K'.
Proof. apply (fin_source true). Qed.

(** The operands of an opcode. *)
Definition all_present (op : Z) (b0 b1 b2 : bool) (p0 p1 p2 : Z) : Prop :=
  match op with
  | 0 => False
  | 1 | 3 | 4 | 5 | 8 | 9 | 10 | 11 | 12 | 13 => present true p0 /\ present b1 p1
  | 2 => present true p0 /\ present true p1
  | 6 | 7 | 20 | 28 => present true p0 /\ present b1 p1 /\ present b2 p2
  | 14 | 15 | 16 | 17 | 18 | 25 | 27 | 31 => present b0 p0
  | 19 | 21 | 22 | 23 => present b0 p0 /\ present b1 p1 /\ present b2 p2
  | 24 => present b0 p0 /\ present b1 p1 /\ present true p2
  | 26 | 29 => present true p0
  | _ => True
  end.
Lemma arg_reg_present i0 i1 i2 i3 p : present true (byte_at (i0, i1, i2, i3) p) -> exists r, arg_reg (i0, i1, i2, i3) p = ROk r.
Proof. intros H. unfold arg_reg. destruct (reg_from_code _) eqn:E; [eauto|]. destruct (H eq_refl E). Qed.
Lemma arg_rl1_present i0 i1 i2 i3 p : present (negb (Z.land i0 (2 ^ (3 - p)) =? 0)) (byte_at (i0, i1, i2, i3) p) -> exists v, arg_rl1 (i0, i1, i2, i3) p = ROk v.
Proof.
  intros H. unfold arg_rl1. change (byte_at (i0, i1, i2, i3) 0) with i0. destruct (Z.land i0 (2 ^ (3 - p)) =? 0); [eauto|].
  destruct (arg_reg_present i0 i1 i2 i3 p H) as (r & ->). cbn [rbind]. eauto.
Qed.
Lemma arg_rl2_present i0 i1 i2 i3 p : present (negb (Z.land i0 (2 ^ (3 - p)) =? 0)) (byte_at (i0, i1, i2, i3) p) -> exists v, arg_rl2 (i0, i1, i2, i3) p = ROk v.
Proof.
  intros H. unfold arg_rl2. change (byte_at (i0, i1, i2, i3) 0) with i0. destruct (Z.land i0 (2 ^ (3 - p)) =? 0); [eauto|].
  destruct (arg_reg_present i0 i1 i2 i3 p H) as (r & ->). cbn [rbind]. eauto.
Qed.
Lemma decode_present i0 i1 i2 i3 e : is_u8 i0 -> decode (i0, i1, i2, i3) = RErr e ->
  ~ all_present (Z.shiftr i0 3) (negb (Z.land i0 4 =? 0)) (negb (Z.land i0 2 =? 0)) (negb (Z.land i0 1 =? 0)) i1 i2 i3.
Proof.
  intros H0 Hd HA. unfold decode in Hd. cbv zeta in Hd. change (byte_at (i0, i1, i2, i3) 0) with i0 in Hd.
  assert (Hop : 0 <= Z.shiftr i0 3 < 32).
  { rewrite Z.shiftr_div_pow2 by lia. unfold is_u8 in H0. change (2 ^ 3) with 8. lia. }
  pose proof (arg_rl1_present i0 i1 i2 i3 1) as A1. pose proof (arg_rl1_present i0 i1 i2 i3 2) as A2. pose proof (arg_rl1_present i0 i1 i2 i3 3) as A3.
  pose proof (arg_rl2_present i0 i1 i2 i3 1) as B1. pose proof (arg_rl2_present i0 i1 i2 i3 2) as B2.
  pose proof (arg_reg_present i0 i1 i2 i3 1) as C1. pose proof (arg_reg_present i0 i1 i2 i3 2) as C2. pose proof (arg_reg_present i0 i1 i2 i3 3) as C3.
  change (2 ^ (3 - 1)) with 4 in *. change (2 ^ (3 - 2)) with 2 in *. change (2 ^ (3 - 3)) with 1 in *.
  cbn [byte_at Z.eqb Pos.eqb Z.add Pos.add] in A1, A2, A3, B1, B2, C1, C2, C3.
  assert (Hcases := op_cases (Z.shiftr i0 3) Hop).
  set (op := Z.shiftr i0 3) in *. clearbody op. clear Hop.
  repeat (destruct Hcases as [-> | Hcases]); [..|subst op]; cbn [all_present] in HA; cbv beta iota in Hd; try contradiction; try discriminate Hd;
    repeat match goal with H : _ /\ _ |- _ => destruct H end;
    repeat match type of Hd with
    | context [rbind (arg_reg _ 1) _] => destruct C1 as (? & C1); [assumption|]; rewrite C1 in Hd; cbn [rbind] in Hd
    | context [rbind (arg_reg _ 2) _] => destruct C2 as (? & C2); [assumption|]; rewrite C2 in Hd; cbn [rbind] in Hd
    | context [rbind (arg_reg _ 3) _] => destruct C3 as (? & C3); [assumption|]; rewrite C3 in Hd; cbn [rbind] in Hd
    | context [rbind (arg_rl1 _ 1) _] => destruct A1 as (? & A1); [assumption|]; rewrite A1 in Hd; cbn [rbind] in Hd
    | context [rbind (arg_rl1 _ 2) _] => destruct A2 as (? & A2); [assumption|]; rewrite A2 in Hd; cbn [rbind] in Hd
    | context [rbind (arg_rl1 _ 3) _] => destruct A3 as (? & A3); [assumption|]; rewrite A3 in Hd; cbn [rbind] in Hd
    | context [rbind (arg_rl2 _ 1) _] => destruct B1 as (? & B1); [assumption|]; rewrite B1 in Hd; cbn [rbind] in Hd
    | context [rbind (arg_rl2 _ 2) _] => destruct B2 as (? & B2); [assumption|]; rewrite B2 in Hd; cbn [rbind] in Hd
    end; discriminate Hd.
Qed.

Lemma not_present p : ~ present true p -> reg_from_code p = None.
Proof. intros H. destruct (reg_from_code p) eqn:E; [|reflexivity]. exfalso. apply H. intros _. congruence. Qed.

(** The same by fields. *)
Definition bad_fields (op : Z) (b0 b1 b2 : bool) (p0 p1 p2 : Z) (s : st (memory D)) : outcome (st (memory D)) :=
  let one := source b0 p0 s (fun _ => Ret s) in
  let three := source b0 p0 s (fun _ => source b1 p1 s (fun _ => source b2 p2 s (fun _ => Ret s))) in
  match op with
  | 0 => raise 1 0 s
  | 1 => source b1 p1 s (fun _ => missing 4 p0 s)
  | 2 => source true p0 s (fun _ => source true p1 s (fun _ => Ret s))
  | 3 | 4 | 5 | 8 | 9 | 10 | 11 | 12 | 13 => source b1 p1 s (fun _ => missing 3 p0 s)
  | 6 | 7 => source b1 p1 s (fun _ => source b2 p2 s (fun _ => missing 3 p0 s))
  | 14 | 16 | 17 | 18 | 25 | 27 | 31 => one
  | 15 => if sup s then one else raise 9 15 s
  | 19 | 21 | 22 | 23 => three
  | 20 => source b1 p1 s (fun x => source b2 p2 s (fun y => load bs (m32 (x + y)) s (fun _ s => missing 4 p0 s)))
  | 24 => source b0 p0 s (fun x => source b1 p1 s (fun y => load bs (m32 (x + y)) s (fun _ s => missing 3 p2 s)))
  | 26 => load bs (get s (sp_reg s)) s (fun _ s => missing 4 p0 (put s (sp_reg s) (m32 (get s (sp_reg s) + 4))))
  | 28 => source b1 p1 s (fun x => source b2 p2 s (fun y =>
        if (x =? 0) && (y =? 0) then missing 4 p0 s
        else match bus_info bs (s_bus s) x y with inl (code, data) => raise code data s | inr _ => missing 4 p0 s end))
  | 29 => missing 4 p0 s
  | _ => Ret s
  end.

Ltac miss := match goal with M0 : _ -> reg_from_code ?p = None |- reg_from_code ?p = None => apply M0; tauto end.
Lemma run_instr_bad op b0 b1 b2 p0 p1 p2 m : W m -> c_chg m = false -> is_u8 p0 -> is_u8 p1 -> is_u8 p2 -> 0 <= op < 32 -> ~ all_present op b0 b1 b2 p0 p1 p2 ->
  fin (run_instr ops false op b0 b1 b2 p0 p1 p2 m) = bad_fields op b0 b1 b2 p0 p1 p2 (abs m).
Proof.
  intros HW Hc Hp0 Hp1 Hp2 Hop HA. assert (Hcases := op_cases op Hop). clear Hop.
  assert (M0 : ~ present true p0 -> reg_from_code p0 = None) by apply not_present. assert (M2 : ~ present true p2 -> reg_from_code p2 = None) by apply not_present.
  repeat (destruct Hcases as [-> | Hcases]); [..|subst op]; cbn [all_present] in HA; unfold run_instr, bad_fields; cbv zeta;
    try contradiction; try (exfalso; apply HA; exact I).
  - apply fin_err; auto.
  - apply fin_source2; auto. intros P1 x Hx. apply fin_write_missing; [auto|auto|miss].
  - apply fin_source_reg; auto. intros P0 x Hx. apply fin_source_reg; auto. intros P1. tauto.
  - apply fin_source2; auto. intros P1 x Hx. apply fin_read_missing; [auto|auto|miss].
  - apply fin_source2; auto. intros P1 x Hx. apply fin_read_missing; [auto|auto|miss].
  - apply fin_source2; auto. intros P1 x Hx. apply fin_read_missing; [auto|auto|miss].
  - apply fin_source; auto. intros P1 x Hx. apply fin_source; auto. intros P2 y Hy. apply fin_read_missing; [auto|auto|miss].
  - apply fin_source; auto. intros P1 x Hx. apply fin_source; auto. intros P2 y Hy. apply fin_read_missing; [auto|auto|miss].
  - apply fin_source2; auto. intros P1 x Hx. apply fin_read_missing; [auto|auto|miss].
  - apply fin_source2; auto. intros P1 x Hx. apply fin_read_missing; [auto|auto|miss].
  - apply fin_source2; auto. intros P1 x Hx. apply fin_read_missing; [auto|auto|miss].
  - apply fin_source2; auto. intros P1 x Hx. apply fin_read_missing; [auto|auto|miss].
  - apply fin_source2; auto. intros P1 x Hx. apply fin_read_missing; [auto|auto|miss].
  - apply fin_source2; auto. intros P1 x Hx. apply fin_read_missing; [auto|auto|miss].
  - apply fin_source2; auto. intros P. tauto.
  - rewrite sv_mode_sup, sup_abs by apply HW. destruct (is_sup m); [|apply fin_err; auto]. apply fin_source2; auto. intros P. tauto.
  - apply fin_source; auto. intros P. tauto.
  - apply fin_source; auto. intros P. tauto.
  - apply fin_source; auto. intros P. tauto.
  - apply fin_source; auto. intros P0 x Hx. apply fin_source; auto. intros P1 y Hy. apply fin_source; auto. intros P2. tauto.
  - apply fin_source; auto. intros P1 x Hx. apply fin_source; auto. intros P2 y Hy. apply fin_load; auto. { apply u32_range. }
    intros mem v E Hv. rewrite <- abs_mem. apply fin_write_missing; [apply W_mem; auto|auto|miss].
  - apply fin_source; auto. intros P0 x Hx. apply fin_source; auto. intros P1 y Hy. apply fin_source; auto. intros P2. tauto.
  - apply fin_source; auto. intros P0 x Hx. apply fin_source; auto. intros P1 y Hy. apply fin_source; auto. intros P2. tauto.
  - apply fin_source; auto. intros P0 x Hx. apply fin_source; auto. intros P1 y Hy. apply fin_source; auto. intros P2. tauto.
  - apply fin_source; auto. intros P0 x Hx. apply fin_source; auto. intros P1 y Hy.
    unfold is_u32 in Hx, Hy. rewrite add_u32_release by lia. cbn [cpure]. change (u32 (x + y)) with (m32 (x + y)).
    apply fin_load; auto. { apply u32_range. } intros mem v E Hv. rewrite <- abs_mem. apply fin_read_missing; [apply W_mem; auto|auto|miss].
  - apply fin_source2; auto. intros P. tauto.
  - rewrite sp_spec by auto. rewrite get_abs.
    replace (fin _) with (fin (doc v, m0 <- cpu_mem_read ops false (R m (sp_reg (abs m))) m;
       write_reg p0 v (set_sp (wrapping_add (sp m0) 4) m0)))
      by (destruct (cpu_mem_read ops false (R m (sp_reg (abs m))) m); reflexivity).
    apply fin_load; auto. { apply R_u32, HW. }
    intros mem v Hm Hv. assert (HW' : W (with_mem mem m)) by (apply W_mem; auto).
    rewrite set_sp_spec, sp_spec by auto. rewrite fin_write_missing; [|apply W_wr; auto; apply u32_range|auto|miss].
    rewrite abs_wr by apply HW'. reflexivity.
  - apply fin_source2; auto. intros P. tauto.
  - apply fin_source; auto. intros P1 x Hx. apply fin_source; auto. intros P2 y Hy.
    destruct ((x =? 0) && (y =? 0)); [apply fin_write_missing; [auto|auto|miss]|].
    destruct (get_hw_info_spec y x m HW Hy Hx) as [E Hv]. rewrite E. cbn [bus_info board_bus abs s_bus].
    destruct (info_spec (c_mem m) x y) as [[code data]|v]; cbn [cbind]; [apply fin_err; auto|apply fin_write_missing; [auto|auto|miss]].
  - apply fin_write_missing; [auto|auto|miss].
  - apply fin_source; auto. intros P. tauto.
Qed.

Lemma exec_word_bad w e m : W m -> is_u32 w -> decode (bytes_of_word w) = RErr e -> fin (exec_word ops w m) = bad_word ops w (abs m).
Proof.
  intros HW Hw Hd. unfold exec_word. cbv zeta. rewrite <- (abs_chg false m).
  assert (E : forall x k, 0 <= k -> negb (Z.land x (2 ^ k) =? 0) = Z.testbit x k).
  { intros x k Hk. rewrite land_pow2_zero by lia. apply negb_involutive. }
  unfold bytes_of_word in Hd. pose proof (decode_present _ _ _ _ _ (u8_range _) Hd) as HA.
  rewrite !Z.shiftr_div_pow2 in * by lia. change (2 ^ 24) with 16777216 in *. change (2 ^ 16) with 65536 in *. change (2 ^ 8) with 256 in *. change (2 ^ 3) with 8 in *.
  rewrite run_instr_bad; auto using u8_range, W_chg; [|unfold u8; lia].
  unfold bad_word, bad_fields. cbv zeta.
    replace (w / 2 ^ 27) with (u8 (w / 16777216) / 8) by (unfold u8, is_u32 in *; change (2 ^ 27) with 134217728; lia).
    assert (TB : forall k, 0 <= k < 8 -> Z.testbit (u8 (w / 16777216)) k = Z.testbit w (24 + k)).
    { intros k Hk. unfold u8. change 256 with (2 ^ 8). rewrite Z.mod_pow2_bits_low by lia. change 16777216 with (2 ^ 24). rewrite Z.div_pow2_bits by lia. f_equal. lia. }
    rewrite (E _ 2), (E _ 1), (E _ 0), !TB by lia. reflexivity.
Qed.

Lemma cycle_total m : wf m -> omap abs (next ops false m) = cycle ops (abs m).
Proof.
  intros (Hr & Hm & Hc). unfold cycle, cycle_spec. cbn [s_halt abs].
  destruct (c_halted m) eqn:Eh.
  { unfold next. rewrite Eh. cbn. unfold abs. rewrite Eh. reflexivity. }
  rewrite next_exec by auto. cbv zeta. unfold fetch.
  set (m1 := with_cycles ((c_cycles m + 1) mod two128) m).
  assert (HW : W m1) by (split; auto).
  change (St (s_reg (abs m)) (s_bus (abs m)) ((s_cyc (abs m) + 1) mod 2 ^ 128) (s_halt (abs m)))
    with (abs m1).
  replace (St _ _ _ _) with (abs m1) by (unfold abs, m1; cbn; rewrite Eh; reflexivity).
  rewrite r_pc_R by auto. change (R m R_pc) with (get (abs m1) R_pc).
  unfold cpu_mem_exec. apply fin_load; auto. { rewrite get_abs. apply R_u32; auto. }
  intros mem w Hext Hw. rewrite <- abs_mem.
  destruct (decode (bytes_of_word w)) eqn:Ed.
  - apply exec_word_refines; auto. apply W_mem; auto.
  - apply (exec_word_bad w e); auto. apply W_mem; auto.
Qed.
End Total.

(** One cycle from any state of any machine, whatever the memory holds, is one cycle of the specification. *)
Lemma P_C06_cycle : forall D (ops : bus_ops D) m, typed ops -> wf m -> omap abs (next ops false m) = cycle ops (abs m).
Proof. intros D ops m T Hw. apply cycle_total; auto. Qed.
(** So are any number of cycles; in a debug build the only other possibility is a crash. *)
Lemma P_C06_run : forall D (ops : bus_ops D) oc n m, typed ops -> wf m ->
  match run ops oc n m with Ret m' => cycles ops n (abs m) = Ret (abs m') | Panic => oc = true \/ cycles ops n (abs m) = Panic end.
Proof.
  intros D ops oc n m T Hw.
  assert (G : omap abs (run ops false n m) = cycles ops n (abs m)).
  { revert m Hw. induction n as [|n IH]; intros m Hw; [reflexivity|]. cbn [run cycles]. rewrite <- (cycle_total ops T m Hw). destruct (next ops false m) as [m1|] eqn:E; cbn [omap obind]; [|reflexivity].
    apply IH. eapply next_wf; eauto. }
  destruct (run ops oc n m) as [m'|] eqn:E.
  - apply run_oc in E. rewrite E in G. symmetry. exact G.
  - destruct oc; [left; reflexivity|]. rewrite E in G. right. symmetry. exact G.
Qed.
(** CPY usp, 12; LSM 4; then (at 8, in userland) a POP to register 0x20, that does not exist: the stack pointer has moved, and 0x04 is raised. *)
Definition bad_pop : list Z := (asm [Cpy R_usp (Lit2 12); Lsm (Lit2 4)] ++ [26 * 2 ^ 27 + 32 * 2 ^ 16])%list.
Lemma E_C06_cycle : exists m m', wf m /\ c_halted m = false /\ next words_ops false m = Ret m' /\ cycle words_ops (abs m) = Ret (abs m') /\
  decode (bytes_of_word (26 * 2 ^ 27 + 32 * 2 ^ 16)) = RErr (UnknownRegister 0 32) /\ R m R_pc = 8 /\ R m' R_usp = 16 /\ R m' R_et = 4 * 65536 + 32.
Proof.
  assert (X : exists m, words_run false 0 bad_pop 2 = Ret m /\
    (negb (c_halted m) && (R m R_pc =? 8) && then_check (next words_ops false m) (fun m' => (R m' R_usp =? 16) && (R m' R_et =? 4 * 65536 + 32))) = true) by (apply then_check_sound; vm_compute; reflexivity).
  destruct X as (m & E & X). destruct (words_wf false 0 _ _ m ltac:(unfold is_u32; lia) E) as (_ & W). apply andb_prop in X. destruct X as (X & Y). apply andb_prop in X. destruct X as (X1 & X2).
  apply then_check_sound in Y. destruct Y as (m' & N & Y). apply andb_prop in Y. destruct Y as (Y1 & Y2). apply Z.eqb_eq in X2, Y1, Y2. apply negb_true_iff in X1.
  exists m, m'. split; [exact W|]. split; [exact X1|]. split; [exact N|]. split; [|split; [reflexivity|]; split; [exact X2|]; split; [exact Y1|exact Y2]].
  rewrite <- (P_C06_cycle _ words_ops m words_typed W), N. reflexivity.
Qed.
Lemma E_C06_run : exists m m', wf m /\ run words_ops true 3 m = Ret m' /\ cycles words_ops 3 (abs m) = Ret (abs m') /\ c_cycles m = 0 /\ R m' R_usp = 16 /\ R m' R_et = 4 * 65536 + 32.
Proof.
  assert (X : exists m, words_run true 0 bad_pop 0 = Ret m /\
    ((c_cycles m =? 0) && then_check (run words_ops true 3 m) (fun m' => (R m' R_usp =? 16) && (R m' R_et =? 4 * 65536 + 32))) = true) by (apply then_check_sound; vm_compute; reflexivity).
  destruct X as (m & E & X). destruct (words_wf true 0 _ _ m ltac:(unfold is_u32; lia) E) as (_ & W). apply andb_prop in X. destruct X as (X1 & Y).
  apply then_check_sound in Y. destruct Y as (m' & N & Y). apply andb_prop in Y. destruct Y as (Y1 & Y2). apply Z.eqb_eq in X1, Y1, Y2.
  exists m, m'. split; [exact W|]. split; [exact N|]. split; [|split; [exact X1|]; split; [exact Y1|exact Y2]].
  pose proof (P_C06_run _ words_ops true 3 m words_typed W) as G. rewrite N in G. exact G.
Qed.
