(** Words that the assembler's decoder rejects always end in an exception. *)
From Coq Require Import ZArith List Bool Lia.
From Verif Require Import Base Board Mem Cpu Asm SpecMach SpecIsa SpecBus SpecObs BaseFacts RegFacts MemFacts
  AluFacts IsaFacts IsaStep CycleFacts.
Import ListNotations.
Open Scope Z_scope.
Ltac Zify.zify_post_hook ::= Z.div_mod_to_equations.

Section Und.
Context {D : Type} (ops : bus_ops D) (T : typed ops).
Implicit Type m : cpu D.
Notation bs := (board_bus ops false).

(** Memory after some loads. *)
Inductive bsteps : memory D -> memory D -> Prop :=
| bs_refl mem : bsteps mem mem
| bs_load mem a mem1 ex v mem2 : bsteps mem mem1 -> is_u32 a -> mem_read ops false mem1 a = Ret (mem2, ex, v) ->
    bsteps mem mem2.
Lemma bsteps_ext mem mem' : bsteps mem mem' -> mem_ext mem mem'.
Proof. induction 1; [apply mem_ext_refl|]. eapply mem_ext_trans; eauto. eapply mem_read_ext; eauto. Qed.
Lemma bsteps_trans mem mem' mem'' : bsteps mem mem' -> bsteps mem' mem'' -> bsteps mem mem''.
Proof. intros H1 H2. revert H1. induction H2; intros; auto. eapply bs_load; [apply IHbsteps; auto|eauto|eauto]. Qed.

(** [m'] is the exception entry of a machine with the registers of [m0], except that a POP may already
    have moved the stack pointer. *)
Definition uent m0 m' : Prop :=
  exists m1 code a, m' = exception code a m1 /\ regs_wf (c_regs m1) /\ ex_code code /\ ex_data code a /\
    (file (c_regs m1) = file (c_regs m0) \/
     file (c_regs m1) = rs (file (c_regs m0)) (sp_reg (abs m0)) (m32 (R m0 (sp_reg (abs m0)) + 4))) /\
    c_cycles m1 = c_cycles m0 /\ c_halted m1 = c_halted m0 /\ bsteps (c_mem m0) (c_mem m1).
Definition U m0 {A} (x : cres D A) : Prop :=
  match x with COk _ _ => False | CErr m' => uent m0 m' | CPanic => True end.

Definition same m0 m : Prop :=
  W m /\ c_cycles m = c_cycles m0 /\ c_halted m = c_halted m0 /\ bsteps (c_mem m0) (c_mem m) /\
  (file (c_regs m) = file (c_regs m0) \/
     file (c_regs m) = rs (file (c_regs m0)) (sp_reg (abs m0)) (m32 (R m0 (sp_reg (abs m0)) + 4))).

Lemma U_exc m0 {A} code a m : same m0 m -> ex_code code -> ex_data code a -> @U m0 A (CErr (exception code a m)).
Proof. intros ([? ?] & ? & ? & ? & ?) ? ?. exists m, code, a. cbn. tauto. Qed.

Lemma U_read m0 c m (K : Z -> cpu D -> cres D unit) : same m0 m -> is_u8 c ->
  (forall x r, c = reg_code r -> is_u32 x -> U m0 (K x m)) -> U m0 (cbind (read_reg c m) K).
Proof.
  intros S Hc HK. destruct (reg_from_code c) eqn:E.
  - apply reg_code_from_code in E. subst c. rewrite read_reg_lemma by apply S.
    destruct (can_read _ r); cbn [cbind].
    + eapply HK; eauto. apply R_u32, S.
    + apply U_exc; auto; exn.
  - assert (32 <= c).
    { destruct (Z.lt_ge_cases c 32); auto. destruct (reg_from_code_total c); [unfold is_u8 in Hc; lia|congruence]. }
    rewrite read_reg_bad by (try apply S; auto). cbn [cbind]. apply U_exc; auto.
    + destruct (is_sup m); exn.
    + destruct (is_sup m); exn.
Qed.
Lemma U_rl1 m0 b p m (K : Z -> cpu D -> cres D unit) : same m0 m -> is_u8 p ->
  (forall x v, den1 b p v -> is_u32 x -> U m0 (K x m)) -> U m0 (cbind (reg_or_lit1 b p m) K).
Proof.
  intros S Hp HK. unfold reg_or_lit1. destruct b.
  - apply U_read; auto. intros x r E Hx. apply HK with (Reg1 r); cbn; auto.
  - cbn [cbind]. apply HK with (Lit1 p); cbn; auto. unfold is_u8, is_u32 in *; lia.
Qed.
Lemma U_rl2 m0 b p q m (K : Z -> cpu D -> cres D unit) : same m0 m -> is_u8 p -> is_u8 q ->
  (forall x v, den2 b p q v -> is_u32 x -> U m0 (K x m)) -> U m0 (cbind (reg_or_lit2 b p q m) K).
Proof.
  intros S Hp Hq HK. unfold reg_or_lit2. destruct b.
  - apply U_read; auto. intros x r E Hx. apply HK with (Reg2 r); cbn; auto.
  - cbn [cbind]. apply HK with (Lit2 (of_be2 p q)); cbn; auto. pose proof (of_be2_range p q Hp Hq). unfold is_u16, is_u32 in *; lia.
Qed.
Lemma U_write m0 c v m : same m0 m -> is_u8 c -> (forall r, c = reg_code r -> False) -> U m0 (write_reg c v m).
Proof.
  intros S Hc HK. 
  assert (32 <= c).
  { destruct (Z.lt_ge_cases c 32); auto. destruct (reg_from_code_total c) as [r E]; [unfold is_u8 in Hc; lia|].
    apply reg_code_from_code in E. exfalso; eauto. }
  rewrite write_reg_bad by (try apply S; auto). apply U_exc; auto.
  - destruct (is_sup m); exn.
  - destruct (is_sup m); exn.
Qed.
Lemma same_mem m0 m mem : same m0 m -> bsteps (c_mem m) mem -> same m0 (with_mem mem m).
Proof.
  intros (HW & ? & ? & ? & ?) E. split; [apply W_mem; auto; apply bsteps_ext; auto|]. split; [auto|]. split; [auto|].
  split; [|auto]. eapply bsteps_trans; eauto.
Qed.
Lemma U_mem_do {A} m0 act a (h : memory D -> Z -> outcome (memory D * Z * A)) m (K : A -> cpu D -> cres D unit) :
  same m0 m -> is_u32 a ->
  (forall mem1 mem2 ex v, h mem1 a = Ret (mem2, ex, v) -> bsteps mem1 mem2 /\ is_u16 ex) ->
  (forall mem2 v, bsteps (c_mem m) mem2 -> U m0 (K v (with_mem mem2 m))) ->
  U m0 (cbind (mem_do ops false act a h m) K).
Proof.
  intros S Ha Hh HK. unfold mem_do, ensure_aligned.
  destruct (Z.eqb_spec (a mod 4) 0) as [Hal|Hal]; cbn [cbind].
  2:{ apply U_exc; auto; exn. }
  rewrite translate_spec by (auto; apply S).
  assert (G : forall mem1, bsteps (c_mem m) mem1 ->
    U m0 (cbind (dop (mem'', ex, ret) <- h (c_mem (with_mem mem1 m)) a;
           let m := with_mem mem'' (with_mem mem1 m) in
           if negb (ex =? 0) then CErr (exception 160 ex m) else COk ret m) K)).
  { intros mem1 E. cbn [c_mem with_mem]. destruct (h mem1 a) as [[[mem2 ex] v]|] eqn:Eh; cbn [cpure]; [|exact I].
    destruct (Hh _ _ _ _ Eh). assert (bsteps (c_mem m) mem2) by (eapply bsteps_trans; eauto).
    change (with_mem mem2 (with_mem mem1 m)) with (with_mem mem2 m).
    destruct (negb (ex =? 0)); cbn [cbind]; auto.
    apply U_exc; [apply same_mem; auto|exn|exn]. }
  destruct (R m R_mtt =? 0) eqn:Emtt.
  - cbn [cpure]. apply G, bs_refl.
  - destruct (mem_read ops false (c_mem m) _) as [[[mem' ex] e]|] eqn:Er; cbn [cpure]; [|exact I].
    assert (E' : bsteps (c_mem m) mem') by (eapply bs_load; [apply bs_refl| |eauto]; apply u32_range).
    assert (is_u16 ex) by (eapply mem_read_typed; eauto).
    destruct (negb (ex =? 0)); cbn [cpure cbind].
    + apply U_exc; [apply same_mem; auto|exn|exn].
    + destruct (Z.testbit e _); cbn [cpure cbind].
      * apply U_exc; [apply same_mem; auto|exn|apply u16_ex; lia].
      * apply G; auto.
Qed.
Lemma U_load m0 act a m (K : Z -> cpu D -> cres D unit) : same m0 m -> is_u32 a ->
  (forall mem v, bsteps (c_mem m) mem -> U m0 (K v (with_mem mem m))) ->
  U m0 (cbind (mem_do ops false act a (mem_read ops false) m) K).
Proof.
  intros. apply U_mem_do; auto. intros. split; [eapply bs_load; eauto; apply bs_refl|eapply mem_read_typed; eauto].
Qed.
Lemma U_compute m0 x y o m (K : Z -> cpu D -> cres D unit) : same m0 m ->
  (forall r m', U m0 (K r m')) -> U m0 (cbind (compute x y o m) K).
Proof.
  intros S H. unfold compute. destruct (compute_core x y o) as [[[r c] ov]|code] eqn:E; cbn [cbind]; auto.
  assert (code = 10 \/ code = 11).
  { unfold compute_core in E. destruct o; try discriminate E;
    destruct (i32 y =? 0);
      repeat match type of E with context [match ?x with _ => _ end] => destruct x; try discriminate E end;
      injection E as <-; auto. }
  apply U_exc; auto; exn.
Qed.

Lemma same_refl m : W m -> same m m.
Proof. intros H. split; [auto|]. split; [auto|]. split; [auto|]. split; [apply bs_refl|auto]. Qed.

(** Operands that decode. *)
Lemma arg_reg_ok b p r : byte_at b p = reg_code r -> arg_reg b p = ROk r.
Proof. intros E. unfold arg_reg. rewrite E, reg_from_code_code. reflexivity. Qed.
Lemma arg_rl1_ok b p v : den1 (negb (Z.land (byte_at b 0) (2 ^ (3 - p)) =? 0)) (byte_at b p) v ->
  exists v', arg_rl1 b p = ROk v'.
Proof.
  unfold arg_rl1. destruct (Z.land _ _ =? 0); cbn [negb]; [eauto|].
  destruct v; cbn; intros H; [|destruct H; discriminate]. destruct H as [_ H].
  rewrite (arg_reg_ok _ _ _ H). cbn. eauto.
Qed.
Lemma arg_rl2_ok b p v : den2 (negb (Z.land (byte_at b 0) (2 ^ (3 - p)) =? 0)) (byte_at b p) (byte_at b (p + 1)) v ->
  exists v', arg_rl2 b p = ROk v'.
Proof.
  unfold arg_rl2. destruct (Z.land _ _ =? 0); cbn [negb]; [eauto|].
  destruct v; cbn [den2]; intros H; [|destruct H; discriminate]. destruct H as [_ H].
  rewrite (arg_reg_ok _ _ _ H). cbn. eauto.
Qed.

Lemma und_run i0 p0 p1 p2 m e : W m -> is_u8 i0 -> is_u8 p0 -> is_u8 p1 -> is_u8 p2 ->
  decode (i0, p0, p1, p2) = RErr e ->
  U m (run_instr ops false (Z.shiftr i0 3) (negb (Z.land i0 4 =? 0)) (negb (Z.land i0 2 =? 0))
    (negb (Z.land i0 1 =? 0)) p0 p1 p2 m).
Proof.
  intros HW H0 H1 H2 H3. unfold decode. cbv zeta. change (byte_at (i0, p0, p1, p2) 0) with i0.
  assert (Hop : 0 <= Z.shiftr i0 3 < 32).
  { rewrite Z.shiftr_div_pow2 by lia. unfold is_u8 in H0. change (2 ^ 3) with 8. lia. }
  pose proof (arg_rl1_ok (i0, p0, p1, p2) 1) as A1.
  pose proof (arg_rl1_ok (i0, p0, p1, p2) 2) as A2.
  pose proof (arg_rl1_ok (i0, p0, p1, p2) 3) as A3.
  pose proof (arg_rl2_ok (i0, p0, p1, p2) 1) as B1.
  pose proof (arg_rl2_ok (i0, p0, p1, p2) 2) as B2.
  pose proof (arg_reg_ok (i0, p0, p1, p2) 1) as C1.
  pose proof (arg_reg_ok (i0, p0, p1, p2) 2) as C2.
  pose proof (arg_reg_ok (i0, p0, p1, p2) 3) as C3.
  change (2 ^ (3 - 1)) with 4 in *. change (2 ^ (3 - 2)) with 2 in *. change (2 ^ (3 - 3)) with 1 in *.
  cbn [byte_at Z.eqb Pos.eqb Z.add Pos.add] in *.
  assert (Hcases := op_cases (Z.shiftr i0 3) Hop).
  set (op := Z.shiftr i0 3) in *. clearbody op. clear Hop.
  set (b0 := negb (Z.land i0 4 =? 0)) in *. set (b1 := negb (Z.land i0 2 =? 0)) in *.
  set (b2 := negb (Z.land i0 1 =? 0)) in *. clearbody b0 b1 b2.
  pose proof (same_refl m HW) as S.
  (* every operand decodes: contradiction *)
  Ltac bang A1 A2 A3 B1 B2 C1 C2 C3 :=
    match goal with Hd : _ = RErr _ |- _ =>
      exfalso; revert Hd;
      repeat match goal with
      | H : den1 _ ?p _ |- _ => first [destruct (A1 _ H) as [? ->] | destruct (A2 _ H) as [? ->] | destruct (A3 _ H) as [? ->]]; clear H
      | H : den2 _ _ _ _ |- _ => first [destruct (B1 _ H) as [? ->] | destruct (B2 _ H) as [? ->]]; clear H
      | H : _ = reg_code _ |- _ => first [rewrite (C1 _ H) | rewrite (C2 _ H) | rewrite (C3 _ H)]; clear H
      end; cbn [rbind]; discriminate
    end.
  assert (S' : forall mem, bsteps (c_mem m) mem -> same m (with_mem mem m)) by (intros; apply same_mem; auto).
  repeat (destruct Hcases as [-> | Hcases]); [..|subst op]; cbv beta iota; intros Hd; unfold run_instr; cbv zeta;
    try (apply U_exc; auto; [exn|exn]);
    repeat first
    [ progress (intros)
    | discriminate
    | bang A1 A2 A3 B1 B2 C1 C2 C3
    | apply U_rl1; [now auto|now auto|]
    | apply U_rl2; [now auto|now auto|now auto|]
    | apply U_read; [now auto|now auto|]
    | apply U_compute; [now auto|]
    | apply U_load; [now auto|apply u32_range|]
    | apply U_write; [now auto|now auto|]
    | match goal with |- U _ (if sv_mode ?m then _ else _) => destruct (sv_mode m) end
    | apply U_exc; [now auto|exn|exn]
    | apply U_exc; [now auto|exn|apply u16_ex; lia]
    ].
  1, 2: (* Shl, Shr: the decoder reads a one-byte operand *)
    exfalso; revert Hd; rewrite (C1 _ H5);
    assert (exists v', den1 b1 p1 v') as [v' Hv']
      by (destruct v as [r1|n]; cbn [den2] in H; [exists (Reg1 r1)|exists (Lit1 p1)]; cbn; tauto);
    destruct (A2 _ Hv') as [? ->]; discriminate.
  - (* Srm *) unfold is_u32 in *. rewrite add_u32_release by lia. cbn [cpure].
    apply U_load; auto. apply u32_range. intros. apply U_read; auto. intros.
    bang A1 A2 A3 B1 B2 C1 C2 C3.
  - (* Pop *)
    assert (E : U m (doc v, m0 <- cpu_mem_read ops false (sp m) m;
       write_reg p0 v (set_sp (wrapping_add (sp m0) 4) m0))).
    { apply U_load; auto. { rewrite sp_spec by auto. apply R_u32, HW. }
      intros mem v Hm. pose proof (S' _ Hm) as (HW' & ? & ? & ? & Hf).
      apply U_write; auto.
      - rewrite set_sp_spec, sp_spec by auto. split; [apply W_wr; auto; apply u32_range|].
        split; [auto|]. split; [auto|]. split; [auto|]. right. rewrite file_wr by apply HW'. reflexivity.
      - intros r Er. bang A1 A2 A3 B1 B2 C1 C2 C3. }
    destruct (cpu_mem_read ops false (sp m) m); exact E.
  - (* Hwd *) destruct ((x =? 0) && (x0 =? 0)).
    + apply U_write; auto. intros. bang A1 A2 A3 B1 B2 C1 C2 C3.
    + destruct (get_hw_info_spec x0 x m HW H6 H4) as [E _]. rewrite E.
      destruct (info_spec (c_mem m) x x0) as [[code data]|vi] eqn:Ei; cbn [cbind].
      * assert (ex_code code /\ ex_data code data) as [? ?].
        { assert (HX : forall c k, inl (c, k) = inl (code, data) :> Z * Z + Z -> ex_code c -> ex_data c k -> ex_code code /\ ex_data code data)
            by (intros ? ? X; injection X as -> ->; auto).
          unfold info_spec in Ei.
          repeat match type of Ei with context [match ?x with _ => _ end] => destruct x; try discriminate Ei end;
            (eapply HX; [exact Ei|exn|apply u16_ex; lia]). }
        apply U_exc; auto.
      * apply U_write; auto. intros. bang A1 A2 A3 B1 B2 C1 C2 C3.
Qed.

Lemma exec_word_und w m e : W m -> decode (bytes_of_word w) = RErr e -> U m (exec_word ops w m).
Proof.
  intros HW Hd. unfold exec_word. cbv zeta.
  assert (Hd' : decode (u8 (Z.shiftr w 24), u8 (Z.shiftr w 16), u8 (Z.shiftr w 8), u8 w) = RErr e).
  { rewrite <- Hd. unfold bytes_of_word. rewrite !Z.shiftr_div_pow2 by lia. reflexivity. }
  pose proof (und_run _ _ _ _ (with_chg false m) _ (W_chg _ _ HW) (u8_range _) (u8_range _) (u8_range _) (u8_range _) Hd').
  exact H.
Qed.
End Und.
