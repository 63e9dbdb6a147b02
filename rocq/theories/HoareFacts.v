(** A generic induction principle for one instruction of the specification: [J] holds of the
    intermediate states, [P] of the final ones. *)
From Coq Require Import ZArith List Bool Lia.
From Verif Require Import Base Board Mem Cpu Asm SpecMach SpecIsa SpecBus BaseFacts RegFacts AluFacts.
Import ListNotations.
Open Scope Z_scope.
Ltac Zify.zify_post_hook ::= Z.div_mod_to_equations.

Section Hoare.
Context {B : Type} (bs : bus B) (i : instr).
Implicit Type s : st B.
Variables J P : st B -> Prop.

Definition post (o : outcome (st B)) : Prop := match o with Ret s' => P s' | Panic => True end.
Definition raise_st (code data : Z) s : st B :=
  put (put (put s R_et ((if sup s then 16777216 else 0) + code * 65536 + data)) R_pc (get s R_ev)) R_smt 1.

Record closed : Prop := {
  h_wf : forall s, J s -> length (s_reg s) = 32%nat /\ Forall is_u32 (s_reg s);
  h_load : forall s a b ex v, J s -> is_u32 a -> bus_load bs (s_bus s) a = Ret (b, ex, v) ->
      is_u16 ex /\ is_u32 v /\ J (with_bus s b);
  h_store : forall s a w b ex, J s -> is_u32 a -> is_u32 w -> bus_store bs (s_bus s) a w = Ret (b, ex) ->
      is_u16 ex /\ J (with_bus s b);
  h_info : forall s id info v, J s -> bus_info bs (s_bus s) id info = inr v -> is_u32 v;
  h_info_err : forall s id info c d, J s -> bus_info bs (s_bus s) id info = inl (c, d) -> ex_code c /\ ex_data c d;
  h_count : forall s, J s -> is_u32 (bus_count bs (s_bus s));
  h_write : forall s r v, J s -> can_write (sup s) r = true -> is_u32 v -> J (put s r v);
  h_af : forall s r c o, J s -> is_u32 r -> J (put s R_af (flags_spec r c o));
  h_sp : forall s v, J s -> is_u32 v -> J (put s (sp_reg s) v);
  h_raise : forall s code data, J s -> ex_code code -> ex_data code data -> P (raise_st code data s);
  h_fin : forall s, J s -> P s;
  h_pc : forall s v, J s -> is_u32 v -> P (put s R_pc v);
  h_lsm : forall s x v w, i = Lsm v -> J s -> sup s = true -> is_u32 x -> is_u32 w ->
      P (put (put (put s R_pc x) R_smt 0) R_pc w);
  h_halt : forall s v, i = Halt -> J s -> is_u32 v ->
      P (put (St (s_reg s) (s_bus s) (s_cyc s) true) R_pc v);
  h_reset : forall s v sel b, i = Reset v -> J s -> bus_reset bs (s_bus s) sel = Ret b ->
      P (St reset_file b 0 false) /\ forall w, is_u32 w -> P (put (with_bus s b) R_pc w)
}.
Context (C : closed).

Lemma post_raise code data s : J s -> ex_code code -> ex_data code data -> post (raise code data s).
Proof. intros. exact (h_raise C s code data H H0 H1). Qed.
Lemma get_u32 s r : J s -> is_u32 (get s r).
Proof. intros H. apply rg_u32. apply (h_wf C s H). Qed.
Lemma post_advance n s : J s -> post (advance n s).
Proof. intros. apply (h_pc C); auto. apply u32_range. Qed.
Lemma code_u16 r : is_u16 (reg_code r).
Proof. pose proof (reg_code_range r). exn. Qed.
Lemma code_u8 r : is_u8 (reg_code r).
Proof. pose proof (reg_code_range r). exn. Qed.
Lemma post_read r s k : J s -> (forall x, is_u32 x -> post (k x)) -> post (read r s k).
Proof.
  intros H Hk. unfold read. destruct (can_read _ _).
  - apply Hk, get_u32; auto.
  - apply post_raise; auto using code_ex3, code_ex4. exn.
Qed.
Definition ok1 (v : rl1) := match v with Reg1 _ => True | Lit1 n => is_u8 n end.
Definition ok2 (v : rl2) := match v with Reg2 _ => True | Lit2 n => is_u16 n end.
Lemma post_read1 v s k : ok1 v -> J s -> (forall x, is_u32 x -> post (k x)) -> post (read1 v s k).
Proof.
  intros Hv H Hk. destruct v; cbn [read1]; [apply post_read; auto|].
  apply Hk. unfold ok1, is_u8, is_u32 in *; lia.
Qed.
Lemma post_read2 v s k : ok2 v -> J s -> (forall x, is_u32 x -> post (k x)) -> post (read2 v s k).
Proof.
  intros Hv H Hk. destruct v; cbn [read2]; [apply post_read; auto|].
  apply Hk. unfold ok2, is_u16, is_u32 in *; lia.
Qed.
Lemma post_write r v s k : J s -> is_u32 v -> (forall s', J s' -> post (k s')) -> post (write r v s k).
Proof.
  intros H Hv Hk. unfold write. destruct (can_write _ _) eqn:E.
  - apply Hk. apply (h_write C); auto.
  - apply post_raise; auto using code_ex3, code_ex4. exn.
Qed.
Lemma post_fin s : J s -> post (Ret s).
Proof. apply (h_fin C). Qed.
Lemma post_write_end r v s : J s -> is_u32 v -> post (write_end r v s).
Proof.
  intros. unfold write_end. apply post_write; auto. intros s' Hs'.
  destruct r; auto using post_advance, post_fin.
Qed.
Lemma post_access a s k : J s -> is_u32 a ->
  (forall s', J s' -> post (k s')) -> post (access bs a s k).
Proof.
  intros H Ha Hk. unfold access. destruct (a mod 4 =? 0) eqn:Ea; cbn [negb].
  2:{ apply post_raise; auto; exn. }
  destruct (get s R_mtt =? 0); auto.
  destruct (bus_load bs (s_bus s) _) as [[[b ex] e]|] eqn:El; [|exact I]. cbv zeta.
  apply (h_load C) in El; auto; [|apply u32_range]. destruct El as (? & ? & ?).
  destruct (negb (ex =? 0)). { apply post_raise; auto; exn. }
  destruct (Z.testbit e _); auto.
  apply post_raise; auto; exn.
Qed.
Lemma post_load a s k : J s -> is_u32 a ->
  (forall v s', is_u32 v -> J s' -> post (k v s')) -> post (load bs a s k).
Proof.
  intros H Ha Hk. unfold load. apply post_access; auto. intros s' H'.
  destruct (bus_load bs (s_bus s') a) as [[[b ex] v]|] eqn:El; [|exact I].
  apply (h_load C) in El; auto. destruct El as (? & ? & ?).
  destruct (negb (ex =? 0)); auto. apply post_raise; auto; exn.
Qed.
Lemma post_store a w s k : J s -> is_u32 a -> is_u32 w ->
  (forall s', J s' -> post (k s')) -> post (store bs a w s k).
Proof.
  intros H Ha Hw Hk. unfold store. apply post_access; auto. intros s' H'.
  destruct (bus_store bs (s_bus s') a w) as [[b ex]|] eqn:El; [|exact I].
  apply (h_store C) in El; auto. destruct El as (? & ?).
  destruct (negb (ex =? 0)); auto. apply post_raise; auto; exn.
Qed.
Lemma alu_fault a x y code : alu_spec a x y = AluFault code -> code = 10 \/ code = 11.
Proof.
  assert (G : forall b md, divide b md x y = AluFault code -> code = 10 \/ code = 11).
  { intros b md. unfold divide.
    destruct (y =? 0). { destruct (by_zero md); intros E; [discriminate|injection E as <-; auto]. }
    destruct (Z.testbit md 4); [|discriminate].
    destruct (_ && _); intros E; [injection E as <-; auto|discriminate]. }
  destruct a; cbn [alu_spec]; try discriminate; apply G.
Qed.
Lemma post_arith a d y s keep : J s -> is_u32 y -> post (arith a d y s keep).
Proof.
  intros H Hy. unfold arith. apply post_read; auto. intros x Hx.
  destruct (alu_spec a x y) as [r c o|code] eqn:E; cbv zeta.
  - pose proof (alu_range _ _ _ _ _ _ Hx Hy E).
    destruct keep; [apply post_write_end|apply post_advance]; auto; apply (h_af C); auto.
  - apply alu_fault in E. apply post_raise; auto; exn.
Qed.

Definition ok_instr (j : instr) : Prop :=
  match j with
  | Cpy _ v | Add _ v | Sub _ v | Mul _ v | And _ v | Bor _ v | Xor _ v | Cmp _ v
  | Jpr v | Lsm v | Push v | Call v => ok2 v
  | Shl _ v | Shr _ v | Itr v | If v | IfN v | Reset v => ok1 v
  | Div _ v w | Mod _ v w | Lsa _ v w | Srm v w _ | Hwd _ v w => ok1 v /\ ok1 w
  | If2 u v w | Lea u v w | Wsa u v w | Wea u v w => ok1 u /\ ok1 v /\ ok1 w
  | Ex _ _ | Pop _ | Cycles _ | Halt => True
  end.

Lemma step_post s : ok_instr i -> J s -> post (step bs i s).
Proof.
  intros Hok Hs.
  assert (G : forall j, i = j -> ok_instr j -> post (step bs j s)); [|auto]. clear Hok. intros j Ej Hok.
  destruct j; cbn [ok_instr] in Hok;
    repeat match goal with H : _ /\ _ |- _ => destruct H end; cbn [step];
    try (repeat first
      [ progress intros
      | apply post_read1; [now auto|now auto|]
      | apply post_read2; [now auto|now auto|]
      | apply post_arith; [now auto|now auto]
      | apply post_write_end; [now auto|first [now auto|apply u32_range]]
      | apply post_read; [now auto|]
      | apply post_load; [now auto|apply u32_range|]
      | apply post_store; [now auto|apply u32_range|now auto|]
      | apply post_advance; now auto]; fail).
  - (* Ex *) apply post_read; auto. intros x Hx. apply post_read; auto. intros y Hy.
    apply post_write; auto. intros. apply post_write; auto. intros.
    destruct a; auto using post_fin; destruct b; auto using post_fin, post_advance.
  - (* Lsm *) destruct (sup s) eqn:Es.
    + apply post_read2; auto. intros. eapply (h_lsm C); eauto. apply u32_range.
    + apply post_raise; auto; exn.
  - (* Itr *) apply post_read1; auto. intros. apply post_raise; auto; [exn|apply u16_ex; lia].
  - (* If *) apply post_read1; auto. intros. destruct (7 <? x).
    + apply post_raise; auto; exn.
    + destruct (flag_of s x); auto using post_advance.
  - (* IfN *) apply post_read1; auto. intros. destruct (7 <? x).
    + apply post_raise; auto; exn.
    + destruct (flag_of s x); auto using post_advance.
  - (* If2 *) apply post_read1; auto. intros. apply post_read1; auto. intros. apply post_read1; auto. intros.
    destruct (cond_spec _ _ _) as [[]|]; auto using post_advance.
    apply post_raise; auto; exn.
  - (* Lea *) apply post_read1; auto. intros. apply post_read1; auto. intros. apply post_read1; auto. intros.
    apply post_load; auto; [apply u32_range|]. intros. apply post_advance. apply (h_write C); auto.
    unfold can_write; cbn. apply orb_true_r.
  - (* Wea *) apply post_read1; auto. intros. apply post_read1; auto. intros. apply post_read1; auto. intros.
    apply post_store; auto; [apply u32_range|apply get_u32; auto|]. intros. apply post_advance. auto.
  - (* Push *) apply post_read2; auto. intros. cbv zeta. apply post_store; auto; [apply u32_range|].
    intros. apply post_advance. apply (h_sp C); auto. apply u32_range.
  - (* Pop *) apply post_load; auto; [apply get_u32; auto|]. intros. apply post_write_end; auto.
    apply (h_sp C); auto. apply u32_range.
  - (* Call *) apply post_read2; auto. intros. cbv zeta. apply post_store; auto; try apply u32_range.
    intros. apply (h_pc C); auto. apply (h_sp C); auto. apply u32_range.
  - (* Hwd *) apply post_read1; auto. intros. apply post_read1; auto. intros.
    destruct (_ && _). { apply post_write_end; auto. apply (h_count C); auto. }
    destruct (bus_info _ _ _ _) as [[code data]|v] eqn:E.
    + apply (h_info_err C) in E; auto. destruct E. apply post_raise; auto.
    + apply post_write_end; auto. eapply (h_info C); eauto.
  - (* Halt *) apply (h_halt C); auto. apply u32_range.
  - (* Reset *) apply post_read1; auto. intros.
    destruct (reset_selected _ _ _); [|apply post_raise; auto; [exn|apply u16_ex; lia]].
    destruct (bus_reset _ _ _) eqn:E; [|exact I]. cbv zeta.
    pose proof (fun x => h_reset C s _ b a0 Ej Hs x) as HR.
    destruct (HR E) as [P1 P2]. destruct (_ =? 0); [exact P1|apply P2, u32_range].
Qed.
End Hoare.
