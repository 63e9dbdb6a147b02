(** Every instruction either raises an exception, from a state that differs only in few registers,
    or ends normally, having changed only its targets. *)
From Coq Require Import ZArith List Bool Lia.
From Verif Require Import Base Board Mem Cpu Asm SpecMach SpecIsa SpecBus SpecObs BaseFacts RegFacts MemFacts
  AluFacts IsaFacts IsaStep MonoFacts CycleFacts UndFacts HoareFacts CyclePost InvFacts ExecFacts.
Import ListNotations.
Open Scope Z_scope.
Ltac Zify.zify_post_hook ::= Z.div_mod_to_equations.

Lemma get_put_eq {B} (s : st B) r v : length (s_reg s) = 32%nat -> get (put s r v) r = v.
Proof. intros H. unfold get, put. cbn [s_reg]. rewrite rg_rs by auto. destruct (reg_eq_dec r r); congruence. Qed.

Section Cases.
Context {D : Type} (ops : bus_ops D) (T : typed ops).
Notation bs := (board_bus ops false).
Notation st := (st (memory D)).
Implicit Types s : st.
Variable s0 : st.

Variable stk : bool * bool.
(** Register [r] may be set to [v]: it is writable in the current mode, or the flags register, or the stack
    pointer moved by a stack instruction. *)
Definition okput (r : reg) (v : Z) : Prop :=
  can_write (sup s0) r = true \/ (snd stk = true /\ r = R_af) \/
  (fst stk = true /\ r = sp_reg s0 /\ (v = m32 (get s0 r - 4) \/ v = m32 (get s0 r + 4))).
(** Like [s0], except for the memory and the registers [l]. *)
Definition near (l : list reg) s : Prop :=
  wfs s /\ mem_ext (s_bus s0) (s_bus s) /\ s_cyc s = s_cyc s0 /\ s_halt s = s_halt s0 /\
  (forall r, ~ In r l -> get s r = get s0 r) /\ (forall r, get s r = get s0 r \/ okput r (get s r)).
Lemma un_pc v : okput R_pc v. Proof. unfold okput, can_write. cbn. rewrite orb_true_r. auto. Qed.
Lemma un_avr v : okput R_avr v. Proof. unfold okput, can_write. cbn. rewrite orb_true_r. auto. Qed.
Lemma un_af v : snd stk = true -> okput R_af v. Proof. unfold okput. tauto. Qed.
Lemma un_sup l s : near l s -> sup s0 = false -> sup s = false.
Proof.
  intros (_ & _ & _ & _ & _ & H) Hs. unfold sup in *. destruct (H R_smt) as [->|[X|[X|(_ & X & _)]]]; auto.
  - unfold sup, can_write in X. rewrite Hs in X. discriminate X.
  - destruct X; discriminate.
  - unfold sp_reg in X. destruct (sup s0); discriminate X.
Qed.
Lemma un_write l s r v : near l s -> can_write (sup s) r = true -> okput r v.
Proof.
  intros H Hc. left. destruct (sup s0) eqn:E.
  - unfold can_write in *. apply andb_true_iff in Hc. destruct Hc as [-> _]. reflexivity.
  - rewrite (un_sup _ _ H E) in Hc. exact Hc.
Qed.
Lemma un_dec r : fst stk = true -> r = sp_reg s0 -> okput r (m32 (get s0 r - 4)). Proof. unfold okput. auto 10. Qed.
Lemma un_inc r : fst stk = true -> r = sp_reg s0 -> okput r (m32 (get s0 r + 4)). Proof. unfold okput. auto 10. Qed.
Hint Resolve un_pc un_avr un_af un_write u32_range : near.

Definition cases (pl : list reg) (N : st -> Prop) (o : outcome st) : Prop :=
  match o with
  | Panic => True
  | Ret s' => (exists s1 code data, near pl s1 /\ ex_code code /\ ex_data code data /\ s' = raise_st code data s1) \/ N s'
  end.

Lemma near_incl l l' s : near l s -> (forall r, In r l -> In r l') -> near l' s.
Proof. intros (? & ? & ? & ? & H & H') I. split; auto. split; auto. split; auto. split; auto. split; auto. Qed.
Lemma near_put l s r v : near l s -> is_u32 v -> okput r v -> near (r :: l) (put s r v).
Proof.
  intros (Hw & He & Hc & Hh & H & H') Hv HL. split; [apply wfs_put; auto|]. split; auto. split; auto. split; auto. split.
  2:{ intros r'. unfold get, put. cbn [s_reg]. rewrite rg_rs by apply Hw. destruct (reg_eq_dec r' r); [subst; right; exact HL|]. apply H'; auto. }
  intros r' Hr. unfold get, put. cbn [s_reg]. rewrite rg_rs by apply Hw. destruct (reg_eq_dec r' r).
  - subst. exfalso. apply Hr. left; auto.
  - apply H. intros X. apply Hr. right; auto.
Qed.
Lemma near_bus l s b : near l s -> mem_ext (s_bus s) b -> near l (with_bus s b).
Proof.
  intros (Hw & He & Hc & Hh & H & H') Hv. split; [apply wfs_bus; auto|]. split; [eapply mem_ext_trans; eauto|]. split; auto.
Qed.
Lemma c_raise pl N code data s : near pl s -> ex_code code -> ex_data code data -> cases pl N (raise code data s).
Proof. intros. left. exists s, code, data. auto. Qed.
Lemma c_raise' N code data s : near [] s -> ex_code code -> ex_data code data -> forall pl, cases pl N (raise code data s).
Proof. intros. apply c_raise; auto. eapply near_incl; eauto. intros ? []. Qed.
Lemma c_read pl N r s k : near [] s -> (is_u32 (get s r) -> can_read (sup s) r = true -> cases pl N (k (get s r))) -> cases pl N (read r s k).
Proof.
  intros H Hk. unfold read. destruct (can_read _ _). { apply Hk; auto. apply wfs_get, H. }
  apply c_raise'; auto using code_ex3, code_ex4. exn.
Qed.
Lemma c_read1 pl N v s k : ok1 v -> near [] s -> (forall x, is_u32 x -> cases pl N (k x)) -> cases pl N (read1 v s k).
Proof.
  intros Hv H Hk. destruct v; cbn [read1]; [apply c_read; auto|]. apply Hk. unfold ok1, is_u8, is_u32 in *; lia.
Qed.
Lemma c_read2 pl N v s k : ok2 v -> near [] s -> (forall x, is_u32 x -> cases pl N (k x)) -> cases pl N (read2 v s k).
Proof.
  intros Hv H Hk. destruct v; cbn [read2]; [apply c_read; auto|]. apply Hk. unfold ok2, is_u16, is_u32 in *; lia.
Qed.
Lemma c_write pl N r v s k : near pl s -> (can_write (sup s) r = true -> cases pl N (k (put s r v))) -> cases pl N (write r v s k).
Proof.
  intros H Hk. unfold write. destruct (can_write _ _); auto.
  apply c_raise; auto using code_ex3, code_ex4. exn.
Qed.
(** Normal end: registers outside [l] and pc are those of [s0]. *)
Definition plain l s' : Prop := near (R_pc :: l) s' /\ (~ In R_pc l -> get s' R_pc = m32 (get s0 R_pc + 4)).
Lemma c_write_end pl l r v s : near pl s -> (forall x, In x pl -> In x l) -> In r l -> ~ In R_pc pl -> is_u32 v ->
  cases pl (plain l) (write_end r v s).
Proof.
  intros H I Ir Hp Hv. unfold write_end. apply c_write; auto. intros Hc. assert (HU : okput r v) by (eapply un_write; eauto).
  assert (Hpc : get s R_pc = get s0 R_pc) by (destruct H as (_ & _ & _ & _ & X & _); apply X; auto).
  destruct (reg_eq_dec r R_pc) as [->|Hr].
  - right. split; [|tauto]. eapply near_incl; [apply near_put; eauto with near|]. intros x [<-|X]; [left|right]; auto.
  - assert (G : cases pl (plain l) (advance 4 (put s r v))).
    { right. split.
      - eapply near_incl; [apply near_put; [apply near_put|..]; eauto with near|].
        intros x [<-|[<-|X]]; [left|right|right]; auto.
      - intros _. unfold get, put. cbn [s_reg]. rewrite rg_rs. 2:{ rewrite rs_length. apply H. }
        destruct (reg_eq_dec R_pc R_pc); [|congruence]. rewrite rg_rs by apply H.
        destruct (reg_eq_dec R_pc r); [congruence|]. unfold get in Hpc. rewrite Hpc. reflexivity. }
    destruct r; auto; congruence.
Qed.
Lemma c_advance pl l s : near l s -> ~ In R_pc l -> cases pl (plain l) (advance 4 s).
Proof.
  intros H Hp. right. split.
  - apply near_put; auto with near.
  - intros _. unfold get, put. cbn [s_reg]. rewrite rg_rs by apply H. destruct (reg_eq_dec R_pc R_pc); [|congruence].
    destruct H as (_ & _ & _ & _ & H & _). specialize (H R_pc Hp). unfold get in H. rewrite H; auto.
Qed.
Lemma c_access pl N a s k : near [] s -> (forall s', near [] s' -> cases pl N (k s')) -> cases pl N (access bs a s k).
Proof.
  intros H Hk. unfold access. destruct (a mod 4 =? 0) eqn:Ea; cbn [negb].
  2:{ apply c_raise'; auto; exn. }
  destruct (get s R_mtt =? 0); auto.
  destruct (bus_load bs (s_bus s) _) as [[[b ex] e]|] eqn:El; [|exact I]. cbv zeta. cbn [bus_load board_bus] in El.
  assert (N' : near [] (with_bus s b)) by (apply near_bus; auto; eapply mem_read_ext; eauto).
  apply mem_read_typed in El; auto.
  destruct (negb (ex =? 0)). { apply c_raise'; auto; exn. }
  destruct (Z.testbit e _); auto.
  apply c_raise'; auto; exn.
Qed.
Lemma c_load pl N a s k : near [] s -> (forall v s', is_u32 v -> near [] s' -> cases pl N (k v s')) -> cases pl N (load bs a s k).
Proof.
  intros H Hk. unfold load. apply c_access; auto. intros s' H'.
  destruct (bus_load bs (s_bus s') a) as [[[b ex] v]|] eqn:El; [|exact I]. cbn [bus_load board_bus] in El.
  assert (N' : near [] (with_bus s' b)) by (apply near_bus; auto; eapply mem_read_ext; eauto).
  apply mem_read_typed in El; auto. destruct El.
  destruct (negb (ex =? 0)); auto. apply c_raise'; auto; exn.
Qed.
Lemma c_store pl N a w s k : near [] s -> (forall s', near [] s' -> cases pl N (k s')) -> cases pl N (store bs a w s k).
Proof.
  intros H Hk. unfold store. apply c_access; auto. intros s' H'.
  destruct (bus_store bs (s_bus s') a w) as [[b ex]|] eqn:El; [|exact I]. cbn [bus_store board_bus] in El.
  assert (N' : near [] (with_bus s' b)) by (apply near_bus; auto; eapply mem_write_ext; eauto).
  apply mem_write_typed in El; auto.
  destruct (negb (ex =? 0)); auto. apply c_raise'; auto; exn.
Qed.
Lemma c_arith a d y s : snd stk = true -> near [] s -> is_u32 y -> cases [R_af] (plain [d; R_af]) (arith a d y s true).
Proof.
  intros Ha H Hy. unfold arith. apply c_read; auto. intros Hx _.
  destruct (alu_spec a (get s d) y) as [r c o|code] eqn:E; cbv zeta.
  - pose proof (alu_range _ _ _ _ _ _ Hx Hy E). apply c_write_end; auto.
    + apply near_put; auto using flags_u32 with near.
    + cbn. tauto.
    + cbn. tauto.
    + intros [X|[]]; discriminate.
  - apply alu_fault in E. apply c_raise'; auto; exn.
Qed.
Lemma c_cmp y s d : snd stk = true -> near [] s -> is_u32 y -> cases [] (plain [R_af]) (arith ASub d y s false).
Proof.
  intros Ha H Hy. unfold arith. apply c_read; auto. intros Hx _.
  destruct (alu_spec ASub (get s d) y) as [r c o|code] eqn:E; cbv zeta.
  - apply c_advance. { apply near_put; auto using flags_u32 with near. } intros [X|[]]; discriminate.
  - apply alu_fault in E. apply c_raise'; auto; exn.
Qed.
Lemma near_refl : wfs s0 -> near [] s0.
Proof. intros H. split; [auto|]. split; [apply mem_ext_refl|auto]. Qed.
Lemma c_mono pl (N N' : st -> Prop) o : cases pl N o -> (forall s, N s -> N' s) -> cases pl N' o.
Proof. destruct o; cbn; auto. intros [H|H] I; auto. Qed.
End Cases.
Global Hint Resolve un_pc un_avr un_af un_write u32_range : near.

(** Registers meant to change, for the state of a machine. *)
Section StepCases.
Context {D : Type} (ops : bus_ops D) (T : typed ops).
Implicit Type m : cpu D.
Notation bs := (board_bus ops false).

Definition is_stack (i : instr) : bool * bool :=
  (match i with Push _ | Pop _ | Call _ => true | _ => false end,
   match i with Cmp _ _ => true | _ => match arith_dest i with Some _ => true | None => false end end).
Definition normal m (s0 : st (memory D)) (i : instr) (s : st (memory D)) : Prop :=
  (resets_cpu m i /\ s_reg s = reset_file /\ s_cyc s = 0 /\ s_halt s = false) \/
  ((i = Halt -> s_halt s = true) /\ (i <> Halt -> s_halt s = s_halt s0) /\
   s_cyc s = s_cyc s0 /\ wfs s /\ mem_ext (s_bus s0) (s_bus s) /\ (forall r, get s r = get s0 r \/ okput s0 (is_stack i) r (get s r)) /\
   (forall r, ~ In r (R_pc :: targets m i) -> get s r = get s0 r) /\
   (~ In R_pc (targets m i) -> ~ jumps i ->
      get s R_pc = m32 (get s0 R_pc + 4) \/ conditional i /\ get s R_pc = m32 (get s0 R_pc + 8)) /\
   (forall v, i = Lsm v -> sup_mode m = true /\ get s R_smt = 0)).

Lemma plain_normal m s0 i s : plain s0 (is_stack i) (targets m i) s -> (i <> Halt) -> (forall v, i <> Lsm v) -> normal m s0 i s.
Proof.
  intros ((H1 & H2 & H3 & H4 & H5 & H5') & H6) N1 N2. right. split; [congruence|]. split; [auto|]. split; [auto|]. split; [auto|].
  split; [auto|]. split; [auto|]. split; [auto|]. split; [auto|]. intros v E. destruct (N2 _ E).
Qed.

Lemma sp_not_pc m : sp_of m <> R_pc.
Proof. unfold sp_of. destruct (sup_mode m); discriminate. Qed.
Lemma can_write_regs (b : bool) r : can_write b r = true -> r <> R_af.
Proof. destruct r; try discriminate; cbn; intros; discriminate. Qed.

Lemma near_sup (s0 s : st (memory D)) k l : near s0 k l s -> ~ In R_smt l -> sup s = sup s0.
Proof. intros (_ & _ & _ & _ & H & _) N. unfold sup. rewrite H; auto. Qed.

Ltac np := apply plain_normal; [assumption|discriminate|intros ? X; discriminate X].

Lemma step_cases m mem i : wf m -> mem_wf mem -> ok_instr i ->
  cases (start m mem) (is_stack i) (partial_targets m i) (normal m (start m mem) i) (step bs i (start m mem)).
Proof.
  intros Hw Hm Hok. set (s0 := start m mem). set (k := is_stack i).
  assert (W0 : wfs s0).
  { destruct (wfs_ticked m Hw) as (? & ? & _ & ?). split; [auto|]. split; [auto|]. split; auto. }
  pose proof (near_refl s0 k W0) as N0.
  assert (Sp : forall s', near s0 k [] s' -> sp_reg s' = sp_of m).
  { intros s' H. unfold sp_reg, sp_of. rewrite (near_sup _ _ _ _ H); auto. }
  assert (PL : forall pl l, targets m i = l -> (i <> Halt) -> (forall v, i <> Lsm v) ->
     forall o, cases s0 k pl (plain s0 k l) o -> cases s0 k pl (normal m s0 i) o).
  { intros pl l <- N1 N2 o H. eapply c_mono; eauto. intros. apply plain_normal; auto. }
  destruct i; cbn [ok_instr] in Hok; cbn [partial_targets]; cbn [step]; cbn [is_stack] in k;
    repeat match goal with H : _ /\ _ |- _ => destruct H end;
    try (repeat first
      [ apply c_read1; [now auto|now auto|intros]
      | apply c_read2; [now auto|now auto|intros]
      | apply c_load; [exact T|now auto|intros]
      | apply c_store; [exact T|now auto|intros] ];
      (eapply PL; [reflexivity|discriminate|intros ? X; discriminate X|]);
      first
      [ apply c_arith; now auto
      | apply c_cmp; now auto
      | apply c_write_end; [assumption|now auto|left; reflexivity|intros []|first [assumption|apply u32_range]]
      | apply c_advance; [assumption|intros []]
      | apply c_advance; [apply near_put; now auto with near|intros [X|[]]; discriminate X] ]; fail).
  - (* Ex *)
    apply c_read; auto. intros Hx _. apply c_read; auto. intros Hy _.
    unfold write at 1. destruct (can_write _ _) eqn:Ea.
    2:{ apply c_raise'; auto using code_ex3, code_ex4. exn. }
    set (s1 := put s0 a (get s0 b)).
    assert (N1 : near s0 k [a] s1) by (apply near_put; eauto with near).
    apply c_write; auto. intros Hb.
    set (s2 := put s1 b (get s0 a)).
    assert (N2 : near s0 k [b; a] s2) by (apply near_put; eauto with near).
    assert (N2' : near s0 k [a; b] s2) by (eapply near_incl; eauto; cbn; tauto).
    assert (Hend : In R_pc [a; b] -> cases s0 k [a] (normal m s0 (Ex a b)) (Ret s2)).
    { intros Hp. right. right. destruct N2' as (Q1 & Q2 & Q3 & Q4 & Q5 & Q6).
      split; [discriminate|]. split; [auto|]. split; [auto|]. split; [auto|]. split; [auto|]. split; [auto|]. split.
      - intros r Hr. apply Q5. intros X. apply Hr. right. exact X.
      - split; [|discriminate]. intros Hn. destruct (Hn Hp). }
    assert (Hadv : ~ In R_pc [a; b] -> cases s0 k [a] (normal m s0 (Ex a b)) (advance 4 s2)).
    { intros Hp. eapply PL; [reflexivity|discriminate|discriminate|]. apply c_advance; auto. }
    destruct (reg_eq_dec a R_pc) as [->|Na]; [apply Hend; left; auto|].
    destruct (reg_eq_dec b R_pc) as [->|Nb].
    + assert (E : match a with R_pc | _ => Ret s2 end = Ret s2) by (destruct a; auto).
      destruct a; apply Hend; cbn; tauto.
    + assert (~ In R_pc [a; b]) by (cbn; intuition congruence).
      destruct a; try congruence; destruct b; try congruence; apply Hadv; auto.
  - (* Jpr *)
    apply c_read2; auto. intros x Hx. cbv zeta. right. right.
    assert (near s0 k [R_pc] (put s0 R_pc (m32 (get s0 R_pc + (let y := x mod 65536 in if y <? 32768 then y else y - 65536))))) as (Q1 & Q2 & Q3 & Q4 & Q5 & Q6)
      by (apply near_put; auto with near).
    split; [discriminate|]. split; [auto|]. split; [auto|]. split; [auto|]. split; [auto|]. split; [auto|]. split.
    + intros r Hr. apply Q5. exact Hr.
    + split; [|discriminate]. intros _ Hj. destruct Hj; exact I.
  - (* Lsm *)
    change (sup s0) with (sup_mode m). destruct (sup_mode m) eqn:Es.
    2:{ apply c_raise'; auto; exn. }
    apply c_read2; auto. intros x Hx. right. right.
    set (s2 := put (put s0 R_pc x) R_smt 0).
    assert (N2 : near s0 k [R_smt; R_pc] s2). { apply near_put; [apply near_put; auto with near|unfold is_u32; lia|]. left. change (sup s0) with (sup_mode m). rewrite Es. reflexivity. }
    assert (N3 : near s0 k [R_pc; R_smt; R_pc] (put s2 R_pc (m32 (get s2 R_pc + 4)))) by (apply near_put; auto with near).
    assert (L2 : length (s_reg s2) = 32%nat) by apply N2.
    destruct N3 as (Q1 & Q2 & Q3 & Q4 & Q5 & Q6).
    split; [discriminate|]. split; [auto|]. split; [auto|]. split; [auto|]. split; [auto|]. split; [auto|]. split.
    + intros r Hr. apply Q5. cbn [targets] in Hr. cbn [In] in *. intuition.
    + split. { intros _ Hj. destruct Hj; exact I. }
      intros w _. split; auto. unfold get at 1. unfold put at 1. cbn [s_reg]. rewrite rg_rs by auto.
      destruct (reg_eq_dec R_smt R_pc); [discriminate|]. unfold s2, put. cbn [s_reg].
      rewrite rg_rs; [|rewrite rs_length; apply W0]. destruct (reg_eq_dec R_smt R_smt); congruence.
  - (* Itr *) apply c_read1; auto. intros x Hx. apply c_raise'; auto; [exn|apply u16_ex; lia].
  - (* If *) apply c_read1; auto. intros x Hx. destruct (7 <? x).
    + apply c_raise'; auto; exn.
    + match goal with |- cases _ _ _ (normal _ _ ?j) _ => assert (G : forall n, n = 4 \/ n = 8 -> cases s0 k [] (normal m s0 j) (advance n s0)) end.
      { intros n Hn. right. right. destruct (near_put s0 k [] s0 R_pc (m32 (get s0 R_pc + n)) N0 (u32_range _) (un_pc s0 k _)) as (Q1 & Q2 & Q3 & Q4 & Q5 & Q6).
        split; [discriminate|]. split; [auto|]. split; [auto|]. split; [auto|]. split; [auto|]. split; [auto|]. split.
        - exact Q5.
        - split; [|discriminate]. intros _ _. pose proof (get_put_eq s0 R_pc (m32 (get s0 R_pc + n)) (proj1 W0)) as Eg.
          destruct Hn as [-> | ->]; [left; exact Eg|right; split; [exact I|exact Eg]]. }
      destruct (flag_of s0 x); auto.
  - (* IfN *) apply c_read1; auto. intros x Hx. destruct (7 <? x).
    + apply c_raise'; auto; exn.
    + match goal with |- cases _ _ _ (normal _ _ ?j) _ => assert (G : forall n, n = 4 \/ n = 8 -> cases s0 k [] (normal m s0 j) (advance n s0)) end.
      { intros n Hn. right. right. destruct (near_put s0 k [] s0 R_pc (m32 (get s0 R_pc + n)) N0 (u32_range _) (un_pc s0 k _)) as (Q1 & Q2 & Q3 & Q4 & Q5 & Q6).
        split; [discriminate|]. split; [auto|]. split; [auto|]. split; [auto|]. split; [auto|]. split; [auto|]. split.
        - exact Q5.
        - split; [|discriminate]. intros _ _. pose proof (get_put_eq s0 R_pc (m32 (get s0 R_pc + n)) (proj1 W0)) as Eg.
          destruct Hn as [-> | ->]; [left; exact Eg|right; split; [exact I|exact Eg]]. }
      destruct (flag_of s0 x); auto.
  - (* If2 *) apply c_read1; auto. intros x Hx. apply c_read1; auto. intros y Hy. apply c_read1; auto. intros z Hz.
    match goal with |- cases _ _ _ (normal _ _ ?j) _ =>
    assert (G : forall n, n = 4 \/ n = 8 -> cases s0 k [] (normal m s0 j) (advance n s0)) end.
      { intros n Hn. right. right. destruct (near_put s0 k [] s0 R_pc (m32 (get s0 R_pc + n)) N0 (u32_range _) (un_pc s0 k _)) as (Q1 & Q2 & Q3 & Q4 & Q5 & Q6).
        split; [discriminate|]. split; [auto|]. split; [auto|]. split; [auto|]. split; [auto|]. split; [auto|]. split.
        - exact Q5.
        - split; [|discriminate]. intros _ _. pose proof (get_put_eq s0 R_pc (m32 (get s0 R_pc + n)) (proj1 W0)) as Eg.
          destruct Hn as [-> | ->]; [left; exact Eg|right; split; [exact I|exact Eg]]. }
    destruct (cond_spec _ _ _) as [[]|]; auto. apply c_raise'; auto; exn.
  - (* Srm *)
    apply c_read1; auto. intros x Hx. apply c_read1; auto. intros y Hy. apply c_load; auto. intros w s1 Hv N1.
    apply c_read; auto. intros Hz _. apply c_store; auto. intros s2 N2.
    eapply PL; [reflexivity|discriminate|discriminate|]. apply c_write_end; [auto|intros ? []|left; reflexivity|intros []|auto].
  - (* Push *)
    apply c_read2; auto. intros x Hx. cbv zeta. apply c_store; auto. intros s1 N1. rewrite (Sp _ N1).
    eapply PL; [reflexivity|discriminate|discriminate|]. apply c_advance.
    + apply near_put; auto with near. apply un_dec; reflexivity.
    + intros [X|[]]. exact (sp_not_pc m X).
  - (* Pop *)
    apply c_load; auto. intros w s1 Hv N1. rewrite (Sp _ N1).
    replace (get s1 (sp_of m)) with (get s0 (sp_of m)) by (symmetry; destruct N1 as (_ & _ & _ & _ & X & _); apply X; intros []).
    eapply PL; [reflexivity|discriminate|discriminate|]. apply c_write_end; auto.
    + apply near_put; auto with near. apply un_inc; reflexivity.
    + cbn. tauto.
    + cbn. tauto.
    + intros [X|[]]. exact (sp_not_pc m X).
  - (* Call *)
    apply c_read2; auto. intros x Hx. cbv zeta. apply c_store; auto. intros s1 N1. rewrite (Sp _ N1). right. right.
    match goal with |- context [put (put s1 ?a ?b) R_pc x] => 
      assert (near s0 k [R_pc; a] (put (put s1 a b) R_pc x)) as (Q1 & Q2 & Q3 & Q4 & Q5 & Q6) end.
    { apply near_put; auto with near. apply near_put; auto with near. apply un_dec; reflexivity. }
    split; [discriminate|]. split; [auto|]. split; [auto|]. split; [auto|]. split; [auto|]. split; [auto|]. split; [exact Q5|].
    split; [|discriminate]. intros _ Hj. destruct Hj; exact I.
  - (* Hwd *)
    apply c_read1; auto. intros x Hx. apply c_read1; auto. intros y Hy.
    destruct (_ && _).
    + eapply PL; [reflexivity|discriminate|discriminate|]. apply c_write_end; [auto|intros ? []|left; reflexivity|intros []|apply count_u32; auto].
    + cbn [bus_info board_bus]. destruct (info_spec _ _ _) as [[code data]|v] eqn:E.
      * apply info_err_typed in E. destruct E. apply c_raise'; auto.
      * eapply PL; [reflexivity|discriminate|discriminate|]. apply c_write_end; [auto|intros ? []|left; reflexivity|intros []|eapply info_typed; eauto].
  - (* Halt *)
    right. right. destruct (near_put s0 k [] s0 R_pc (m32 (get s0 R_pc + 4)) N0 (u32_range _) (un_pc s0 k _)) as (Q1 & Q2 & Q3 & Q4 & Q5 & Q6).
    split; [auto|]. split; [congruence|]. split; [auto|]. split; [exact Q1|]. split; [auto|]. split; [exact Q6|].
    split.
    + exact Q5.
    + split; [|discriminate]. intros _ _. left. unfold get at 1, put. cbn [s_reg]. rewrite rg_rs by apply W0.
      destruct (reg_eq_dec R_pc R_pc); [|congruence]. reflexivity.
  - (* Reset *)
    match goal with H : ok1 ?w |- _ => rename w into v end.
    assert (G : forall mode, operand1 m v = Some mode -> cases s0 k [] (normal m s0 (Reset v)) (
        match reset_selected (mode mod 16) (get s0 R_avr) (bus_count bs (s_bus s0)) with
        | Some sel => match bus_reset bs (s_bus s0) sel with
           | Ret b => let s := with_bus s0 b in if (mode / 16) mod 16 =? 0 then Ret (St reset_file (s_bus s) 0 false) else advance 4 s
           | Panic => Panic end
        | None => raise 16 (get s0 R_avr mod 65536) s0 end)).
    { intros mode Hmode. destruct (reset_selected _ _ _) as [sel|].
      2:{ apply c_raise'; auto; [exn|apply u16_ex; lia]. }
      destruct (bus_reset _ _ _) as [b|] eqn:E; [|exact I]. cbv zeta.
      destruct (Z.eqb_spec ((mode / 16) mod 16) 0) as [Em|Em].
      - right. left. split; auto. exists v, mode. auto.
      - assert (Hx : mem_ext (s_bus s0) b).
        { cbn [bus_reset board_bus] in E. destruct (reset_sel _ _ _ _) eqn:ER in E; [|discriminate].
          injection E as <-. apply reset_sel_caches in ER. split; auto. }
        right. right. assert (near s0 k [R_pc] (put (with_bus s0 b) R_pc (m32 (get (with_bus s0 b) R_pc + 4)))) as (Q1 & Q2 & Q3 & Q4 & Q5 & Q6).
        { apply near_put; auto with near. apply near_bus; auto. }
        split; [discriminate|]. split; [auto|]. split; [auto|]. split; [auto|]. split; [auto|]. split; [auto|]. split; [exact Q5|].
        split; [|discriminate]. intros _ Hj. destruct Hj; exact I. }
    destruct v as [r|n]; cbn [read1].
    + unfold read. change (sup s0) with (sup_mode m). destruct (can_read (sup_mode m) r) eqn:Ec.
      * apply G. cbn [operand1]. unfold reg_value. rewrite Ec. reflexivity.
      * apply c_raise'; auto using code_ex3, code_ex4. exn.
    + apply G. reflexivity.
Qed.
End StepCases.

Section CycleCases.
Context {D : Type} (ops : bus_ops D) (T : typed ops).
Implicit Type m : cpu D.
Notation bs := (board_bus ops false).

Lemma near_mem m mem mem' k l s : near (start m mem) k l s -> mem_ext mem' mem -> near (start m mem') k l s.
Proof.
  intros (H1 & H2 & H3 & H4 & H5 & H6) E. split; auto. split; auto. cbn [start s_bus] in *. eapply mem_ext_trans; eauto.
Qed.

Lemma cycle_cases m m' : wf m -> c_halted m = false -> next ops false m = Ret m' ->
  (exists s1 code data, ex_code code /\ ex_data code data /\ abs m' = raise_st code data s1 /\
     wfs s1 /\ mem_ext (c_mem m) (s_bus s1) /\ s_cyc s1 = (c_cycles m + 1) mod 2 ^ 128 /\ s_halt s1 = false /\
     (forall r, can_write (sup_mode m) r = false -> get s1 r <> R m r ->
        (r = R_af /\ exists i mem1, fetches ops m i mem1 /\ snd (is_stack i) = true) \/
        r = sp_of m /\ (get s1 r = m32 (R m r - 4) \/ get s1 r = m32 (R m r + 4)) /\ pops ops m) /\
     forall r, get s1 r <> R m r -> maybe_changed ops m r) \/
  (exists i mem1, fetches ops m i mem1 /\ mem_ext (c_mem m) mem1 /\ normal m (start m mem1) i (abs m')).
Proof.
  intros Hwf Hh Hn.
  pose proof (next_refines ops T m Hwf) as HR. rewrite Hn in HR. cbn [omap] in HR. symmetry in HR.
  unfold cycle_spec in HR. cbn [abs s_halt s_reg s_bus s_cyc] in HR. rewrite Hh in HR.
  unfold fetch, load in HR.
  change (get (St (file (c_regs m)) (c_mem m) ((c_cycles m + 1) mod 2 ^ 128) false) R_pc) with (R m R_pc) in HR.
  assert (X : forall mem1, (mem1 = c_mem m \/ exists a v ex, is_u32 a /\ mem_read ops false (c_mem m) a = Ret (mem1, ex, v)) ->
     mem_ext (c_mem m) mem1).
  { intros mem1 [->|(a & v & ex & _ & E)]; [apply mem_ext_refl|eapply mem_read_ext; eauto]. }
  assert (WS : forall mem1, mem_ext (c_mem m) mem1 -> wfs (start m mem1)).
  { intros mem1 E. destruct (wfs_ticked m Hwf) as (? & ? & ? & ?). split; [auto|]. split; [auto|]. split; auto.
    eapply mem_wf_ext; eauto. }
  apply access_pass in HR; auto. destruct HR as [(code & data & mem1 & Hc & Hd & E & Hm)|(Ha & mem1 & Hp & E & Hm)].
  - left. exists (start m mem1), code, data. split; auto. split; auto. split. { apply Ret_inj in E. exact E. }
    split; auto. split; auto. split; auto. split; auto. split; [intros r _ N; exfalso; apply N; reflexivity|]. intros r N. exfalso. apply N. reflexivity.
  - specialize (X _ Hm). cbn [s_bus] in E.
    change (bus_load bs mem1 (R m R_pc)) with (mem_read ops false mem1 (R m R_pc)) in E.
    destruct (mem_read ops false mem1 (R m R_pc)) as [[[mem2 ex] w]|] eqn:Er; [|discriminate].
    assert (X2 : mem_ext (c_mem m) mem2) by (eapply mem_ext_trans; [exact X|eapply mem_read_ext; eauto]).
    assert (M2 : mem_wf mem2) by (eapply mem_wf_ext; eauto; apply Hwf).
    pose proof (mem_read_typed _ _ _ _ _ _ _ T Er) as [Hex Hw].
    change (with_bus (St (file (c_regs m)) mem1 ((c_cycles m + 1) mod 2 ^ 128) false) mem2) with (start m mem2) in E.
    destruct (Z.eqb_spec ex 0) as [->|]; cbn [negb] in E.
    2:{ left. exists (start m mem2), 160, ex. split; [exn|]. split; [exn|].
        split. { symmetry. apply Ret_inj in E. exact E. }
        split; auto. split; auto. split; auto. split; auto. split; [intros r _ N; exfalso; apply N; reflexivity|]. intros r N. exfalso. apply N. reflexivity. }
    assert (HL : loads ops m (c_mem m) (R m R_pc) w mem2) by (split; eauto).
    destruct (decode (bytes_of_word w)) as [i|er] eqn:Ed.
    + assert (HF : fetches ops m i mem2) by (exists w; auto).
      pose proof (step_cases ops T m mem2 i Hwf M2 (decode_ok_instr _ _ Ed)) as HC. rewrite E in HC.
      destruct HC as [(s1 & code & data & (N1 & N2 & N3 & N4 & N5 & N6) & Hc & Hd & Es)|HN].
      * left. exists s1, code, data. split; auto. split; auto. split; auto. split; auto.
        split. { eapply mem_ext_trans; eauto. } split; auto. split; auto.
        split. { intros r Hr1 Hr3. change (R m r) with (get (start m mem2) r) in *.
          destruct (N6 r) as [Y1|[Y1|[[Y1 Y1']|(Y1 & Y2 & Y3)]]]; [congruence| |left; eauto|right].
          - change (sup (start m mem2)) with (sup_mode m) in Y1. congruence.
          - split; auto. split; auto. left. destruct i; try discriminate Y1.
            + exfalso. apply Hr3. apply N5. intros [].
            + eauto.
            + exfalso. apply Hr3. apply N5. intros []. }
        intros r Nr. left. exists i, mem2. split; auto.
        destruct (in_dec reg_eq_dec r (partial_targets m i)) as [I|NI]; auto. destruct Nr. apply (N5 r NI).
      * right. exists i, mem2. auto.
    + left. set (m1 := with_mem mem2 (with_cycles ((c_cycles m + 1) mod two128) m)).
      assert (HW : W m1) by (split; [apply Hwf|exact M2]).
      assert (Es : start m mem2 = abs m1). { unfold abs, m1, start. cbn. rewrite Hh. reflexivity. }
      rewrite Es in E. rewrite und_abs in E by auto.
      pose proof (exec_word_und ops T w m1 er HW Ed) as HU. unfold U in HU.
      destruct (exec_word ops w m1) as [|m2|]; [destruct HU| |discriminate].
      cbn [fin] in E. apply Ret_inj in E.
      destruct HU as (m3 & code & a & -> & Hr3 & Hc & Ha' & Hf & Hcy & Hhl & Hbs).
      exists (abs m3), code, a. split; auto. split; auto.
      assert (HE3 : mem_ext (c_mem m1) (c_mem m3)) by (apply (bsteps_ext ops); auto).
      assert (M3 : mem_wf (c_mem m3)) by (eapply mem_wf_ext; eauto).
      split. { rewrite <- E. apply (f_equal Ret) in E. apply Ret_inj. rewrite exc_raise by (split; auto). reflexivity. }
      split. { destruct (WS mem2 X2) as (? & ? & ? & ?). split; [apply file_length, Hr3|]. split; [apply Hr3|].
               split; auto. cbn [abs s_cyc]. rewrite Hcy. auto. }
      split. { eapply mem_ext_trans; eauto. } split; [exact Hcy|]. split. { cbn [abs s_halt]. rewrite Hhl. auto. }
      assert (HG : fetches_garbage ops m) by (exists w, mem2, er; auto).
      split. { intros r _ Hrs. right. unfold get, R in *. cbn [abs s_reg] in *. destruct Hf as [Hf|Hf]; rewrite Hf in *; [exfalso; apply Hrs; reflexivity|].
        rewrite rg_rs in * by apply file_length, Hwf.
        destruct (reg_eq_dec r (sp_reg (abs m1))); [|exfalso; apply Hrs; reflexivity]. subst r. split; [reflexivity|].
        split; [|right; auto]. right. reflexivity. }
      intros r Nr. right. split. { exists w, mem2, er. auto. }
      destruct Hf as [Hf|Hf].
      * exfalso. apply Nr. unfold get, R. cbn [abs s_reg]. rewrite Hf. reflexivity.
      * unfold get in Nr. cbn [abs s_reg] in Nr. rewrite Hf in Nr. rewrite rg_rs in Nr by apply file_length, Hwf.
        destruct (reg_eq_dec r (sp_reg (abs m1))) as [->|N']; [reflexivity|]. exfalso. apply Nr. reflexivity.
Qed.
End CycleCases.
