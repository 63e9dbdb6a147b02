(** The induction principle for whole cycles of the machine. *)
From Coq Require Import ZArith List Bool Lia.
From Verif Require Import Base Board Mem Cpu Asm SpecMach SpecIsa SpecBus SpecObs BaseFacts RegFacts MemFacts
  AluFacts IsaFacts IsaStep MonoFacts CycleFacts UndFacts HoareFacts.
Import ListNotations.
Open Scope Z_scope.
Ltac Zify.zify_post_hook ::= Z.div_mod_to_equations.

Lemma decode_ok_instr w i : decode (bytes_of_word w) = ROk i -> ok_instr i.
Proof.
  intros H. unfold bytes_of_word in H.
  apply decode_rel in H; auto using u8_range.
  assert (D1 : forall b p v, den1 b p v -> ok1 v) by (intros b p []; cbn; tauto).
  assert (D2 : forall b p q v, den2 b p q v -> ok2 v).
  { intros b p q [r|n]; cbn [den2 ok2]; [tauto|]. intros (_ & -> & ? & ?). apply of_be2_range; auto. }
  destruct i; cbn [dec_rel ok_instr] in *;
    repeat match goal with H : _ /\ _ |- _ => destruct H end;
    repeat match goal with |- _ /\ _ => split end; eauto.
Qed.

Lemma Ret_inj {A} (a b : A) : Ret a = Ret b -> a = b.
Proof. congruence. Qed.

Section CyclePost.
Context {D : Type} (ops : bus_ops D) (T : typed ops).
Implicit Type m : cpu D.
Notation bs := (board_bus ops false).

(** The state in which the cycle starts: the cycle has been counted. *)
Definition ticked m : st (memory D) :=
  St (file (c_regs m)) (c_mem m) ((c_cycles m + 1) mod 2 ^ 128) (c_halted m).

Lemma J_bsteps i J P : closed bs i J P -> forall mem mem' s, bsteps ops mem mem' ->
  J (with_bus s mem) -> J (with_bus s mem').
Proof.
  intros C mem mem' s H. induction H; auto. intros HJ. apply IHbsteps in HJ.
  pose proof (h_load _ _ _ _ C (with_bus s mem1) a mem2 ex v HJ H0 H1) as (_ & _ & X). exact X.
Qed.

Lemma access_pass m mem a (k : st (memory D) -> outcome (st (memory D))) s' cyc h :
  access bs a (St (file (c_regs m)) mem cyc h) k = Ret s' ->
  (exists code data mem1, ex_code code /\ ex_data code data /\ Ret s' = raise code data (St (file (c_regs m)) mem1 cyc h) /\
      (mem1 = mem \/ exists a v ex, is_u32 a /\ mem_read ops false mem a = Ret (mem1, ex, v))) \/
  (a mod 4 = 0 /\ exists mem1, passes ops m a mem mem1 /\ k (St (file (c_regs m)) mem1 cyc h) = Ret s' /\
      (mem1 = mem \/ exists a v ex, is_u32 a /\ mem_read ops false mem a = Ret (mem1, ex, v))).
Proof.
  unfold access, passes. destruct (Z.eqb_spec (a mod 4) 0) as [Ea|Ea]; cbn [negb].
  2:{ intros H. left. exists 5, (a mod 4), mem. split; [exn|]. split; [exn|].
      split; [auto|auto]. }
  cbn [s_reg s_bus s_cyc s_halt]. change (get (St (file (c_regs m)) mem cyc h) ?r) with (R m r).
  destruct (R m R_mtt =? 0). { intros H. right. split; auto. exists mem. split; auto. }
  cbn [bus_load board_bus].
  change (2 ^ 32) with 4294967296. unfold m32.
  destruct (mem_read ops false mem _) as [[[mem1 ex] e]|] eqn:Er; [|discriminate]. cbv zeta.
  pose proof (mem_read_typed _ _ _ _ _ _ _ T Er) as [Hex He].
  assert (HX : mem1 = mem \/ exists a v ex, is_u32 a /\ mem_read ops false mem a = Ret (mem1, ex, v)).
  { right. exists ((R m R_pda + 4 * (a mod 1024)) mod 4294967296), e, ex. split; auto. apply u32_range. }
  destruct (Z.eqb_spec ex 0) as [->|]; cbn [negb].
  - change (sup (with_bus (St (file (c_regs m)) mem cyc h) mem1)) with (sup_mode m).
    destruct (Z.testbit e _) eqn:Eb.
    + intros H. left. exists 6, (a mod 65536), mem1. split; [exn|]. split; [apply u16_ex; lia|]. auto.
    + intros H. right. split; auto. exists mem1. split; [eauto|]. auto.
  - intros H. left. exists 160, ex, mem1. split; [exn|]. split; [exn|]. auto.
Qed.

Lemma cycle_post (J P : st (memory D) -> Prop) m m' : wf m -> c_halted m = false -> next ops false m = Ret m' ->
  J (ticked m) ->
  (forall i, (exists mem1, fetches ops m i mem1) \/ i = Cycles R_a0 -> closed bs i J P) ->
  P (abs m').
Proof.
  intros Hwf Hh Hn HJ HC.
  pose proof (next_refines ops T m Hwf) as HR. rewrite Hn in HR. cbn [omap] in HR. symmetry in HR.
  unfold cycle_spec in HR. cbn [abs s_halt s_reg s_bus s_cyc] in HR. rewrite Hh in HR.
  unfold fetch, load in HR.
  change (get (St (file (c_regs m)) (c_mem m) ((c_cycles m + 1) mod 2 ^ 128) false) R_pc) with (R m R_pc) in HR.
  assert (C0 : closed bs (Cycles R_a0) J P) by (apply HC; auto).
  assert (J0 : J (St (file (c_regs m)) (c_mem m) ((c_cycles m + 1) mod 2 ^ 128) false)).
  { unfold ticked in HJ. rewrite Hh in HJ. exact HJ. }
  assert (J1 : forall mem1, (mem1 = c_mem m \/ exists a v ex, is_u32 a /\ mem_read ops false (c_mem m) a = Ret (mem1, ex, v)) ->
      J (St (file (c_regs m)) mem1 ((c_cycles m + 1) mod 2 ^ 128) false)).
  { intros mem1 [->|(a & v & ex & Ha & Hr)]; auto.
    pose proof (h_load _ _ _ _ C0 (St (file (c_regs m)) (c_mem m) ((c_cycles m + 1) mod 2 ^ 128) false)
       a mem1 ex v J0 Ha Hr) as (_ & _ & X). exact X. }
  apply access_pass in HR. destruct HR as [(code & data & mem1 & Hc & Hd & E & Hm)|(Ha & mem1 & Hp & E & Hm)].
  - unfold raise in E. apply Ret_inj in E. rewrite E. apply (h_raise _ _ _ _ C0); auto.
  - specialize (J1 _ Hm). cbn [s_bus] in E.
    set (s1 := St (file (c_regs m)) mem1 ((c_cycles m + 1) mod 2 ^ 128) false) in *.
    change (bus_load bs mem1 (R m R_pc)) with (mem_read ops false mem1 (R m R_pc)) in E.
    destruct (mem_read ops false mem1 (R m R_pc)) as [[[mem2 ex] w]|] eqn:Er; [|discriminate].
    assert (Hpc : is_u32 (R m R_pc)) by (apply R_u32, Hwf).
    pose proof (h_load _ _ _ _ C0 s1 _ mem2 ex w J1 Hpc Er) as (Hex & Hw & J2).
    destruct (Z.eqb_spec ex 0) as [->|]; cbn [negb] in E.
    2:{ unfold raise in E. apply Ret_inj in E. rewrite <- E. apply (h_raise _ _ _ _ C0); auto; exn. }
    destruct (decode (bytes_of_word w)) as [i|er] eqn:Ed.
    + assert (C : closed bs i J P).
      { apply HC. left. exists mem2. exists w. split; auto. split; auto. exists mem1. auto. }
      pose proof (step_post bs i J P C (with_bus s1 mem2) (decode_ok_instr _ _ Ed) J2) as X.
      unfold post in X. rewrite E in X. exact X.
    + (* undecodable *)
      set (m1 := with_mem mem2 (with_cycles ((c_cycles m + 1) mod two128) m)).
      assert (HW : W m1).
      { split; [apply Hwf|]. eapply mem_wf_ext; [|apply Hwf].
        cbn. eapply mem_ext_trans; [|eapply mem_read_ext; eauto].
        destruct Hm as [->|(? & ? & ? & _ & Hr)]; [apply mem_ext_refl|eapply mem_read_ext; eauto]. }
      assert (Es : with_bus s1 mem2 = abs m1).
      { unfold abs, m1, s1, with_bus. cbn. rewrite Hh. reflexivity. }
      rewrite Es in *. rewrite und_abs in E by auto.
      pose proof (exec_word_und ops T w m1 er HW Ed) as HU. unfold U in HU.
      destruct (exec_word ops w m1) as [|m2|]; [destruct HU| |discriminate].
      cbn [fin] in E. apply Ret_inj in E.
      destruct HU as (m3 & code & a & -> & Hr3 & Hc & Ha' & Hf & Hcy & Hhl & Hbs).
      assert (J3 : J (abs m3)).
      { assert (JB : J (with_bus (abs m1) (c_mem m3))).
        { apply (J_bsteps _ _ _ C0 (c_mem m1)); auto. }
        destruct Hf as [Hf|Hf].
        - replace (abs m3) with (with_bus (abs m1) (c_mem m3)); auto.
          unfold abs, with_bus. cbn [s_reg s_bus s_cyc s_halt]. rewrite Hf, Hcy, Hhl. reflexivity.
        - pose proof (h_sp _ _ _ _ C0 (with_bus (abs m1) (c_mem m3)) (m32 (R m1 (sp_reg (abs m1)) + 4)) JB (u32_range _)) as X.
          replace (abs m3) with (put (with_bus (abs m1) (c_mem m3)) (sp_reg (with_bus (abs m1) (c_mem m3))) (m32 (R m1 (sp_reg (abs m1)) + 4))); auto.
          unfold abs, with_bus, put. cbn [s_reg s_bus s_cyc s_halt]. rewrite Hf, Hcy, Hhl. reflexivity. }
      pose proof (h_raise _ _ _ _ C0 (abs m3) code a J3 Hc Ha') as X.
      assert (Ex : Ret (abs (exception code a m3)) = Ret (raise_st code a (abs m3))).
      { rewrite exc_raise. reflexivity. split; auto.
        eapply mem_wf_ext; [|apply HW]. apply (bsteps_ext ops); auto. }
      apply Ret_inj in Ex. rewrite E in Ex. rewrite Ex. exact X.
Qed.

Lemma raise_st_len code a (s : st (memory D)) : length (s_reg (raise_st code a s)) = length (s_reg s).
Proof. unfold raise_st, put. cbn [s_reg]. rewrite !rs_length. reflexivity. Qed.
End CyclePost.
