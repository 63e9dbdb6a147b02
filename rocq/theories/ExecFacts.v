(** Symbolic execution of one cycle that fetches a given instruction. *)
From Coq Require Import ZArith List Bool Lia.
From Verif Require Import Base Board Mem Cpu Asm SpecMach SpecIsa SpecBus SpecObs SpecMap BaseFacts RegFacts MemFacts
  AluFacts IsaFacts IsaStep MonoFacts CycleFacts UndFacts HoareFacts CyclePost InvFacts.
Import ListNotations.
Open Scope Z_scope.
Ltac Zify.zify_post_hook ::= Z.div_mod_to_equations.

Section Exec.
Context {D : Type} (ops : bus_ops D) (T : typed ops).
Implicit Type m : cpu D.
Notation bs := (board_bus ops false).

Definition start m mem : st (memory D) := St (file (c_regs m)) mem ((c_cycles m + 1) mod 2 ^ 128) false.
Lemma get_start m mem r : get (start m mem) r = R m r.
Proof. reflexivity. Qed.
Lemma sup_start m mem : sup (start m mem) = sup_mode m.
Proof. reflexivity. Qed.
Lemma with_bus_start m mem mem' : with_bus (start m mem) mem' = start m mem'.
Proof. reflexivity. Qed.

Lemma loads_load m mem a w mem2 k : loads ops m mem a w mem2 -> load bs a (start m mem) k = k w (start m mem2).
Proof.
  intros (Ha & mem1 & Hp & Hr). unfold load, access. rewrite (proj2 (Z.eqb_eq _ _) Ha). cbn [negb].
  rewrite get_start. unfold passes in Hp. destruct (R m R_mtt =? 0) eqn:E.
  - subst mem1. cbn [bus_load board_bus start s_bus]. rewrite Hr. cbn. reflexivity.
  - destruct Hp as (e & He & Hb). rewrite get_start. cbn [bus_load board_bus start s_bus]. unfold m32.
    change (2 ^ 32) with 4294967296 in He. rewrite He. cbv zeta. cbn [Z.eqb negb].
    change (sup (with_bus _ mem1)) with (sup_mode m). rewrite Hb. cbn [with_bus s_bus]. rewrite Hr. reflexivity.
Qed.
Lemma stores_store m mem a w mem2 k : stores ops m mem a w mem2 -> store bs a w (start m mem) k = k (start m mem2).
Proof.
  intros (Ha & mem1 & Hp & Hr). unfold store, access. rewrite (proj2 (Z.eqb_eq _ _) Ha). cbn [negb].
  rewrite get_start. unfold passes in Hp. destruct (R m R_mtt =? 0) eqn:E.
  - subst mem1. cbn [bus_store board_bus start s_bus]. rewrite Hr. cbn. reflexivity.
  - destruct Hp as (e & He & Hb). rewrite get_start. cbn [bus_load bus_store board_bus start s_bus]. unfold m32.
    change (2 ^ 32) with 4294967296 in He. rewrite He. cbv zeta. cbn [Z.eqb negb].
    change (sup (with_bus _ mem1)) with (sup_mode m). rewrite Hb. cbn [with_bus s_bus]. rewrite Hr. reflexivity.
Qed.
Lemma faults_access m mem a mem2 code data k : access_faults ops m mem a mem2 code data ->
  access bs a (start m mem) k = raise code data (start m mem2).
Proof.
  intros H. destruct H as [Ha|mem2 ex e Ha Hm Hex Hr|mem2 e Ha Hm Hr Hb]; unfold access.
  - rewrite (proj2 (Z.eqb_neq _ _) Ha). reflexivity.
  - rewrite (proj2 (Z.eqb_eq _ _) Ha). cbn [negb]. rewrite get_start, (proj2 (Z.eqb_neq _ _) Hm), get_start.
    cbn [bus_load board_bus start s_bus]. change (2 ^ 32) with 4294967296 in Hr. unfold m32. rewrite Hr. cbv zeta.
    rewrite (proj2 (Z.eqb_neq _ _) Hex). reflexivity.
  - rewrite (proj2 (Z.eqb_eq _ _) Ha). cbn [negb]. rewrite get_start, (proj2 (Z.eqb_neq _ _) Hm), get_start.
    cbn [bus_load board_bus start s_bus]. change (2 ^ 32) with 4294967296 in Hr. unfold m32. rewrite Hr. cbv zeta.
    cbn [Z.eqb negb]. change (sup (with_bus _ mem2)) with (sup_mode m). rewrite Hb. reflexivity.
Qed.
Lemma pass_access m mem a mem1 k : a mod 4 = 0 -> passes ops m a mem mem1 ->
  access bs a (start m mem) k = k (start m mem1).
Proof.
  intros Ha Hp. unfold access. rewrite (proj2 (Z.eqb_eq _ _) Ha). cbn [negb]. rewrite get_start.
  unfold passes in Hp. destruct (R m R_mtt =? 0). { subst; reflexivity. }
  destruct Hp as (e & He & Hb). rewrite get_start. cbn [bus_load board_bus start s_bus]. unfold m32.
  change (2 ^ 32) with 4294967296 in He. rewrite He. cbv zeta. cbn [Z.eqb negb].
  change (sup (with_bus _ mem1)) with (sup_mode m). rewrite Hb. reflexivity.
Qed.
Lemma faults_load m mem a mem2 code data k : load_faults ops m mem a mem2 code data ->
  load bs a (start m mem) k = raise code data (start m mem2).
Proof.
  intros H. unfold load. destruct H as [mem2 code data H|mem1 mem2 ex w Ha Hp Hr Hex].
  - eapply faults_access; eauto.
  - erewrite pass_access by eauto. cbn [bus_load board_bus start s_bus]. rewrite Hr.
    rewrite (proj2 (Z.eqb_neq _ _) Hex). reflexivity.
Qed.
Lemma faults_store m mem a w mem2 code data k : store_faults ops m mem a w mem2 code data ->
  store bs a w (start m mem) k = raise code data (start m mem2).
Proof.
  intros H. unfold store. destruct H as [mem2 code data H|mem1 mem2 ex Ha Hp Hr Hex].
  - eapply faults_access; eauto.
  - erewrite pass_access by eauto. cbn [bus_store board_bus start s_bus]. rewrite Hr.
    rewrite (proj2 (Z.eqb_neq _ _) Hex). reflexivity.
Qed.

(** Operands. *)
Lemma read_ok m mem r x k : reg_value m r = Some x -> read r (start m mem) k = k x.
Proof.
  unfold reg_value, read. rewrite sup_start. destruct (can_read _ _); [|discriminate]. intros E; injection E as <-. reflexivity.
Qed.
Lemma read_no m mem r k : can_read (sup_mode m) r = false -> read r (start m mem) k = raise 3 (reg_code r) (start m mem).
Proof. unfold read. rewrite sup_start. intros ->. reflexivity. Qed.
Lemma read1_ok m mem v x k : operand1 m v = Some x -> read1 v (start m mem) k = k x.
Proof. destruct v; cbn [operand1 read1]. { apply read_ok. } intros E; injection E as <-; reflexivity. Qed.
Lemma read2_ok m mem v x k : operand2 m v = Some x -> read2 v (start m mem) k = k x.
Proof. destruct v; cbn [operand2 read2]. { apply read_ok. } intros E; injection E as <-; reflexivity. Qed.

(** Collected register updates. *)
Definition sets (s : st (memory D)) (l : list (reg * Z)) (s' : st (memory D)) : Prop :=
  length (s_reg s') = 32%nat /\ s_bus s' = s_bus s /\ s_cyc s' = s_cyc s /\ s_halt s' = s_halt s /\
  forall r, get s' r = match assoc l r with Some v => v | None => get s r end.
Lemma sets_refl s : length (s_reg s) = 32%nat -> sets s [] s.
Proof. intros; repeat split; auto. Qed.
Lemma sets_put s l s' r v : sets s l s' -> sets s ((r, v) :: l) (put s' r v).
Proof.
  intros (H1 & H2 & H3 & H4 & H5). repeat split; auto. { cbn [put s_reg]. rewrite rs_length; auto. }
  intros r'. unfold get, put. cbn [s_reg assoc]. rewrite rg_rs by auto.
  destruct (reg_eq_dec r' r) as [->|N]. { rewrite Z.eqb_refl. reflexivity. }
  destruct (Z.eqb_spec (reg_code r') (reg_code r)) as [E|E]; [apply reg_code_inj in E; congruence|]. apply H5.
Qed.
Lemma sets_ext s l l' s' : sets s l s' -> (forall r, assoc l r = assoc l' r) -> sets s l' s'.
Proof. intros (H1 & H2 & H3 & H4 & H5) E. repeat split; auto. intros r. rewrite <- E. auto. Qed.
Lemma assoc_swap r v r' v' l : r <> r' -> forall x, assoc ((r, v) :: (r', v') :: l) x = assoc ((r', v') :: (r, v) :: l) x.
Proof.
  intros N x. cbn [assoc]. destruct (Z.eqb_spec (reg_code x) (reg_code r)) as [E|E], (Z.eqb_spec (reg_code x) (reg_code r')) as [E'|E']; auto.
  rewrite E in E'. apply reg_code_inj in E'. congruence.
Qed.

Lemma exec_step oc m i mem1 m' : wf m -> executes ops oc m i mem1 m' -> step bs i (start m mem1) = Ret (abs m').
Proof.
  intros Hwf (Hh & (w & Hl & Hd) & Hn). apply next_oc in Hn.
  pose proof (next_refines ops T m Hwf) as HR. rewrite Hn in HR. cbn [omap] in HR. rewrite HR.
  unfold cycle_spec. cbn [abs s_halt s_reg s_bus s_cyc]. rewrite Hh. unfold fetch.
  change (St (file (c_regs m)) (c_mem m) ((c_cycles m + 1) mod 2 ^ 128) false) with (start m (c_mem m)).
  rewrite get_start. erewrite loads_load by eauto. rewrite Hd. reflexivity.
Qed.
Lemma len_start m mem : wf m -> length (s_reg (start m mem)) = 32%nat.
Proof. intros H. apply file_length, H. Qed.

Lemma sets_after oc m i mem1 m' mem l : executes ops oc m i mem1 m' -> sets (start m mem) l (abs m') -> after m m' mem l.
Proof.
  intros (Hh & _) (H1 & H2 & H3 & H4 & H5). split; [exact H5|]. split; [exact H2|]. split; [|exact H3].
  rewrite Hh. exact H4.
Qed.

(** [Ends s l o]: the instruction ends, having set the registers [l] of [s]. *)
Definition Ends s l (o : outcome (st (memory D))) : Prop := exists s', o = Ret s' /\ sets s l s'.
Lemma ends_after oc m i mem1 m' mem l : wf m -> executes ops oc m i mem1 m' ->
  Ends (start m mem) l (step bs i (start m mem1)) -> after m m' mem l.
Proof.
  intros Hwf He (s' & E & Hs). rewrite (exec_step _ _ _ _ _ Hwf He) in E. apply Ret_inj in E. subst s'.
  eapply sets_after; eauto.
Qed.
Lemma ends_raise m mem code data : wf m ->
  Ends (start m mem) [(R_smt, 1); (R_pc, R m R_ev); (R_et, et_value (sup_mode m) code data)] (raise code data (start m mem)).
Proof.
  intros H. eexists. split; [reflexivity|]. repeat apply sets_put. apply sets_refl, len_start; auto.
Qed.
Lemma ends_advance s l s' n : sets s l s' -> Ends s ((R_pc, m32 (get s' R_pc + n)) :: l) (advance n s').
Proof. intros H. eexists. split; [reflexivity|]. apply sets_put; auto. Qed.
Lemma ends_write_end s l s' r v : sets s l s' -> can_write (sup s') r = true ->
  Ends s ((r, v) :: (R_pc, m32 (get s' R_pc + 4)) :: l) (write_end r v s').
Proof.
  intros H Hw. unfold write_end, write. rewrite Hw.
  destruct (reg_eq_dec r R_pc) as [->|N].
  - eexists. split; [reflexivity|]. eapply sets_ext; [apply sets_put; eauto|].
    intros r. cbn [assoc]. destruct (_ =? _); reflexivity.
  - assert (E : match r with R_pc => Ret (put s' r v) | _ => advance 4 (put s' r v) end = advance 4 (put s' r v))
      by (destruct r; congruence).
    rewrite E. eexists. split; [reflexivity|].
    eapply sets_ext; [apply sets_put, sets_put; eauto|].
    intros x. replace (get (put s' r v) R_pc) with (get s' R_pc).
    { apply assoc_swap. congruence. }
    unfold get, put. cbn [s_reg]. rewrite rg_rs by apply H. destruct (reg_eq_dec R_pc r); congruence.
Qed.
Lemma ends_ext s l l' o : Ends s l o -> (forall r, assoc l r = assoc l' r) -> Ends s l' o.
Proof. intros (s' & E & H) X. exists s'. split; auto. eapply sets_ext; eauto. Qed.
Lemma executes_raised oc m i mem1 m' mem code data : wf m -> executes ops oc m i mem1 m' ->
  step bs i (start m mem1) = raise code data (start m mem) -> raised m m' mem code data.
Proof. intros Hw He E. eapply ends_after; eauto. rewrite E. apply ends_raise; auto. Qed.
End Exec.
