(** What a cycle does to the components (C72). *)
From Coq Require Import ZArith List Bool Lia.
From Verif Require Import Base Board Mem Cpu Asm Devices SpecMach SpecIsa SpecBus SpecObs SpecMap SpecMemory BaseFacts RegFacts MemFacts
  AluFacts IsaFacts IsaStep MonoFacts CycleFacts UndFacts HoareFacts CyclePost ExecFacts ProofBoard ProofMem.
Import ListNotations.
Open Scope Z_scope.
Ltac Zify.zify_post_hook ::= Z.div_mod_to_equations.

Lemma reads_trans {D} (ops : bus_ops D) ok a b c : reads_at ops ok a b -> reads_at ops ok b c -> reads_at ops ok a c.
Proof. intros H1 H2. revert H1. induction H2 as [|mem mem1 x ex w mem2 _ IH O E]; intros H; auto. eapply reads_more; [apply IH; exact H|exact O|exact E]. Qed.
Lemma reads_weaken {D} (ops : bus_ops D) (ok ok' : Z -> Prop) a b : (forall x, ok x -> ok' x) -> reads_at ops ok a b -> reads_at ops ok' a b.
Proof. intros W. induction 1; [constructor|]. eapply reads_more; eauto. Qed.
Lemma reads_one {D} (ops : bus_ops D) (ok : Z -> Prop) a ex w mem mem2 : ok a -> mem_read ops false mem a = Ret (mem2, ex, w) -> reads_at ops ok mem mem2.
Proof. intros. eapply reads_more; eauto. constructor. Qed.
Lemma bsteps_reads {D} (ops : bus_ops D) a b : bsteps ops a b -> reads_at ops (fun _ => True) a b.
Proof. induction 1; [constructor|]. eapply reads_more; eauto. Qed.

Section Effect.
Context {D : Type} (ops : bus_ops D) (T : typed ops) (m : cpu D) (Hw : wf m) (i : instr) (mem0 : memory D).
Notation bs := (board_bus ops false).
Notation rd := (reads_at ops (may_read m i)).

Definition effect (b : memory D) : Prop := memory_effect ops m i mem0 b.
Definition eff (o : outcome (st (memory D))) : Prop := match o with Ret s => effect (s_bus s) | Panic => True end.
Lemma eff_rd s : rd mem0 (s_bus s) -> effect (s_bus s).
Proof. intros H. exists (s_bus s). auto. Qed.
Lemma e_raise c d s : effect (s_bus s) -> eff (raise c d s). Proof. auto. Qed.
Lemma e_adv n s : effect (s_bus s) -> eff (advance n s). Proof. auto. Qed.
Lemma e_write r v s k : effect (s_bus s) -> (forall s', s_bus s' = s_bus s -> eff (k s')) -> eff (write r v s k).
Proof. intros H K. unfold write. destruct (can_write _ _); [apply K; reflexivity|apply e_raise; auto]. Qed.
Lemma e_write_end r v s : effect (s_bus s) -> eff (write_end r v s).
Proof. intros H. unfold write_end. apply e_write; auto. intros s' E. rewrite <- E in H. destruct r; exact H. Qed.
Lemma e_read r mem k : rd mem0 mem -> (forall x, reg_value m r = Some x -> eff (k x)) -> eff (read r (start m mem) k).
Proof.
  intros H K. unfold read. rewrite sup_start. destruct (can_read (sup_mode m) r) eqn:E.
  - rewrite get_start. apply K. unfold reg_value. rewrite E. reflexivity.
  - apply e_raise. apply eff_rd. exact H.
Qed.
Lemma e_read1 v mem k : rd mem0 mem -> (forall x, operand1 m v = Some x -> eff (k x)) -> eff (read1 v (start m mem) k).
Proof. intros H K. destruct v; cbn [read1]; [apply e_read; auto|apply K; reflexivity]. Qed.
Lemma e_read2 v mem k : rd mem0 mem -> (forall x, operand2 m v = Some x -> eff (k x)) -> eff (read2 v (start m mem) k).
Proof. intros H K. destruct v; cbn [read2]; [apply e_read; auto|apply K; reflexivity]. Qed.
Lemma e_access a mem k : rd mem0 mem -> accesses m i a -> (forall mem', rd mem0 mem' -> eff (k (start m mem'))) -> eff (access bs a (start m mem) k).
Proof.
  intros H A K. unfold access. destruct (negb _). { apply e_raise, eff_rd; auto. }
  rewrite !get_start. destruct (Z.eqb_spec (R m R_mtt) 0) as [E|E]; [apply K; auto|].
  cbn [bus_load board_bus start s_bus]. fold (start m mem).
  destruct (mem_read ops false mem _) as [[[mem1 ex] e]|] eqn:Er; [|exact I]. cbv zeta.
  assert (H1 : rd mem0 mem1). { eapply reads_more; [exact H| |exact Er]. right; right. split; auto. exists a. split; auto. }
  rewrite with_bus_start. destruct (negb _). { apply e_raise, eff_rd; auto. } destruct (Z.testbit _ _). { apply e_raise, eff_rd; auto. } apply K; auto.
Qed.
Lemma e_load a mem k : rd mem0 mem -> load_address m i = Some a -> (forall w mem', rd mem0 mem' -> eff (k w (start m mem'))) -> eff (load bs a (start m mem) k).
Proof.
  intros H A K. unfold load. apply e_access; auto. { right; left; auto. } intros mem1 H1. cbn [bus_load board_bus start s_bus]. fold (start m mem1).
  destruct (mem_read ops false mem1 a) as [[[mem2 ex] w]|] eqn:Er; [|exact I].
  assert (H2 : rd mem0 mem2). { eapply reads_more; [exact H1| |exact Er]. right; left; auto. }
  rewrite with_bus_start. destruct (negb _). { apply e_raise, eff_rd; auto. } apply K; auto.
Qed.
Lemma e_store a w mem k : rd mem0 mem -> stores_word m i a w -> (forall mem', effect mem' -> eff (k (start m mem'))) -> eff (store bs a w (start m mem) k).
Proof.
  intros H A K. unfold store. apply e_access; auto. { right; right; eauto. } intros mem1 H1. cbn [bus_store board_bus start s_bus]. fold (start m mem1).
  destruct (mem_write ops false mem1 a w) as [[mem2 ex]|] eqn:Er; [|exact I].
  assert (H2 : effect mem2). { exists mem1. split; auto. right; left. eauto. }
  rewrite with_bus_start. destruct (negb _). { apply e_raise; auto. } apply K; auto.
Qed.
Lemma e_arith a d y mem keep : rd mem0 mem -> eff (arith a d y (start m mem) keep).
Proof.
  intros H. unfold arith. apply e_read; auto. intros x _. destruct (alu_spec a x y) as [r carry overflow|code]; [|apply e_raise, eff_rd; auto].
  cbv zeta. assert (E : effect (s_bus (put (start m mem) R_af (flags_spec r carry overflow)))) by (apply eff_rd; exact H).
  destruct keep; [apply e_write_end; auto|apply e_adv; auto].
Qed.

Lemma step_effect memf : rd mem0 memf -> eff (step bs i (start m memf)).
Proof.
  intros H0. pose proof (eff_rd (start m memf) H0) as HE.
  assert (E0 : forall mem, rd mem0 mem -> effect mem) by (intros mem X; apply (eff_rd (start m mem)); exact X).
  destruct (ex_intro (fun j => j = i) i eq_refl) as (j & Ej). rewrite <- Ej at 1.
  destruct j; cbn [step];
    try solve [repeat first [apply e_read2; [assumption|intros ? ?] | apply e_read1; [assumption|intros ? ?] | apply e_arith; assumption
                            | apply e_write_end; exact HE | apply e_adv; exact HE | apply e_raise; exact HE]].
  - (* Ex *) apply e_read; auto. intros x _. apply e_read; auto. intros y _. apply e_write; auto. intros s1 E1. apply e_write; [rewrite E1; auto|].
    intros s2 E2. assert (X : effect (s_bus s2)) by (rewrite E2, E1; auto). destruct a, b; exact X.
  - (* Lsm *) destruct (sup _); [apply e_read2; auto|apply e_raise; auto].
  - apply e_read1; auto. intros x _. destruct (7 <? x); [apply e_raise; auto|]. destruct (flag_of _ _); apply e_adv; auto.
  - apply e_read1; auto. intros x _. destruct (7 <? x); [apply e_raise; auto|]. destruct (flag_of _ _); apply e_adv; auto.
  - apply e_read1; auto. intros x _. apply e_read1; auto. intros y _. apply e_read1; auto. intros z _.
    destruct (cond_spec _ _ _) as [[]|]; [apply e_adv; auto|apply e_adv; auto|apply e_raise; auto].
  - (* Lsa *) apply e_read1; auto. intros x Hx. apply e_read1; auto. intros y Hy. apply e_load; auto.
    { rewrite <- Ej. cbn [load_address]. rewrite Hx, Hy. reflexivity. } intros w mem' H'. apply e_write_end. apply E0; auto.
  - (* Lea *) apply e_read1; auto. intros x Hx. apply e_read1; auto. intros y Hy. apply e_read1; auto. intros z Hz. apply e_load; auto.
    { rewrite <- Ej. cbn [load_address]. rewrite Hx, Hy, Hz. reflexivity. }
  - (* Wsa *) apply e_read1; auto. intros x Hx. apply e_read1; auto. intros y Hy. apply e_read1; auto. intros z Hz. apply e_store; auto.
    left. rewrite <- Ej. cbn [store_access]. rewrite Hx, Hy, Hz. reflexivity.
  - (* Wea *) apply e_read1; auto. intros x Hx. apply e_read1; auto. intros y Hy. apply e_read1; auto. intros z Hz. apply e_store; auto.
    left. rewrite <- Ej. cbn [store_access]. rewrite Hx, Hy, Hz. reflexivity.
  - (* Srm *) apply e_read1; auto. intros x Hx. apply e_read1; auto. intros y Hy.
    assert (L : load_address m i = Some (m32 (x + y))). { rewrite <- Ej. cbn [load_address]. rewrite Hx, Hy. reflexivity. }
    apply e_load; auto. intros w mem' H'. apply e_read; auto. intros z Hz. apply e_store; auto.
    { right. rewrite <- Ej in *. eauto 8. } intros mem2 H2. apply e_write_end. exact H2.
  - (* Push *) apply e_read2; auto. intros x Hx. cbv zeta. apply e_store; auto.
    left. rewrite <- Ej. cbn [store_access]. rewrite Hx. reflexivity.
  - (* Pop *) apply e_load; auto. { rewrite <- Ej. reflexivity. } intros w mem' H'. apply e_write_end. apply E0; auto.
  - (* Call *) apply e_read2; auto. intros x Hx. cbv zeta. apply e_store; auto.
    left. rewrite <- Ej. cbn [store_access]. rewrite Hx. reflexivity.
  - (* Hwd *) apply e_read1; auto. intros x Hx. apply e_read1; auto. intros y Hy.
    destruct ((x =? 0) && (y =? 0)); [apply e_write_end; auto|]. destruct (bus_info _ _ _ _) as [[c0 d0]|v0]; [apply e_raise; auto|apply e_write_end; auto].
  - (* Reset *) apply e_read1; auto. intros mode Hm. rewrite get_start.
    destruct (reset_selected _ _ _) as [sel|] eqn:Es; [|apply e_raise; auto].
    destruct (bus_reset _ _ _) as [b|] eqn:Eb; [|exact I].
    assert (X : effect b).
    { exists memf. split; auto. right; right. exists a, mode. split; [congruence|]. split; auto.
      cbn [bus_reset board_bus start s_bus] in Eb. destruct (reset_sel ops 0 sel (mm_hwb memf)) as [h|] eqn:Er; [|discriminate]. injection Eb as <-.
      split; auto. cbn [mm_hwb].
      exact (resets_exactly_sel _ _ _ _ _ _ (selected_picks _ _ _ _ Es) Er). }
    cbv zeta. destruct (_ =? 0); exact X.
Qed.
End Effect.

Section Whole.
Context {D : Type} (ops : bus_ops D) (T : typed ops).
Notation bs := (board_bus ops false).

Lemma fetch_reads m i memf : fetches ops m i memf -> reads_at ops (may_read m i) (c_mem m) memf.
Proof.
  intros (w & (_ & mem1 & Hp & Hr) & _). eapply reads_more; [|left; reflexivity|exact Hr].
  unfold passes in Hp. destruct (Z.eqb_spec (R m R_mtt) 0) as [_|E]; [subst; constructor|].
  destruct Hp as (e & He & _). eapply reads_one; [|exact He]. right; right. split; auto. exists (R m R_pc). split; [left|]; reflexivity.
Qed.

Lemma cycle_effect oc m i memf m' : wf m -> executes ops oc m i memf m' -> memory_effect ops m i (c_mem m) (c_mem m').
Proof.
  intros Hw He. pose proof (exec_step ops T _ _ _ _ _ Hw He) as Hs. destruct He as (_ & Hf & _).
  pose proof (step_effect ops m i (c_mem m) memf (fetch_reads _ _ _ Hf)) as X. rewrite Hs in X. exact X.
Qed.

Lemma cycle_nofetch oc m m' : wf m -> next ops oc m = Ret m' -> (forall i memf, ~ fetches ops m i memf) ->
  reads_at ops (fun _ => True) (c_mem m) (c_mem m').
Proof.
  intros Hwf Hn NF. apply next_oc in Hn.
  destruct (c_halted m) eqn:Hh. { unfold next in Hn. rewrite Hh in Hn. injection Hn as <-. constructor. }
  pose proof (next_refines ops T m Hwf) as HR. rewrite Hn in HR. cbn [omap] in HR. symmetry in HR.
  unfold cycle_spec in HR. cbn [abs s_halt s_reg s_bus s_cyc] in HR. rewrite Hh in HR.
  unfold fetch, load in HR.
  change (get (St (file (c_regs m)) (c_mem m) ((c_cycles m + 1) mod 2 ^ 128) false) R_pc) with (R m R_pc) in HR.
  change (c_mem m') with (s_bus (abs m')).
  assert (X : forall mem1, (mem1 = c_mem m \/ exists a v ex, is_u32 a /\ mem_read ops false (c_mem m) a = Ret (mem1, ex, v)) ->
     reads_at ops (fun _ => True) (c_mem m) mem1 /\ mem_ext (c_mem m) mem1).
  { intros mem1 [->|(a & v & ex & _ & E)]; [split; [constructor|apply mem_ext_refl]|]. split; [eapply reads_one; eauto; exact I|eapply mem_read_ext; eauto]. }
  apply access_pass in HR; auto. destruct HR as [(code & data & mem1 & Hc & Hd & E & Hm)|(Ha & mem1 & Hp & E & Hm)].
  - apply Ret_inj in E. rewrite E. apply X; auto.
  - destruct (X _ Hm) as (X1 & X2). cbn [s_bus] in E.
    change (bus_load bs mem1 (R m R_pc)) with (mem_read ops false mem1 (R m R_pc)) in E.
    destruct (mem_read ops false mem1 (R m R_pc)) as [[[mem2 ex] w]|] eqn:Er; [|discriminate].
    assert (X3 : reads_at ops (fun _ => True) (c_mem m) mem2) by (eapply reads_more; eauto).
    destruct (Z.eqb_spec ex 0) as [->|]; cbn [negb] in E.
    2:{ apply Ret_inj in E. rewrite <- E. exact X3. }
    destruct (decode (bytes_of_word w)) as [i|er] eqn:Ed.
    + exfalso. apply (NF i mem2). exists w. split; auto. split; auto. eauto.
    + set (m1 := with_mem mem2 (with_cycles ((c_cycles m + 1) mod two128) m)).
      assert (HW : W m1).
      { split; [apply Hwf|]. eapply mem_wf_ext; [|apply Hwf].
        cbn. eapply mem_ext_trans; [exact X2|eapply mem_read_ext; eauto]. }
      assert (Es : with_bus (St (file (c_regs m)) mem1 ((c_cycles m + 1) mod 2 ^ 128) false) mem2 = abs m1).
      { unfold abs, m1, with_bus. cbn. rewrite Hh. reflexivity. }
      rewrite Es in *. rewrite und_abs in E by auto.
      pose proof (exec_word_und ops T w m1 er HW Ed) as HU. unfold U in HU.
      destruct (exec_word ops w m1) as [|m2|]; [destruct HU| |discriminate].
      cbn [fin] in E. apply Ret_inj in E.
      destruct HU as (m3 & code & a & -> & Hr3 & Hc & Ha' & Hf & Hcy & Hhl & Hbs).
      assert (Ex : Ret (abs (exception code a m3)) = Ret (raise_st code a (abs m3))).
      { rewrite exc_raise. reflexivity. split; auto.
        eapply mem_wf_ext; [|apply HW]. apply (bsteps_ext ops); auto. }
      apply Ret_inj in Ex. rewrite E in Ex. rewrite Ex. cbn [raise_st s_bus abs].
      eapply reads_trans; [exact X3|]. apply bsteps_reads. exact Hbs.
Qed.
End Whole.
