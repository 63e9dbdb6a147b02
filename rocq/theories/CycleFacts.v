(** Whole cycles: refinement of the specification, and symbolic execution lemmas. *)
From Coq Require Import ZArith List Bool Lia.
From Verif Require Import Base Board Mem Cpu Asm SpecMach SpecIsa SpecBus SpecObs BaseFacts RegFacts MemFacts
  AluFacts IsaFacts IsaStep MonoFacts.
Import ListNotations.
Open Scope Z_scope.
Ltac Zify.zify_post_hook ::= Z.div_mod_to_equations.

Section Cycle.
Context {D : Type} (ops : bus_ops D) (T : typed ops).
Implicit Type m : cpu D.
Notation bs := (board_bus ops false).

(** Execution of a raw word by the CPU. *)
Definition exec_word (w : Z) m : cres D unit :=
  let i0 := u8 (Z.shiftr w 24) in
  run_instr ops false (Z.shiftr i0 3) (negb (Z.land i0 4 =? 0)) (negb (Z.land i0 2 =? 0))
    (negb (Z.land i0 1 =? 0)) (u8 (Z.shiftr w 16)) (u8 (Z.shiftr w 8)) (u8 w) (with_chg false m).

Lemma next_exec m : c_halted m = false ->
  omap abs (next ops false m) =
  let m1 := with_cycles ((c_cycles m + 1) mod two128) m in
  fin (cbind (cpu_mem_exec ops false (r_pc (c_regs m)) m1) exec_word).
Proof.
  intros H. unfold next. rewrite H. cbv zeta. cbn [with_cycles c_regs].
  destruct (cpu_mem_exec _ _ _ _) as [w m1|m1|]; auto. cbn [cbind]. fold (exec_word w m1).
  unfold exec_word. cbv zeta.
  destruct (run_instr _ _ _ _ _ _ _ _) as [u m2|m2|]; auto. cbn [fin]. destruct (c_chg m2); reflexivity.
Qed.

Lemma exec_word_refines w i m : W m -> decode (bytes_of_word w) = ROk i ->
  fin (exec_word w m) = step bs i (abs m).
Proof.
  intros HW Hd. unfold exec_word. cbv zeta. rewrite <- (abs_chg false m).
  apply run_instr_refines; auto using u8_range.
  apply decode_rel; auto using u8_range. rewrite <- Hd. unfold bytes_of_word.
  rewrite !Z.shiftr_div_pow2 by lia. reflexivity.
Qed.

(** Words the assembler cannot decode: what the CPU does with them. *)
Definition und (w : Z) (s : st (memory D)) : outcome (st (memory D)) :=
  fin (exec_word w (Cpu (unfile (s_reg s)) (s_bus s) (s_cyc s) (s_halt s) false)).

Lemma und_abs w m : W m -> und w (abs m) = fin (exec_word w m).
Proof.
  intros [H _]. unfold und, abs. cbn [s_reg s_bus s_cyc s_halt]. rewrite unfile_file by auto. reflexivity.
Qed.

Lemma next_refines m : wf m -> omap abs (next ops false m) = cycle_spec ops und (abs m).
Proof.
  intros (Hr & Hm & Hc). unfold cycle_spec. cbn [s_halt abs].
  destruct (c_halted m) eqn:Eh.
  { unfold next. rewrite Eh. cbn. unfold abs. rewrite Eh. reflexivity. }
  rewrite next_exec by auto. cbv zeta. unfold fetch.
  set (m1 := with_cycles ((c_cycles m + 1) mod two128) m).
  assert (HW : W m1) by (split; auto).
  change (St (s_reg (abs m)) (s_bus (abs m)) ((s_cyc (abs m) + 1) mod 2 ^ 128) (s_halt (abs m)))
    with (abs m1).
  replace (St _ _ _ _) with (abs m1) by (unfold abs, m1; cbn; rewrite Eh; reflexivity).
  rewrite r_pc_R by auto. change (R m R_pc) with (get (abs m1) R_pc).
  unfold cpu_mem_exec. apply fin_load; auto. { rewrite get_abs. apply R_u32; auto. }
  intros mem w Hext Hw. rewrite <- abs_mem.
  destruct (decode (bytes_of_word w)) eqn:Ed.
  - apply exec_word_refines; auto. apply W_mem; auto.
  - rewrite und_abs; auto. apply W_mem; auto.
Qed.
End Cycle.
