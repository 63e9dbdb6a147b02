(** Proofs of C98: the future of a board depends only on its visible state. *)
From Coq Require Import String ZArith List Bool Lia.
From Verif Require Import Base Board Mem Cpu Asm Tools Runner Devices Console ReachFacts SpecMach SpecIsa SpecBus SpecObs SpecSim SpecUser BaseFacts RegFacts MemFacts InvFacts CyclePost ProofPanic ProofMap ProofRun DevTyped Demo.
Import ListNotations.
Open Scope Z_scope.

Section Future.
Context {D : Type} (ops : bus_ops D) (oc : bool).
Implicit Type m : cpu D.
Definition twins m1 m2 : Prop := exists x, m2 = with_chg x m1.
Lemma next_chg x m : c_halted m = false -> next ops oc (with_chg x m) = next ops oc m.
Proof.
  destruct m as [r b c h x0]. cbn [c_halted]. intros ->. unfold next, with_chg, with_cycles. cbn [c_halted c_regs c_mem c_cycles c_chg].
  unfold cpu_mem_exec, mem_do, ensure_aligned. destruct (r_pc r mod 4 =? 0); cbn [cbind].
  2:{ reflexivity. }
  cbn [c_mem c_regs]. destruct (translate _ _ _ _ _ _) as [[mem' t]|]; cbn; [|reflexivity]. destruct t as [p| |ex]; cbn; try reflexivity.
  destruct (mem_read ops oc mem' p) as [[[mem2 ex] w]|]; cbn; [|reflexivity]. destruct (negb (ex =? 0)); cbn; reflexivity.
Qed.
Lemma same_twins m1 m2 : wf m1 -> wf m2 -> same_machine m1 m2 -> twins m1 m2.
Proof.
  intros W1 W2 (S1 & S2 & S3 & S4). assert (E : file (c_regs m1) = file (c_regs m2)).
  { destruct W1 as (W1 & _), W2 as (W2 & _). pose proof (file_length _ W1) as L1. pose proof (file_length _ W2) as L2. apply (nth_ext _ _ 0 0); [congruence|]. intros n Hn. rewrite L1 in Hn.
    destruct (reg_from_code (Z.of_nat n)) as [r|] eqn:E.
    - assert (X : reg_code r = Z.of_nat n) by (apply reg_code_from_code; exact E). specialize (S4 r). unfold R, rg in S4. rewrite X, Nat2Z.id in S4. exact S4.
    - exfalso. destruct (reg_from_code_total (Z.of_nat n)) as (r & X); [lia|congruence]. }
  destruct W1 as ((A1 & A2 & A3 & A4 & _) & _), W2 as ((B1 & B2 & B3 & B4 & _) & _). destruct m1 as [r1 b1 c1 h1 x1], m2 as [r2 b2 c2 h2 x2]. cbn [c_regs c_mem c_cycles c_halted] in *. subst b2 c2 h2. exists x2. unfold with_chg. cbn [c_regs c_mem c_cycles c_halted]. f_equal.
  destruct r1, r2. unfold file in E. cbn [Cpu.r_a Cpu.r_c Cpu.r_ac Cpu.r_rr Cpu.r_avr Cpu.r_af Cpu.r_pc Cpu.r_ssp Cpu.r_usp Cpu.r_et Cpu.r_era Cpu.r_ev Cpu.r_mtt Cpu.r_pda Cpu.r_smt] in *.
  assert (AI : forall (a b c d : list Z), List.length a = List.length b -> (a ++ c)%list = (b ++ d)%list -> a = b /\ c = d).
  { intros a. induction a as [|z a IH]; intros [|y b] c d L H; try discriminate L; [auto|]. cbn in *. injection L as L. injection H as -> H. destruct (IH _ _ _ L H) as (-> & ->). auto. }
  apply AI in E; [|congruence]. destruct E as (-> & E). apply AI in E; [|congruence]. destruct E as (-> & E). apply AI in E; [|congruence]. destruct E as (-> & E). apply AI in E; [|congruence]. destruct E as (-> & E).
  injection E as -> -> -> -> -> -> -> -> -> -> ->. reflexivity.
Qed.
Lemma twins_same m1 m2 : twins m1 m2 -> same_machine m1 m2.
Proof. intros (x & ->). repeat split. Qed.
Lemma twins_next m1 m2 : twins m1 m2 -> both twins (next ops oc m1) (next ops oc m2).
Proof.
  intros (x & ->). destruct (c_halted m1) eqn:H.
  - unfold next. change (c_halted (with_chg x m1)) with (c_halted m1). rewrite H. exists x. reflexivity.
  - rewrite next_chg by exact H. destruct (next ops oc m1) as [m|]; cbn [both]; [exists (c_chg m); destruct m; reflexivity|exact I].
Qed.
Lemma twins_call c m1 m2 : twins m1 m2 -> both twins (api_call ops oc c m1) (api_call ops oc c m2).
Proof.
  intros T. destruct c; [apply twins_next, T|..]; destruct T as (x & ->); cbn [api_call]; change (c_mem (with_chg x m1)) with (c_mem m1).
  - unfold board_reset, cpu_reset. cbn. unfold c_hwb. cbn. destruct (reset_where _ _ _) as [h|]; cbn; [|exact I]. eexists; destruct m1; reflexivity.
  - destruct (mem_map _ _ _ _) as [[mem z]|]; cbn [both]; [exists x; reflexivity|exact I].
  - destruct (mem_map_abs _ _ _ _ _) as [[mem z]|]; cbn [both]; [exists x; reflexivity|exact I].
  - destruct (map_contiguous _ _ _ _) as [[[mem z] z']|]; cbn [both]; [exists x; reflexivity|exact I].
  - destruct (mem_read _ _ _ _) as [[[mem z] z']|]; cbn [both]; [exists x; reflexivity|exact I].
  - destruct (mem_write _ _ _ _ _) as [[mem z]|]; cbn [both]; [exists x; reflexivity|exact I].
Qed.
Lemma twins_run cs : forall m1 m2, twins m1 m2 -> both twins (api_run ops oc cs m1) (api_run ops oc cs m2).
Proof.
  induction cs as [|c cs IH]; intros m1 m2 T; [exact T|]. cbn [api_run]. pose proof (twins_call c m1 m2 T) as X. destruct (api_call ops oc c m1), (api_call ops oc c m2); cbn [both] in X; try contradiction; [apply IH, X|exact I].
Qed.
Lemma twins_loop fuel cfg a m1 m2 : twins m1 m2 ->
  fst (run_loop_said ops oc fuel cfg a m1) = fst (run_loop_said ops oc fuel cfg a m2) /\
  both (fun x y => match x, y with Some (m1', b, e), Some (m2', b', e') => twins m1' m2' /\ b = b' /\ e = e' | None, None => True | _, _ => False end)
    (snd (run_loop_said ops oc fuel cfg a m1)) (snd (run_loop_said ops oc fuel cfg a m2)).
Proof.
  intros T. assert (K : forall x : said (option (cpu D * Z * option ex_with_mode)), fst x = fst x /\ both (fun x y : option (cpu D * Z * option ex_with_mode) => match x, y with Some (m1', b, e), Some (m2', b', e') => twins m1' m2' /\ b = b' /\ e = e' | None, None => True | _, _ => False end) (snd x) (snd x)).
  { intros [l [[[[m b] e]|]|]]; split; try reflexivity; cbn [snd both]; auto. split; [exists (c_chg m); destruct m; reflexivity|auto]. }
  destruct fuel as [|fuel]; [split; reflexivity|]. cbn [run_loop_said]. destruct T as (x & ->). change (c_halted (with_chg x m1)) with (c_halted m1). change (c_cycles (with_chg x m1)) with (c_cycles m1). change (c_regs (with_chg x m1)) with (c_regs m1).
  destruct (c_halted m1) eqn:H; [split; [reflexivity|]; cbn; split; [exists x; reflexivity|auto]|].
  destruct (match cf_limit cfg with Some l => l <? c_cycles m1 | None => false end); [split; [reflexivity|]; cbn; split; [exists x; reflexivity|auto]|].
  rewrite next_chg by exact H. apply K.
Qed.
End Future.

(** Two boards that show the same registers, memory, cycle count and halted flag have the same future, whatever is then done with them, in release and debug builds: what their past left inside the CPU besides (a scratch flag) plays no part. So a board can be saved and restored. *)
Lemma P_C98_future : forall D (ops : bus_ops D) oc cs m1 m2, wf m1 -> wf m2 -> same_machine m1 m2 -> both same_machine (api_run ops oc cs m1) (api_run ops oc cs m2).
Proof.
  intros D ops oc cs m1 m2 W1 W2 S. pose proof (twins_run ops oc cs m1 m2 (same_twins m1 m2 W1 W2 S)) as X. destruct (api_run ops oc cs m1), (api_run ops oc cs m2); cbn [both] in *; auto. apply twins_same, X.
Qed.
(** What each answers meanwhile is the same too: reads, writes and mappings. *)
Lemma P_C98_answers : forall D (ops : bus_ops D) oc cs m1 m2 m1' m2' a w i, wf m1 -> wf m2 -> same_machine m1 m2 -> api_run ops oc cs m1 = Ret m1' -> api_run ops oc cs m2 = Ret m2' ->
  mem_read ops oc (c_mem m1') a = mem_read ops oc (c_mem m2') a /\ mem_write ops oc (c_mem m1') a w = mem_write ops oc (c_mem m2') a w /\ mem_map oc (c_mem m1') a i = mem_map oc (c_mem m2') a i.
Proof.
  intros D ops oc cs m1 m2 m1' m2' a w i W1 W2 S E1 E2. pose proof (P_C98_future D ops oc cs m1 m2 W1 W2 S) as X. rewrite E1, E2 in X. destruct X as (-> & _). auto.
Qed.
(** The runner prints the same lines on both, and stops in the same way or runs on in both. *)
Lemma P_C98_console : forall D (ops : bus_ops D) oc fuel cfg m1 m2, wf m1 -> wf m2 -> same_machine m1 m2 ->
  fst (run_vm_said ops oc fuel cfg m1) = fst (run_vm_said ops oc fuel cfg m2) /\
  both (fun x y => match x, y with Some (m1', s), Some (m2', s') => same_machine m1' m2' /\ s = s' | None, None => True | _, _ => False end)
    (snd (run_vm_said ops oc fuel cfg m1)) (snd (run_vm_said ops oc fuel cfg m2)).
Proof.
  intros D ops oc fuel cfg m1 m2 W1 W2 S. pose proof (same_twins m1 m2 W1 W2 S) as T. unfold run_vm_said. assert (P : r_pc (c_regs m2) = r_pc (c_regs m1)) by (destruct T as (x & ->); reflexivity). rewrite P.
  destruct (twins_loop ops oc fuel cfg (r_pc (c_regs m1)) m1 m2 T) as (L & B). destruct (run_loop_said ops oc fuel cfg (r_pc (c_regs m1)) m1) as [l1 o1], (run_loop_said ops oc fuel cfg (r_pc (c_regs m1)) m2) as [l2 o2].
  cbn [fst snd] in L, B. subst l2. destruct o1 as [[[[m1' b] e]|]|], o2 as [[[[m2' b'] e']|]|]; cbn [both] in B; try contradiction; [|split; [reflexivity|exact I]|split; reflexivity].
  destruct B as (T' & <- & <-). cbn [sbind silent]. replace (c_cycles m2') with (c_cycles m1') by (destruct T' as (x & ->); reflexivity).
  pose proof (twins_same _ _ T') as S'.
  match goal with |- context [sbind ?q (fun _ => silent (Ret (Some (m1', ?st))))] => destruct q as [l [u|]] end; cbn [sbind silent fst snd both]; auto.
Qed.

(** Two pasts of a board with one memory: a jump from 0 to 4, or an instruction at 0 that changes nothing but pc; word 0 is then cleared. What they leave differs inside the CPU only. *)
Definition past (w : Z) : outcome (cpu device) :=
  match board_new (dev_ops true) [DRam (StoreMem (zeros 64) 16 1)] with
  | Ret m => api_run (dev_ops true) true [AMap 0 0; AReset; AWrite 0 w; AWrite 4 (hd 0 (asm [Halt])); ANext; AWrite 0 0] m
  | Panic => Panic
  end.
Definition nop : Z := word_of_bytes (8 + 4 + 2, 0, 0, 0).
Lemma past_reachable w m : is_u32 w -> past w = Ret m -> reachable (dev_ops true) true m /\ wf m.
Proof.
  unfold past. destruct (board_new _ _) as [m0|] eqn:E; [|discriminate]. intros Hw H.
  assert (Hr : reachable (dev_ops true) true m).
  { eexists. eexists. exists m0. split; [|split; [exact E|exact H]]. set (h := hd 0 (asm [Halt])). assert (Hh : is_u32 h) by (vm_compute; split; congruence). clearbody h. clear - Hw Hh. unfold is_u32 in *. repeat (apply Forall_cons; [cbn; unfold is_u32; lia|]). apply Forall_nil. }
  split; [exact Hr|exact (reachable_wf _ (dev_typed true) _ _ Hr)].
Qed.
Lemma two_pasts : exists m1 m2, reachable (dev_ops true) true m1 /\ reachable (dev_ops true) true m2 /\ wf m1 /\ wf m2 /\ same_machine m1 m2 /\ m1 <> m2 /\
  R m1 R_pc = 4 /\ c_cycles m1 = 1 /\ c_halted m1 = false /\
  (exists m, api_run (dev_ops true) true [ANext; ANext; AReset] m1 = Ret m) /\
  exists l1 l2 m s, run_vm_said (dev_ops true) true 3 config_verbose m1 = ([l1; l2], Ret (Some (m, s))).
Proof.
  assert (X : match past nop, past (hd 0 (asm [Jpr (Lit2 4)])) with
    | Ret m1, Ret m2 => m2 = with_chg (c_chg m2) m1 /\ c_chg m1 <> c_chg m2 /\ R m1 R_pc = 4 /\ c_cycles m1 = 1 /\ c_halted m1 = false /\
        match api_run (dev_ops true) true [ANext; ANext; AReset] m1 with Ret _ => True | _ => False end /\
        match run_vm_said (dev_ops true) true 3 config_verbose m1 with ([l1; l2], Ret (Some (m, s))) => True | _ => False end
    | _, _ => False end) by (vm_compute; repeat split; discriminate).
  destruct (past nop) as [m1|] eqn:E1; [|destruct X]. destruct (past (hd 0 _)) as [m2|] eqn:E2; [|destruct X]. destruct X as (X1 & X2 & X3 & X4 & X5 & X6 & X7).
  destruct (past_reachable nop m1 ltac:(vm_compute; split; congruence) E1) as (H1 & W1). destruct (past_reachable (hd 0 (asm [Jpr (Lit2 4)])) m2 ltac:(vm_compute; split; congruence) E2) as (H2 & W2).
  exists m1, m2. split; [exact H1|]. split; [exact H2|]. split; [exact W1|]. split; [exact W2|]. split; [apply twins_same; exists (c_chg m2); exact X1|]. split; [intros ->; apply X2; reflexivity|]. split; [exact X3|]. split; [exact X4|]. split; [exact X5|].
  split; [destruct (api_run _ _ _ m1) as [m|]; [exists m; reflexivity|contradiction]|].
  destruct (run_vm_said _ _ _ _ m1) as [l o]. destruct l as [|l1 [|l2 [|l3 l]]]; try contradiction. destruct o as [[[m s]|]|]; try contradiction. exists l1, l2, m, s. reflexivity.
Qed.

Lemma E_C98_future : exists m1 m2, reachable (dev_ops true) true m1 /\ reachable (dev_ops true) true m2 /\ wf m1 /\ wf m2 /\ same_machine m1 m2 /\ m1 <> m2 /\ R m1 R_pc = 4 /\ c_cycles m1 = 1 /\
  exists m, api_run (dev_ops true) true [ANext; ANext; AReset] m1 = Ret m.
Proof. destruct two_pasts as (m1 & m2 & H). exists m1, m2. tauto. Qed.
Lemma E_C98_answers : exists m1 m2 m1' m2', wf m1 /\ wf m2 /\ same_machine m1 m2 /\ m1 <> m2 /\ api_run (dev_ops true) true [ANext; ANext; AReset] m1 = Ret m1' /\ api_run (dev_ops true) true [ANext; ANext; AReset] m2 = Ret m2'.
Proof.
  destruct two_pasts as (m1 & m2 & _ & _ & W1 & W2 & S & N & _ & _ & _ & (m1' & H) & _). pose proof (P_C98_future _ (dev_ops true) true [ANext; ANext; AReset] m1 m2 W1 W2 S) as X. rewrite H in X.
  destruct (api_run _ _ _ m2) as [m2'|] eqn:E; [|destruct X]. exists m1, m2, m1', m2'. auto 10.
Qed.
Lemma E_C98_console : exists m1 m2 l1 l2 m s, wf m1 /\ wf m2 /\ same_machine m1 m2 /\ m1 <> m2 /\ run_vm_said (dev_ops true) true 3 config_verbose m1 = ([l1; l2], Ret (Some (m, s))).
Proof. destruct two_pasts as (m1 & m2 & _ & _ & W1 & W2 & S & N & _ & _ & _ & _ & (l1 & l2 & m & s & H)). exists m1, m2, l1, l2, m, s. auto 10. Qed.
