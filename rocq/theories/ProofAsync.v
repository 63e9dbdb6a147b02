(** The async_hw example (C77): its program on a board with the asynchronous counter and its threads. *)
From Coq Require Import String ZArith List Bool Lia Sorted.
From Verif Require Import Base BaseFacts Board Mem Cpu Asm Tools Devices Runner LasmRules Lasm Sources Counter Examples Async SpecMach SpecIsa SpecBus SpecObs SpecMap SpecDev SpecRun SpecPanic SpecExample SpecCounter SpecAsm.
From Verif Require Import RegFacts MemFacts MapFacts CycleFacts CyclePost ReachFacts InvFacts DevTyped ProofMap ProofBoard ProofReg ProofRun ProofCrash ProofRom SymFacts ProofTools ProofCounter AsyncFacts.
Import ListNotations.
Open Scope list_scope.
Open Scope Z_scope.
Ltac Zify.zify_post_hook ::= Z.div_mod_to_equations.

(** The example with any component in place of the counter that declares 4 bytes and whose successive reads give the words [v 0], [v 1], ...
    without exception: until 5 is read, what is displayed is each word that differs from the previous one (0 at first); when 5 is read the
    machine halts, without exception; if it never is, the machine runs for ever. *)
Lemma P_C77_any : forall C (cops : bus_ops C) oc c0 (c : nat -> C) (v : nat -> Z) id0 id1 id3, typed cops ->
  declares cops c0 4 -> bo_reset cops c0 = Ret (c O) -> (forall i, bo_read cops (c i) 0 = Ret (c (S i), 0, v i)) ->
  (forall j, (forall i, (i < j)%nat -> v i <> 5) -> v j = 5 -> forall fuel, (12 + 9 * j < fuel)%nat ->
     exists m cycles a, async_run cops oc fuel c0 id0 id1 id3 = Ret (Some (m, Stopped cycles a None)) /\ async_displayed 3 m = Some (changes 0 (map v (seq 0 (S j))))) /\
  ((forall i, v i <> 5) -> forall fuel, async_run cops oc fuel c0 id0 id1 id3 = Ret None).
Proof.
  intros C cops oc c0 c v id0 id1 id3 TC Hd Hr Hc. set (ops := sum_ops (dev_ops oc) cops). pose proof (sum_typed _ _ (dev_typed oc) TC) as T. fold ops in T.
  destruct (sm_new 4096 id1) as [ram|] eqn:Eram; [|discriminate].
  set (ds := [asy_rom id0; inl (DRam ram); inr c0; inl (DNum (NumDisplay id3 []))] : list (device + C)).
  assert (ER : forall fuel, async_run cops oc fuel c0 id0 id1 id3 = exec_vm ops oc fuel config_halt_on_ex ds).
  { intros fuel. unfold async_run. rewrite asy_assembled. cbn [unwrap obind]. change (br_with_size asy_words 4096 id0) with (Some (BootRom asy_words 14 1024 id0)). cbn [unwrap obind]. rewrite Eram. reflexivity. }
  assert (HD : Forall2 (declares ops) ds asy_szs).
  { unfold ds, asy_szs. apply Forall2_cons. { unfold declares, ops; destruct oc; eexists; split; reflexivity. }
    apply Forall2_cons. { unfold sm_new in Eram; cbn in Eram; apply some_eq in Eram; subst ram. unfold declares, ops; destruct oc; eexists; split; reflexivity. }
    apply Forall2_cons. { exact Hd. }
    apply Forall2_cons. { unfold declares, ops; destruct oc; eexists; split; reflexivity. } apply Forall2_nil. }
  destruct (booted_board _ ops oc ds asy_szs T HD) as (m0 & ds' & Em & W & Ea & Rs & B & Lm & Ht & _).
  { intros d [<-|[<-|[<-|[<-|[]]]]]; try (eexists; reflexivity). exists (inr (c O)). cbn [bo_reset ops sum_ops]. rewrite Hr. reflexivity. }
  { repeat constructor; try (vm_compute; reflexivity); try (vm_compute; discriminate). }
  assert (Hds : exists ram', ds' = asy_devs id0 id3 ram' c 0 []).
  { inversion Rs as [|? d0 ? l1 X0 Rs1]; subst. inversion Rs1 as [|? d1 ? l2 X1 Rs2]; subst. inversion Rs2 as [|? d2 ? l3 X2 Rs3]; subst. inversion Rs3 as [|? d3 ? l4 X3 Rs4]; subst. inversion Rs4; subst.
    injection X0 as <-. injection X3 as <-. cbn [bo_reset ops sum_ops] in X2. rewrite Hr in X2. injection X2 as <-.
    cbn [bo_reset ops sum_ops] in X1. destruct (bo_reset (dev_ops oc) (DRam ram)) as [r'|]; [|discriminate]. injection X1 as <-. exists r'. reflexivity. }
  destruct Hds as (ram' & ->).
  assert (Hread : forall j w, nth_error asy_words j = Some w -> bo_read ops (asy_rom id0) (4 * Z.of_nat j) = Ret (asy_rom id0, 0, w)).
  { intros i w Hi. do 14 (destruct i as [|i]; [injection Hi as <-; destruct oc; reflexivity|]). destruct i; discriminate. }
  assert (Hfix : forall r d' xs, serve ops (asy_rom id0) [r] = Ret (d', xs) -> d' = asy_rom id0).
  { intros [a|a w|] d' xs; cbn [serve bo_read bo_write bo_reset dev_ops ops sum_ops asy_rom]; unfold br_read, br_write; cbn [br_len br_storage]; [|intros X; injection X as <- _; reflexivity..].
    destruct (a / 4 <? 14); [|intros X; injection X as <- _; reflexivity]. destruct (vget asy_words (a / 4)); [|discriminate]. intros X; injection X as <- _; reflexivity. }
  assert (Hh : holds (asy_rom id0) asy_szs m0) by (exists (asy_devs id0 id3 ram' c 0 []); split; [exact B|reflexivity]).
  split.
  - intros j Hv H5 fuel Hf. destruct (asy_before cops oc TC id0 id3 ram' c v Hc j (c_mem m0) Hv B) as (n & mem' & s' & Q & L & _ & _ & _ & K). destruct (K H5) as (n2 & s2 & Q2 & L2 & Hs & He & B2).
    destruct (gquiet_exec ops oc T asy_words (asy_rom id0) asy_szs 4096 Hread Hfix eq_refl ltac:(cbn; lia) (n + n2) ds m0 s2 config_halt_on_ex fuel Em W Hh eq_refl) as (m & a & E & A & _); auto; try lia.
    { rewrite Ea. eapply quiet_app; eauto. }
    exists m, (s_cyc s2), a. rewrite ER. split; [exact E|].
    rewrite <- A in B2. destruct B2 as (_ & _ & B2 & _). cbn [abs s_bus] in B2. destruct (devs_znth _ _ _ 3 _ B2 eq_refl) as (e & Hz & He'). unfold async_displayed, c_hwb. change (Z.of_nat 3) with 3 in Hz. rewrite Hz.
    destruct e as [d x]. cbn in He'. subst d. cbn [nd_calls]. rewrite map_map. cbn [fst]. rewrite map_id. reflexivity.
  - intros Hv fuel. rewrite ER. destruct (asy_before cops oc TC id0 id3 ram' c v Hc fuel (c_mem m0) ltac:(auto) B) as (n & mem' & s' & Q & L & _).
    apply (gquiet_forever ops oc T asy_words (asy_rom id0) asy_szs 4096 Hread Hfix eq_refl ltac:(cbn; lia) n ds m0 s' config_halt_on_ex fuel Em W Hh eq_refl); [rewrite Ea; exact Q|lia].
Qed.

(** The counter on its own. *)
Lemma async_typed : typed async_ops.
Proof.
  constructor.
  - intros a off a' ex v. cbn [bo_read async_ops]. destruct (exec _ CallRead) as [[[] w]|]; try discriminate. intros E; injection E as <- <- <-. split; [unfold is_u16; lia|unfold is_u32, u32; lia].
  - intros a off x a' ex. cbn [bo_write async_ops]. destruct (exec _ CallWrite) as [[[] w]|]; try discriminate. intros E; injection E as <- <-. unfold is_u16, u16. lia.
  - intros a md. cbn [bo_metadata async_ops]. unfold counter_metadata. cbn [metadata_new obind]. change (4 mod 4 =? 0) with true. cbn iota. cbn [obind]. apply metadata_u32.
  - intros a. cbn [bo_name async_ops]. apply chars_scalar.
Qed.
(** The world while the first reset creates the counter, the flag and the thread; and once its thread has made [n] steps. *)
Definition w_counter : world := World [0] [false] [] 0 0 None ONewCounter.
Definition w_flag : world := World [0; 0] [false] [] 1 0 None ONewFlag.
Definition w_spawn : world := World [0; 0] [false; false] [] 1 1 None OSpawn.
Definition w_count (n : Z) : world :=
  World [0; (n / 100) mod 2 ^ 32] [false; false] [Thread 1 1 (if n mod 100 =? 99 then TAdd else TPoll (n mod 100 + 1))] 1 1 (Some 0%nat) OIdle.
Lemma runs_pos cs : 0 <= runs cs.
Proof. unfold runs. lia. Qed.
Lemma runs_cons c t : runs (c :: t) = (match c with Run 0 => 1 | _ => 0 end) + runs t.
Proof. unfold runs. cbn [filter]. destruct c as [| | | | | |[|j]]; cbn [length]; lia. Qed.
Lemma count_turn n : 0 <= n -> exists l, exec (w_count n) (Run 0) = Some (l, w_count (n + 1)).
Proof.
  intros H. cbn [exec w_count wd_owner]. unfold thread_step. cbn [wd_threads nth_error th_pc w_count]. destruct (Z.eqb_spec (n mod 100) 99) as [E|E].
  - eexists. apply f_equal. apply f_equal. unfold with_thread, w_count. cbn [wd_threads nth_error set_nth th_counter th_flag wd_counters wd_flags wd_counter wd_flag wd_handle wd_owner nth].
    assert (X : (n + 1) mod 100 = 0) by lia. rewrite X. change (0 =? 99) with false. cbn iota. change (0 + 1) with 1. f_equal. f_equal. f_equal. unfold u32. change (2 ^ 32) with 4294967296.
    assert (Y : (n + 1) / 100 = n / 100 + 1) by lia. rewrite Y. rewrite Zplus_mod_idemp_l. reflexivity.
  - cbn [th_flag nth wd_flags]. eexists. apply f_equal. apply f_equal. unfold with_thread, w_count. cbn [wd_threads nth_error set_nth th_counter th_flag wd_counters wd_flags wd_counter wd_flag wd_handle wd_owner nth].
    assert (X : (n + 1) mod 100 = n mod 100 + 1) by lia. assert (Y : (n + 1) / 100 = n / 100) by lia. rewrite X, Y. f_equal. f_equal. f_equal.
    destruct (Z.ltb_spec (n mod 100 + 1 + 1) 100); destruct (Z.eqb_spec (n mod 100 + 1) 99); try lia; reflexivity.
Qed.
Lemma count_run cs : forall n, 0 <= n -> let_run (w_count n) cs = w_count (n + runs cs).
Proof.
  induction cs as [|c cs IH]; intros n H; [cbn [let_run]; f_equal; unfold runs; cbn [filter length]; lia|]. rewrite runs_cons. cbn [let_run]. destruct c as [| | | | | |[|j]]; try (rewrite IH by lia; f_equal; lia).
  - change (exec (w_count n) Continue) with (@None (label * world)). cbn iota. rewrite IH by lia. reflexivity.
  - destruct (count_turn n H) as (l & ->). rewrite IH by lia. f_equal. lia.
  - assert (exec (w_count n) (Run (S j)) = None) as -> by (cbn; unfold thread_step; cbn; destruct j; reflexivity). rewrite IH by lia. reflexivity.
Qed.
Lemma no_thread w j : In w [w_counter; w_flag; w_spawn] -> exec w (Run j) = None.
Proof. intros [<-|[<-|[<-|[]]]]; cbn; unfold thread_step; cbn; destruct j; reflexivity. Qed.
Lemma start_run cs : forall k w, In (k, w) [(3%nat, w_counter); (2%nat, w_flag); (1%nat, w_spawn); (0%nat, w_count 0)] -> finish 7 (let_run w cs) = Ret (w_count (runs (after_continues k cs))).
Proof.
  induction cs as [|c cs IH]; intros k w H.
  - cbn [In] in H. destruct H as [H|[H|[H|[H|[]]]]]; injection H as <- <-; reflexivity.
  - destruct H as [H|[H|[H|[H|[]]]]]; injection H as <- <-; cbn [let_run].
    + destruct c as [| | | | | |j]; cbn [after_continues]; try (apply IH; cbn; tauto). rewrite no_thread by (cbn; tauto). apply IH; cbn; tauto.
    + destruct c as [| | | | | |j]; cbn [after_continues]; try (apply IH; cbn; tauto). rewrite no_thread by (cbn; tauto). apply IH; cbn; tauto.
    + destruct c as [| | | | | |j]; cbn [after_continues]; try (apply IH; cbn; tauto). rewrite no_thread by (cbn; tauto). apply IH; cbn; tauto.
    + cbn [after_continues]. destruct c as [| | | | | |[|j]]; try (rewrite count_run, runs_cons by lia; reflexivity).
      * change (exec (w_count 0) Continue) with (@None (label * world)). cbn iota. rewrite count_run, runs_cons by lia. reflexivity.
      * destruct (count_turn 0 ltac:(lia)) as (l & ->). rewrite count_run, runs_cons by lia. reflexivity.
      * assert (exec (w_count 0) (Run (S j)) = None) as -> by (cbn; unfold thread_step; cbn; destruct j; reflexivity). rewrite count_run, runs_cons by lia. reflexivity.
Qed.
Definition turns0 (sched : nat -> list choice) (i : nat) : Z := match i with O => runs (after_continues 3 (sched O)) | S i => turns sched i end.
Lemma turns0_pos sched i : 0 <= turns0 sched i.
Proof. destruct i as [|i]; [apply runs_pos|]. induction i as [|i IH]; cbn [turns0 turns] in *; pose proof (runs_pos (after_continues 3 (sched O))); [pose proof (runs_pos (sched 1%nat))|pose proof (runs_pos (sched (S (S i))))]; lia. Qed.
Lemma turns0_S sched i : turns0 sched (S i) = turns0 sched i + runs (sched (S i)).
Proof. destruct i; reflexivity. Qed.
Definition ac_state id sched i := AsyncCounter id (w_count (turns0 sched i)) sched (S i).
Lemma async_reset id sched : bo_reset async_ops (async_new id sched) = Ret (ac_state id sched 0).
Proof.
  cbn [bo_reset async_ops async_new ac_world ac_sched ac_used]. change (exec world_new CallReset) with (Some (LReset, w_counter)). cbn iota beta.
  rewrite (start_run (sched O) 3 w_counter) by (cbn; auto). reflexivity.
Qed.
Lemma async_read id sched i : bo_read async_ops (ac_state id sched i) 0 = Ret (ac_state id sched (S i), 0, increments sched i mod 2 ^ 32).
Proof.
  cbn [bo_read async_ops ac_state ac_world ac_sched ac_used]. rewrite count_run by apply turns0_pos. rewrite <- turns0_S. cbn [exec w_count wd_owner wd_counter wd_counters nth].
  unfold ac_next, ac_state. cbn [ac_hw_id ac_sched ac_used]. change (turns0 sched (S i)) with (turns sched i). unfold increments. f_equal. f_equal. unfold u32. change (2 ^ 32) with 4294967296. apply Z.mod_mod. lia.
Qed.
Lemma async_declares id sched : declares async_ops (async_new id sched) 4.
Proof. eexists. split; reflexivity. Qed.

(** The async_hw example, for every schedule of the counting thread and every build: with [v i] the seconds counted at reading [i], until
    5 is read what is displayed is each [v i] that differs from the previous one; when 5 is read the machine halts, without exception; if it never is, the machine runs for ever. *)
Lemma P_C77_async : forall oc sched id0 id1 id2 id3, let v := fun i => increments sched i mod 2 ^ 32 in
  (forall j, (forall i, (i < j)%nat -> v i <> 5) -> v j = 5 -> forall fuel, (12 + 9 * j < fuel)%nat ->
     exists m cycles a, async_main oc fuel sched id0 id1 id2 id3 = Ret (Some (m, Stopped cycles a None)) /\ async_displayed 3 m = Some (changes 0 (map v (seq 0 (S j))))) /\
  ((forall i, v i <> 5) -> forall fuel, async_main oc fuel sched id0 id1 id2 id3 = Ret None).
Proof.
  intros oc sched id0 id1 id2 id3 v. exact (P_C77_any async async_ops oc (async_new id2 sched) (ac_state id2 sched) v id0 id1 id3 async_typed (async_declares id2 sched) (async_reset id2 sched) (async_read id2 sched)).
Qed.

Definition up_from (a : Z) (n : nat) : list Z := map (fun k => a + 1 + Z.of_nat k) (seq 0 n).
Lemma up_from_S a n : up_from a (S n) = (a + 1) :: up_from (a + 1) n.
Proof. unfold up_from. cbn [seq map]. f_equal; [lia|]. rewrite <- seq_shift, map_map. apply map_ext. intros k. lia. Qed.
Lemma changes_slow (t : nat -> Z) : (forall i, t i <= t (S i) <= t i + 1) -> forall n i a, a <= t i <= a + 1 -> changes a (map t (seq i (S n))) = up_from a (Z.to_nat (t (i + n)%nat - a)).
Proof.
  intros Ht. induction n as [|n IH]; intros i a H; cbn [seq map changes].
  - rewrite Nat.add_0_r. destruct (Z.eqb_spec (t i) a) as [E|E]; [rewrite E, Z.sub_diag; reflexivity|]. assert (X : t i = a + 1) by lia. rewrite X. replace (a + 1 - a) with 1 by lia. change (Z.to_nat 1) with 1%nat. rewrite (up_from_S a 0). reflexivity.
  - assert (M : forall k, t (S i) <= t (S i + k)%nat) by (induction k as [|k IHk]; [rewrite Nat.add_0_r; lia|rewrite Nat.add_succ_r; specialize (Ht (S i + k)%nat); lia]).
    specialize (M n). pose proof (Ht i) as Hi. replace (i + S n)%nat with (S i + n)%nat by lia.
    destruct (Z.eqb_spec (t i) a) as [E|E]; [apply IH; lia|]. assert (X : t i = a + 1) by lia. rewrite X. match goal with |- _ :: ?x = _ => change x with (changes (a + 1) (map t (seq (S i) (S n)))) end. rewrite IH by lia.
    rewrite <- up_from_S. f_equal. lia.
Qed.
Lemma first_five (t : nat -> Z) : t O <= 1 -> (forall i, t i <= t (S i) <= t i + 1) -> forall i, 5 <= t i -> exists j, t j = 5 /\ forall x, (x < j)%nat -> t x < 5.
Proof.
  intros H0 Ht. induction i as [|i IH]; intros H; [lia|]. destruct (Z_lt_ge_dec (t i) 5) as [L|L]; [|apply IH; lia]. exists (S i). pose proof (Ht i). split; [lia|].
  intros x Hx. assert (M : forall d y, t y <= t (y + d)%nat) by (induction d as [|d IHd]; intros y; [rewrite Nat.add_0_r; lia|rewrite Nat.add_succ_r; specialize (Ht (y + d)%nat); specialize (IHd y); lia]).
  specialize (M (i - x)%nat x). replace (x + (i - x))%nat with i in M by lia. lia.
Qed.
Lemma increments_up sched i : 0 <= increments sched i <= increments sched (S i).
Proof. unfold increments. pose proof (turns0_pos sched (S i)). cbn [turns0] in H. cbn [turns]. pose proof (runs_pos (sched (S (S i)))). lia. Qed.
(** When the program reads the counter at least once per second (at most one increment between two readings) and the thread goes on to run,
    the example displays 1, 2, 3, 4, 5 and halts, without exception. *)
Lemma P_C77_counts : forall oc sched id0 id1 id2 id3, increments sched 0 <= 1 -> (forall i, increments sched (S i) <= increments sched i + 1) -> (exists i, 5 <= increments sched i) ->
  exists needed, forall fuel, (needed <= fuel)%nat -> exists m cycles a, async_main oc fuel sched id0 id1 id2 id3 = Ret (Some (m, Stopped cycles a None)) /\ async_displayed 3 m = Some [1; 2; 3; 4; 5].
Proof.
  intros oc sched id0 id1 id2 id3 H0 HS (i & Hi). set (t := increments sched) in *. assert (Ht : forall i, t i <= t (S i) <= t i + 1) by (intros x; pose proof (increments_up sched x); fold t in H; specialize (HS x); lia).
  destruct (first_five t H0 Ht i Hi) as (j & Hj & Hb). destruct (P_C77_async oc sched id0 id1 id2 id3) as (A & _).
  assert (P : forall x, 0 <= t x) by (intros x; apply (increments_up sched x)).
  assert (V : forall x, (x <= j)%nat -> t x mod 2 ^ 32 = t x). { intros x Hx. apply Z.mod_small. specialize (P x). destruct (Nat.eq_dec x j) as [->|N]; [lia|]. specialize (Hb x ltac:(lia)). lia. }
  exists (13 + 9 * j)%nat. intros fuel Hf. destruct (A j) with (fuel := fuel) as (m & cycles & a & E & D).
  - intros x Hx. fold t. rewrite V by lia. specialize (Hb x Hx). lia.
  - fold t. rewrite V by lia. exact Hj.
  - lia.
  - exists m, cycles, a. split; [exact E|]. rewrite D. f_equal. fold t. rewrite (map_ext_in _ t) by (intros x Hx; apply in_seq in Hx; apply V; lia).
    rewrite changes_slow; [|exact Ht|specialize (P O); lia]. cbn [Nat.add]. rewrite Hj. reflexivity.
Qed.
(** But when the program is late once (two increments or more between two readings) it may never stop: it is NOT the case that it stops whenever the counting thread goes on for ever. *)
Lemma P_C77_stops_refuted : ~ (forall oc sched id0 id1 id2 id3, (forall n, exists i, n <= increments sched i) -> exists fuel, async_main oc fuel sched id0 id1 id2 id3 <> Ret None).
Proof.
  intros H. set (sched := fun _ : nat => repeat (Run 0) 600).
  assert (E : forall i, turns sched i = 600 * (Z.of_nat i + 1)). { induction i as [|i IH]; [reflexivity|]. cbn [turns]. rewrite IH. change (runs (sched (S (S i)))) with 600. lia. }
  assert (EI : forall i, increments sched i = 6 * (Z.of_nat i + 1)). { intros i. unfold increments. rewrite E. lia. }
  destruct (H true sched 0 0 0 0) as (fuel & N).
  - intros n. exists (Z.to_nat n). rewrite EI. lia.
  - apply N. apply (proj2 (P_C77_async true sched 0 0 0 0)). intros i. rewrite EI. change (2 ^ 32) with 4294967296. lia.
Qed.
(** A schedule where the thread makes 10 steps between two readings. *)
Definition steady : nat -> list choice := fun _ => repeat (Run 0) 10.
Lemma steady_turns i : turns steady i = 10 * (Z.of_nat i + 1).
Proof. induction i as [|i IH]; [reflexivity|]. cbn [turns]. rewrite IH. change (runs (steady (S (S i)))) with 10. lia. Qed.
Lemma E_C77_counts : increments steady 0 <= 1 /\ (forall i, increments steady (S i) <= increments steady i + 1) /\ (exists i, 5 <= increments steady i).
Proof. split; [vm_compute; discriminate|]. split; [intros i; unfold increments; rewrite !steady_turns; lia|exists 49%nat; vm_compute; discriminate]. Qed.
(** The generic statement applied to the counter under that schedule: reading number 49 is the first to give 5. *)
Lemma E_C77_async : (forall i, (i < 49)%nat -> increments steady i mod 2 ^ 32 <> 5) /\ increments steady 49 mod 2 ^ 32 = 5.
Proof. split; [|reflexivity]. intros i Hi. unfold increments. rewrite steady_turns. change (2 ^ 32) with 4294967296. lia. Qed.
Lemma E_C77_any : typed async_ops /\ (forall id sched, declares async_ops (async_new id sched) 4) /\ exists c, bo_reset async_ops (async_new 7 steady) = Ret (c O) /\ forall i, bo_read async_ops (c i) 0 = Ret (c (S i), 0, increments steady i mod 2 ^ 32).
Proof. split; [apply async_typed|]. split; [intros; apply async_declares|]. exists (ac_state 7 steady). split; [apply async_reset|apply async_read]. Qed.
