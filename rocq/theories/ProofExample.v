(** Proofs about the example programs. *)
From Coq Require Import String ZArith List Bool Lia.
From Verif Require Import Base BaseFacts Board Mem Cpu Asm Tools Devices Runner LasmRules Lasm Sources Examples SpecMach SpecIsa SpecBus SpecObs SpecMap SpecDev SpecRun SpecPanic.
From Verif Require Import RegFacts MemFacts MapFacts CycleFacts CyclePost ReachFacts InvFacts DevTyped ProofMap ProofBoard ProofReg ProofRun ProofCrash ProofRom SymFacts.
Import ListNotations.
Open Scope Z_scope.
Ltac Zify.zify_post_hook ::= Z.div_mod_to_equations.

Definition bench_words : list Z := [469762049; 201392129; 1543575552; 1845494016; 2281701376; 4026531840; 202768384].
Lemma bench_assembled : assemble_words benchmark_source = Some bench_words.
Proof. vm_compute. reflexivity. Qed.

Definition bench_file (a0 a1 pc af : Z) : list Z :=
  [a0; a1; 0; 0; 0; 0; 0; 0; 0; 0; 0; 0; 0; 0; 0; 0; 0; 0; 0; 0; 0; 0; pc; af; 0; 0; 0; 0; 0; 0; 0; 1].
Lemma bench_loop oc mem a0 a1 af c : 0 <= a0 < 2 ^ 24 -> exists af',
  quiet (dev_ops oc) bench_words 6 (St (bench_file a0 a1 0 af) mem c false)
    (if a0 =? 2 ^ 24 - 1 then St (bench_file (2 ^ 24) (2 ^ 24) 24 af') mem ((c + 6) mod 2 ^ 128) true
     else St (bench_file (a0 + 1) (2 ^ 24) 0 af') mem ((c + 6) mod 2 ^ 128) false).
Proof.
  intros H. unfold bench_file. destruct (Z.eqb_spec a0 (2 ^ 24 - 1)) as [->|N]; eexists; istep; istep; istep; istep.
  - istep. istep. apply quiet_0.
  - change (m32 (1 * 2 ^ (24 mod 32))) with 16777216. replace (m32 (a0 + 1)) with (a0 + 1) by (unfold m32; lia). 
    istep_with ltac:(iftac false). istep. apply quiet_0.
Qed.
Lemma bench_all oc mem : forall j a0 a1 af c, a0 = 2 ^ 24 - Z.of_nat (S j) -> 0 <= a0 -> exists af',
  quiet (dev_ops oc) bench_words (6 * S j) (St (bench_file a0 a1 0 af) mem c false)
    (St (bench_file (2 ^ 24) (2 ^ 24) 24 af') mem ((c + 6 * Z.of_nat (S j)) mod 2 ^ 128) true).
Proof.
  induction j as [|j IH]; intros a0 a1 af c E H.
  - destruct (bench_loop oc mem a0 a1 af c) as (af' & Q); [lia|]. destruct (Z.eqb_spec a0 (2 ^ 24 - 1)); [|lia]. exists af'. exact Q.
  - destruct (bench_loop oc mem a0 a1 af c) as (af' & Q); [lia|]. destruct (Z.eqb_spec a0 (2 ^ 24 - 1)); [lia|].
    destruct (IH (a0 + 1) (2 ^ 24) af' ((c + 6) mod 2 ^ 128)) as (af2 & Q2); [lia|lia|]. exists af2.
    replace (6 * S (S j))%nat with (6 + 6 * S j)%nat by lia. eapply quiet_app; [exact Q|].
    rewrite Zplus_mod_idemp_l in Q2. replace (c + 6 * Z.of_nat (S (S j))) with (c + 6 + 6 * Z.of_nat (S j)) by lia. exact Q2.
Qed.

(** The benchmark ends, without exception, after exactly 6 * 2^24 cycles, in a release and in a debug build. *)
Lemma P_C74_benchmark : forall oc fuel, 6 * 2 ^ 24 < Z.of_nat fuel -> benchmark_main oc fuel = Ret (Some (Some (6 * 2 ^ 24))).
Proof.
  intros oc fuel Hf. unfold benchmark_main. rewrite bench_assembled. cbn [unwrap obind].
  change (br_new bench_words 0) with (Some (BootRom bench_words (zlen bench_words) 7 0)). cbn [unwrap obind].
  set (rom := DRom (BootRom bench_words (zlen bench_words) 7 0)).
  assert (Hd : declares (dev_ops oc) rom 28) by (unfold declares; destruct oc; eexists; split; vm_compute; reflexivity).
  destruct (booted _ (dev_ops oc) oc [rom] [28] (dev_typed oc)) as (m0 & Em & W & Ea).
  { repeat constructor; auto. } { intros d [<-|[]]. eexists; reflexivity. } { repeat constructor; try (vm_compute; reflexivity); try (vm_compute; discriminate). }
  destruct (bench_all oc (c_mem m0) (Z.to_nat (2 ^ 24 - 1)) 0 0 0 0) as (af & Q); [lia|lia|].
  replace (0 + 6 * Z.of_nat (S (Z.to_nat (2 ^ 24 - 1)))) with (6 * 2 ^ 24) in Q by lia.
  change (bench_file 0 0 0 0) with reset_file in Q. rewrite <- Ea in Q.
  destruct (quiet_exec oc bench_words ltac:(repeat constructor; unfold is_u32; lia) 7 0 _ [] 28 m0 _ (with_halt_on_exception true config_quiet) fuel Hd ltac:(vm_compute; discriminate) Em eq_refl Q eq_refl eq_refl ltac:(lia)) as (m' & a & E & A & _).
  fold rom in E. rewrite E. cbn [obind sp_ex]. do 3 f_equal. assert (X : c_cycles m' = s_cyc (abs m')) by reflexivity. rewrite X, A. reflexivity.
Qed.

(** The minimal example: one component, one instruction; it stops after one cycle without exception. *)
Lemma P_C74_minimal : forall oc fuel, (1 < fuel)%nat -> exists m a, minimal_main oc fuel = Ret (Some (m, Stopped 1 a None)) /\ c_halted m = true /\ c_cycles m = 1.
Proof.
  intros oc fuel Hf. unfold minimal_main. 
  assert (EA : assemble_words "halt" = Some [4026531840]) by (vm_compute; reflexivity). rewrite EA. cbn [unwrap obind].
  change (br_new [4026531840] 0) with (Some (BootRom [4026531840] (zlen [4026531840]) 1 0)). cbn [unwrap obind].
  set (rom := DRom (BootRom [4026531840] (zlen [4026531840]) 1 0)).
  assert (Hd : declares (dev_ops oc) rom 4) by (unfold declares; destruct oc; eexists; split; vm_compute; reflexivity).
  destruct (booted _ (dev_ops oc) oc [rom] [4] (dev_typed oc)) as (m0 & Em & W & Ea).
  { repeat constructor; auto. } { intros d [<-|[]]. eexists; reflexivity. } { repeat constructor; try (vm_compute; reflexivity); try (vm_compute; discriminate). }
  assert (Q : quiet (dev_ops oc) [4026531840] 1 (abs m0) (St (bench_file 0 0 4 0) (c_mem m0) 1 true)).
  { rewrite Ea. unfold reset_file, bench_file. istep. apply quiet_0. }
  destruct (quiet_exec oc [4026531840] ltac:(repeat constructor; unfold is_u32; lia) 1 0 _ [] 4 m0 _ config_default fuel Hd ltac:(vm_compute; discriminate) Em eq_refl Q eq_refl eq_refl Hf) as (m' & a & E & A & _).
  exists m', a. fold rom in E. rewrite E. split; [reflexivity|]. split; [change (s_halt (abs m') = true)|change (s_cyc (abs m') = 1)]; rewrite A; reflexivity.
Qed.

(* Concrete cases for the theorems above that have none beside them. *)
Lemma E_C74_benchmark : 6 * 2 ^ 24 < Z.of_nat (Z.to_nat (6 * 2 ^ 24 + 1)) /\ benchmark_main true 60 = Ret None.
Proof. split; [rewrite Z2Nat.id; lia|vm_compute; reflexivity]. Qed.
Lemma E_C74_minimal : exists m a, minimal_main true 2 = Ret (Some (m, Stopped 1 a None)).
Proof. destruct (P_C74_minimal true 2) as (m & a & E & _); [lia|]. eauto. Qed.
