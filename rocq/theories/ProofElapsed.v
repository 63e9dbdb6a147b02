(** The elapsed_time example (C76). *)
From Coq Require Import String ZArith List Bool Lia.
From Verif Require Import Base BaseFacts Board Mem Cpu Asm Tools Devices Runner LasmRules Lasm Sources Examples SpecMach SpecIsa SpecBus SpecObs SpecMap SpecDev SpecRun SpecPanic SpecExample.
From Verif Require Import Counter RegFacts MemFacts MapFacts CycleFacts CyclePost ReachFacts InvFacts DevTyped ProofMap ProofBoard ProofReg ProofRun ProofCrash ProofRom SymFacts.
Import ListNotations.
Open Scope list_scope.
Open Scope Z_scope.
Ltac Zify.zify_post_hook ::= Z.div_mod_to_equations.

Definition ela_words : list Z := [201986048; 2785085968; 2785020432; 1845494016; 2550137089; 1879051264; 3037337600; 234946560; 202768392].
Lemma ela_assembled : assemble_words elapsed_source = Some ela_words.
Proof. vm_compute. reflexivity. Qed.
Definition ela_rom : device := DRom (BootRom ela_words 9 1024 1).
Definition ela_szs : list Z := [4096; 24; 64].
Definition ela_clock (r : Z) system instant u : device := DClock (Clock 2 r system instant u).
Definition ela_devs r system instant u calls : list device := [ela_rom; ela_clock r system instant u; DNum (NumDisplay 3 calls)].
Definition ela_file (a0 a1 ac0 pc af : Z) : list Z :=
  [a0; a1; 0; 0; 0; 0; 0; 0; 0; 0; ac0; 0; 0; 0; 0; 0; 0; 0; 0; 0; 0; 0; pc; af; 0; 0; 0; 0; 0; 0; 0; 1].
Section Elapsed.
Context (oc : bool) (r : Z) (system : nat -> option Z) (instant : nat -> Z).
Notation ops := (dev_ops oc).
Notation devs := (ela_devs r system instant).
Notation quiet := (quiet ops ela_words).
Lemma ela_read u calls mem : board ela_szs (devs u calls) mem ->
  exists mem', mem_read ops false mem 4112 = Ret (mem', 0, seconds_between r (instant u)) /\ board ela_szs (devs (S u) calls) mem'.
Proof.
  intros B. destruct (board_read _ ops _ _ mem 4112 1 (ela_clock r system instant u) 16 (ela_clock r system instant (S u)) 0 (seconds_between r (instant u)) B) as (mem' & E & B' & _).
  - exists 24. split; [reflexivity|]. split; [reflexivity|]. split; [reflexivity|]. split; [lia|reflexivity].
  - cbn [bo_read dev_ops ela_clock]. unfold rc_read. change (16 <? 14) with false. cbn iota. change (16 mod 3) with 1. cbn iota. cbn [obind wrap_r rc_instant rc_reset_at rc_used].
    unfold rc_tick, wrap_r. cbn [obind rc_instant rc_reset_at rc_used rc_hw_id rc_system]. unfold ela_clock. do 2 f_equal.
    unfold seconds_between, as_secs. change (10 ^ 9) with 1000000000. change 4294967295 with (Z.ones 32). rewrite Z.land_ones by lia. unfold u32. change 4294967296 with (2 ^ 32). rewrite !Z.mod_mod by lia. reflexivity.
  - exists mem'. auto.
Qed.
Lemma ela_write u calls mem w : board ela_szs (devs u calls) mem ->
  exists mem', mem_write ops false mem 4120 w = Ret (mem', 0) /\ board ela_szs (devs u (calls ++ [(w, NHex, true)])) mem'.
Proof.
  intros B. destruct (board_write _ ops _ _ mem 4120 2 (DNum (NumDisplay 3 calls)) 0 (DNum (NumDisplay 3 (calls ++ [(w, NHex, true)]))) 0 w B) as (mem' & E & B' & _).
  - exists 64. split; [reflexivity|]. split; [reflexivity|]. split; [reflexivity|]. split; [lia|reflexivity].
  - reflexivity.
  - exists mem'. auto.
Qed.
Lemma seconds_u32 a b : is_u32 (seconds_between a b).
Proof. unfold seconds_between, is_u32. lia. Qed.
Lemma ela_iter u calls mem a0 a1 af c : is_u32 a1 -> board ela_szs (devs u calls) mem ->
  let t := seconds_between r (instant u) in
  exists mem' af' k, quiet k (St (ela_file a0 a1 4096 8 af) mem c false) (St (ela_file t (if a1 <? t then t else a1) 4096 8 af') mem' ((c + Z.of_nat k) mod 2 ^ 128) false) /\
    (5 <= k <= 6)%nat /\ board ela_szs (devs (S u) (if a1 <? t then calls ++ [(t, NHex, true)] else calls)) mem'.
Proof.
  intros U B t. pose proof (seconds_u32 r (instant u)) as Ut. fold t in Ut. destruct (ela_read u calls mem B) as (m1 & E1 & B1). fold t in E1. clearbody t. unfold is_u32 in *.
  destruct (Z.ltb_spec a1 t) as [L|L].
  - destruct (ela_write _ _ _ t B1) as (m2 & E2 & B2). exists m2. eexists. exists 6%nat. split; [|split; [lia|exact B2]]. unfold ela_file.
    istep_with ltac:(change (m32 (4096 + 16)) with 4112; change (4112 mod 4) with 0; sym1; rewrite E1; sym1). istep.
    istep_with ltac:(rewrite flag_Z, flag_C; replace (m32 (t - a1) =? 0) with false by (symmetry; unfold m32; lia); replace (t <? a1) with false by (symmetry; lia); cbn [orb andb negb]; cbn iota).
    istep_with ltac:(change (m32 (4096 + 24)) with 4120; change (4120 mod 4) with 0; sym1; rewrite E2; sym1). istep. istep. apply quiet_0.
  - exists m1. eexists. exists 5%nat. split; [|split; [lia|exact B1]]. unfold ela_file.
    istep_with ltac:(change (m32 (4096 + 16)) with 4112; change (4112 mod 4) with 0; sym1; rewrite E1; sym1). istep.
    istep_with ltac:(rewrite flag_Z, flag_C; change (1 =? 1) with true; cbn iota; replace (if m32 (t - a1) =? 0 then true else t <? a1) with true by (destruct (Z.eqb_spec (m32 (t - a1)) 0); [reflexivity|symmetry; unfold m32 in *; lia]); cbn iota).
    istep. istep. apply quiet_0.
Qed.
Lemma ela_iters : forall j u calls mem a0 a1 af c, is_u32 a1 -> board ela_szs (devs u calls) mem ->
  let t := map (fun i => seconds_between r (instant i)) (seq u j) in
  exists mem' a0' a1' af' k, quiet k (St (ela_file a0 a1 4096 8 af) mem (c mod 2 ^ 128) false) (St (ela_file a0' a1' 4096 8 af') mem' ((c + Z.of_nat k) mod 2 ^ 128) false) /\
    (5 * j <= k <= 6 * j)%nat /\ board ela_szs (devs (u + j) (calls ++ map (fun x => (x, NHex, true)) (records a1 t))) mem'.
Proof.
  induction j as [|j IH]; intros u calls mem a0 a1 af c U B t.
  - exists mem, a0, a1, af, 0%nat. cbn [t seq map records]. rewrite app_nil_r, Nat.add_0_r. split; [|split; [lia|exact B]]. cbn [Z.of_nat]. rewrite Z.add_0_r. apply quiet_0.
  - destruct (ela_iter u calls mem a0 a1 af (c mod 2 ^ 128) U B) as (m1 & af1 & k1 & Q1 & L1 & B1). set (t1 := seconds_between r (instant u)) in *.
    assert (U1 : is_u32 (if a1 <? t1 then t1 else a1)) by (pose proof (seconds_u32 r (instant u)); destruct (a1 <? t1); auto).
    destruct (IH (S u) _ m1 t1 _ af1 (c + Z.of_nat k1) U1 B1) as (m2 & b0 & b1 & af2 & k2 & Q2 & L2 & B2).
    exists m2, b0, b1, af2, (k1 + k2)%nat. split; [|split; [lia|]].
    + rewrite Zplus_mod_idemp_l in Q1. eapply quiet_app; [exact Q1|]. replace (c + Z.of_nat (k1 + k2)) with (c + Z.of_nat k1 + Z.of_nat k2) by lia. exact Q2.
    + replace (u + S j)%nat with (S u + j)%nat by lia. subst t. cbn [seq map records]. fold t1. destruct (a1 <? t1); [|exact B2]. cbn [map]. rewrite <- app_assoc in B2. exact B2.
Qed.
End Elapsed.

(** From the boot of the example: the first [2 + k] cycles. *)
Lemma ela_prologue oc v mem m1 : mem_read (dev_ops oc) false mem 4112 = Ret (m1, 0, v) -> quiet (dev_ops oc) ela_words 2 (St reset_file mem 0 false) (St (ela_file 0 v 4096 8 0) m1 (2 mod 2 ^ 128) false).
Proof.
  intros E. change reset_file with (ela_file 0 0 0 0 0). unfold ela_file. istep.
  istep_with ltac:(change (m32 (4096 + 16)) with 4112; change (4112 mod 4) with 0; sym1; rewrite E; sym1). apply quiet_0.
Qed.
Lemma ela_boot oc system instant : exists ds m0, elapsed_devices ela_words system instant = Ret ds /\ prepare_vm (dev_ops oc) oc ds = Ret m0 /\ wf m0 /\
  holds ela_rom ela_szs m0 /\
  forall j, exists s' k, quiet (dev_ops oc) ela_words k (abs m0) s' /\ s_halt s' = false /\ (2 + 5 * j <= k <= 2 + 6 * j)%nat /\
    let t i := seconds_between (instant 1%nat) (instant (2 + i)%nat) in
    board ela_szs (ela_devs (instant 1%nat) system instant (3 + j) (map (fun x => (x, NHex, true)) (records (t O) (map t (seq 1 j))))) (s_bus s').
Proof.
  set (ds := [ela_rom; ela_clock (instant 0%nat) system instant 1; DNum (NumDisplay 3 [])]). exists ds.
  assert (Hd : Forall2 (declares (dev_ops oc)) ds ela_szs).
  { repeat constructor; unfold declares; destruct oc; eexists; split; reflexivity. }
  destruct (booted_board _ (dev_ops oc) oc ds ela_szs (dev_typed oc) Hd) as (m0 & ds' & Em & W & Ea & Rs & B & Lm & Ht & _).
  { intros d [<-|[<-|[<-|[]]]]; eexists; reflexivity. } { repeat constructor; try (vm_compute; reflexivity); try (vm_compute; discriminate). }
  assert (Hds : ds' = ela_devs (instant 1%nat) system instant 2 []).
  { inversion Rs as [|? d0 ? l1 X0 Rs1]; subst. inversion Rs1 as [|? d1 ? l2 X1 Rs2]; subst. inversion Rs2 as [|? d2 ? l3 X2 Rs3]; subst. inversion Rs3; subst.
    injection X0 as <-. injection X1 as <-. injection X2 as <-. reflexivity. }
  subst ds'. exists m0. split; [reflexivity|]. split; [exact Em|]. split; [exact W|]. split. { exists (ela_devs (instant 1%nat) system instant 2 []). split; [exact B|reflexivity]. }
  intros j. destruct (ela_read oc (instant 1%nat) system instant 2 [] _ B) as (m1 & E1 & B1). set (t0 := seconds_between (instant 1%nat) (instant 2%nat)) in *.
  destruct (ela_iters oc (instant 1%nat) system instant j 3 [] m1 0 t0 0 2 (seconds_u32 _ _) B1) as (m2 & b0 & b1 & af & k & Q & L & B2).
  rewrite <- !(seq_shift _ (S _)), !map_map in B2. 
  exists (St (ela_file b0 b1 4096 8 af) m2 ((2 + Z.of_nat k) mod 2 ^ 128) false), (2 + k)%nat. split; [|split; [|split; [lia|exact B2]]].
  - rewrite Ea. eapply quiet_app; [|exact Q]. apply ela_prologue. exact E1.
  - reflexivity.
Qed.

(** While the example runs, its display is given exactly the successive maxima of the elapsed seconds: after reading number [j] of the clock
    has been dealt with, at a cycle between [2 + 5 j] and [2 + 6 j], the numbers displayed are the readings 1 to [j] that are greater than
    all the readings before them, the reading 0 included; nothing else is ever displayed at these points, whatever the clock says. *)
Lemma P_C76_elapsed : forall oc words system instant, assemble_words elapsed_source = Some words -> exists ds m0,
  elapsed_devices words system instant = Ret ds /\ prepare_vm (dev_ops oc) oc ds = Ret m0 /\
  forall j, exists n m, (2 + 5 * j <= n <= 2 + 6 * j)%nat /\ run (dev_ops oc) oc n m0 = Ret m /\ c_halted m = false /\
    let reading i := seconds_between (instant 1%nat) (instant (2 + i)%nat) in
    displayed 2 m = Some (records (reading O) (map reading (seq 1 j))).
Proof.
  intros oc words system instant E. rewrite ela_assembled in E. assert (words = ela_words) as -> by congruence.
  destruct (ela_boot oc system instant) as (ds & m0 & E1 & E2 & W & H & K). exists ds, m0. split; [exact E1|]. split; [exact E2|].
  intros j. destruct (K j) as (s' & k & Q & Hh & L & B).
  destruct (gquiet_run (dev_ops oc) oc (dev_typed oc) ela_words ela_rom ela_szs 4096) with (n := k) (m := m0) (s' := s') as (m & Er & A & W' & _); auto.
  { intros i w Hi. do 9 (destruct i as [|i]; [injection Hi as <-; destruct oc; reflexivity|]). destruct i; discriminate. }
  { intros [a|a w|] d' xs; cbn [serve bo_read bo_write bo_reset dev_ops ela_rom]; unfold br_read, br_write; cbn [br_len br_storage]; [|intros X; injection X as <- _; reflexivity..].
    destruct (a / 4 <? 9); [|intros X; injection X as <- _; reflexivity]. destruct (vget ela_words (a / 4)); [|discriminate]. intros X; injection X as <- _; reflexivity. }
  { cbn. lia. } { intros Ho. eapply boots_below; eauto. apply dev_typed. }
  exists k, m. split; [lia|]. split; [exact Er|]. split; [change (s_halt (abs m) = false); rewrite A; exact Hh|].
  cbv zeta. subst s'. destruct B as (_ & _ & B & _). cbn [abs s_bus] in B. destruct (devs_znth _ _ _ 2 _ B eq_refl) as (e & Hz & He). unfold displayed. unfold c_hwb. change (Z.of_nat 2) with 2 in Hz. rewrite Hz.
  destruct e as [d c]. cbn in He. subst d. cbn [nd_calls]. rewrite map_map. cbn [fst]. rewrite map_id. reflexivity.
Qed.
(** The example never ends, nor panics, nor meets an exception. *)
Lemma P_C76_forever : forall oc fuel system instant, elapsed_main oc fuel system instant = Ret None.
Proof.
  intros oc fuel system instant. unfold elapsed_main. rewrite ela_assembled. cbn [unwrap obind].
  destruct (ela_boot oc system instant) as (ds & m0 & E1 & E2 & W & H & K). rewrite E1. cbn [obind]. destruct (K fuel) as (s' & k & Q & Hh & L & _).
  eapply (gquiet_forever (dev_ops oc) oc (dev_typed oc) ela_words ela_rom ela_szs 4096) with (n := k); eauto; try lia; try reflexivity.
  { intros i w Hi. do 9 (destruct i as [|i]; [injection Hi as <-; destruct oc; reflexivity|]). destruct i; discriminate. }
  { intros [a|a w|] d' xs; cbn [serve bo_read bo_write bo_reset dev_ops ela_rom]; unfold br_read, br_write; cbn [br_len br_storage]; [|intros X; injection X as <- _; reflexivity..].
    destruct (a / 4 <? 9); [|intros X; injection X as <- _; reflexivity]. destruct (vget ela_words (a / 4)); [|discriminate]. intros X; injection X as <- _; reflexivity. }
  { cbn. lia. }
Qed.
(** A clock that jumps: 0, 0, 0, 1.5, 1, 4 seconds. *)
Lemma E_C76_elapsed : let instant n := nth n [5; 100; 100; 1500000100; 1000000100; 4000000100] 0 in
  let reading i := seconds_between (instant 1%nat) (instant (2 + i)%nat) in
  records (reading O) (map reading (seq 1 3)) = [1; 4].
Proof. vm_compute. reflexivity. Qed.

(* Concrete cases for the theorems above that have none beside them. *)
Lemma E_C76_forever : elapsed_main true 60 (fun _ => Some 9) (fun n => Z.of_nat n) = Ret None.
Proof. vm_compute. reflexivity. Qed.
