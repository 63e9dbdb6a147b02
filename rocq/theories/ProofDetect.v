(** Proofs about the "hw_detect" example. *)
From Coq Require Import String ZArith List Bool Lia.
From Verif Require Import Base BaseFacts Board Mem Cpu Asm Tools Devices Runner LasmRules Lasm Sources Examples SpecMach SpecIsa SpecBus SpecObs SpecMap SpecDev SpecRun SpecPanic SpecUtf8 SpecAsm SpecTools SpecExample.
From Verif Require Import Counter RegFacts MemFacts MapFacts CycleFacts CyclePost ReachFacts InvFacts DevTyped ProofMap ProofBoard ProofReg ProofRun ProofCrash ProofRom ProofUtf8 ProofTools SymFacts DetectFacts.
Import ListNotations.
Open Scope list_scope.
Open Scope Z_scope.
Ltac Zify.zify_post_hook ::= Z.div_mod_to_equations.

Lemma some_eq {A} (a b : A) : Some a = Some b -> b = a. Proof. congruence. Qed.
(** ** What the host reads back *)
Section Host.
Context (oc : bool) (rom : device) (rest : list device) (rszs : list Z) (id1 id2 : Z) (done sto2 : list Z).
Notation ops := (dev_ops oc).
Notation bd := (board (hw_szs rszs) (hw_devs rom rest id1 id2 done sto2)).
Hypothesis (Hu : Forall is_u32 done).
Lemma host_read mem j w : bd mem -> tidy oc mem -> nth_error done j = Some w -> (j < 1024)%nat ->
  exists mem', mem_read ops oc mem (4096 + 4 * Z.of_nat j) = Ret (mem', 0, w) /\ bd mem' /\ tidy oc mem'.
Proof.
  intros B T Hj Lj.
  destruct (board_read_oc _ ops oc _ _ mem (4096 + 4 * Z.of_nat j) 1 (DRam (StoreMem (filled 4096 done) 1024 id1)) (4 * Z.of_nat j) (DRam (StoreMem (filled 4096 done) 1024 id1)) 0 w B T) as (mem' & E & B' & F).
  - exists 4096. split; [reflexivity|]. split; [reflexivity|]. cbn [firstn sum fold_right hw_szs]. lia.
  - cbn [bo_read dev_ops]. unfold sm_read. cbn [sm_storage]. replace (4 * Z.of_nat j / 4) with (Z.of_nat j) by lia. unfold vget. rewrite (filled_get _ _ _ _ Hj). cbn.
    rewrite u32_id; [reflexivity|]. eapply Forall_forall; [exact Hu|eapply nth_error_In; eauto].
  - exists mem'. split; auto. split; auto. unfold tidy in *. destruct F as (-> & _). exact T.
Qed.
Lemma host_reads p : (p + 19 <= 1024)%nat -> forall offs ws mem, bd mem -> tidy oc mem ->
  Forall2 (fun off w => exists i, off = 4 * Z.of_nat i /\ (i < 19)%nat /\ nth_error done (p + i) = Some w) offs ws ->
  exists mem', detect_reads oc mem (4096 + 4 * Z.of_nat p) offs = Ret (mem', Some ws) /\ bd mem' /\ tidy oc mem'.
Proof.
  intros Hp offs ws. revert offs. induction ws as [|w ws IH]; intros offs mem B T H; inversion H as [|off ? offs' ? (i & -> & Hi & Hn) H']; subst.
  - exists mem. auto.
  - cbn [detect_reads]. unfold add_u32. destruct (Z.ltb_spec (4096 + 4 * Z.of_nat p + 4 * Z.of_nat i) 4294967296); [|lia]. cbn [obind].
    replace (4096 + 4 * Z.of_nat p + 4 * Z.of_nat i) with (4096 + 4 * Z.of_nat (p + i)) by lia.
    destruct (host_read mem (p + i) w B T Hn ltac:(lia)) as (m1 & E1 & B1 & T1). unfold detect_read. rewrite E1. cbn [obind Z.eqb].
    destruct (IH offs' m1 B1 T1 H') as (m2 & E2 & B2 & T2). rewrite E2. cbn [obind option_map]. exists m2. auto.
Qed.
End Host.

Lemma records_nth inf N : forall a k i, (k < N)%nat -> (i < 19)%nat ->
  nth_error (hw_records inf (seq a N)) (19 * k + i) = nth_error (map (inf (Z.of_nat (a + k))) hw_codes) i.
Proof.
  induction N as [|N IH]; intros a k i Hk Hi; [lia|]. unfold hw_records. cbn [seq flat_map]. fold (hw_records inf (seq (S a) N)). destruct k as [|k].
  - rewrite nth_error_app1 by (rewrite map_length; cbn; lia). rewrite Nat.add_0_r. f_equal.
  - rewrite nth_error_app2 by (rewrite map_length; cbn; lia). rewrite map_length. cbn [length hw_codes]. replace (19 * S k + i - 19)%nat with (19 * k + i)%nat by lia.
    rewrite IH by lia. replace (S a + k)%nat with (a + S k)%nat by lia. reflexivity.
Qed.
Definition comp_of (f : Z -> Z) : component :=
  Component (f 1 * 4294967296 + f 2) (words_to_bytes [f 17; f 18; f 19; f 20; f 21; f 22; f 23; f 24]) (f 32)
    (match category_decode (f 33 * 4294967296 + f 34) with Some c => inl c | None => inr (f 33 * 4294967296 + f 34) end) (f 35) (f 36 * 4294967296 + f 37) (Some (f 161, f 162)).
Section Host2.
Context (oc : bool) (rom : device) (rest : list device) (rszs : list Z) (id1 id2 : Z) (inf : Z -> Z -> Z) (N : nat) (sto2 : list Z).
Notation ops := (dev_ops oc).
Notation table := (Z.of_nat N :: hw_records inf (seq 0 N)).
Notation bd := (board (hw_szs rszs) (hw_devs rom rest id1 id2 table sto2)).
Hypothesis (Hu : Forall is_u32 table) (HN : (N <= 53)%nat) (H160 : forall k, (k < N)%nat -> inf (Z.of_nat k) 160 = 1).
Lemma host_decode k mem : (k < N)%nat -> bd mem -> tidy oc mem ->
  exists mem', decode_component oc mem (4100 + 76 * Z.of_nat k) = Ret (mem', Some (comp_of (inf (Z.of_nat k)))) /\ bd mem' /\ tidy oc mem'.
Proof.
  intros Hk B T. unfold decode_component. replace (4100 + 76 * Z.of_nat k) with (4096 + 4 * Z.of_nat (1 + 19 * k)) by lia.
  assert (K : forall i w, (i < 19)%nat -> nth_error (map (inf (Z.of_nat k)) hw_codes) i = Some w -> nth_error table (1 + 19 * k + i) = Some w).
  { intros i w Hi Hw. cbn [nth_error Nat.add]. rewrite records_nth by lia. exact Hw. }
  destruct (host_reads oc rom rest rszs id1 id2 table sto2 Hu (1 + 19 * k) ltac:(lia) [0; 4; 8; 12; 16; 20; 24; 28; 32; 36; 40; 44; 48; 52; 56; 60; 64] (map (inf (Z.of_nat k)) [1; 2; 17; 18; 19; 20; 21; 22; 23; 24; 32; 33; 34; 35; 36; 37; 160]) mem B T) as (m1 & E1 & B1 & T1).
  { cbn [map]. repeat (constructor; [match goal with |- exists i, ?o = _ /\ _ => let j := eval vm_compute in (Z.to_nat (o / 4)) in exists j end; split; [reflexivity|split; [lia|apply K; [lia|reflexivity]]]|]). constructor. }
  rewrite E1. cbn [obind map]. rewrite (H160 k Hk). cbn [Z.eqb]. 
  destruct (host_reads oc rom rest rszs id1 id2 table sto2 Hu (1 + 19 * k) ltac:(lia) [68; 72] [inf (Z.of_nat k) 161; inf (Z.of_nat k) 162] m1 B1 T1) as (m2 & E2 & B2 & T2).
  { repeat (constructor; [match goal with |- exists i, ?o = _ /\ _ => let j := eval vm_compute in (Z.to_nat (o / 4)) in exists j end; split; [reflexivity|split; [lia|apply K; [lia|reflexivity]]]|]). constructor. }
  rewrite E2. cbn [obind]. exists m2. auto.
Qed.
Lemma host_all : forall ks mem, Forall (fun k => (k < N)%nat) ks -> bd mem -> tidy oc mem ->
  detect_all oc mem (map Z.of_nat ks) = Ret (map (fun k => comp_of (inf (Z.of_nat k))) ks).
Proof.
  induction ks as [|k ks IH]; intros mem F B T; [reflexivity|]. inversion F; subst. cbn [map detect_all]. unfold mul_u32, add_u32.
  destruct (Z.ltb_spec (Z.of_nat k * 76) 4294967296); [|lia]. cbn [obind]. destruct (Z.ltb_spec (4096 + 4 + Z.of_nat k * 76) 4294967296); [|lia]. cbn [obind].
  replace (4096 + 4 + Z.of_nat k * 76) with (4100 + 76 * Z.of_nat k) by lia.
  destruct (host_decode k mem) as (m1 & E1 & B1 & T1); auto. rewrite E1. cbn [obind unwrap]. rewrite (IH m1) by auto. reflexivity.
Qed.
End Host2.

(** What the processor reports about each component after booting. *)
Lemma boot_infos oc ds szs m ds' : Forall2 (declares (dev_ops oc)) ds szs -> prepare_vm (dev_ops oc) oc ds = Ret m -> wf m ->
  board szs ds' (c_mem m) -> length (mm_maps (c_mem m)) = length ds -> sum szs <= 2 ^ 32 -> Forall (fun s => 0 < s /\ s mod 4 = 0) szs ->
  exists inf : Z -> Z -> Z, (forall k x, (k < length ds)%nat -> In x hw_codes -> info_spec (c_mem m) (Z.of_nat k) x = inr (inf (Z.of_nat k) x) /\ is_u32 (inf (Z.of_nat k) x)) /\
    (forall k, (k < length ds)%nat -> inf (Z.of_nat k) 160 = 1) /\
    (forall k d, nth_error ds k = Some d -> seen_as (dev_ops oc) szs k d (comp_of (inf (Z.of_nat k)))).
Proof.
  intros HD Em W B Lm Hsum Hpos.
  assert (LS : length szs = length ds) by (clear - HD; induction HD; cbn; congruence).
  destruct (boot_history _ _ _ _ _ Em) as (c & cs & Ec & Hc & Hn & Er).
  assert (K : forall k d, nth_error ds k = Some d -> exists sz e md mp, nth_error szs k = Some sz /\ znth (c_hwb m) (Z.of_nat k) = Some e /\ bo_metadata (dev_ops oc) d = Ret md /\
     longest_prefix32 (bo_name (dev_ops oc) d) (ac_name (ae_cache e)) /\ ac_metadata (ae_cache e) = md /\ w2 md = sz /\
     find (fun mp => mp_aux_id mp =? Z.of_nat k) (mm_maps (c_mem m)) = Some mp /\ mp_addr mp = sum (firstn k szs) /\ mp_size mp = sz).
  { intros k d Hk. destruct (nth_error szs k) as [sz|] eqn:Es. 2:{ apply nth_error_None in Es. assert (k < length ds)%nat by (apply nth_error_Some; congruence). lia. }
    destruct (P_C40_description _ (dev_ops oc) oc ds cs c m (Z.of_nat k) d (dev_typed oc) Ec Hc Er) as (e & md & E1 & E2 & E3 & E4 & _ & E5 & _).
    { rewrite znth_nth by lia. rewrite Nat2Z.id. exact Hk. }
    destruct (find_mapping _ (c_mem m) szs ds' k sz B ltac:(lia) Es) as (mp & F1 & F2 & F3).
    exists sz, e, md, mp. do 5 (split; auto). split; auto.
    clear -HD Hk Es E2. revert k Hk Es. induction HD as [|d0 s0 l1 l2 Hd Hd' IH]; intros k Hk Es; [destruct k; discriminate|].
    destruct k; cbn [nth_error] in Hk, Es; [|eauto]. injection Hk as ->. injection Es as ->. destruct Hd as (md' & X & Y). congruence. }
  exists (fun k x => match info_spec (c_mem m) k x with inr v => v | inl _ => 0 end). split; [|split].
  - intros k x Lk Ix. destruct (nth_error ds k) as [d|] eqn:Ed; [|apply nth_error_None in Ed; lia]. destruct (K k d Ed) as (sz & e & md & mp & _ & E1 & _ & _ & _ & _ & E2 & _).
    assert (X : exists v, info_spec (c_mem m) (Z.of_nat k) x = inr v).
    { unfold info_spec. change (mm_hwb (c_mem m)) with (c_hwb m). rewrite E1, E2. cbn in Ix. repeat (destruct Ix as [<-|Ix]; [eexists; reflexivity|]). contradiction. }
    destruct X as (v & X). rewrite X. split; auto. 
    assert (WS : wfs (abs m)) by (apply wfs_abs; exact W).
    exact (info_typed _ _ _ _ WS X).
  - intros k Lk. destruct (nth_error ds k) as [d|] eqn:Ed; [|apply nth_error_None in Ed; lia]. destruct (K k d Ed) as (sz & e & md & mp & _ & E1 & _ & _ & _ & _ & E2 & _).
    unfold info_spec. change (mm_hwb (c_mem m)) with (c_hwb m). rewrite E1, E2. reflexivity.
  - intros k d Hk. destruct (K k d Hk) as (sz & e & md & mp & Hs & E1 & Em' & En & Ed & Ez & E2 & E3 & E4).
    assert (CW : cache_wf (ae_cache e)). { destruct W as (_ & (HC & _) & _). rewrite Forall_forall in HC. apply HC. apply (znth_In _ _ _ E1). }
    destruct CW as (U0 & U1 & U2 & U3 & U4 & U5 & U6 & U7 & _ & _ & Ln & Sn). 
    exists md, (ac_name (ae_cache e)), sz. split; auto. split; auto. split; auto. cbv zeta.
    unfold comp_of, info_spec. change (mm_hwb (c_mem m)) with (c_hwb m). rewrite E1, E2, Ed. cbn [cp_uid cp_name cp_size cp_category cp_model cp_data cp_mapping Z.eqb Pos.eqb Z.leb Z.compare Pos.compare Pos.compare_cont andb].
    split; [reflexivity|]. split; [|split; [exact Ez|split; [reflexivity|split; [reflexivity|split; [reflexivity|]]]]].
    + rewrite <- name_bytes; [reflexivity|exact Sn|]. unfold str_len, zlen in Ln. lia.
    + rewrite E3, E4. f_equal. f_equal. unfold m32. 
      assert (X : sum (firstn k szs) + sz <= sum szs /\ 0 <= sum (firstn k szs) /\ 0 < sz).
      { clear -Hs Hpos. revert k Hs. induction Hpos as [|s0 l H0 H1 IH]; intros k Hk; [destruct k; discriminate|].
        assert (0 <= sum l). { clear -H1. induction H1; cbn; [lia|]. unfold sum in *. lia. }
        destruct k as [|k]; cbn in *. { injection Hk as ->. unfold sum in *. cbn. lia. }
        destruct (IH k Hk) as (? & ? & ?). unfold sum in *. cbn. lia. }
      lia.
Qed.

(** The hw_detect example, on a board of its three components and any others (at most 53 in all, the capacity of its table): it ends without
    error, and displays for each component, in order, exactly its description and its place in memory. *)
Lemma P_C75_detect : forall oc words id0 id1 id2 rest szs fuel, assemble_words hw_detect_source = Some words ->
  Forall2 (declares (dev_ops oc)) rest szs -> (forall d, In d rest -> exists d', bo_reset (dev_ops oc) d = Ret d') -> bootable oc (4096 :: 4096 :: 32 :: szs) ->
  (3 + length rest <= 53)%nat -> (9 + 47 * (3 + length rest) < fuel)%nat ->
  exists rom ram stack cs, br_with_size words 4096 id0 = Some rom /\ sm_new 4096 id1 = Some ram /\ sm_new 32 id2 = Some stack /\
    let ds := DRom rom :: DRam ram :: DRam stack :: rest in
    hw_detect_run oc fuel words id0 id1 id2 rest = Ret (Some cs) /\ length cs = length ds /\
    forall k d c, nth_error ds k = Some d -> nth_error cs k = Some c -> seen_as (dev_ops oc) (4096 :: 4096 :: 32 :: szs) k d c.
Proof.
  intros oc words id0 id1 id2 rest szs fuel E HD HR HB Hn Hf. rewrite hw_assembled in E. assert (words = hw_words) as -> by congruence. clear E.
  set (rom := BootRom hw_words (zlen hw_words) 1024 id0).
  assert (Er : br_with_size hw_words 4096 id0 = Some rom) by reflexivity.
  destruct (sm_new 4096 id1) as [ram|] eqn:Eram; [|discriminate]. destruct (sm_new 32 id2) as [stack|] eqn:Est; [|discriminate].
  set (ds := DRom rom :: DRam ram :: DRam stack :: rest). set (ss := 4096 :: 4096 :: 32 :: szs) in *.
  assert (Dr : declares (dev_ops oc) (DRom rom) 4096) by (unfold declares; destruct oc; eexists; split; reflexivity).
  assert (HDs : Forall2 (declares (dev_ops oc)) ds ss).
  { constructor; [exact Dr|]. constructor; [|constructor; [|exact HD]]; clear -Eram Est; unfold sm_new in *; cbn in Eram, Est; apply some_eq in Eram; apply some_eq in Est; subst ram stack; unfold declares; destruct oc; eexists; split; reflexivity. }
  destruct (booted_board _ (dev_ops oc) oc ds ss (dev_typed oc) HDs) as (m0 & ds' & Em & W & Ea & Rs & B & Lm & Ht & _).
  { intros d [<-|[<-|[<-|I]]]; try (eexists; reflexivity). apply HR; auto. } { exact HB. }
  destruct (boot_infos oc ds ss m0 ds' HDs Em W B Lm (proj1 (proj2 HB)) (proj1 HB)) as (inf & I1 & I2 & I3).
  assert (Hds : exists rest', ds' = hw_devs (DRom rom) rest' id1 id2 [] (zeros 32)).
  { inversion Rs as [|? d0 ? l1 X0 Rs1]; subst. inversion Rs1 as [|? d1 ? l2 X1 Rs2]; subst. inversion Rs2 as [|? d2 ? l3 X2 Rs3]; subst. exists l3.
    injection X0 as <-. injection X1 as <-. injection X2 as <-. unfold sm_new in *; cbn in Eram, Est. apply some_eq in Eram; apply some_eq in Est; subst ram stack. reflexivity. }
  destruct Hds as (rest' & ->).
  set (N := (3 + length rest)%nat) in *. assert (LN : length ds = N) by reflexivity. rewrite LN in *.
  (* the prologue *)
  destruct (hw_put oc (DRom rom) rest' szs id1 id2 [] (zeros 32) (c_mem m0) 0 (Z.of_nat N) B eq_refl ltac:(lia)) as (m1 & E1 & B1 & F1).
  assert (HC : zlen (mm_hwb (c_mem m0)) = Z.of_nat N).
  { destruct B as (_ & _ & X & _). apply (f_equal (@length _)) in X. rewrite map_length in X. unfold zlen. rewrite X. f_equal.
    unfold hw_devs. cbn [length]. unfold N. inversion Rs as [|? ? ? ? _ Rs1]; subst. inversion Rs1 as [|? ? ? ? _ Rs2]; subst. inversion Rs2 as [|? ? ? ? _ Rs3]; subst. 
    clear -Rs3. induction Rs3; cbn in *; lia. }
  destruct (hw_loop oc (DRom rom) rest' szs id1 id2 (Z.of_nat N) inf (c_mem m0)) with (j := pred N) (k := O) (mem := m1) (done := [Z.of_nat N]) (sto2 := zeros 32)
    (af := flags_spec (m32 (8224 - 4)) (8224 <? 4) (negb (fits_signed (signed 8224 - signed 4)))) (c := 9) (r0 := 0) (r1 := 0) (r2 := 0) (r3 := 0) (r4 := 0) (r5 := 0) (r6 := 0) (r7 := 0)
    as (m2 & sto2 & af & t0 & t1 & t2 & t3 & t4 & t5 & t6 & t7 & Q & B2 & F2).
  { lia. } { intros k mem' x Hk Fx Ix. rewrite (info_frame _ _ _ _ _ Fx). replace k with (Z.of_nat (Z.to_nat k)) by lia. apply I1; auto. lia. }
  { intros k Hk. replace k with (Z.of_nat (Z.to_nat k)) by lia. apply I2. lia. } { lia. } { exact F1. } { exact B1. } { reflexivity. } { reflexivity. }
  replace (S (pred N)) with N in * by lia.
  assert (Q0 : quiet (dev_ops oc) hw_words 9 (abs m0) (St (hw_file (Z.of_nat 0) (Z.of_nat N) (4096 + 4 * (1 + 19 * Z.of_nat 0)) 0 0 0 0 0 0 0 0 40 (flags_spec (m32 (8224 - 4)) (8224 <? 4) (negb (fits_signed (signed 8224 - signed 4)))) 8220) m1 9 false)).
  { rewrite Ea. change reset_file with (hw_file 0 0 0 0 0 0 0 0 0 0 0 0 0 0). unfold hw_file. istep. istep_with ltac:(rewrite HC). istep. 
    change (4096 + 4 * 0) with 4096 in E1. istep_with ltac:(change (m32 (4096 + 0)) with 4096; change (4096 mod 4) with 0; sym1; rewrite E1; sym1).
    istep. istep. istep_with ltac:(iftac false). istep. istep. apply quiet_0. }
  pose proof (quiet_app _ _ _ _ _ _ _ _ Q0 Q) as QA.
  destruct (quiet_exec oc hw_words ltac:(repeat constructor; unfold is_u32; lia) 1024 id0 _ (DRam ram :: DRam stack :: rest) 4096 m0 _ config_halt_on_ex fuel Dr ltac:(vm_compute; discriminate) Em eq_refl QA eq_refl eq_refl ltac:(lia)) as (m' & a & EX & A & _).
  exists rom, ram, stack, (map (fun k => comp_of (inf (Z.of_nat k))) (seq 0 N)). split; [exact Er|]. split; [reflexivity|]. split; [reflexivity|]. cbv zeta. fold ds.
  split; [|split].
  - unfold hw_detect_run. rewrite Er. cbn [unwrap obind]. rewrite Eram, Est. cbn [unwrap obind]. fold rom in EX. rewrite EX. cbn [obind].
    assert (X : c_mem m' = m2) by (change (s_bus (abs m') = m2); rewrite A; reflexivity). rewrite X.
    assert (Hu : Forall is_u32 (Z.of_nat N :: hw_records inf (seq 0 N))).
    { constructor; [unfold is_u32; lia|]. unfold hw_records. apply Forall_forall. intros w Iw. apply in_flat_map in Iw. destruct Iw as (k & Ik & Iw). apply in_seq in Ik. apply in_map_iff in Iw. destruct Iw as (x & <- & Ix). apply I1; auto. lia. }
    assert (T2 : tidy oc m2) by (unfold tidy in *; destruct F2 as (-> & _); exact Ht).
    destruct (host_read oc (DRom rom) rest' szs id1 id2 _ sto2 Hu m2 0 (Z.of_nat N) B2 T2 eq_refl ltac:(lia)) as (m3 & E3 & B3 & T3).
    change (4096 + 4 * Z.of_nat 0) with 4096 in E3. rewrite E3. cbn [obind Z.eqb negb]. rewrite Nat2Z.id. unfold zrange.
    rewrite (host_all oc (DRom rom) rest' szs id1 id2 inf N sto2 Hu ltac:(lia) I2 (seq 0 N) m3); [reflexivity| |exact B3|exact T3].
    apply Forall_forall. intros k Ik. apply in_seq in Ik. lia.
  - rewrite map_length, seq_length. reflexivity.
  - intros k d c Hk Hc. assert (Lk : (k < N)%nat) by (rewrite <- LN; apply nth_error_Some; congruence).
    rewrite nth_error_map in Hc. assert (nth_error (seq 0 N) k = Some k) as Y. { rewrite (nth_error_nth' _ 0%nat) by (rewrite seq_length; lia). rewrite seq_nth by lia. reflexivity. }
    rewrite Y in Hc. apply some_eq in Hc. subst c. apply I3. exact Hk.
Qed.
Lemma E_C75_detect : exists words d sz, assemble_words hw_detect_source = Some words /\ declares (dev_ops true) d sz /\
  Forall2 (declares (dev_ops true)) [d; d] [sz; sz] /\ (forall x, In x [d; d] -> exists d', bo_reset (dev_ops true) x = Ret d') /\ bootable true [4096; 4096; 32; sz; sz] /\
  exists cs, hw_detect_run true 300 words 7 8 9 [d; d] = Ret (Some cs) /\ length cs = 5%nat /\ option_map cp_mapping (nth_error cs 4) = Some (Some (8256, 8287)).
Proof.
  set (d := DRam (StoreMem (zeros 32) 8 11)). assert (D : declares (dev_ops true) d 32) by (eexists; split; reflexivity).
  assert (F : Forall2 (declares (dev_ops true)) [d; d] [32; 32]) by (repeat constructor; exact D).
  assert (R : forall x, In x [d; d] -> exists d', bo_reset (dev_ops true) x = Ret d') by (intros x [<-|[<-|[]]]; eexists; reflexivity).
  assert (B : bootable true [4096; 4096; 32; 32; 32]) by (repeat constructor; try (vm_compute; reflexivity); try (vm_compute; discriminate)).
  exists hw_words, d, 32. split; [exact hw_assembled|]. do 4 (split; auto).
  destruct (P_C75_detect true hw_words 7 8 9 [d; d] [32; 32] 300 hw_assembled F R B ltac:(cbn; lia) ltac:(cbn; lia)) as (rom & ram & stack & cs & _ & _ & _ & E & L & K).
  exists cs. split; auto. split; [exact L|]. destruct (nth_error cs 4) as [c|] eqn:Ec; [|apply nth_error_None in Ec; rewrite L in Ec; cbn in Ec; lia].
  destruct (K 4%nat d c eq_refl Ec) as (md & nm & sz & _ & _ & Hs & _ & _ & Hz & _ & _ & _ & Hm). cbn in Hs. injection Hs as <-. cbn [option_map]. rewrite Hm. reflexivity.
Qed.

(** The example itself: three components, with the places they are mapped to. *)
Lemma P_C75_example : forall oc id0 id1 id2 fuel, 0 <= id0 < 2 ^ 64 -> 0 <= id1 < 2 ^ 64 -> 0 <= id2 < 2 ^ 64 -> (150 < fuel)%nat ->
  exists c0 c1 c2, hw_detect_main oc fuel id0 id1 id2 = Ret (Some [c0; c1; c2]) /\
    map cp_uid [c0; c1; c2] = [id0; id1; id2] /\ map cp_size [c0; c1; c2] = [4096; 4096; 32] /\
    map cp_mapping [c0; c1; c2] = [Some (0, 4095); Some (4096, 8191); Some (8192, 8223)].
Proof.
  intros oc id0 id1 id2 fuel H0 H1 H2 Hf. unfold hw_detect_main. rewrite hw_assembled. cbn [unwrap obind].
  destruct (P_C75_detect oc hw_words id0 id1 id2 [] [] fuel hw_assembled) as (rom & ram & stack & cs & Er & Ea & Es & E & L & K).
  { constructor. } { intros d []. } { repeat constructor; try (vm_compute; reflexivity); try (vm_compute; discriminate). } { cbn; lia. } { cbn; lia. }
  rewrite E. destruct cs as [|c0 [|c1 [|c2 [|]]]]; try discriminate L. exists c0, c1, c2. split; [reflexivity|].
  destruct (K 0%nat _ c0 eq_refl eq_refl) as (md0 & nm0 & sz0 & M0 & _ & S0 & U0 & _ & Z0 & _ & _ & _ & P0).
  destruct (K 1%nat _ c1 eq_refl eq_refl) as (md1 & nm1 & sz1 & M1 & _ & S1 & U1 & _ & Z1 & _ & _ & _ & P1).
  destruct (K 2%nat _ c2 eq_refl eq_refl) as (md2 & nm2 & sz2 & M2 & _ & S2 & U2 & _ & Z2 & _ & _ & _ & P2).
  cbn in S0, S1, S2. injection S0 as <-. injection S1 as <-. injection S2 as <-. cbn [map]. rewrite U0, U1, U2, Z0, Z1, Z2, P0, P1, P2. split; [|split; reflexivity].
  change (br_with_size hw_words 4096 id0) with (Some (BootRom hw_words (zlen hw_words) 1024 id0)) in Er. apply some_eq in Er. subst rom.
  unfold sm_new in *. cbn in Ea, Es. apply some_eq in Ea. apply some_eq in Es. subst ram stack.
  assert (X : forall md id sz c, 0 <= id < 2 ^ 64 -> is_u32 sz -> Z.divide 4 sz -> category_wf c -> obind (metadata_new id sz c None None) metadata_encode = Ret md -> w0 md * 2 ^ 32 + w1 md = id).
  { intros md id sz c Hi Hz Hv Hc Y. destruct (P_C54_new id sz c None None) as (_ & V); auto; try exact I. rewrite (V Hv) in Y. injection Y as <-. cbn [w0 w1]. lia. }
  repeat f_equal.
  - apply (X md0 id0 4096 (CatStorage TReadonly) H0); try (unfold is_u32; lia); try (exists 1024; reflexivity); try exact I. destruct oc; exact M0.
  - apply (X md1 id1 4096 (CatMemory TRam) H1); try (unfold is_u32; lia); try (exists 1024; reflexivity); try exact I. destruct oc; exact M1.
  - apply (X md2 id2 32 (CatMemory TRam) H2); try (unfold is_u32; lia); try (exists 8; reflexivity); try exact I. destruct oc; exact M2.
Qed.

(* Concrete cases for the theorems above that have none beside them. *)
Lemma E_C75_example : exists cs, hw_detect_main true 151 7 8 (2 ^ 63) = Ret (Some cs) /\ map cp_uid cs = [7; 8; 2 ^ 63] /\ map cp_size cs = [4096; 4096; 32].
Proof. destruct (P_C75_example true 7 8 (2 ^ 63) 151) as (c0 & c1 & c2 & E & A & B & _); try lia. exists [c0; c1; c2]. auto. Qed.
