(** The "hw_detect" example, executed symbolically: auxiliary facts. *)
From Coq Require Import String ZArith List Bool Lia.
From Verif Require Import Base BaseFacts Board Mem Cpu Asm Tools Devices Runner LasmRules Lasm Sources Examples SpecMach SpecIsa SpecBus SpecObs SpecMap SpecDev SpecRun SpecPanic SpecUtf8 SpecExample.
From Verif Require Import Counter RegFacts MemFacts MapFacts CycleFacts CyclePost ReachFacts InvFacts DevTyped ProofMap ProofBoard ProofReg ProofRun ProofCrash ProofRom ProofUtf8 SymFacts.
Import ListNotations.
Open Scope list_scope.
Open Scope Z_scope.
Ltac Zify.zify_post_hook ::= Z.div_mod_to_equations.

Definition hw_words : list Z := Eval vm_compute in match assemble_words hw_detect_source with Some l => l | None => [] end.
Lemma hw_assembled : assemble_words hw_detect_source = Some hw_words.
Proof. vm_compute. reflexivity. Qed.
Definition hw_file (a0 a1 ac0 r0 r1 r2 r3 r4 r5 r6 r7 pc af ssp : Z) : list Z :=
  [a0; a1; 0; 0; 0; 0; 0; 0; 0; 0; ac0; 0; 0; r0; r1; r2; r3; r4; r5; r6; r7; 0; pc; af; ssp; 0; 0; 0; 0; 0; 0; 1].
(** The information codes in the order in which they are stored. *)
Definition hw_codes : list Z := [1; 2; 17; 18; 19; 20; 21; 22; 23; 24; 32; 33; 34; 35; 36; 37; 160; 161; 162].

Lemma info_frame D (mem mem' : memory D) id c : frame mem mem' -> info_spec mem' id c = info_spec mem id c.
Proof.
  intros (Hm & Hc). unfold info_spec. rewrite Hm.
  assert (X : option_map ae_cache (znth (mm_hwb mem') id) = option_map ae_cache (znth (mm_hwb mem) id)).
  { destruct (Z_lt_ge_dec id 0) as [L|L].
    - rewrite !znth_neg by lia. reflexivity.
    - rewrite !znth_nth by lia. rewrite <- !nth_error_map, Hc. reflexivity. }
  destruct (znth (mm_hwb mem') id), (znth (mm_hwb mem) id); cbn in X; try discriminate; [|reflexivity]. injection X as X. rewrite X. reflexivity.
Qed.

Section Detect.
Context (oc : bool) (rom : device) (rest : list device) (rszs : list Z) (id1 id2 : Z).
Notation ops := (dev_ops oc).
Definition hw_devs (done sto2 : list Z) : list device := rom :: DRam (StoreMem (filled 4096 done) 1024 id1) :: DRam (StoreMem sto2 8 id2) :: rest.
Definition hw_szs : list Z := 4096 :: 4096 :: 32 :: rszs.
Lemma hw_put done sto2 mem q w : board hw_szs (hw_devs done sto2) mem -> zlen done = q -> q < 1024 ->
  exists mem', mem_write ops false mem (4096 + 4 * q) w = Ret (mem', 0) /\ board hw_szs (hw_devs (done ++ [w]) sto2) mem' /\ frame mem mem'.
Proof.
  intros B <- Hl. assert (0 <= zlen done) by (unfold zlen; lia).
  destruct (board_write _ ops _ _ mem (4096 + 4 * zlen done) 1 (DRam (StoreMem (filled 4096 done) 1024 id1)) (4 * zlen done) (DRam (StoreMem (filled 4096 (done ++ [w])) 1024 id1)) 0 w B) as (mem' & E & B' & F).
  - exists 4096. split; [reflexivity|]. split; [reflexivity|]. cbn [firstn sum fold_right hw_szs]. lia.
  - cbn [bo_write dev_ops]. unfold sm_write. cbn [sm_storage sm_size sm_hw_id]. replace (4 * zlen done / 4) with (zlen done) by lia. unfold vset. rewrite filled_put by lia. reflexivity.
  - exists mem'. auto.
Qed.
Lemma hw_push done sto2 mem w : board hw_szs (hw_devs done sto2) mem -> zlen sto2 = 32 ->
  exists mem' sto2', mem_write ops false mem 8216 w = Ret (mem', 0) /\ board hw_szs (hw_devs done sto2') mem' /\ frame mem mem' /\ zlen sto2' = 32 /\ znth sto2' 6 = Some w.
Proof.
  intros B L. destruct (zset_some sto2 6 w) as (sto2' & Hs); [lia|]. 
  destruct (board_write _ ops _ _ mem 8216 2 (DRam (StoreMem sto2 8 id2)) 24 (DRam (StoreMem sto2' 8 id2)) 0 w B) as (mem' & E & B' & F).
  - exists 32. split; [reflexivity|]. split; [reflexivity|]. cbn [firstn sum fold_right hw_szs]. lia.
  - cbn [bo_write dev_ops]. unfold sm_write. cbn [sm_storage sm_size sm_hw_id]. change (24 / 4) with 6. unfold vset. rewrite Hs. reflexivity.
  - exists mem', sto2'. split; auto. split; auto. split; auto. split; [unfold zlen in *; rewrite (zset_length _ _ _ _ Hs); auto|]. rewrite (zset_get _ _ _ _ 6 Hs). reflexivity.
Qed.
Lemma hw_pop done sto2 mem w : board hw_szs (hw_devs done sto2) mem -> znth sto2 6 = Some w -> is_u32 w ->
  exists mem', mem_read ops false mem 8216 = Ret (mem', 0, w) /\ board hw_szs (hw_devs done sto2) mem' /\ frame mem mem'.
Proof.
  intros B L U. 
  destruct (board_read _ ops _ _ mem 8216 2 (DRam (StoreMem sto2 8 id2)) 24 (DRam (StoreMem sto2 8 id2)) 0 w B) as (mem' & E & B' & F).
  - exists 32. split; [reflexivity|]. split; [reflexivity|]. cbn [firstn sum fold_right hw_szs]. lia.
  - cbn [bo_read dev_ops]. unfold sm_read. cbn [sm_storage]. change (24 / 4) with 6. unfold vget. rewrite L. cbn. rewrite (u32_id w U). reflexivity.
  - exists mem'. auto.
Qed.

Ltac hwdstep Hinfo :=
  istep_with ltac:(match goal with |- context [if ?b then ?x =? 0 else false] => replace (if b then x =? 0 else false) with false by (destruct b; reflexivity) | |- context [if ?b then false else false] => replace (if b then false else false) with false by (destruct b; reflexivity) end; cbn iota;
    match goal with |- context [info_spec ?mm ?k ?c] => match goal with F : frame _ mm |- _ => rewrite (Hinfo mm c F ltac:(cbn; tauto)) end end; sym1).
Ltac wsastep j E := istep_with ltac:(match goal with |- context [m32 (4096 + 4 * ?p + ?o)] => replace (m32 (4096 + 4 * p + o)) with (4096 + 4 * (p + j)) by (unfold m32; lia);
    replace ((4096 + 4 * (p + j)) mod 4) with 0 by lia end; sym1; rewrite E; sym1).

(** The routine: one component. *)
Lemma hw_extract k (inf : Z -> Z) mem0 done sto2 p n af c r0 r1 r2 r3 r4 r5 r6 r7 :
  (forall mem' x, frame mem0 mem' -> In x hw_codes -> info_spec mem' k x = inr (inf x)) -> inf 160 = 1 ->
  board hw_szs (hw_devs done sto2) mem0 -> zlen done = p -> p + 19 <= 1024 -> zlen sto2 = 32 -> 0 <= k ->
  exists mem' sto2' af' t0 t1 t2 t3 t4 t5 t6 t7, 
   quiet ops hw_words 43 (St (hw_file k n (4096 + 4 * p) r0 r1 r2 r3 r4 r5 r6 r7 40 af 8220) mem0 c false)
     (St (hw_file k n (4096 + 4 * (p + 19)) t0 t1 t2 t3 t4 t5 t6 t7 44 af' 8220) mem' ((c + 43) mod 2 ^ 128) false) /\
   board hw_szs (hw_devs (done ++ map inf hw_codes) sto2') mem' /\ frame mem0 mem' /\ zlen sto2' = 32.
Proof.
  intros Hinfo H160 B0 Hp Hl L2 Hk. assert (P0 : 0 <= p) by (unfold zlen in *; lia). 
  destruct (hw_push done sto2 mem0 44 B0 L2) as (m0 & s2 & Ep & B & F & L2' & Hs2).
  unfold hw_codes. cbn [map].
  pose proof F as G0. rename B into A0.
  destruct (hw_put _ _ _ (p + 0) (inf 1) A0 ltac:(rewrite ?zlen_snoc; lia) ltac:(lia)) as (m1 & E1 & A1 & F1). pose proof (frame_trans _ _ _ _ G0 F1) as G1.
  destruct (hw_put _ _ _ (p + 1) (inf 2) A1 ltac:(rewrite ?zlen_snoc; lia) ltac:(lia)) as (m2 & E2 & A2 & F2). pose proof (frame_trans _ _ _ _ G1 F2) as G2.
  destruct (hw_put _ _ _ (p + 2) (inf 17) A2 ltac:(rewrite ?zlen_snoc; lia) ltac:(lia)) as (m3 & E3 & A3 & F3). pose proof (frame_trans _ _ _ _ G2 F3) as G3.
  destruct (hw_put _ _ _ (p + 3) (inf 18) A3 ltac:(rewrite ?zlen_snoc; lia) ltac:(lia)) as (m4 & E4 & A4 & F4). pose proof (frame_trans _ _ _ _ G3 F4) as G4.
  destruct (hw_put _ _ _ (p + 4) (inf 19) A4 ltac:(rewrite ?zlen_snoc; lia) ltac:(lia)) as (m5 & E5 & A5 & F5). pose proof (frame_trans _ _ _ _ G4 F5) as G5.
  destruct (hw_put _ _ _ (p + 5) (inf 20) A5 ltac:(rewrite ?zlen_snoc; lia) ltac:(lia)) as (m6 & E6 & A6 & F6). pose proof (frame_trans _ _ _ _ G5 F6) as G6.
  destruct (hw_put _ _ _ (p + 6) (inf 21) A6 ltac:(rewrite ?zlen_snoc; lia) ltac:(lia)) as (m7 & E7 & A7 & F7). pose proof (frame_trans _ _ _ _ G6 F7) as G7.
  destruct (hw_put _ _ _ (p + 7) (inf 22) A7 ltac:(rewrite ?zlen_snoc; lia) ltac:(lia)) as (m8 & E8 & A8 & F8). pose proof (frame_trans _ _ _ _ G7 F8) as G8.
  destruct (hw_put _ _ _ (p + 8) (inf 23) A8 ltac:(rewrite ?zlen_snoc; lia) ltac:(lia)) as (m9 & E9 & A9 & F9). pose proof (frame_trans _ _ _ _ G8 F9) as G9.
  destruct (hw_put _ _ _ (p + 9) (inf 24) A9 ltac:(rewrite ?zlen_snoc; lia) ltac:(lia)) as (m10 & E10 & A10 & F10). pose proof (frame_trans _ _ _ _ G9 F10) as G10.
  destruct (hw_put _ _ _ (p + 10) (inf 32) A10 ltac:(rewrite ?zlen_snoc; lia) ltac:(lia)) as (m11 & E11 & A11 & F11). pose proof (frame_trans _ _ _ _ G10 F11) as G11.
  destruct (hw_put _ _ _ (p + 11) (inf 33) A11 ltac:(rewrite ?zlen_snoc; lia) ltac:(lia)) as (m12 & E12 & A12 & F12). pose proof (frame_trans _ _ _ _ G11 F12) as G12.
  destruct (hw_put _ _ _ (p + 12) (inf 34) A12 ltac:(rewrite ?zlen_snoc; lia) ltac:(lia)) as (m13 & E13 & A13 & F13). pose proof (frame_trans _ _ _ _ G12 F13) as G13.
  destruct (hw_put _ _ _ (p + 13) (inf 35) A13 ltac:(rewrite ?zlen_snoc; lia) ltac:(lia)) as (m14 & E14 & A14 & F14). pose proof (frame_trans _ _ _ _ G13 F14) as G14.
  destruct (hw_put _ _ _ (p + 14) (inf 36) A14 ltac:(rewrite ?zlen_snoc; lia) ltac:(lia)) as (m15 & E15 & A15 & F15). pose proof (frame_trans _ _ _ _ G14 F15) as G15.
  destruct (hw_put _ _ _ (p + 15) (inf 37) A15 ltac:(rewrite ?zlen_snoc; lia) ltac:(lia)) as (m16 & E16 & A16 & F16). pose proof (frame_trans _ _ _ _ G15 F16) as G16.
  destruct (hw_put _ _ _ (p + 16) (inf 160) A16 ltac:(rewrite ?zlen_snoc; lia) ltac:(lia)) as (m17 & E17 & A17 & F17). pose proof (frame_trans _ _ _ _ G16 F17) as G17.
  destruct (hw_put _ _ _ (p + 17) (inf 161) A17 ltac:(rewrite ?zlen_snoc; lia) ltac:(lia)) as (m18 & E18 & A18 & F18). pose proof (frame_trans _ _ _ _ G17 F18) as G18.
  destruct (hw_put _ _ _ (p + 18) (inf 162) A18 ltac:(rewrite ?zlen_snoc; lia) ltac:(lia)) as (m19 & E19 & A19 & F19). pose proof (frame_trans _ _ _ _ G18 F19) as G19.
  rewrite H160 in E17.
  destruct (hw_pop _ _ _ 44 A19 Hs2 ltac:(unfold is_u32; lia)) as (mz & Ez & Bz & Fz). pose proof (frame_trans _ _ _ _ G19 Fz) as Gz.
  exists mz, s2. do 9 eexists. split; [|split; [|split; [exact Gz|exact L2']]].
  2:{ rewrite <- !app_assoc in Bz. cbn [app] in Bz. rewrite H160 in *. exact Bz. }
  unfold hw_file.
  istep_with ltac:(change (m32 (8220 - 4)) with 8216; change (8216 mod 4) with 0; sym1; change (m32 (40 + 4)) with 44; rewrite Ep; sym1).
  do 2 hwdstep Hinfo.
  wsastep 0 E1. wsastep 1 E2.
  do 8 hwdstep Hinfo.
  wsastep 2 E3. wsastep 3 E4. wsastep 4 E5. wsastep 5 E6. wsastep 6 E7. wsastep 7 E8. wsastep 8 E9. wsastep 9 E10.
  hwdstep Hinfo. wsastep 10 E11. hwdstep Hinfo. wsastep 11 E12. hwdstep Hinfo. wsastep 12 E13. hwdstep Hinfo. wsastep 13 E14.
  do 2 hwdstep Hinfo. wsastep 14 E15. wsastep 15 E16.
  hwdstep Hinfo. istep. rewrite H160. istep_with ltac:(iftac true).
  do 2 hwdstep Hinfo. wsastep 16 E17. wsastep 17 E18. wsastep 18 E19.
  istep.
  istep_with ltac:(change (8216 mod 4) with 0; sym1; rewrite Ez; sym1).
  replace (m32 (4096 + 4 * p + 76)) with (4096 + 4 * (p + 19)) by (unfold m32; lia). apply quiet_0.
Qed.

Definition hw_records (inf : Z -> Z -> Z) (ks : list nat) : list Z := flat_map (fun k => map (inf (Z.of_nat k)) hw_codes) ks.
Lemma hw_loop n (inf : Z -> Z -> Z) mem00 : n <= 53 ->
  (forall k mem' x, 0 <= k < n -> frame mem00 mem' -> In x hw_codes -> info_spec mem' k x = inr (inf k x)) -> (forall k, 0 <= k < n -> inf k 160 = 1) ->
  forall j k mem done sto2 af c r0 r1 r2 r3 r4 r5 r6 r7, Z.of_nat k + Z.of_nat (S j) = n -> frame mem00 mem ->
  board hw_szs (hw_devs done sto2) mem -> zlen done = 1 + 19 * Z.of_nat k -> zlen sto2 = 32 ->
  exists mem' sto2' af' t0 t1 t2 t3 t4 t5 t6 t7, 
   quiet ops hw_words (47 * S j) (St (hw_file (Z.of_nat k) n (4096 + 4 * (1 + 19 * Z.of_nat k)) r0 r1 r2 r3 r4 r5 r6 r7 40 af 8220) mem c false)
     (St (hw_file n n (4096 + 4 * (1 + 19 * n)) t0 t1 t2 t3 t4 t5 t6 t7 60 af' 8220) mem' ((c + 47 * Z.of_nat (S j)) mod 2 ^ 128) true) /\
   board hw_szs (hw_devs (done ++ hw_records inf (seq k (S j))) sto2') mem' /\ frame mem00 mem'.
Proof.
  intros Hn Hinfo H160. induction j as [|j IH]; intros k mem done sto2 af c r0 r1 r2 r3 r4 r5 r6 r7 Hj F B Hd L2.
  - destruct (hw_extract (Z.of_nat k) (inf (Z.of_nat k)) mem done sto2 (1 + 19 * Z.of_nat k) n af c r0 r1 r2 r3 r4 r5 r6 r7) as (mem' & sto2' & af' & t0 & t1 & t2 & t3 & t4 & t5 & t6 & t7 & Q & B' & F' & L2'); auto; try lia.
    { intros mem' x Fx Ix. apply Hinfo; auto; [lia|]. eapply frame_trans; eauto. } { apply H160; lia. }
    exists mem', sto2'. do 9 eexists. split; [|split; [cbn [seq hw_records flat_map]; rewrite app_nil_r; exact B'|eapply frame_trans; eauto]].
    change (47 * 1)%nat with (43 + 4)%nat. eapply quiet_app; [exact Q|]. replace n with (Z.of_nat k + 1) by lia. replace (1 + 19 * (Z.of_nat k + 1)) with (1 + 19 * Z.of_nat k + 19) by lia.
    unfold hw_file. istep. replace (m32 (Z.of_nat k + 1)) with (Z.of_nat k + 1) by (unfold m32; lia). istep.
    istep_with ltac:(iftac true). istep. apply quiet_0.
  - destruct (hw_extract (Z.of_nat k) (inf (Z.of_nat k)) mem done sto2 (1 + 19 * Z.of_nat k) n af c r0 r1 r2 r3 r4 r5 r6 r7) as (mem' & sto2' & af' & t0 & t1 & t2 & t3 & t4 & t5 & t6 & t7 & Q & B' & F' & L2'); auto; try lia.
    { intros mem' x Fx Ix. apply Hinfo; auto; [lia|]. eapply frame_trans; eauto. } { apply H160; lia. }
    destruct (IH (S k) mem' (done ++ map (inf (Z.of_nat k)) hw_codes) sto2' (flags_spec (m32 (Z.of_nat k + 1 - n)) (Z.of_nat k + 1 <? n) (negb (fits_signed (signed (Z.of_nat k + 1) - signed n)))) ((c + 47) mod 2 ^ 128) t0 t1 t2 t3 t4 t5 t6 t7) as (mem2 & sto3 & af3 & u0 & u1 & u2 & u3 & u4 & u5 & u6 & u7 & Q2 & B2 & F2); auto; try lia.
    { eapply frame_trans; eauto. } { unfold zlen in *. rewrite app_length, map_length. cbn [length hw_codes]. lia. }
    exists mem2, sto3, af3, u0, u1, u2, u3, u4, u5, u6, u7. split; [|split; [|exact F2]].
    2:{ cbn [seq]. unfold hw_records in *. cbn [flat_map]. rewrite app_assoc. exact B2. }
    replace (47 * S (S j))%nat with (43 + (4 + 47 * S j))%nat by lia. eapply quiet_app; [exact Q|].
    rewrite Zplus_mod_idemp_l in Q2. replace (c + 47 * Z.of_nat (S (S j))) with (c + 47 + 47 * Z.of_nat (S j)) by lia. eapply quiet_app; [|exact Q2].
    replace (Z.of_nat (S k)) with (Z.of_nat k + 1) by lia. replace (1 + 19 * (Z.of_nat k + 1)) with (1 + 19 * Z.of_nat k + 19) by lia.
    unfold hw_file. istep. replace (m32 (Z.of_nat k + 1)) with (Z.of_nat k + 1) by (unfold m32; lia). istep.
    istep_with ltac:(iftac false). istep. apply quiet_0.
Qed.
End Detect.

Lemma firstn_pad (l : list Z) n : (length l <= n)%nat -> map (fun j => nth j l 0) (seq 0 n) = l ++ repeat 0 (n - length l).
Proof.
  intros H. apply (nth_ext _ _ 0 0).
  - rewrite map_length, seq_length, app_length, repeat_length. lia.
  - intros k Hk. rewrite map_length, seq_length in Hk. rewrite (nth_indep _ 0 (nth 0%nat l 0)) by (rewrite map_length, seq_length; lia).
    rewrite (map_nth (fun j => nth j l 0)). rewrite seq_nth by lia. cbn [Nat.add]. destruct (Nat.ltb_spec k (length l)).
    + rewrite app_nth1 by lia. reflexivity.
    + rewrite app_nth2 by lia. rewrite nth_overflow by lia. rewrite nth_repeat. reflexivity.
Qed.
Lemma name_bytes name : Forall scalar name -> (length (utf8 name) <= 32)%nat ->
  words_to_bytes (map (name_word_spec name) [0; 1; 2; 3; 4; 5; 6; 7]) = utf8 name ++ repeat 0 (32 - length (utf8 name)).
Proof.
  intros S L. rewrite <- firstn_pad by exact L. unfold words_to_bytes. cbn [map flat_map].
  change be_bytes32 with bytes_in. rewrite !word_bytes by (exact S || lia). reflexivity.
Qed.
Lemma find_mapping D (mem : memory D) szs ds k sz : board szs ds mem -> length (mm_maps mem) = length szs -> nth_error szs k = Some sz ->
  exists mp, find (fun mp => mp_aux_id mp =? Z.of_nat k) (mm_maps mem) = Some mp /\ mp_addr mp = sum (firstn k szs) /\ mp_size mp = sz.
Proof.
  intros (_ & _ & _ & L) HL Hk. destruct (L k sz Hk) as (mp & Hm & Hi & Ha & Hs).
  destruct (find (fun mp => mp_aux_id mp =? Z.of_nat k) (mm_maps mem)) as [mp'|] eqn:E.
  - apply find_some in E. destruct E as (I & X). apply Z.eqb_eq in X. destruct (In_nth_error _ _ I) as (j & Hj).
    assert (Lj : (j < length szs)%nat) by (rewrite <- HL; apply nth_error_Some; congruence).
    destruct (nth_error szs j) as [sz'|] eqn:Ej; [|apply nth_error_None in Ej; lia].
    destruct (L j sz' Ej) as (mp2 & Hm2 & Hi2 & Ha2 & Hs2). assert (mp2 = mp') by congruence. subst mp2. assert (j = k) by lia. subst j. exists mp'. split; auto. split; congruence.
  - apply nth_error_In in Hm. apply (find_none _ _ E) in Hm. cbn in Hm. lia.
Qed.
