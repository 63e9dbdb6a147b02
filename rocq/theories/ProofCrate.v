(** A board built from the components of lrvm_aux: no panic, except through the page tables. *)
From Coq Require Import ZArith List Bool Lia.
From Verif Require Import Base Board Mem Cpu Asm Tools Devices SpecMach SpecAsm SpecDev BaseFacts MemFacts DevTyped ReachFacts ProofAsm ProofTools Demo ProofPanic ProofBoard ProofHist ProofDev ProofIo.
Import ListNotations.
Open Scope Z_scope.
Ltac Zify.zify_post_hook ::= Z.div_mod_to_equations.

Lemma meta_ok id sz c : is_u64 id -> is_u32 sz -> category_wf c -> sz mod 4 = 0 ->
  exists md, (do! md <- metadata_new id sz c None None; metadata_encode md) = Ret md /\ w2 md = sz.
Proof.
  intros Hi Hs Hc Hd. destruct (P_C54_new id sz c None None) as (_ & X); cbn; auto.
  eexists. split; [apply X; apply Z.mod_divide; [lia|auto]|reflexivity].
Qed.
Lemma mul4_rel x : 0 <= x -> exists y, mul_u32 false x 4 = Ret y /\ is_u32 y /\ y mod 4 = 0 /\ (4 * x < 4294967296 -> y = 4 * x).
Proof.
  intros H. unfold mul_u32, is_u32. destruct (Z.ltb_spec (x * 4) 4294967296).
  - exists (x * 4). repeat split; lia.
  - exists (u32 (x * 4)). unfold u32. repeat split; try lia. 
Qed.
Lemma sm_meta c d (x : device) : bo_metadata (dev_ops false) x = sm_metadata false c d -> category_wf c -> is_u64 (sm_hw_id d) ->
  0 <= sm_size d -> 4 * sm_size d < 4294967296 -> exists md, bo_metadata (dev_ops false) x = Ret md /\ w2 md = 4 * sm_size d.
Proof.
  intros E Hc Hi H0 H1. rewrite E. unfold sm_metadata. destruct (mul4_rel (sm_size d) H0) as (y & -> & Hu & Hm & Hy). cbn [obind].
  rewrite <- Hy by auto. apply meta_ok; auto.
Qed.
Lemma fm_meta d : is_u64 (fm_hw_id d) -> 0 <= fm_size d -> exists md, bo_metadata (dev_ops false) (DFile d) = Ret md /\ dev_inv (w2 md) (DFile d).
Proof.
  intros Hi H0. cbn [bo_metadata dev_ops]. unfold fm_metadata. destruct (mul4_rel (fm_size d) H0) as (y & -> & Hu & Hm & Hy). cbn [obind].
  destruct (meta_ok (fm_hw_id d) y (CatStorage TPersistent)) as (md & E & X); auto. exact I. exists md. split; [exact E|exact I].
Qed.
Lemma crate_meta d : crate_component d -> exists md, bo_metadata (dev_ops false) d = Ret md /\ dev_inv (w2 md) d.
Proof.
  intros H. destruct H as [size id d Hs Hi E|l id d Hl Hi E|l size id d Hl Hs Hi E|size id d Hs Hi E|l id d Hl Hi E|l size id d Hl Hs Hi E
    |l id d Hl Hi E|l size id d Hl Hs Hi E|f id d Hf Hi E|f size id d Hf Hs Hi E|id Hi|id Hi|size id d Hs Hi E|id input Hi Hk|size id input d Hs Hi Hk E|id sys inst Hi|id Hi].
  1-6: unfold sm_new, sm_from, sm_from_with_size in E; repeat match type of E with context [if ?b then _ else _] => destruct b eqn:? end; try discriminate; injection E as <-;
    unfold is_u32 in Hs || idtac; try (apply Z.ltb_lt in Heqb).
  - destruct (sm_meta (CatMemory TRam) (StoreMem (zeros size) (size / 4) id) (DRam (StoreMem (zeros size) (size / 4) id)) eq_refl I Hi) as (md & E & X); cbn [sm_size] in *; try lia.
    exists md. split; auto. rewrite X. cbn [dev_inv sm_storage]. rewrite zeros_length; lia.
  - pose proof (zlen_nonneg l).
    destruct (sm_meta (CatMemory TRam) (StoreMem l (zlen l / 4) id) (DRam (StoreMem l (zlen l / 4) id)) eq_refl I Hi) as (md & E & X); cbn [sm_size] in *; try lia.
    exists md. split; auto. rewrite X. cbn [dev_inv sm_storage]. lia.
  - destruct (sm_meta (CatMemory TRam) (StoreMem (resize l (size / 4)) (size / 4) id) (DRam (StoreMem (resize l (size / 4)) (size / 4) id)) eq_refl I Hi) as (md & E & X); cbn [sm_size] in *; try lia.
    exists md. split; auto. rewrite X. cbn [dev_inv sm_storage]. rewrite resize_length; lia.
  - destruct (sm_meta (CatStorage TFlash) (StoreMem (zeros size) (size / 4) id) (DFlash (StoreMem (zeros size) (size / 4) id)) eq_refl I Hi) as (md & E & X); cbn [sm_size] in *; try lia.
    exists md. split; auto. rewrite X. cbn [dev_inv sm_storage]. rewrite zeros_length; lia.
  - pose proof (zlen_nonneg l).
    destruct (sm_meta (CatStorage TFlash) (StoreMem l (zlen l / 4) id) (DFlash (StoreMem l (zlen l / 4) id)) eq_refl I Hi) as (md & E & X); cbn [sm_size] in *; try lia.
    exists md. split; auto. rewrite X. cbn [dev_inv sm_storage]. lia.
  - destruct (sm_meta (CatStorage TFlash) (StoreMem (resize l (size / 4)) (size / 4) id) (DFlash (StoreMem (resize l (size / 4)) (size / 4) id)) eq_refl I Hi) as (md & E & X); cbn [sm_size] in *; try lia.
    exists md. split; auto. rewrite X. cbn [dev_inv sm_storage]. rewrite resize_length; lia.
  - unfold br_new in E. destruct (zlen l <? 4294967296); [|discriminate]. injection E as <-. cbn [bo_metadata dev_ops]. unfold br_metadata. cbn [br_size br_hw_id].
    destruct (mul4_rel (zlen l) (zlen_nonneg l)) as (y & -> & Hu & Hm & Hy). cbn [obind]. destruct (meta_ok id y (CatStorage TReadonly)) as (md & E & X); auto. exact I.
    exists md. split; [exact E|reflexivity].
  - unfold br_with_size in E. repeat match type of E with context [if ?b then _ else _] => destruct b end; try discriminate. injection E as <-.
    cbn [bo_metadata dev_ops]. unfold br_metadata. cbn [br_size br_hw_id]. unfold is_u32 in Hs.
    destruct (mul4_rel (size / 4)) as (y & -> & Hu & Hm & Hy); [lia|]. cbn [obind]. destruct (meta_ok id y (CatStorage TReadonly)) as (md & E & X); auto. exact I.
    exists md. split; [exact E|reflexivity].
  - pose proof (zlen_nonneg f). destruct E as [E|E]; unfold fm_writable_new, fm_readonly, fm_open in E; (destruct (zlen f <? 4294967296); [|discriminate]); injection E as <-; apply fm_meta; cbn; auto; lia.
  - pose proof (zlen_nonneg f). unfold is_u32 in Hs. destruct E as [E|E]; unfold fm_writable_with_size, fm_readonly_with_size, fm_open in E; (destruct (zlen f <? 4294967296); [|discriminate]); cbn [obind] in E; injection E as <-.
    + cbn [fm_real_size fm_file fm_size]. repeat match goal with |- context [if ?b then _ else _] => destruct b end; apply fm_meta; cbn; auto; lia.
    + apply fm_meta; cbn; auto; lia.
  - destruct (meta_ok id 64 (CatDisplay TNumber)) as (md & E & X); auto; try exact I; try reflexivity. { unfold is_u32; lia. } exists md. split; [exact E|exact I].
  - destruct (meta_ok id 4 (CatDisplay TBuffered)) as (md & E & X); auto; try exact I; try reflexivity. { unfold is_u32; lia. } exists md. split; [exact E|exact I].
  - unfold bd_new in E. destruct (Z.eqb_spec size 0); [discriminate|]. destruct (Z.eqb_spec (size mod 4) 0); [|discriminate]. injection E as <-. unfold is_u32 in Hs.
    cbn [bo_metadata dev_ops]. unfold bd_metadata. cbn [bd_words bd_hw_id]. destruct (mul4_rel (size / 4 - 1)) as (y & -> & Hu & Hm & Hy); [lia|]. cbn [obind].
    unfold add_u32. rewrite Hy by lia. destruct (Z.ltb_spec (4 * (size / 4 - 1) + 4) 4294967296); [|lia]. cbn [obind].
    destruct (meta_ok id (4 * (size / 4 - 1) + 4) (CatDisplay TBuffered)) as (md & E & X); auto; try exact I; try (unfold is_u32; lia).
    exists md. split; [exact E|]. cbn. rewrite zeros_length; lia.
  - destruct (meta_ok id 8 (CatKeyboard TReadChar)) as (md & E & X); auto; try exact I; try reflexivity. { unfold is_u32; lia. } exists md. split; [exact E|]. rewrite X. cbn. lia.
  - unfold lk_new in E. destruct (Z.eqb_spec (size mod 4) 0); [|discriminate]. destruct (Z.eqb_spec size 0); [discriminate|]. injection E as <-. unfold is_u32 in Hs.
    cbn [bo_metadata dev_ops]. unfold lk_metadata. cbn [lk_capacity lk_hw_id]. destruct (mul4_rel (size / 4 - 1)) as (y & -> & Hu & Hm & Hy); [lia|]. cbn [obind].
    unfold add_u32. rewrite Hy by lia. destruct (Z.ltb_spec (4 * (size / 4 - 1) + 4) 4294967296); [|lia]. cbn [obind].
    destruct (meta_ok id (4 * (size / 4 - 1) + 4) (CatKeyboard TReadLine)) as (md & E & X); auto; try exact I; try (unfold is_u32; lia).
    exists md. split; [exact E|]. rewrite X. cbn [dev_inv lk_capacity lk_buffer lk_input]. rewrite zeros_length by lia. repeat split; auto; lia.
  - destruct (meta_ok id 24 (CatClock TRealtime)) as (md & E & X); auto; try exact I; try reflexivity. { unfold is_u32; lia. } exists md. split; [exact E|exact I].
  - destruct (meta_ok id 32 (CatDebug TBasic)) as (md & E & X); auto; try exact I; try reflexivity. { unfold is_u32; lia. } exists md. split; [exact E|]. rewrite X. cbn. lia.
Qed.

Lemma crate_hwb ds : forall id, 0 <= id -> id + zlen ds <= 4294967295 -> Forall crate_component ds -> exists h, hwb_new_from (dev_ops false) id ds = Ret h.
Proof.
  induction ds as [|d t IH]; intros id H0 H1 H; [eexists; reflexivity|]. rewrite zlen_cons in H1. inversion H as [|? ? Hd Ht]; subst.
  pose proof (zlen_nonneg t). cbn [hwb_new_from]. destruct (Z.ltb_spec id 4294967295); [|lia]. destruct (crate_meta d Hd) as (md & E & _). unfold create_from_aux. rewrite E. cbn [obind].
  destruct (IH (id + 1)) as (h & ->); [lia|lia|auto|]. eexists. reflexivity.
Qed.
Lemma behaved_serves {D} (ops : bus_ops D) inv : behaved ops inv -> forall sz h d, Forall (in_range sz) h -> inv sz d -> exists d' xs, serve ops d h = Ret (d', xs) /\ inv sz d'.
Proof.
  intros B sz h. induction h as [|r t IH]; intros d HF Hi; [do 2 eexists; split; [reflexivity|auto]|]. inversion HF as [|? ? H1 H2]; subst. destruct r as [a|a w|]; cbn [serve].
  - destruct H1 as (Ha & Hm). destruct (bh_read _ _ B sz d a Hi Ha Hm) as (d1 & ex & v & -> & Hi1). cbn [obind]. destruct (IH d1 H2 Hi1) as (d' & xs & -> & X). do 2 eexists. split; [reflexivity|auto].
  - destruct H1 as (Ha & Hm & Hw). destruct (bh_write _ _ B sz d a w Hi Ha Hm Hw) as (d1 & ex & -> & Hi1). cbn [obind]. destruct (IH d1 H2 Hi1) as (d' & xs & -> & X). do 2 eexists. split; [reflexivity|auto].
  - destruct (bh_reset _ _ B sz d Hi) as (d1 & -> & Hi1). cbn [obind]. destruct (IH d1 H2 Hi1) as (d' & xs & -> & X). do 2 eexists. split; [reflexivity|auto].
Qed.
(** Any board of the crate's components can be built in a release build... *)
Lemma P_C02_crate_board : forall ds, Forall crate_component ds -> zlen ds < 2 ^ 32 -> exists m, board_new (dev_ops false) ds = Ret m.
Proof.
  intros ds H Hl. change (2 ^ 32) with 4294967296 in Hl. destruct (crate_hwb ds 0) as (h & E); [lia|lia|auto|].
  exists (cpu_new (Memory h [])). unfold board_new, hwb_new. rewrite E. reflexivity.
Qed.
Lemma crate_devs_ok ds cs m0 m : Forall crate_component ds -> Forall api_wf cs -> board_new (dev_ops false) ds = Ret m0 ->
  api_run (dev_ops false) false cs m0 = Ret m -> wf m /\ devs_ok dev_inv (c_mem m).
Proof.
  intros Hd Hc Hb Hr. pose proof (dev_typed false) as T.
  destruct (board_new_spec _ T _ _ Hb) as (Hw & _ & Hm & _ & _ & _ & Hk).
  assert (Hrm : reachable (dev_ops false) false m) by (exists ds, cs, m0; auto).
  assert (Hw' : wf m) by (eapply reachable_wf; eauto). split; auto.
  apply Forall_forall. intros e He. apply In_nth_error in He. destruct He as (i & He).
  assert (Hz : znth (c_hwb m) (Z.of_nat i) = Some e) by (rewrite znth_nth by lia; rewrite Nat2Z.id; exact He).
  assert (X : exists e0, znth (c_hwb m0) (Z.of_nat i) = Some e0).
  { apply znth_some. split; [lia|]. assert (L : zlen (c_hwb m0) = zlen (c_hwb m)).
    { pose proof (caches_run (dev_ops false) T false cs m0 m Hw Hc Hr) as C. unfold zlen. rewrite <- (map_length ae_cache (c_hwb m0)), <- (map_length ae_cache (c_hwb m)). congruence. }
    rewrite L. apply znth_bound in Hz. lia. }
  destruct X as (e0 & Hz0). destruct (Hk _ _ Hz0) as (md & E1 & E2).
  destruct (P_C71_requests device (dev_ops false) false cs m0 m _ e0 T Hw Hc Hr Hz0) as (h & xs & d & F & S & Z0).
  rewrite Hz in Z0. injection Z0 as ->. cbn [ae_cache ae_dev].
  assert (C : crate_component (ae_dev e0)). { rewrite Forall_forall in Hd. apply Hd. rewrite <- Hm. apply in_map. eapply znth_In; eauto. }
  destruct (crate_meta _ C) as (md' & E3 & X3). rewrite E1 in E3. injection E3 as <-.
  rewrite E2 in F |- *. cbn [ac_size] in *. destruct (behaved_serves _ _ (dev_behaved false) _ h (ae_dev e0) F X3) as (d' & xs' & S' & X').
  rewrite S in S'. injection S' as <- _. exact X'.
Qed.

(* Concrete cases for the theorems above that have none beside them. *)
Lemma E_C02_crate_board : exists rom ram, br_new [1; 2; 3] 1 = Some rom /\ sm_new 256 2 = Some ram /\ Forall crate_component [DRom rom; DRam ram] /\ zlen [DRom rom; DRam ram] < 2 ^ 32.
Proof.
  eexists. eexists. split; [reflexivity|]. split; [reflexivity|]. split; [|reflexivity].
  constructor. { apply (cc_rom_new [1; 2; 3] 1); [repeat constructor; unfold is_u32; lia|unfold is_u64; lia|reflexivity]. }
  constructor. { apply (cc_ram_new 256 2); [unfold is_u32; lia|unfold is_u64; lia|reflexivity]. }
  constructor.
Qed.
