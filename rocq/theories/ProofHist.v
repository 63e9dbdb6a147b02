(** Every component only ever sees aligned requests below its size: the link between histories of a component and programs. *)
From Coq Require Import ZArith List Bool Lia.
From Verif Require Import Base Board Mem Cpu Asm Tools Devices SpecMach SpecIsa SpecBus SpecObs SpecMap SpecDev BaseFacts MemFacts MapFacts
  RegFacts AluFacts IsaFacts IsaStep MonoFacts CycleFacts UndFacts HoareFacts CyclePost InvFacts ReachFacts ExecFacts StepCases ProofAlu DevTyped Demo ProofBoard.
Import ListNotations.
Open Scope Z_scope.
Ltac Zify.zify_post_hook ::= Z.div_mod_to_equations.

Lemma serve_app {D} (ops : bus_ops D) h1 : forall h2 d d1 d2 x1 x2,
  serve ops d h1 = Ret (d1, x1) -> serve ops d1 h2 = Ret (d2, x2) -> serve ops d (h1 ++ h2) = Ret (d2, x1 ++ x2).
Proof.
  induction h1 as [|r t IH]; intros h2 d d1 d2 x1 x2 E1 E2.
  - injection E1 as <- <-. exact E2.
  - cbn [serve app] in *.
    match type of E1 with context [match ?x with Ret _ => _ | Panic => _ end] => destruct x as [[d' y]|] end; [|discriminate].
    destruct (serve ops d' t) as [[d'' xs]|] eqn:Es; [|discriminate]. injection E1 as -> <-.
    rewrite (IH _ _ _ _ _ _ Es E2). reflexivity.
Qed.

Section Hist.
Context {D : Type} (ops : bus_ops D) (T : typed ops).
Implicit Type m : cpu D.
Notation bs := (board_bus ops false).

(** [d'] is reached from [d] by requests below [sz]. *)
Definition served (sz : Z) (d d' : D) : Prop := exists h xs, Forall (in_range sz) h /\ serve ops d h = Ret (d', xs).
Lemma served_refl sz d : served sz d d.
Proof. exists [], []. auto. Qed.
Lemma served_trans sz d d1 d2 : served sz d d1 -> served sz d1 d2 -> served sz d d2.
Proof.
  intros (h & x & F & E) (h' & x' & F' & E'). exists (h ++ h'), (x ++ x'). split; [apply Forall_app; auto|]. eapply serve_app; eauto.
Qed.
Lemma served_read sz d a d' ex v : 0 <= a < sz -> a mod 4 = 0 -> bo_read ops d a = Ret (d', ex, v) -> served sz d d'.
Proof. intros ? ? E. exists [Read a], [Got ex v]. split; [constructor; cbn; auto|]. cbn. rewrite E. reflexivity. Qed.
Lemma served_write sz d a w d' ex : 0 <= a < sz -> a mod 4 = 0 -> is_u32 w -> bo_write ops d a w = Ret (d', ex) -> served sz d d'.
Proof. intros ? ? ? E. exists [Write a w], [Put ex]. split; [constructor; cbn; auto|]. cbn. rewrite E. reflexivity. Qed.
Lemma served_reset sz d d' : bo_reset ops d = Ret d' -> served sz d d'.
Proof. intros E. exists [ResetReq], [Done]. split; [constructor; cbn; auto|]. cbn. rewrite E. reflexivity. Qed.

(** Component [k] was [e] and has only been served. *)
Definition now (k : Z) (e : aux_entry D) (h : hwb D) : Prop :=
  exists d, served (ac_size (ae_cache e)) (ae_dev e) d /\ znth h k = Some (AuxEntry d (ae_cache e)).
Lemma now_start k e h : znth h k = Some e -> now k e h.
Proof. intros H. exists (ae_dev e). split; [apply served_refl|]. destruct e; auto. Qed.
Lemma now_more k e h d c : now k e h -> znth h k = Some c -> served (ac_size (ae_cache e)) (ae_dev c) d ->
  served (ac_size (ae_cache e)) (ae_dev e) d /\ ae_cache c = ae_cache e.
Proof. intros (d0 & H & E) Ec S. rewrite E in Ec. injection Ec as <-. split; [eapply served_trans; eauto|reflexivity]. Qed.
Lemma now_read oc mem a mem' ex v k e : mem_wf mem -> is_u32 a -> now k e (mm_hwb mem) ->
  mem_read ops oc mem a = Ret (mem', ex, v) -> now k e (mm_hwb mem').
Proof.
  intros W Ha N H. apply mem_read_inv in H. destruct H as (Hal & [(_ & -> & _)|(mp & c & d & Hf & Hz & Er & ->)]); auto.
  destruct (mem_read_offset _ _ _ _ _ W Ha Hal Hf Hz) as (O1 & O2).
  cbn [mm_hwb]. unfold now. rewrite (set_dev_znth _ _ _ _ _ Hz). destruct (Z.eqb_spec k (mp_aux_id mp)) as [->|]; auto.
  destruct N as (d0 & Hs & E0). rewrite Hz in E0. injection E0 as ->. cbn [ae_dev ae_cache] in *.
  exists d. split; auto. eapply served_trans; eauto. eapply served_read; eauto.
Qed.
Lemma now_write oc mem a w mem' ex k e : mem_wf mem -> is_u32 a -> is_u32 w -> now k e (mm_hwb mem) ->
  mem_write ops oc mem a w = Ret (mem', ex) -> now k e (mm_hwb mem').
Proof.
  intros W Ha Hw N H. apply mem_write_inv in H. destruct H as (Hal & [(_ & -> & _)|(mp & c & d & Hf & Hz & Er & ->)]); auto.
  destruct (mem_read_offset _ _ _ _ _ W Ha Hal Hf Hz) as (O1 & O2).
  cbn [mm_hwb]. unfold now. rewrite (set_dev_znth _ _ _ _ _ Hz). destruct (Z.eqb_spec k (mp_aux_id mp)) as [->|]; auto.
  destruct N as (d0 & Hs & E0). rewrite Hz in E0. injection E0 as ->. cbn [ae_dev ae_cache] in *.
  exists d. split; auto. eapply served_trans; eauto. eapply served_write; eauto.
Qed.
Lemma now_resets (h h' : hwb D) sel k i e : now k e h -> reset_sel ops i sel h = Ret h' -> now k e h'.
Proof.
  intros (d & Hs & E) Er. destruct (reset_sel_znth ops _ _ _ _ _ _ Er E) as [(_ & X)|(_ & d' & Ed & X)].
  - exists d. auto.
  - cbn [ae_dev ae_cache] in *. exists d'. split; auto. eapply served_trans; eauto. eapply served_reset; eauto.
Qed.
Lemma now_next oc m m' k e : wf m -> now k e (c_hwb m) -> next ops oc m = Ret m' -> now k e (c_hwb m').
Proof.
  intros Hw N E. destruct (c_halted m) eqn:Hh.
  { unfold next in E. rewrite Hh in E. injection E as <-. auto. }
  apply next_oc in E.
  apply (cycle_post ops T (fun s => wfs s /\ now k e (mm_hwb (s_bus s))) (fun s => now k e (mm_hwb (s_bus s))) m m'); auto.
  { split; [apply wfs_ticked; auto|auto]. }
  intros i Hi. apply closed_intro; auto.
  - intros s a b ex v (_ & _ & W & _) H Ha Er. cbn. eapply now_read; eauto.
  - intros s a w b ex (_ & _ & W & _) H Ha Hwd Er. cbn. exact (now_write _ _ _ _ _ _ _ _ W Ha Hwd H Er).
  - intros s v sel b -> _ H Er _. cbn [bus_reset board_bus] in Er.
    destruct (reset_sel ops 0 sel _) as [h|] eqn:Es; [|discriminate]. injection Er as <-.
    assert (X : now k e h) by (eapply now_resets; eauto). split; auto.
Qed.
Lemma now_api oc c m m' k e : wf m -> api_wf c -> now k e (c_hwb m) -> api_call ops oc c m = Ret m' -> now k e (c_hwb m').
Proof.
  intros Hw Hc N E. destruct c; cbn [api_call] in E.
  - eapply now_next; eauto.
  - apply P_C39_each_once in E. destruct E as (_ & E). destruct N as (d & Hs & Hk). destruct (E _ _ Hk) as (d' & Ed & X).
    exists d'. split; auto. eapply served_trans; eauto. eapply served_reset; eauto.
  - destruct (mem_map _ _ _ _) as [[? ?]|] eqn:Em; [|discriminate]. injection E as <-.
    apply internal_map_hwb in Em. unfold c_hwb. cbn. rewrite Em. exact N.
  - destruct (mem_map_abs _ _ _ _ _) as [[? ?]|] eqn:Em; [|discriminate]. injection E as <-.
    apply internal_map_hwb in Em. unfold c_hwb. cbn. rewrite Em. exact N.
  - destruct (map_contiguous _ _ _ _) as [[[mem ?] ?]|] eqn:Em; [|discriminate]. injection E as <-. unfold c_hwb. cbn.
    assert (X : mm_hwb mem = mm_hwb (c_mem m)).
    { eapply (map_contiguous_ind oc (fun x => mm_hwb x = mm_hwb (c_mem m))); [|reflexivity| | |exact Em].
      - intros m0 a id m1 rr H _ Hm. rewrite <- H. eapply internal_map_hwb; eauto.
      - apply Hw.
      - apply Hc. }
    rewrite X. exact N.
  - destruct (mem_read _ _ _ _) as [[[? ?] ?]|] eqn:Em; [|discriminate]. injection E as <-. unfold c_hwb. cbn.
    eapply now_read; [|exact Hc|exact N|exact Em]. apply Hw.
  - destruct (mem_write _ _ _ _ _) as [[? ?]|] eqn:Em; [|discriminate]. injection E as <-. unfold c_hwb. cbn.
    refine (now_write _ _ _ _ _ _ _ _ (proj1 (proj2 Hw)) (proj1 Hc) (proj2 Hc) N Em).
Qed.
Lemma now_run oc cs : forall m m' k e, wf m -> Forall api_wf cs -> now k e (c_hwb m) -> api_run ops oc cs m = Ret m' -> now k e (c_hwb m').
Proof.
  induction cs as [|c t IH]; intros m m' k e Hw Hc N E; cbn [api_run] in E. { injection E as <-. auto. }
  inversion Hc; subst. destruct (api_call ops oc c m) as [m1|] eqn:E1; [|discriminate].
  eapply (IH m1); eauto. { eapply api_call_wf; eauto. } eapply now_api; eauto.
Qed.
End Hist.

(** Whatever programs run and whatever the host does through the API, a component is only ever asked for aligned words below the
    size it declared, and its state is the one these requests lead to. *)
Lemma P_C71_requests : forall D (ops : bus_ops D) oc cs m m' k e, typed ops -> wf m -> Forall api_wf cs ->
  api_run ops oc cs m = Ret m' -> znth (c_hwb m) k = Some e ->
  exists h xs d, Forall (in_range (ac_size (ae_cache e))) h /\ serve ops (ae_dev e) h = Ret (d, xs) /\
    znth (c_hwb m') k = Some (AuxEntry d (ae_cache e)).
Proof.
  intros D ops oc cs m m' k e T Hw Hc E Hk.
  destruct (now_run ops T oc cs m m' k e Hw Hc (now_start ops _ _ _ Hk) E) as (d & (h & xs & F & S) & X). exists h, xs, d. auto.
Qed.
(** Nothing else happens to a component that no request of a given shape can change. *)
Lemma P_C71_invariant : forall D (ops : bus_ops D) oc (inv : D -> Prop) cs m m' k e, typed ops -> wf m -> Forall api_wf cs ->
  api_run ops oc cs m = Ret m' -> znth (c_hwb m) k = Some e -> inv (ae_dev e) ->
  (forall d r d' xs, inv d -> in_range (ac_size (ae_cache e)) r -> serve ops d [r] = Ret (d', xs) -> inv d') ->
  exists d, inv d /\ znth (c_hwb m') k = Some (AuxEntry d (ae_cache e)).
Proof.
  intros D ops oc inv cs m m' k e T Hw Hc E Hk I0 Hi.
  destruct (P_C71_requests D ops oc cs m m' k e T Hw Hc E Hk) as (h & xs & d & F & S & X).
  exists d. split; auto. clear X Hk E. revert I0 S F. generalize (ae_dev e) as d0. revert xs. induction h as [|r t IH]; intros xs d0 I0 S F.
  - injection S as <- _. auto.
  - inversion F; subst. pose proof (Hi d0 r) as Hr. cbn [serve] in S, Hr.
    match type of S with context [match ?x with Ret _ => _ | Panic => _ end] => destruct x as [[d1 y]|] end; [|discriminate].
    destruct (serve ops d1 t) as [[d2 ys]|] eqn:Es; [|discriminate]. injection S as -> _. refine (IH _ _ (Hr _ _ I0 _ eq_refl) Es _); assumption.
Qed.
Lemma E_C71_requests : exists cs m0 m, let prog := asm [Cpy R_a0 (Lit2 256); Wsa (Reg1 R_a0) (Lit1 0) (Lit1 9); Halt] in
  Forall api_wf cs /\ board_new (dev_ops false) (demo_devs prog) = Ret m0 /\ wf m0 /\
  api_run (dev_ops false) false cs m0 = Ret m /\ (c_halted m && (c_cycles m =? 3) = true) /\
  option_map ae_dev (znth (c_hwb m) 1) <> option_map ae_dev (znth (c_hwb m0) 1).
Proof.
  exists (demo_calls 3). assert (H : exists m0, board_new (dev_ops false) (demo_devs (asm [Cpy R_a0 (Lit2 256); Wsa (Reg1 R_a0) (Lit1 0) (Lit1 9); Halt])) = Ret m0) by (vm_compute; eauto).
  destruct H as [m0 H0]. exists m0. pose proof (board_new_spec _ (dev_typed false) _ _ H0) as (Hw & _).
  pose proof H0 as H0'. vm_compute in H0'. injection H0' as <-. eexists. split; [apply demo_calls_wf|]. split; [exact H0|]. split; [exact Hw|].
  split; [vm_compute; reflexivity|]. split; [reflexivity|]. vm_compute. discriminate.
Qed.

(* Concrete cases for the theorems above that have none beside them. *)
(** A program that writes to a RAM; being a RAM with identifier 2 is kept by every request. *)
Lemma E_C71_invariant : exists m0 m e, board_new (dev_ops false) (demo_devs (asm [Cpy R_a0 (Lit2 256); Wsa (Reg1 R_a0) (Lit1 0) (Lit1 9); Halt])) = Ret m0 /\ wf m0 /\
  api_run (dev_ops false) false (demo_calls 3) m0 = Ret m /\ c_halted m = true /\ znth (c_hwb m0) 1 = Some e /\
  (let inv := fun d => exists s, d = DRam s /\ sm_hw_id s = 2 in inv (ae_dev e) /\
   forall d r d' xs, inv d -> in_range (ac_size (ae_cache e)) r -> serve (dev_ops false) d [r] = Ret (d', xs) -> inv d').
Proof.
  assert (H : exists m0, board_new (dev_ops false) (demo_devs (asm [Cpy R_a0 (Lit2 256); Wsa (Reg1 R_a0) (Lit1 0) (Lit1 9); Halt])) = Ret m0) by (vm_compute; eauto).
  destruct H as [m0 H0]. exists m0. pose proof (board_new_spec _ (dev_typed false) _ _ H0) as (Hw & _).
  vm_compute in H0. injection H0 as <-. eexists. eexists. split; [vm_compute; reflexivity|]. split; [exact Hw|]. split; [vm_compute; reflexivity|]. split; [reflexivity|]. split; [reflexivity|].
  intros inv. split; [eexists; split; reflexivity|]. intros d r d' xs (s & -> & Hs) _ E. cbn [serve] in E. destruct r as [a|a w|]; cbn [dev_ops bo_read bo_write bo_reset] in E.
  - unfold sm_read in E. destruct (vget (sm_storage s) (a / 4)) as [v|]; cbn [obind wrap_r] in E; [|discriminate]. assert (X : d' = DRam s) by congruence. rewrite X. exists s. auto.
  - unfold sm_write in E. destruct (vset (sm_storage s) (a / 4) w) as [l|]; cbn [obind wrap_w] in E; [|discriminate]. assert (X : d' = DRam (StoreMem l (sm_size s) (sm_hw_id s))) by congruence. rewrite X. eexists. split; [reflexivity|exact Hs].
  - unfold sm_reset in E. cbn [obind wrap_o] in E. assert (X : d' = DRam (StoreMem (zeros (zlen (sm_storage s))) (sm_size s) (sm_hw_id s))) by congruence. rewrite X. eexists. split; [reflexivity|exact Hs].
Qed.
