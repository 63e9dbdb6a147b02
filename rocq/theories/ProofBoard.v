(** Proofs about the motherboard: construction, reset, isolation of components. *)
From Coq Require Import ZArith List Bool Lia.
From Verif Require Import Base Board Mem Cpu Asm Tools Devices DevTyped SpecMach SpecIsa SpecBus SpecObs SpecMap BaseFacts RegFacts MemFacts
  AluFacts IsaFacts IsaStep MonoFacts CycleFacts UndFacts HoareFacts CyclePost InvFacts MapFacts ReachFacts ExecFacts StepCases ProofAlu Demo.
Import ListNotations.
Open Scope Z_scope.
Ltac Zify.zify_post_hook ::= Z.div_mod_to_equations.

(** * C38 *)
(** After a board reset, whatever happened before: supervisor mode, every other register 0, counter 0, running, and the
    mappings and component descriptions are those of before. *)
Lemma P_C38_reset_state : forall D (ops : bus_ops D) m m', board_reset ops m = Ret m' ->
  (forall r, R m' r = match r with R_smt => 1 | _ => 0 end) /\ c_cycles m' = 0 /\ c_halted m' = false /\
  mm_maps (c_mem m') = mm_maps (c_mem m) /\ map ae_cache (c_hwb m') = map ae_cache (c_hwb m).
Proof.
  intros D ops m m' E. apply board_reset_inv in E. destruct E as (h & E & ->).
  split. { intros []; reflexivity. }
  repeat split; auto. apply (reset_sel_caches _ _ _ _ _ E).
Qed.
(** Resetting twice is resetting once, for the CPU. *)
Lemma P_C38_idempotent : forall D (ops : bus_ops D) m m' m'', board_reset ops m = Ret m' -> board_reset ops m' = Ret m'' ->
  (forall r, R m'' r = R m' r) /\ c_cycles m'' = c_cycles m' /\ c_halted m'' = c_halted m' /\
  mm_maps (c_mem m'') = mm_maps (c_mem m').
Proof.
  intros D ops m m' m'' E E'. apply board_reset_inv in E, E'. destruct E as (h & _ & ->), E' as (h' & _ & ->).
  repeat split; auto.
Qed.
Lemma E_C38_reset_state : exists m m', reachable (dev_ops false) false m /\ board_reset (dev_ops false) m = Ret m' /\
  R m R_a0 = 7 /\ c_cycles m = 3 /\ c_halted m = true /\ length (mm_maps (c_mem m)) = 2%nat /\ R m' R_a0 = 0.
Proof.
  pose (prog := asm [Cpy R_a0 (Lit2 7); Cpy R_a1 (Lit2 8); Halt]).
  assert (H : exists m, demo_run false prog 3 = Ret m) by (vm_compute; eauto).
  destruct H as [m Hm]. exists m. pose proof (demo_reachable _ _ _ _ Hm) as Hr.
  vm_compute in Hm. injection Hm as <-. eexists. split; [exact Hr|]. split; [vm_compute; reflexivity|].
  vm_compute. auto.
Qed.

(** * C39 *)
Section C39.
Context {D : Type} (ops : bus_ops D).
Lemma reset_all_znth (h h' : hwb D) k i e : reset_sel ops i (fun _ => true) h = Ret h' -> znth h k = Some e ->
  exists d, bo_reset ops (ae_dev e) = Ret d /\ znth h' k = Some (AuxEntry d (ae_cache e)).
Proof.
  revert h' k i. induction h as [|x t IH]; intros h' k i E Hk; cbn [znth] in Hk; [discriminate|].
  cbn [reset_sel] in E. destruct (bo_reset ops (ae_dev x)) as [d|] eqn:Ed; [|discriminate].
  destruct (reset_sel ops (i + 1) _ t) as [t'|] eqn:Et; [|discriminate]. injection E as <-.
  cbn [znth]. destruct (k =? 0).
  - injection Hk as <-. eauto.
  - eapply IH; eauto.
Qed.
Lemma reset_all_len (h h' : hwb D) i sel : reset_sel ops i sel h = Ret h' -> length h' = length h.
Proof. intros E. apply reset_sel_caches in E. rewrite <- (map_length ae_cache h'), E, map_length. reflexivity. Qed.
Lemma reset_all_panic (h : hwb D) i : reset_sel ops i (fun _ => true) h = Panic <-> exists e, In e h /\ bo_reset ops (ae_dev e) = Panic.
Proof.
  revert i. induction h as [|x t IH]; intros i; cbn [reset_sel].
  { split; [discriminate|intros (? & [] & _)]. }
  destruct (bo_reset ops (ae_dev x)) as [d|] eqn:Ed.
  - destruct (reset_sel ops (i + 1) _ t) as [t'|] eqn:Et.
    + split; [discriminate|]. intros (e & [->|Hi] & He); [congruence|].
      assert (X : reset_sel ops (i + 1) (fun _ => true) t = Panic) by (apply IH; eauto). congruence.
    + split; auto. intros _. apply IH in Et. destruct Et as (e & Hi & He). exists e. split; [right|]; auto.
  - split; auto. intros _. exists x. split; [left|]; auto.
Qed.
End C39.
(** Every component receives exactly one reset (its new state is one reset away from the old one), keeps its place and its
    description; there are no other components; and the board reset panics only if the reset of a component does. *)
Lemma P_C39_each_once : forall D (ops : bus_ops D) m m', board_reset ops m = Ret m' ->
  length (c_hwb m') = length (c_hwb m) /\
  forall k e, znth (c_hwb m) k = Some e ->
    exists d, bo_reset ops (ae_dev e) = Ret d /\ znth (c_hwb m') k = Some (AuxEntry d (ae_cache e)).
Proof.
  intros D ops m m' E. apply board_reset_inv in E. destruct E as (h & E & ->). split.
  { eapply reset_all_len; eauto. }
  intros k e. apply (reset_all_znth ops _ _ _ _ _ E).
Qed.
(** Resetting the board panics exactly when the reset of one of its components does. *)
Lemma P_C39_panic : forall D (ops : bus_ops D) m,
  board_reset ops m = Panic <-> exists e, In e (c_hwb m) /\ bo_reset ops (ae_dev e) = Panic.
Proof.
  intros D ops m. unfold board_reset. rewrite reset_where_sel. change (c_hwb (cpu_reset m)) with (c_hwb m).
  rewrite <- (reset_all_panic ops (c_hwb m) 0). destruct (reset_sel _ _ _ _); cbn; split; auto; discriminate.
Qed.
(** Two RAMs written to by a program are zero after the reset. *)
Lemma E_C39_each_once : demo_case (asm [Cpy R_a0 (Lit2 256); Wsa (Reg1 R_a0) (Lit1 4) (Lit1 9); Halt]) 2 (fun m i mem1 m' =>
  match znth (c_hwb m) 1, board_reset (dev_ops false) m with
  | Some e, Ret m' => match znth (c_hwb m') 1 with
                      | Some e' => ae_dev e <> ae_dev e' /\ bo_reset (dev_ops false) (ae_dev e) = Ret (ae_dev e') | None => False end
  | _, _ => False
  end).
Proof. apply demo_case_intro. vm_compute. split; [discriminate|reflexivity]. Qed.

(** * C37 *)
Section C37.
Context {D : Type} (ops : bus_ops D) (T : typed ops).
Implicit Type m : cpu D.
Notation bs := (board_bus ops false).

Lemma read_other oc mem a mem' ex v k : ~ mapped mem k -> mem_read ops oc mem a = Ret (mem', ex, v) ->
  znth (mm_hwb mem') k = znth (mm_hwb mem) k.
Proof.
  intros N H. apply mem_read_inv in H. destruct H as (_ & [(_ & -> & _)|(mp & e & d & Hf & Hz & _ & ->)]); auto.
  cbn [mm_hwb]. rewrite (set_dev_znth _ _ _ _ _ Hz). destruct (Z.eqb_spec k (mp_aux_id mp)); auto.
  exfalso. apply N. apply find_o_some in Hf. exists mp. split; [tauto|congruence].
Qed.
Lemma write_other oc mem a w mem' ex k : ~ mapped mem k -> mem_write ops oc mem a w = Ret (mem', ex) ->
  znth (mm_hwb mem') k = znth (mm_hwb mem) k.
Proof.
  intros N H. apply mem_write_inv in H. destruct H as (_ & [(_ & -> & _)|(mp & e & d & Hf & Hz & _ & ->)]); auto.
  cbn [mm_hwb]. rewrite (set_dev_znth _ _ _ _ _ Hz). destruct (Z.eqb_spec k (mp_aux_id mp)); auto.
  exfalso. apply N. apply find_o_some in Hf. exists mp. split; [tauto|congruence].
Qed.
Lemma mapped_maps (mem mem' : memory D) k : mm_maps mem' = mm_maps mem -> mapped mem' k <-> mapped mem k.
Proof. intros E. unfold mapped. rewrite E. tauto. Qed.

Lemma reset_sel_znth (h h' : hwb D) sel k i e : reset_sel ops i sel h = Ret h' -> znth h k = Some e ->
  (sel (i + k) = false /\ znth h' k = Some e) \/
  (sel (i + k) = true /\ exists d, bo_reset ops (ae_dev e) = Ret d /\ znth h' k = Some (AuxEntry d (ae_cache e))).
Proof.
  revert h' k i. induction h as [|x t IH]; intros h' k i E Hk; cbn [znth] in Hk; [discriminate|].
  cbn [reset_sel] in E.
  destruct (if sel i then bo_reset ops (ae_dev x) else Ret (ae_dev x)) as [d|] eqn:Ed; [|discriminate].
  destruct (reset_sel ops (i + 1) _ t) as [t'|] eqn:Et; [|discriminate]. injection E as <-.
  cbn [znth]. destruct (Z.eqb_spec k 0) as [->|].
  - injection Hk as <-. rewrite Z.add_0_r. destruct (sel i).
    + right. eauto.
    + left. injection Ed as <-. destruct x; auto.
  - replace (i + k) with (i + 1 + (k - 1)) by lia. eapply IH; eauto.
Qed.

Lemma isolated_next oc m m' k e : wf m -> ~ mapped (c_mem m) k -> znth (c_hwb m) k = Some e -> next ops oc m = Ret m' ->
  mm_maps (c_mem m') = mm_maps (c_mem m) /\
  (znth (c_hwb m') k = Some e \/
   ((exists v mem1, fetches ops m (Reset v) mem1) /\
    exists d, bo_reset ops (ae_dev e) = Ret d /\ znth (c_hwb m') k = Some (AuxEntry d (ae_cache e)))).
Proof.
  intros Hw N Hk E. destruct (c_halted m) eqn:Hh.
  { unfold next in E. rewrite Hh in E. injection E as <-. auto. }
  apply next_oc in E.
  pose (J := fun s : st (memory D) => mm_maps (s_bus s) = mm_maps (c_mem m) /\ znth (mm_hwb (s_bus s)) k = Some e).
  pose (P := fun s : st (memory D) => mm_maps (s_bus s) = mm_maps (c_mem m) /\
    (znth (mm_hwb (s_bus s)) k = Some e \/
     ((exists v mem1, fetches ops m (Reset v) mem1) /\
      exists d, bo_reset ops (ae_dev e) = Ret d /\ znth (mm_hwb (s_bus s)) k = Some (AuxEntry d (ae_cache e))))).
  assert (JP : forall s, J s -> P s) by (intros s [? ?]; split; auto).
  apply (cycle_post ops T (fun s => wfs s /\ J s) P m m'); auto.
  { split; [apply wfs_ticked; auto|split; auto]. }
  intros i Hi. apply closed_intro; auto.
  - intros s a b ex v _ [H1 H2] _ Er. split; cbn.
    + rewrite <- H1. eapply mem_read_ext; eauto.
    + rewrite <- H2. eapply read_other; eauto. rewrite mapped_maps; eauto.
  - intros s a w b ex _ [H1 H2] _ _ Er. split; cbn.
    + rewrite <- H1. eapply mem_write_ext; eauto.
    + rewrite <- H2. eapply write_other; eauto. rewrite mapped_maps; eauto.
  - intros s v sel b -> _ [H1 H2] Er Hx. cbn [bus_reset board_bus] in Er.
    destruct (reset_sel ops 0 sel _) as [h|] eqn:Es; [|discriminate]. injection Er as <-.
    assert (X : P (St reset_file (Memory h (mm_maps (s_bus s))) 0 false)).
    { split; [exact H1|]. cbn. destruct (reset_sel_znth _ _ _ _ _ _ Es H2) as [[_ ?]|[_ ?]]; auto.
      destruct Hi as [[mem1 Hi]|Hi]; [|discriminate Hi]. right. split; eauto. }
    split; auto.
Qed.

Lemma api_maps_incl oc c m m' : wf m -> api_wf c -> api_call ops oc c m = Ret m' -> incl (mm_maps (c_mem m)) (mm_maps (c_mem m')).
Proof.
  intros Hw Hc E.
  assert (IM : forall mem a eo id mem' r, internal_map oc mem a eo id = Ret (mem', r) -> incl (@mm_maps D mem) (mm_maps mem')).
  { intros mem a eo id mem' r H. apply internal_map_inv in H.
    destruct H as [[-> _]|(?&?&?&_&_&_&_&_&_&_&_&_&_&_&_&->&_)]; [apply incl_refl|]. cbn. apply incl_appl, incl_refl. }
  destruct c; cbn [api_call] in E.
  - destruct (c_halted m) eqn:Hh.
    { unfold next in E. rewrite Hh in E. injection E as <-. apply incl_refl. }
    apply next_oc in E. 
    apply (cycle_post ops T (fun s => wfs s /\ mm_maps (s_bus s) = mm_maps (c_mem m)) (fun s => incl (mm_maps (c_mem m)) (mm_maps (s_bus s))) m m'); auto.
    { split; [apply wfs_ticked; auto|reflexivity]. }
    intros i Hi. apply closed_intro; auto;
      try (intros; cbn; match goal with H : mm_maps _ = _ |- _ => rewrite <- H end; apply incl_refl).
    + intros s a b ex v _ H _ Er. cbn. rewrite <- H. eapply mem_read_ext; eauto.
    + intros s a w b ex _ H _ _ Er. cbn. rewrite <- H. eapply mem_write_ext; eauto.
    + intros s v sel b -> _ H Er [Hx _]. cbn. rewrite Hx, H. split; intros; apply incl_refl.
  - apply board_reset_inv in E. destruct E as (h & _ & ->). apply incl_refl.
  - destruct (mem_map _ _ _ _) as [[? ?]|] eqn:Em; [|discriminate]. injection E as <-. eapply IM; eauto.
  - destruct (mem_map_abs _ _ _ _ _) as [[? ?]|] eqn:Em; [|discriminate]. injection E as <-. eapply IM; eauto.
  - destruct (map_contiguous _ _ _ _) as [[[? ?] ?]|] eqn:Em; [|discriminate]. injection E as <-. cbn.
    eapply (map_contiguous_ind oc (fun mem => incl (mm_maps (c_mem m)) (mm_maps mem))); [|apply incl_refl| | |exact Em].
    + intros. eapply incl_tran; eauto. 
    + apply Hw.
    + apply Hc.
  - destruct (mem_read _ _ _ _) as [[[? ?] ?]|] eqn:Em; [|discriminate]. injection E as <-. cbn.
    apply mem_read_ext in Em. destruct Em as [Em _]. rewrite Em. apply incl_refl.
  - destruct (mem_write _ _ _ _ _) as [[? ?]|] eqn:Em; [|discriminate]. injection E as <-. cbn.
    apply mem_write_ext in Em. destruct Em as [Em _]. rewrite Em. apply incl_refl.
Qed.
Lemma api_run_maps_incl oc cs m m' : wf m -> Forall api_wf cs -> api_run ops oc cs m = Ret m' -> incl (mm_maps (c_mem m)) (mm_maps (c_mem m')).
Proof.
  revert m. induction cs as [|c t IH]; intros m Hw Hc E; cbn [api_run] in E. { injection E as <-. apply incl_refl. }
  inversion Hc; subst. destruct (api_call ops oc c m) as [m1|] eqn:E1; [|discriminate].
  eapply incl_tran; [eapply api_maps_incl; eauto|]. apply IH; auto. eapply api_call_wf; eauto.
Qed.
Lemma after_resets_snoc n d d' d'' : after_resets ops n d d' -> bo_reset ops d' = Ret d'' -> after_resets ops (S n) d d''.
Proof.
  revert d. induction n as [|n IH]; intros d H E.
  - cbn in H. subst. exists d''. cbn. auto.
  - destruct H as (d1 & E1 & H). exists d1. split; auto.
Qed.
Lemma after_resets_one d d' : bo_reset ops d = Ret d' -> after_resets ops 1 d d'.
Proof. intros E. exists d'. cbn. auto. Qed.

Lemma isolated_api oc c m m' k e : wf m -> api_wf c -> ~ mapped (c_mem m) k -> znth (c_hwb m) k = Some e ->
  api_call ops oc c m = Ret m' ->
  exists n d, after_resets ops n (ae_dev e) d /\ znth (c_hwb m') k = Some (AuxEntry d (ae_cache e)).
Proof.
  intros Hw Hc N Hk E.
  assert (Z0 : forall h, znth h k = Some e -> exists n d, after_resets ops n (ae_dev e) d /\ znth h k = Some (AuxEntry d (ae_cache e))).
  { intros h Hh. exists O, (ae_dev e). split; [reflexivity|]. destruct e; auto. }
  destruct c; cbn [api_call] in E.
  - destruct (isolated_next _ _ _ _ _ Hw N Hk E) as (_ & [X|(_ & d & Ed & X)]); auto.
    exists 1%nat, d. auto using after_resets_one.
  - apply P_C39_each_once in E. destruct E as (_ & E). destruct (E _ _ Hk) as (d & Ed & X).
    exists 1%nat, d. auto using after_resets_one.
  - destruct (mem_map _ _ _ _) as [[? ?]|] eqn:Em; [|discriminate]. injection E as <-. apply Z0. cbn.
    apply internal_map_hwb in Em. unfold c_hwb. cbn. rewrite Em. exact Hk.
  - destruct (mem_map_abs _ _ _ _ _) as [[? ?]|] eqn:Em; [|discriminate]. injection E as <-. apply Z0. cbn.
    apply internal_map_hwb in Em. unfold c_hwb. cbn. rewrite Em. exact Hk.
  - destruct (map_contiguous _ _ _ _) as [[[mem ?] ?]|] eqn:Em; [|discriminate]. injection E as <-. apply Z0. unfold c_hwb. cbn.
    assert (X : mm_hwb mem = mm_hwb (c_mem m)).
    { eapply (map_contiguous_ind oc (fun x => mm_hwb x = mm_hwb (c_mem m))); [|reflexivity| | |exact Em].
      - intros m0 a id m1 rr H _ Hm. rewrite <- H. eapply internal_map_hwb; eauto.
      - apply Hw.
      - apply Hc. }
    rewrite X. exact Hk.
  - destruct (mem_read _ _ _ _) as [[[? ?] ?]|] eqn:Em; [|discriminate]. injection E as <-. apply Z0. unfold c_hwb. cbn.
    rewrite (read_other _ _ _ _ _ _ _ N Em). exact Hk.
  - destruct (mem_write _ _ _ _ _) as [[? ?]|] eqn:Em; [|discriminate]. injection E as <-. apply Z0. unfold c_hwb. cbn.
    rewrite (write_other _ _ _ _ _ _ _ N Em). exact Hk.
Qed.
Lemma isolated_run oc cs : forall m m' k e, wf m -> Forall api_wf cs -> ~ mapped (c_mem m') k -> znth (c_hwb m) k = Some e ->
  api_run ops oc cs m = Ret m' ->
  exists n d, after_resets ops n (ae_dev e) d /\ znth (c_hwb m') k = Some (AuxEntry d (ae_cache e)).
Proof.
  induction cs as [|c t IH]; intros m m' k e Hw Hc N Hk E; cbn [api_run] in E.
  { injection E as <-. exists O, (ae_dev e). split; [reflexivity|]. destruct e; auto. }
  inversion Hc; subst. destruct (api_call ops oc c m) as [m1|] eqn:E1; [|discriminate].
  assert (Hw1 : wf m1) by (eapply api_call_wf; eauto).
  assert (N0 : ~ mapped (c_mem m) k).
  { intros (mp & Hi & Hid). apply N. exists mp. split; auto.
    apply (api_run_maps_incl oc t m1 m'); auto. eapply api_maps_incl; [| |exact E1|]; eauto. }
  destruct (isolated_api _ _ _ _ _ _ Hw H1 N0 Hk E1) as (n & d & Hn & Hk1).
  destruct (IH _ _ _ _ Hw1 H2 N Hk1 E) as (n' & d' & Hn' & Hk2). cbn [ae_dev ae_cache] in *.
  exists (n + n')%nat, d'. split; auto. clear - Hn Hn'. revert Hn. generalize (ae_dev e). induction n as [|n IH]; intros x Hn.
  - cbn in Hn. subst. exact Hn'.
  - destruct Hn as (d1 & E1 & Hn). exists d1. split; auto.
Qed.
End C37.
(** Over any history of API calls (cycles, resets, mappings, host reads and writes) a component that is not mapped
    at the end (hence never was) is only ever reset: whatever it would log about reads or writes, it did not log. *)
Lemma P_C37_isolated : forall D (ops : bus_ops D) oc cs m m' k e, typed ops -> wf m -> Forall api_wf cs ->
  api_run ops oc cs m = Ret m' -> ~ mapped (c_mem m') k -> znth (c_hwb m) k = Some e ->
  exists n d, after_resets ops n (ae_dev e) d /\ znth (c_hwb m') k = Some (AuxEntry d (ae_cache e)).
Proof. intros. eapply isolated_run; eauto. Qed.
(** In one cycle it is left alone, unless the instruction is RESET, which may reset it once. *)
Lemma P_C37_cycle : forall D (ops : bus_ops D) oc m m' k e, typed ops -> wf m ->
  next ops oc m = Ret m' -> ~ mapped (c_mem m) k -> znth (c_hwb m) k = Some e ->
  znth (c_hwb m') k = Some e \/
  ((exists v mem1, fetches ops m (Reset v) mem1) /\
   exists d, bo_reset ops (ae_dev e) = Ret d /\ znth (c_hwb m') k = Some (AuxEntry d (ae_cache e))).
Proof. intros D ops oc m m' k e T Hw E N Hk. eapply isolated_next; eauto. Qed.
(** A board with a third, unmapped, component. *)
Lemma E_C37_isolated :
  let ds := demo_devs (asm [Cpy R_a0 (Lit2 256); Wsa (Reg1 R_a0) (Lit1 0) (Lit1 9); Halt]) ++ [DRam (StoreMem (zeros 64) 16 3)] in
  exists m0 m', board_new (dev_ops false) ds = Ret m0 /\ wf m0 /\
    api_run (dev_ops false) false (demo_calls 3) m0 = Ret m' /\ c_halted m' = true /\
    (forall k, mapped (c_mem m') k <-> k = 0 \/ k = 1) /\ znth (c_hwb m') 1 <> znth (c_hwb m0) 1 /\ znth (c_hwb m0) 2 <> None.
Proof.
  intros ds. assert (H : exists m0, board_new (dev_ops false) ds = Ret m0) by (vm_compute; eauto).
  destruct H as [m0 H0]. exists m0. pose proof (board_new_spec _ (dev_typed false) _ _ H0) as (Hw & _).
  vm_compute in H0. injection H0 as <-. eexists. split; [vm_compute; reflexivity|]. split; [exact Hw|].
  split; [vm_compute; reflexivity|]. split; [reflexivity|]. split.
  - intros k. unfold mapped. split.
    + intros (mp & [<-|[<-|[]]] & <-); cbn; auto.
    + intros [->| ->]; eexists.
      * split; [left; reflexivity|reflexivity].
      * split; [right; left; reflexivity|reflexivity].
  - split; vm_compute; discriminate.
Qed.

(** * C40 *)
Section C40.
Context {D : Type} (ops : bus_ops D) (T : typed ops).
Lemma caches_api oc c m m' : wf m -> api_wf c -> api_call ops oc c m = Ret m' -> map ae_cache (c_hwb m') = map ae_cache (c_hwb (D := D) m).
Proof.
  intros Hw Hc E. destruct c; cbn [api_call] in E.
  - destruct (c_halted m) eqn:Hh.
    { unfold next in E. rewrite Hh in E. injection E as <-. auto. }
    apply next_oc in E.
    apply (cycle_post ops T (fun s => wfs s /\ map ae_cache (mm_hwb (s_bus s)) = map ae_cache (c_hwb m)) (fun s => map ae_cache (mm_hwb (s_bus s)) = map ae_cache (c_hwb m)) m m'); auto.
    { split; [apply wfs_ticked; auto|reflexivity]. }
    intros i Hi. apply closed_intro; auto.
    + intros s a b ex v _ H _ Er. cbn. rewrite <- H. eapply mem_read_ext; eauto.
    + intros s a w b ex _ H _ _ Er. cbn. rewrite <- H. eapply mem_write_ext; eauto.
    + intros s v sel b -> _ H Er [_ Hx]. cbn. rewrite Hx, H. auto.
  - apply P_C38_reset_state in E. tauto.
  - destruct (mem_map _ _ _ _) as [[? ?]|] eqn:Em; [|discriminate]. injection E as <-.
    apply internal_map_hwb in Em. unfold c_hwb. cbn. rewrite Em. reflexivity.
  - destruct (mem_map_abs _ _ _ _ _) as [[? ?]|] eqn:Em; [|discriminate]. injection E as <-.
    apply internal_map_hwb in Em. unfold c_hwb. cbn. rewrite Em. reflexivity.
  - destruct (map_contiguous _ _ _ _) as [[[mem ?] ?]|] eqn:Em; [|discriminate]. injection E as <-. unfold c_hwb. cbn.
    eapply (map_contiguous_ind oc (fun x => map ae_cache (mm_hwb x) = map ae_cache (mm_hwb (c_mem m)))); [|reflexivity| | |exact Em].
    + intros m0 a id m1 rr H _ Hm. rewrite <- H. unfold mem_map in Hm. apply internal_map_hwb in Hm. rewrite Hm. reflexivity.
    + apply Hw.
    + apply Hc.
  - destruct (mem_read _ _ _ _) as [[[? ?] ?]|] eqn:Em; [|discriminate]. injection E as <-. apply mem_read_ext in Em. apply Em.
  - destruct (mem_write _ _ _ _ _) as [[? ?]|] eqn:Em; [|discriminate]. injection E as <-. apply mem_write_ext in Em. apply Em.
Qed.
Lemma caches_run oc cs : forall m m', wf m -> Forall api_wf cs -> api_run ops oc cs m = Ret m' -> map ae_cache (c_hwb m') = map ae_cache (c_hwb (D := D) m).
Proof.
  induction cs as [|c t IH]; intros m m' Hw Hc E; cbn [api_run] in E. { injection E as <-. auto. }
  inversion Hc; subst. destruct (api_call ops oc c m) as [m1|] eqn:E1; [|discriminate].
  rewrite (IH m1 m'); auto. eapply caches_api; eauto. eapply api_call_wf; eauto.
Qed.
End C40.
(** Whatever happens to the board, component [k] is described by the metadata it had, and the longest prefix of its name
    that fits in 32 bytes, when the board was built. *)
Lemma P_C40_description : forall D (ops : bus_ops D) oc ds cs m0 m k d, typed ops ->
  board_new ops ds = Ret m0 -> Forall api_wf cs -> api_run ops oc cs m0 = Ret m -> znth ds k = Some d ->
  exists e md, znth (c_hwb m) k = Some e /\ bo_metadata ops d = Ret md /\
    longest_prefix32 (bo_name ops d) (ac_name (ae_cache e)) /\
    ac_metadata (ae_cache e) = md /\ ac_id (ae_cache e) = k /\ ac_size (ae_cache e) = w2 md /\
    ac_hw_id (ae_cache e) = w0 md * 2 ^ 32 + w1 md.
Proof.
  intros D ops oc ds cs m0 m k d T E0 Hc E Hk.
  pose proof (board_new_spec ops T _ _ E0) as (Hw & _ & Hd & _ & _ & _ & Hs).
  pose proof (caches_run ops T _ _ _ _ Hw Hc E) as Hcc.
  assert (X : exists e0, znth (c_hwb m0) k = Some e0 /\ ae_dev e0 = d).
  { clear - Hd Hk. revert Hd Hk. generalize (c_hwb m0). intros h <-. revert k. induction h as [|x t IH]; cbn [map znth]; [discriminate|].
    intros k. destruct (k =? 0); [|apply IH]. intros X; injection X as <-. eauto. }
  destruct X as (e0 & Hk0 & <-). destruct (Hs _ _ Hk0) as (md & Hmd & Hce).
  pose proof (caches_znth _ _ k Hcc) as Y. rewrite Hk0 in Y. cbn in Y. destruct (znth (c_hwb m) k) as [e|]; [|discriminate].
  cbn in Y. injection Y as Y. exists e, md. rewrite Y, Hce. cbn. repeat split; auto.
  - destruct (cut_name_spec (bo_name ops (ae_dev e0))) as (rest & ? & _). eauto.
  - destruct (cut_name_spec (bo_name ops (ae_dev e0))) as (rest & _ & ? & _). auto.
  - destruct (cut_name_spec (bo_name ops (ae_dev e0))) as (rest & _ & _ & ?). eauto.
Qed.
(** A name of 20 two-byte characters is cut to 16. *)
Lemma E_C40_description :
  let ops := {| bo_name := fun _ : unit => repeat 233 20; bo_metadata := fun _ => Ret (W8 0 1 64 0 0 0 0 0);
                bo_read := fun d _ => Ret (d, 0, 0); bo_write := fun d _ _ => Ret (d, 0); bo_reset := fun d => Ret d |} in
  typed ops /\ exists m0 m e, board_new ops [tt] = Ret m0 /\ api_run ops false [AMap 0 0; AReset; ANext] m0 = Ret m /\
    znth (c_hwb m) 0 = Some e /\ ac_name (ae_cache e) = repeat 233 16 /\ c_cycles m = 1.
Proof.
  intros ops. split.
  { split; cbn.
    - intros d off d' ex v E. injection E as <- <- <-. split; [unfold is_u16|unfold is_u32]; lia.
    - intros d off w d' ex E. injection E as <- <-. unfold is_u16; lia.
    - intros d md E. injection E as <-. cbn. unfold is_u32. repeat split; lia.
    - intros d. repeat constructor; unfold scalar; lia. }
  do 3 eexists. split; [vm_compute; reflexivity|]. split; [vm_compute; reflexivity|]. split; [vm_compute; reflexivity|].
  split; reflexivity.
Qed.

(* Concrete cases for the theorems above that have none beside them. *)
Lemma E_C38_idempotent : exists m m' m'', reachable (dev_ops false) false m /\ board_reset (dev_ops false) m = Ret m' /\ board_reset (dev_ops false) m' = Ret m'' /\ R m R_a0 = 7 /\ R m'' R_a0 = 0.
Proof.
  assert (H : exists m, demo_run false (asm [Cpy R_a0 (Lit2 7); Cpy R_a1 (Lit2 8); Halt]) 3 = Ret m) by (vm_compute; eauto).
  destruct H as [m Hm]. exists m. pose proof (demo_reachable _ _ _ _ Hm) as Hr.
  vm_compute in Hm. injection Hm as <-. eexists. eexists. split; [exact Hr|]. split; [vm_compute; reflexivity|]. split; [vm_compute; reflexivity|]. vm_compute. auto.
Qed.
(** A component whose reset panics, beside one whose reset does not. *)
Lemma E_C39_panic :
  let ops := {| bo_name := fun _ : bool => [65]; bo_metadata := fun _ => Ret (W8 0 1 64 0 0 0 0 0);
                bo_read := fun d _ => Ret (d, 0, 0); bo_write := fun d _ _ => Ret (d, 0); bo_reset := fun d => if d then Panic else Ret d |} in
  exists m m2, board_new ops [false; true] = Ret m /\ board_reset ops m = Panic /\ board_new ops [false; false] = Ret m2 /\ board_reset ops m2 <> Panic.
Proof. intros ops. eexists. eexists. split; [vm_compute; reflexivity|]. split; [vm_compute; reflexivity|]. split; [vm_compute; reflexivity|]. vm_compute. discriminate. Qed.
(** A machine with a third component, unmapped. *)
Lemma E_C37_cycle :
  let ds := demo_devs (asm [Cpy R_a0 (Lit2 256); Halt]) ++ [DRam (StoreMem (zeros 64) 16 3)] in
  exists m0 m m' e, board_new (dev_ops false) ds = Ret m0 /\ wf m0 /\ api_run (dev_ops false) false (demo_calls 0) m0 = Ret m /\ next (dev_ops false) false m = Ret m' /\
    ~ mapped (c_mem m) 2 /\ znth (c_hwb m) 2 = Some e /\ R m' R_a0 = 256.
Proof.
  intros ds. assert (H : exists m0, board_new (dev_ops false) ds = Ret m0) by (vm_compute; eauto).
  destruct H as [m0 H0]. exists m0. pose proof (board_new_spec _ (dev_typed false) _ _ H0) as (Hw & _).
  vm_compute in H0. injection H0 as <-. eexists. eexists. eexists. split; [vm_compute; reflexivity|]. split; [exact Hw|].
  split; [vm_compute; reflexivity|]. split; [vm_compute; reflexivity|]. split.
  - intros (mp & [<-|[<-|[]]] & E); discriminate E.
  - split; vm_compute; reflexivity.
Qed.
