(** Facts about memory mapping. *)
From Coq Require Import ZArith List Bool Lia.
From Verif Require Import Base Board Mem Cpu Asm SpecMach SpecMap BaseFacts MemFacts.
Import ListNotations.
Open Scope Z_scope.
Ltac Zify.zify_post_hook ::= Z.div_mod_to_equations.

Section MapFacts.
Context {D : Type} (ops : bus_ops D).
Implicit Type m : memory D.

Lemma size_of_comp m id : size_of (mm_hwb m) id = comp_size m id.
Proof. unfold size_of, cache_of, comp_size. destruct (znth _ _); reflexivity. Qed.
Lemma comp_size_u32 m id sz : mem_wf m -> comp_size m id = Some sz -> is_u32 sz.
Proof.
  intros (H & _) E. unfold comp_size in E. destruct (znth _ _) eqn:Z; [|discriminate]. injection E as <-.
  apply znth_In in Z. rewrite Forall_forall in H. apply H in Z. destruct Z as (_&_&?&_&_&_&_&_&->&_). auto.
Qed.

(** Every outcome of internal_map. *)
Lemma internal_map_inv oc m a eo id m' r : internal_map oc m a eo id = Ret (m', r) ->
  (m' = m /\ exists e, r = RErr e) \/
  exists sz e x, comp_size m id = Some sz /\ a mod 4 = 0 /\ sz <> 0 /\ sz mod 4 = 0 /\ e mod 4 = 0 /\
    match eo with Some e' => e = e' | None => (do! s1 <- add_u32 oc a sz; sub_u32 oc s1 4) = Ret e end /\
    (exists s1, add_u32 oc a sz = Ret s1) /\
    a <= e /\ e - a <= sz /\
    existsb (fun mp => mp_aux_id mp =? id) (mm_maps m) = false /\
    find_o (overlaps oc a e) (mm_maps m) = Ret None /\
    znth (mm_hwb m) id = Some x /\
    m' = Memory (mm_hwb m) (mm_maps m ++ [Mapping id (ac_hw_id (ae_cache x)) a sz]) /\
    r = ROk (MappingRange a e).
Proof.
  unfold internal_map. rewrite size_of_comp. destruct (comp_size m id) as [sz|] eqn:Es.
  2:{ intros E; injection E as <- <-. left; eauto. }
  intros H. inv_bind H. rename a0 into s1, E into E1. inv_bind H. rename a0 into dflt, E into E2.
  cbv zeta in H. set (e := match eo with Some e => e | None => dflt end) in *.
  destruct (Z.eqb_spec (a mod 4) 0); cbn [negb] in H; [|injection H as <- <-; left; eauto].
  destruct (Z.eqb_spec sz 0); cbn [negb] in H; [injection H as <- <-; left; eauto|].
  destruct (Z.eqb_spec (sz mod 4) 0); cbn [negb] in H; [|injection H as <- <-; left; eauto].
  destruct (Z.eqb_spec (e mod 4) 0); cbn [negb] in H; [|injection H as <- <-; left; eauto].
  inv_bind H. rename a0 into e4.
  destruct (_ || _) eqn:Eo in H; [injection H as <- <-; left; eauto|].
  apply orb_false_iff in Eo. destruct Eo as [Eo1 Eo2]. apply Z.ltb_ge in Eo2.
  destruct (Z.ltb_spec sz (e - a)); [injection H as <- <-; left; eauto|].
  destruct (existsb _ _) eqn:Ex; [injection H as <- <-; left; eauto|].
  inv_bind H. rename a0 into f, E0 into Ef. destruct f as [mp|]; [injection H as <- <-; left; eauto|].
  unfold comp_size in Es. destruct (znth (mm_hwb m) id) as [x|] eqn:Ez; [|discriminate].
  unfold hw_id_of, cache_of in H. rewrite Ez in H. cbn in H. injection H as <- <-.
  right. injection Es as Es. exists sz, e, x. subst sz. repeat split; auto; try lia.
  - subst e. destruct eo; auto. rewrite E1. exact E2.
  - eauto.
Qed.

Lemma internal_map_hwb oc m a eo id m' r : internal_map oc m a eo id = Ret (m', r) -> mm_hwb m' = mm_hwb m.
Proof. intros H. apply internal_map_inv in H. destruct H as [[-> _]|(?&?&?&_&_&_&_&_&_&_&_&_&_&_&_&->&_)]; auto. Qed.

Lemma internal_map_wf oc m a eo id m' r : mem_wf m -> is_u32 a ->
  internal_map oc m a eo id = Ret (m', r) -> mem_wf m'.
Proof.
  intros W Ha H. apply internal_map_inv in H.
  destruct H as [[-> _]|(sz&e&x&Es&?&?&?&?&_&_&_&_&_&_&Ez&->&_)]; auto.
  pose proof (comp_size_u32 _ _ _ W Es). destruct W as (W1 & W2 & W3).
  split; [|split]; auto. cbn [mm_maps mm_hwb]. apply Forall_app. split; auto. constructor; auto.
  repeat split; cbn; auto; try apply Ha; try (unfold is_u32 in *; lia).
  exists x. unfold comp_size in Es. rewrite Ez in Es. injection Es as Es. auto.
Qed.

Lemma map_contiguous_loop_ind oc (P : memory D -> Prop) :
  (forall m a eo id m' r, P m -> is_u32 a -> internal_map oc m a eo id = Ret (m', r) -> eo = None -> P m') ->
  forall ids m la mx fl sts m' mx' fl' sts', P m -> mem_wf m -> is_u32 la ->
  map_contiguous_loop oc m ids la mx fl sts = Ret (m', mx', fl', sts') -> P m'.
Proof.
  intros HP. induction ids as [|id t IH]; intros m la mx fl sts m' mx' fl' sts' Hm HW Hla H; cbn [map_contiguous_loop] in H.
  { injection H as <- _ _ _. auto. }
  inv_bind H. destruct a as [m1 r]. rename E into E1. inv_bind H. destruct a as [[la1 mx1] fl1].
  inv_bind H. inv_bind H. 
  assert (P m1) by (unfold mem_map in E1; eapply HP; eauto).
  assert (mem_wf m1) by (eapply internal_map_wf; [| |exact E1]; eauto).
  apply IH in H; auto.
  destruct r as [rg|err].
  - inv_bind E. injection E as <- _ _. apply internal_map_inv in E1.
    destruct E1 as [[_ [? X]]|(sz&e&x&Es&?&?&?&?&_&_&?&?&_&_&Ez&_&X)]; [discriminate|]. injection X as ->.
    cbn [mr_end] in E3. eapply add_u32_range; [| |exact E3]; unfold is_u32 in *; lia.
  - injection E as <- _ _. auto.
Qed.

Lemma map_contiguous_ind oc (P : memory D -> Prop) :
  (forall m a id m' r, P m -> is_u32 a -> mem_map oc m a id = Ret (m', r) -> P m') ->
  forall ids m a m' r sts, P m -> mem_wf m -> is_u32 a -> map_contiguous oc m a ids = Ret (m', r, sts) -> P m'.
Proof.
  intros HP ids m a m' r sts Hm HW Ha H. unfold map_contiguous in H. inv_bind H.
  destruct a0 as [[[m1 mx] fl] st]. injection H as <- _ _.
  eapply map_contiguous_loop_ind; eauto. intros. subst. eapply HP; eauto.
Qed.
Lemma map_contiguous_wf oc m a ids m' r sts : mem_wf m -> is_u32 a -> map_contiguous oc m a ids = Ret (m', r, sts) -> mem_wf m'.
Proof.
  intros. eapply (map_contiguous_ind oc (@mem_wf D)); eauto. intros. eapply internal_map_wf; eauto.
Qed.
End MapFacts.
