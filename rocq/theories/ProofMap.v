(** Memory mapping: C31 to C36. *)
From Coq Require Import ZArith List Bool Lia.
From Verif Require Import Base Board Mem Cpu Asm SpecMach SpecMap BaseFacts MemFacts MapFacts InvFacts ReachFacts MonoFacts SpecIsa SpecBus SpecObs UndFacts CyclePost StepCases ProofPanic.
Import ListNotations.
Open Scope Z_scope.
Ltac Zify.zify_post_hook ::= Z.div_mod_to_equations.

Section Map.
Context {D : Type} (ops : bus_ops D).
Implicit Type m : memory D.

Lemma tidy_mapping oc m mp : tidy oc m -> In mp (mm_maps m) ->
  0 <= mp_addr mp /\ mp_addr mp mod 4 = 0 /\ 0 < mp_size mp /\ mp_size mp mod 4 = 0 /\ mp_addr mp + mp_size mp <= 4294967296 /\
  (oc = true -> mp_addr mp + mp_size mp < 4294967296).
Proof. intros (_ & H & _) I. destruct (H _ I) as (?&?&?&?&?&?). repeat split; auto. Qed.

(** End of a tidy mapping. *)
Lemma tidy_end oc m mp : tidy oc m -> In mp (mm_maps m) -> end_addr oc mp = Ret (mp_addr mp + mp_size mp - 1).
Proof.
  intros T I. destruct (tidy_mapping _ _ _ T I) as (?&?&?&?&?&HH). unfold end_addr, add_u32, sub_u32, obind, u32.
  destruct (Z.ltb_spec (mp_addr mp + mp_size mp) 4294967296).
  - destruct (Z.leb_spec 1 (mp_addr mp + mp_size mp)); [reflexivity|lia].
  - destruct oc; [specialize (HH eq_refl); lia|]. assert (mp_addr mp + mp_size mp = 4294967296) as E by lia. rewrite E. reflexivity.
Qed.
Lemma tidy_covers oc m mp a : tidy oc m -> In mp (mm_maps m) ->
  covers oc a mp = Ret ((mp_addr mp <=? a) && (a <? mp_addr mp + mp_size mp)).
Proof.
  intros T I. unfold covers. rewrite (tidy_end _ _ _ T I). destruct (mp_addr mp <=? a); [|reflexivity]. cbn [obind andb].
  f_equal. destruct (Z.ltb_spec a (mp_addr mp + mp_size mp)); [apply Z.leb_le|apply Z.leb_gt]; lia.
Qed.
Lemma tidy_overlaps oc m mp a e : tidy oc m -> In mp (mm_maps m) ->
  overlaps oc a e mp = Ret ((mp_addr mp <=? e) && (a <? mp_addr mp + mp_size mp)).
Proof.
  intros T I. unfold overlaps. rewrite (tidy_end _ _ _ T I). destruct (mp_addr mp <=? e); [|reflexivity]. cbn [obind andb].
  f_equal. destruct (Z.ltb_spec a (mp_addr mp + mp_size mp)); [apply Z.leb_le|apply Z.leb_gt]; lia.
Qed.
Lemma find_o_ret {A} (p : A -> outcome bool) (q : A -> bool) l : (forall x, In x l -> p x = Ret (q x)) -> find_o p l = Ret (find q l).
Proof.
  induction l as [|x t IH]; intros H; cbn [find_o find]; [reflexivity|]. rewrite H by (left; auto). cbn [obind].
  destruct (q x); [reflexivity|]. apply IH. intros; apply H; right; auto.
Qed.

Lemma mapped_existsb m id : existsb (fun mp => mp_aux_id mp =? id) (mm_maps m) = true <-> mapped m id.
Proof.
  rewrite existsb_exists. unfold mapped. split; intros (mp & I & E); exists mp; split; auto; [apply Z.eqb_eq|apply Z.eqb_eq]; auto.
Qed.

Lemma NoDup_snoc {A} (l : list A) x : NoDup l -> ~ In x l -> NoDup (l ++ [x]).
Proof. intros H N. apply NoDup_rev in H. rewrite <- (rev_involutive (l ++ [x])), rev_app_distr. apply NoDup_rev. cbn. constructor; auto. rewrite <- in_rev. auto. Qed.

(** The whole decision table of [map], on a tidy table. *)
Lemma mem_map_table oc m a id : mem_wf m -> tidy oc m -> is_u32 a ->
  match mem_map oc m a id with
  | Ret (m', ROk r) => exists sz mp, valid_request oc m a id sz /\ r = MappingRange a (a + sz - 4) /\
      mapping_at m id a mp /\ mp_size mp = sz /\ m' = Memory (mm_hwb m) (mm_maps m ++ [mp])
  | Ret (m', RErr e) => m' = m /\ refusal m a id e /\ forall sz, ~ valid_request oc m a id sz
  | Panic => oc = true /\ exists sz, comp_size m id = Some sz /\ (a + sz < 4 \/ 4294967296 <= a + sz)
  end.
Proof.
  intros W T Ha. unfold mem_map, internal_map. rewrite size_of_comp. destruct (comp_size m id) as [sz|] eqn:Es.
  2:{ split; auto. split; [exact Es|]. intros sz (X & _). congruence. }
  pose proof (comp_size_u32 _ _ _ W Es) as Hsz. unfold is_u32 in *.
  assert (Hd : (oc = true /\ (a + sz < 4 \/ 4294967296 <= a + sz) /\ (do! s1 <- add_u32 oc a sz; sub_u32 oc s1 4) = Panic) \/
    (~ (oc = true /\ (a + sz < 4 \/ 4294967296 <= a + sz)) /\ exists s1 dflt, add_u32 oc a sz = Ret s1 /\ sub_u32 oc s1 4 = Ret dflt /\ dflt = (a + sz - 4) mod 4294967296)).
  { unfold add_u32, sub_u32, u32. destruct (Z.ltb_spec (a + sz) 4294967296); cbn [obind].
    - destruct (Z.leb_spec 4 (a + sz)).
      + right. split; [lia|]. eexists _, _. split; [reflexivity|]. destruct (Z.leb_spec 4 (a + sz)); [|lia]. split; [reflexivity|]. lia.
      + destruct oc; [left; repeat split; auto; lia|]. right. split; [intros [? _]; discriminate|]. eexists _, _. split; [reflexivity|].
        destruct (Z.leb_spec 4 (a + sz)); [lia|]. split; [reflexivity|]. lia.
    - destruct oc; [left; auto|]. right. split; [intros [? _]; discriminate|]. exists ((a + sz) mod 4294967296), ((a + sz - 4) mod 4294967296).
      split; [reflexivity|]. destruct (Z.leb_spec 4 ((a + sz) mod 4294967296)); (split; [f_equal; lia|lia]). }
  destruct Hd as [(-> & Hb & E)|(Hnp & s1 & dflt & E1 & E2 & Edf)].
  { destruct (add_u32 true a sz) as [s1|]; cbn [obind] in E |- *; [rewrite E; cbn [obind]|]; eauto. }
  rewrite E1. cbn [obind]. rewrite E2. cbn [obind]. cbv zeta.
  destruct (Z.eqb_spec (a mod 4) 0); cbn [negb].
  2:{ split; auto. split; auto. intros s (_ & ? & _). lia. }
  destruct (Z.eqb_spec sz 0); cbn [negb].
  { split; auto. split; [cbn; congruence|]. intros s (X & _ & ? & _). rewrite Es in X. injection X as <-. lia. }
  destruct (Z.eqb_spec (sz mod 4) 0); cbn [negb].
  2:{ split; auto. split; [exists sz; auto|]. intros s (X & _ & _ & ? & _). rewrite Es in X. injection X as <-. lia. }
  destruct (Z.eqb_spec (dflt mod 4) 0); cbn [negb]; [|exfalso; lia].
  assert (E4 : add_u32 oc dflt 4 = Ret ((dflt + 4) mod 4294967296)).
  { unfold add_u32, u32. destruct (Z.ltb_spec (dflt + 4) 4294967296). { rewrite Z.mod_small by lia. reflexivity. }
    destruct oc; [|reflexivity]. exfalso. assert (~ (a + sz < 4 \/ 4294967296 <= a + sz)) by (intros ?; apply Hnp; auto). lia. }
  rewrite E4. cbn [obind].
  destruct (Z.leb_spec (a + sz) 4294967296).
  2:{ replace ((a =? (dflt + 4) mod 4294967296) || (dflt <? a)) with true.
      2:{ symmetry. apply orb_true_iff. right. apply Z.ltb_lt. lia. }
      split; auto. split; [exists sz; split; auto; change (2 ^ 32) with 4294967296; lia|].
      intros s (X & _ & _ & _ & ? & _). change (2 ^ 32) with 4294967296 in *. rewrite Es in X. injection X as <-. lia. }
  assert (dflt = a + sz - 4) as -> by lia. clear Edf.
  replace ((a =? (a + sz - 4 + 4) mod 4294967296) || (a + sz - 4 <? a)) with false.
  2:{ symmetry. apply orb_false_iff. split; [apply Z.eqb_neq|apply Z.ltb_ge]; lia. }
  replace (sz <? a + sz - 4 - a) with false by (symmetry; apply Z.ltb_ge; lia).
  destruct (existsb _ _) eqn:Ex.
  { apply mapped_existsb in Ex. split; auto. split; [exact Ex|]. intros s (_&_&_&_&_&_&?&_). auto. }
  assert (Hnm : ~ mapped m id) by (intros X; apply mapped_existsb in X; congruence).
  rewrite (find_o_ret _ (fun mp => (mp_addr mp <=? a + sz - 4) && (a <? mp_addr mp + mp_size mp))).
  2:{ intros mp I. apply (tidy_overlaps _ _ _ _ _ T I). }
  cbn [obind]. destruct (find _ _) as [mp|] eqn:Ef.
  - apply find_some in Ef. destruct Ef as (I & Eb). apply andb_prop in Eb. destruct Eb as [B1 B2].
    apply Z.leb_le in B1. apply Z.ltb_lt in B2. destruct (tidy_mapping _ _ _ T I) as (?&?&?&?&?&?).
    assert (exists b, occupies mp b /\ a <= b < a + sz) as (b & Hb1 & Hb2).
    { unfold occupies. destruct (Z.leb_spec a (mp_addr mp)); [exists (mp_addr mp)|exists a]; lia. }
    split; auto. split; [exists sz, b; auto|]. intros s (X&_&_&_&_&_&_&HN). rewrite Es in X. injection X as <-. eapply HN; eauto.
  - assert (Hex : exists ent, znth (mm_hwb m) id = Some ent /\ ac_size (ae_cache ent) = sz).
    { unfold comp_size in Es. destruct (znth (mm_hwb m) id) as [ent|]; [|discriminate]. injection Es as <-. eauto. }
    destruct Hex as (ent & En & Esz). unfold hw_id_of, cache_of. rewrite En. cbn [option_map unwrap obind].
    exists sz, (Mapping id (ac_hw_id (ae_cache ent)) a sz). split.
    { repeat split; auto; try (change (2 ^ 32) with 4294967296; lia); [intros ->; change (2 ^ 32) with 4294967296|].
      { assert (~ (a + sz < 4 \/ 4294967296 <= a + sz)) by (intros ?; apply Hnp; auto). lia. }
      intros mp b I Ho Hb. pose proof (find_none _ _ Ef _ I) as Hf. cbn beta in Hf. apply andb_false_iff in Hf. unfold occupies in Ho.
      destruct (tidy_mapping _ _ _ T I) as (?&?&?&?&?&?). destruct Hf as [Hf|Hf]; [apply Z.leb_gt in Hf|apply Z.ltb_ge in Hf]; lia. }
    split; auto. split; [exists ent; rewrite Esz; auto|]. split; auto.
Qed.

Lemma tidy_ext oc m m' : mm_maps m = mm_maps m' -> tidy oc m -> tidy oc m'.
Proof. unfold tidy. intros ->. auto. Qed.

Lemma mem_map_tidy oc m a id m' r : mem_wf m -> tidy oc m -> is_u32 a -> mem_map oc m a id = Ret (m', r) -> tidy oc m'.
Proof.
  intros W T Ha E. pose proof (mem_map_table oc m a id W T Ha) as H. rewrite E in H. destruct r as [r|e].
  2:{ destruct H as (-> & _). exact T. }
  destruct H as (sz & mp & (V1 & V2 & V3 & V4 & V5 & V6 & V7 & V8) & _ & (e & En & Emp) & Esz & ->). rewrite Emp in Esz. cbn in Esz.
  destruct T as (T1 & T2 & T3). unfold tidy. cbn [mm_maps].
  split; [|split].
  - rewrite map_app. apply NoDup_snoc; auto. rewrite Emp. cbn. intros I. apply in_map_iff in I. destruct I as (mp' & E1 & E2). apply V7. exists mp'. auto.
  - intros mp' I. apply in_app_or in I. destruct I as [I|[<-|[]]]; [auto|]. rewrite Emp. cbn. unfold fits. cbn. unfold is_u32 in Ha.
    rewrite Esz. repeat split; auto; lia.
  - intros x y b Ix Iy Ox Oy. apply in_app_or in Ix. apply in_app_or in Iy.
    destruct Ix as [Ix|[<-|[]]], Iy as [Iy|[<-|[]]]; eauto.
    + exfalso. eapply V8; [exact Ix|exact Ox|]. rewrite Emp in Oy. unfold occupies in Oy. cbn in Oy. lia.
    + exfalso. eapply V8; [exact Iy|exact Oy|]. rewrite Emp in Ox. unfold occupies in Ox. cbn in Ox. lia.
Qed.

(** Executing instructions never alters the mapping table. *)
Lemma next_maps oc (s s' : cpu D) : typed ops -> wf s -> next ops oc s = Ret s' -> mm_maps (c_mem s') = mm_maps (c_mem s).
Proof.
  intros T Hw E. destruct (c_halted s) eqn:Hh.
  { unfold next in E. rewrite Hh in E. injection E as <-. auto. }
  apply next_oc in E.
  apply (cycle_post ops T (fun x => wfs x /\ mm_maps (s_bus x) = mm_maps (c_mem s)) (fun x => mm_maps (s_bus x) = mm_maps (c_mem s)) s s'); auto.
  { split; [apply wfs_ticked; auto|reflexivity]. }
  intros i Hi. apply closed_intro; auto.
  + intros x a b ex v _ H _ Er. cbn. rewrite <- H. eapply mem_read_ext; eauto.
  + intros x a w b ex _ H _ _ Er. cbn. rewrite <- H. eapply mem_write_ext; eauto.
  + intros x v sel b -> _ H Er [Hx _]. cbn. rewrite Hx, H. auto.
Qed.

(** Histories. *)
Lemma api_call_tidy oc c (s s' : cpu D) : typed ops -> wf s -> tidy oc (c_mem s) -> api_wf c -> no_map_abs c ->
  api_call ops oc c s = Ret s' -> tidy oc (c_mem s').
Proof.
  intros T Hw Ht Hc Hn H. destruct c; cbn [api_call api_wf no_map_abs] in *; try contradiction.
  - apply next_maps in H; auto. eapply tidy_ext; [|exact Ht]. symmetry. apply H.
  - apply board_reset_inv in H. destruct H as (h & _ & ->). exact Ht.
  - destruct (mem_map _ _ _ _) as [[mem r]|] eqn:E; [|discriminate]. injection H as <-. cbn.
    eapply mem_map_tidy; [| | |exact E]; auto; [apply Hw|apply Hc].
  - destruct (map_contiguous _ _ _ _) as [[[mem r] st]|] eqn:E; [|discriminate]. injection H as <-. cbn.
    assert (mem_wf mem /\ tidy oc mem) as [_ X]; [|exact X].
    refine (map_contiguous_ind oc (fun x => mem_wf x /\ tidy oc x) _ ids (c_mem s) addr mem r st _ _ _ E); [|split; [apply Hw|auto]|apply Hw|apply Hc].
    intros x a id x' r' (W1 & W2) Ha E'. split; [eapply internal_map_wf; [| |exact E']; auto|eapply mem_map_tidy; eauto].
  - destruct (mem_read _ _ _ _) as [[[mem ex] v]|] eqn:E; [|discriminate]. injection H as <-. cbn.
    apply mem_read_ext in E. eapply tidy_ext; [|exact Ht]. symmetry. apply E.
  - destruct (mem_write _ _ _ _ _) as [[mem ex]|] eqn:E; [|discriminate]. injection H as <-. cbn.
    apply mem_write_ext in E. eapply tidy_ext; [|exact Ht]. symmetry. apply E.
Qed.

(** Contiguous mapping: the loop. *)
Lemma comp_size_hwb m m' id : mm_hwb m' = mm_hwb m -> comp_size m' id = comp_size m id.
Proof. unfold comp_size. intros ->. reflexivity. Qed.
Lemma mapping_at_hwb m m' id a mp : mm_hwb m' = mm_hwb m -> mapping_at m' id a mp -> mapping_at m id a mp.
Proof. unfold mapping_at. intros ->. auto. Qed.
Lemma packed_hwb m m' a ids l : mm_hwb m' = mm_hwb m -> packed m' a ids l -> packed m a ids l.
Proof. intros E H. induction H; constructor; auto. eapply mapping_at_hwb; eauto. Qed.

Definition last_words (mx : Z) (l : list mapping) : Z := fold_left (fun x mp => Z.max x (mp_addr mp + mp_size mp - 4)) l mx.

Lemma contiguous_loop oc ids : forall m la mx fl sts m' mx' fl' sts', mem_wf m -> tidy oc m -> is_u32 la ->
  map_contiguous_loop oc m ids la mx fl sts = Ret (m', mx', fl', sts') ->
  exists new l, sts' = sts ++ new /\ map as_id new = ids /\ fl' = fl ++ ids_refused new /\
    packed m la (ids_ok new) l /\ m' = Memory (mm_hwb m) (mm_maps m ++ l) /\
    mx' = last_words mx l /\
    (forall i e, In (i, e) (ids_refused new) -> exists l1 l2, l = l1 ++ l2 /\
        refusal (Memory (mm_hwb m) (mm_maps m ++ l1)) ((la + total_size l1) mod 2 ^ 32) i e) /\
    (forall fl0 st0, exists new0, map_contiguous_loop oc m (ids_ok new) la mx fl0 st0 = Ret (m', mx', fl0, st0 ++ new0)).
Proof.
  induction ids as [|id t IH]; intros m la mx fl sts m' mx' fl' sts' W T Hla H; cbn [map_contiguous_loop] in H.
  { injection H as <- <- <- <-. exists [], []. cbn. rewrite !app_nil_r. destruct m as [hh mm]; cbn. 
    split; auto. split; auto. split; auto. split; [constructor|]. split; auto. split; [auto|]. split; [intros ? ? []|].
    intros. exists []. rewrite app_nil_r. reflexivity. }
  inv_bind H. destruct a as [m1 r]. rename E into E1. inv_bind H. destruct a as [[la1 mx1] fl1].
  pose proof (mem_map_table oc m la id W T Hla) as Tb. rewrite E1 in Tb.
  pose proof (mem_map_tidy oc m la id m1 r W T Hla E1) as T1.
  pose proof (internal_map_wf oc m la None id m1 r W Hla E1) as W1.
  inv_bind H. rename a into hid, E0 into Eh. inv_bind H. rename a into nm, E0 into En.
  destruct r as [rg|err].
  - destruct Tb as (sz & mp & V & -> & Hat & Hs & Em1). inv_bind E. injection E as <- <- <-. cbn [mr_end] in *.
    destruct V as (V1 & V2 & V3 & V4 & V5 & V6 & V7 & V8). pose proof (comp_size_u32 _ _ _ W V1) as Hsz. unfold is_u32 in *. change (2 ^ 32) with 4294967296 in *.
    assert (a = (la + sz) mod 4294967296).
    { unfold add_u32, u32 in E0. destruct (Z.ltb_spec (la + sz - 4 + 4) 4294967296); [injection E0 as <-; lia|].
      destruct oc; [discriminate|]. injection E0 as <-. lia. }
    assert (Ha : 0 <= a < 4294967296) by lia.
    destruct (IH _ _ _ _ _ _ _ _ _ W1 T1 Ha H) as (new & l & I1 & I2 & I3 & I4 & I5 & I6 & I8 & I9).
    assert (Hh : mm_hwb m1 = mm_hwb m) by (rewrite Em1; reflexivity).
    exists (AuxStatus id hid nm (ROk (MappingRange la (la + sz - 4))) :: new), (mp :: l).
    split; [rewrite I1, <- app_assoc; reflexivity|]. split; [cbn; congruence|]. split; [rewrite I3; reflexivity|].
    split. { cbn. constructor; auto. rewrite Hs. change (2 ^ 32) with 4294967296. rewrite <- H0. eapply packed_hwb; [exact Hh|exact I4]. }
    split. { rewrite I5, Em1. cbn. rewrite <- app_assoc. reflexivity. }
    split. { rewrite I6. unfold last_words. cbn [fold_left]. f_equal. destruct Hat as (e & _ & ->). cbn in Hs |- *. rewrite Hs.
      destruct (Z.ltb_spec mx (la + sz - 4)); lia. }
    split. { cbn [ids_refused flat_map as_result app]. intros i e I. destruct (I8 i e I) as (l1 & l2 & -> & R). exists (mp :: l1), l2. split; auto.
      rewrite Em1 in R. cbn [mm_hwb mm_maps] in R. rewrite <- app_assoc in R. cbn [app] in R. cbn [total_size fold_right].
      change (fold_right (fun mp0 s => mp_size mp0 + s) 0 l1) with (total_size l1). rewrite Hs.
      replace ((la + (sz + total_size l1)) mod 4294967296) with ((a + total_size l1) mod 4294967296); [exact R|].
      subst a. rewrite Z.add_mod_idemp_l by lia. f_equal. lia. }
    intros fl0 st0. cbn [ids_ok flat_map as_result as_id app]. change (flat_map _ new) with (ids_ok new).
    destruct (I9 fl0 (st0 ++ [AuxStatus id hid nm (ROk (MappingRange la (la + sz - 4)))])) as (new0 & I10).
    eexists. cbn [map_contiguous_loop]. rewrite E1. cbn [obind mr_end]. rewrite E0. cbn [obind]. rewrite Eh. cbn [obind]. rewrite En. cbn [obind].
    rewrite I10. rewrite <- app_assoc. reflexivity.
  - destruct Tb as (-> & Hr & _). injection E as <- <- <-.
    destruct (IH _ _ _ _ _ _ _ _ _ W1 T1 Hla H) as (new & l & I1 & I2 & I3 & I4 & I5 & I6 & I8 & I9).
    exists (AuxStatus id hid nm (RErr err) :: new), l.
    split; [rewrite I1, <- app_assoc; reflexivity|]. split; [cbn; congruence|]. split; [rewrite I3, <- app_assoc; reflexivity|].
    split; [exact I4|]. split; [exact I5|]. split; [exact I6|]. split; [|exact I9].
    cbn [ids_refused flat_map as_result as_id app]. intros i e [I|I]; [|auto]. injection I as <- <-. exists [], l. split; auto.
    cbn [total_size fold_right]. rewrite app_nil_r. destruct m as [hh mm]. cbn [mm_hwb mm_maps] in *. change (2 ^ 32) with 4294967296. unfold is_u32 in *. rewrite Z.mod_small by lia. replace (la + 0) with la by lia. exact Hr.
Qed.
Lemma packed_sizes m a ids l : mem_wf m -> packed m a ids l -> 0 <= total_size l.
Proof.
  intros W H. induction H; cbn [total_size fold_right]; [lia|]. change (fold_right (fun mp0 s => mp_size mp0 + s) 0 mps) with (total_size mps).
  destruct H as (e & En & ->). cbn. destruct W as (W1 & _). rewrite Forall_forall in W1. apply znth_In in En. apply W1 in En.
  destruct En as (_&_&?&_&_&_&_&_&->&_). unfold is_u32 in *. lia.
Qed.
Lemma last_words_packed m a ids l mx : mem_wf m -> (forall mp, In mp l -> 4 <= mp_size mp) -> packed m a ids l -> is_u32 a -> a + total_size l <= 4294967296 -> mx <= a -> l <> [] ->
  last_words mx l = a + total_size l - 4.
Proof.
  intros W Hs H. revert mx. induction H; intros mx Ha Hb Hm Hl; [congruence|]. clear Hl. cbn [total_size fold_right] in *. change (fold_right (fun mp0 s => mp_size mp0 + s) 0 mps) with (total_size mps) in *.
  pose proof (Hs mp (or_introl eq_refl)). pose proof (packed_sizes _ _ _ _ W H0).
  unfold last_words. cbn [fold_left]. assert (Eaddr : mp_addr mp = a) by (destruct H as (e & _ & ->); reflexivity). rewrite Eaddr.
  destruct mps as [|m2 l2].
  { cbn. lia. }
  assert (4 <= mp_size m2) by (apply Hs; right; left; auto).
  assert (0 <= total_size l2). { inversion H0; subst. eapply packed_sizes; eauto. }
  cbn [total_size fold_right] in *. change (fold_right (fun mp0 s => mp_size mp0 + s) 0 l2) with (total_size l2) in *. unfold is_u32 in *. change (2 ^ 32) with 4294967296 in *.
  rewrite Z.mod_small in IHpacked by lia.
  change (last_words (Z.max mx (a + mp_size mp - 4)) (m2 :: l2) = a + (mp_size mp + (mp_size m2 + total_size l2)) - 4).
  rewrite IHpacked; try lia; [intros; apply Hs; right; auto|discriminate].
Qed.
End Map.

(** * C31 *)
(** After any history of API calls without [map_abs] (guest code included, any mixture of successes and failures), in both
    builds: no component is mapped twice, every mapping is aligned, non-empty, inside the address space and as large as its
    component, and no address belongs to two mappings. *)
Lemma P_C31_tidy : forall D (ops : bus_ops D) oc ds cs m0 m, typed ops -> Forall api_wf cs -> Forall no_map_abs cs ->
  board_new ops ds = Ret m0 -> api_run ops oc cs m0 = Ret m ->
  tidy oc (c_mem m) /\ forall mp, In mp (mm_maps (c_mem m)) -> comp_size (c_mem m) (mp_aux_id mp) = Some (mp_size mp).
Proof.
  intros D ops oc ds cs m0 m T Hc Hn H0 H.
  destruct (board_new_spec ops T _ _ H0) as (W0 & M0 & _).
  assert (Ht : tidy oc (c_mem m0)). { unfold tidy. rewrite M0. split; [constructor|]. split; [intros ? []|intros ? ? ? []]. }
  assert (X : wf m /\ tidy oc (c_mem m)).
  { clear H0 M0. revert m0 W0 Ht H. induction cs as [|c t IH]; intros m0 W0 Ht H; cbn [api_run] in H. { injection H as <-. auto. }
    destruct (api_call ops oc c m0) as [m1|] eqn:E; [|discriminate]. inversion Hc; subst. inversion Hn; subst.
    eapply IH; [| | | |exact H]; auto; [eapply api_call_wf; eauto|eapply api_call_tidy; [| | | | |exact E]; auto]. }
  destruct X as (Hw & X). split; auto. intros mp I. destruct Hw as (_ & (_ & W2 & _) & _). rewrite Forall_forall in W2. apply W2 in I.
  destruct I as (_&_&_&_&e&En&Es&_). unfold comp_size. rewrite En, Es. reflexivity.
Qed.
(** Executing instructions never alters the mapping table. *)
Lemma P_C31_guest : forall D (ops : bus_ops D) oc m m', typed ops -> wf m -> next ops oc m = Ret m' -> mm_maps (c_mem m') = mm_maps (c_mem m).
Proof. intros. eapply next_maps; eauto. Qed.
(** Three 64-byte components; one mapping succeeds, one is refused (overlap), one contiguous mapping succeeds for the two others. *)
Lemma E_C31_tidy : exists m0 m, board_new words_ops [[]; []; []] = Ret m0 /\
  api_run words_ops false [AMap 64 1; AMap 68 2; AMapContiguous 128 [2; 0]] m0 = Ret m /\
  map (fun mp => (mp_aux_id mp, mp_addr mp, mp_size mp)) (mm_maps (c_mem m)) = [(1, 64, 64); (2, 128, 64); (0, 192, 64)].
Proof. eexists _, _. split; [vm_compute; reflexivity|]. split; vm_compute; reflexivity. Qed.

(** * C32 *)
(** [map], on a tidy table: success exactly for valid requests (the component is added with its whole size at this address, and
    the range is reported); a refusal names a true reason and changes nothing; the only panic is that of a debug build
    when start + size leaves the 32-bit range or is below 4. *)
Lemma P_C32_map : forall D (m : memory D) oc a id, mem_wf m -> tidy oc m -> is_u32 a ->
  match mem_map oc m a id with
  | Ret (m', ROk r) => exists sz mp, valid_request oc m a id sz /\ r = MappingRange a (a + sz - 4) /\
      mapping_at m id a mp /\ m' = Memory (mm_hwb m) (mm_maps m ++ [mp])
  | Ret (m', RErr e) => m' = m /\ refusal m a id e /\ forall sz, ~ valid_request oc m a id sz
  | Panic => oc = true /\ exists sz, comp_size m id = Some sz /\ (a + sz < 4 \/ 2 ^ 32 <= a + sz)
  end.
Proof.
  intros D m oc a id W T Ha. pose proof (mem_map_table oc m a id W T Ha) as H. destruct (mem_map oc m a id) as [[m' [r|e]]|]; auto.
  destruct H as (sz & mp & ? & ? & ? & ? & ?). eauto 10.
Qed.
(** A mapping request is accepted exactly when it is valid: known component, aligned address, not mapped yet, and free space that does not pass the end of the address space. *)
Lemma P_C32_iff : forall D (m : memory D) oc a id, mem_wf m -> tidy oc m -> is_u32 a ->
  ((exists m' r, mem_map oc m a id = Ret (m', ROk r)) <-> exists sz, valid_request oc m a id sz).
Proof.
  intros D m oc a id W T Ha. pose proof (mem_map_table oc m a id W T Ha) as H. destruct (mem_map oc m a id) as [[m' [r|e]]|].
  - destruct H as (sz & mp & V & _). split; [eauto|]. eauto.
  - destruct H as (_ & _ & H). split; [intros (? & ? & X); discriminate|]. intros (sz & V). exfalso. eapply H; eauto.
  - destruct H as (-> & sz & Es & H). split; [intros (? & ? & X); discriminate|]. intros (sz' & (V1 & V2 & V3 & V4 & _ & V5 & _)).
    rewrite Es in V1. injection V1 as <-. specialize (V5 eq_refl). change (2 ^ 32) with 4294967296 in *. unfold is_u32 in *. lia.
Qed.
(** A debug build panics exactly when start + size is outside 4 .. 2^32 - 1, whatever the rest of the request. *)
Lemma P_C32_debug_panic : forall D (m : memory D) a id sz, mem_wf m -> tidy true m -> is_u32 a -> comp_size m id = Some sz ->
  (mem_map true m a id = Panic <-> a + sz < 4 \/ 2 ^ 32 <= a + sz).
Proof.
  intros D m a id sz W T Ha Es. split.
  - intros E. pose proof (mem_map_table true m a id W T Ha) as H. rewrite E in H. destruct H as (_ & sz' & Es' & H). rewrite Es in Es'. injection Es' as <-. exact H.
  - intros H. unfold mem_map, internal_map. rewrite size_of_comp, Es. unfold add_u32, sub_u32. change (2 ^ 32) with 4294967296 in *.
    pose proof (comp_size_u32 _ _ _ W Es). unfold is_u32 in *.
    destruct (Z.ltb_spec (a + sz) 4294967296); [|reflexivity]. cbn [obind]. destruct (Z.leb_spec 4 (a + sz)); [lia|reflexivity].
Qed.
Lemma E_C32_map : exists m0 m1 mp, board_new words_ops [[]; []] = Ret m0 /\ mem_wf (c_mem m0) /\ tidy false (c_mem m0) /\
  mem_map false (c_mem m0) 4294967232 0 = Ret (m1, ROk (MappingRange 4294967232 4294967292)) /\
  valid_request false (c_mem m0) 4294967232 0 64 /\
  mem_wf m1 /\ tidy false m1 /\ mem_map false m1 4294967168 1 = Ret (Memory (mm_hwb m1) (mm_maps m1 ++ [mp]), ROk (MappingRange 4294967168 4294967228)) /\
  mem_map false m1 4294967172 1 = Ret (m1, RErr (AddressOverlaps (Mapping 0 1 4294967232 64))) /\
  mem_map false m1 4294967236 1 = Ret (m1, RErr NullOrNegAddressRange) /\ mem_map false m1 0 0 = Ret (m1, RErr AlreadyMapped) /\
  mem_map true (c_mem m0) 4294967232 0 = Panic.
Proof.
  destruct (board_new words_ops [[]; []]) as [m0|] eqn:E; [|discriminate].
  destruct (board_new_spec words_ops words_typed _ _ E) as (W0 & M0 & _).
  assert (Ht : tidy false (c_mem m0)). { unfold tidy. rewrite M0. split; [constructor|]. split; [intros ? []|intros ? ? ? []]. }
  assert (Ha : is_u32 4294967232) by (unfold is_u32; lia). destruct W0 as (_ & W0 & _).
  pose proof (mem_map_table false _ 4294967232 0 W0 Ht Ha) as Tb.
  destruct (mem_map false (c_mem m0) 4294967232 0) as [[m1 r]|] eqn:E1; [|destruct Tb; discriminate].
  pose proof (mem_map_tidy _ _ _ _ _ _ W0 Ht Ha E1). pose proof (internal_map_wf _ _ _ _ _ _ _ W0 Ha E1).
  exists m0, m1, (Mapping 1 1 4294967168 64). split; [reflexivity|]. split; auto. split; auto.
  vm_compute in E. injection E as <-. vm_compute in E1. injection E1 as <- <-. split; [reflexivity|]. split.
  { destruct Tb as (sz & mp & V & _). pose proof V as (X & _). vm_compute in X. injection X as <-. exact V. }
  split; auto. auto 12.
Qed.

(** * C33, C34 *)
(** Every access of any machine, whatever its mapping table, reaches a component at an aligned offset strictly below the
    component's size; nothing else is changed. *)
Lemma P_C33_in_range : forall D (ops : bus_ops D) oc m a, mem_wf m -> is_u32 a ->
  (forall m' ex v, mem_read ops oc m a = Ret (m', ex, v) -> m' = m \/
     exists id e off d, mapped m id /\ znth (mm_hwb m) id = Some e /\ bo_read ops (ae_dev e) off = Ret (d, ex, v) /\
       off mod 4 = 0 /\ 0 <= off < ac_size (ae_cache e) /\ m' = Memory (set_dev (mm_hwb m) id d) (mm_maps m)) /\
  (forall w m' ex, mem_write ops oc m a w = Ret (m', ex) -> m' = m \/
     exists id e off d, mapped m id /\ znth (mm_hwb m) id = Some e /\ bo_write ops (ae_dev e) off w = Ret (d, ex) /\
       off mod 4 = 0 /\ 0 <= off < ac_size (ae_cache e) /\ m' = Memory (set_dev (mm_hwb m) id d) (mm_maps m)).
Proof.
  intros D ops oc m a W Ha.
  assert (OFF : forall mp e, a mod 4 = 0 -> find_o (covers oc a) (mm_maps m) = Ret (Some mp) -> znth (mm_hwb m) (mp_aux_id mp) = Some e ->
     mapped m (mp_aux_id mp) /\ (a - mp_addr mp) mod 4 = 0 /\ 0 <= a - mp_addr mp < ac_size (ae_cache e)).
  { intros mp e Hal E En. apply find_o_some in E. destruct E as (I & C). split; [exists mp; auto|].
    destruct W as (HF & HM & _). rewrite Forall_forall in HM. apply HM in I. pose proof (mapping_size_u32 _ _ HF I).
    destruct I as (Hma & Hmal & Hms & Hmsal & e' & En' & Hs & _). rewrite En in En'; injection En' as <-.
    apply covers_true in C; auto. rewrite <- Hs. split; lia. }
  split.
  - intros m' ex v H. apply mem_read_inv in H. destruct H as (Hal & [(_ & -> & _)|(mp & e & d & E1 & E2 & E3 & ->)]); [auto|].
    right. destruct (OFF _ _ Hal E1 E2) as (? & ? & ?). exists (mp_aux_id mp), e, (a - mp_addr mp), d. auto 10.
  - intros w m' ex H. apply mem_write_inv in H. destruct H as (Hal & [(_ & -> & _)|(mp & e & d & E1 & E2 & E3 & ->)]); [auto|].
    right. destruct (OFF _ _ Hal E1 E2) as (? & ? & ?). exists (mp_aux_id mp), e, (a - mp_addr mp), d. auto 10.
Qed.
Lemma tidy_find {D} oc (m : memory D) a mp : tidy oc m -> In mp (mm_maps m) -> occupies mp a -> find_o (covers oc a) (mm_maps m) = Ret (Some mp).
Proof.
  intros T I O. rewrite (find_o_ret _ (fun mp => (mp_addr mp <=? a) && (a <? mp_addr mp + mp_size mp))) by (intros; eapply tidy_covers; eauto).
  f_equal. destruct (find _ _) as [mp'|] eqn:Ef.
  - apply find_some in Ef. destruct Ef as (I' & B). apply andb_prop in B. destruct B as [B1 B2]. apply Z.leb_le in B1. apply Z.ltb_lt in B2.
    f_equal. destruct T as (_ & _ & T3). eapply T3; [exact I'|exact I| |exact O]. split; auto.
  - pose proof (find_none _ _ Ef _ I) as N. cbn beta in N. apply andb_false_iff in N. unfold occupies in O.
    destruct N as [N|N]; [apply Z.leb_gt in N|apply Z.ltb_ge in N]; lia.
Qed.
(** On a tidy table an aligned access of an address occupied by a mapping is exactly the access of the component at offset
    (address - mapping start), which is a multiple of 4 below the component's size; the other components are not touched. *)
Lemma P_C33_dispatch : forall D (ops : bus_ops D) oc m a mp, mem_wf m -> tidy oc m -> a mod 4 = 0 -> In mp (mm_maps m) -> occupies mp a ->
  exists e, znth (mm_hwb m) (mp_aux_id mp) = Some e /\ (a - mp_addr mp) mod 4 = 0 /\ 0 <= a - mp_addr mp < ac_size (ae_cache e) /\
    mem_read ops oc m a = match bo_read ops (ae_dev e) (a - mp_addr mp) with
      | Ret (d, ex, v) => Ret (Memory (set_dev (mm_hwb m) (mp_aux_id mp) d) (mm_maps m), ex, v) | Panic => Panic end /\
    forall w, mem_write ops oc m a w = match bo_write ops (ae_dev e) (a - mp_addr mp) w with
      | Ret (d, ex) => Ret (Memory (set_dev (mm_hwb m) (mp_aux_id mp) d) (mm_maps m), ex) | Panic => Panic end.
Proof.
  intros D ops oc m a mp W T Hal I O. pose proof (tidy_find _ _ _ _ T I O) as F.
  destruct (tidy_mapping _ _ _ T I) as (?&?&?&?&?&?). destruct W as (HF & HM & _). rewrite Forall_forall in HM. apply HM in I.
  destruct I as (_&_&_&_& e & En & Es & _). exists e. split; auto. unfold occupies in O. rewrite <- Es. split; [lia|]. split; [lia|].
  assert (Z1 : ((a - mp_addr mp) mod 4 =? 0) = true) by (apply Z.eqb_eq; lia). assert (Z2 : (a mod 4 =? 0) = true) by (apply Z.eqb_eq; lia).
  split.
  - unfold mem_read. rewrite Z2, F. cbn [obind]. unfold hwb_read. rewrite Z1, En. destruct (bo_read _ _ _) as [[[d ex] v]|]; reflexivity.
  - intros w. unfold mem_write. rewrite Z2, F. cbn [obind]. unfold hwb_write. rewrite Z1, En. destruct (bo_write _ _ _ _) as [[d ex]|]; reflexivity.
Qed.
(** Replacing the state of one component leaves the others, and all descriptions, as they are. *)
Lemma P_C33_others : forall D (h : hwb D) id d k, znth (set_dev h id d) k =
  match znth h k with Some e => Some (if k =? id then AuxEntry d (ae_cache e) else e) | None => None end.
Proof.
  intros D h. induction h as [|e t IH]; intros id d k; cbn [set_dev znth]; [reflexivity|].
  destruct (Z.eqb_spec id 0) as [->|]; cbn [znth].
  - destruct (Z.eqb_spec k 0) as [->|]; [reflexivity|]. destruct (znth t (k - 1)); reflexivity.
  - destruct (Z.eqb_spec k 0) as [->|]. { destruct (Z.eqb_spec 0 id); [lia|reflexivity]. }
    rewrite IH. destruct (znth t (k - 1)); [|reflexivity]. destruct (Z.eqb_spec (k - 1) (id - 1)), (Z.eqb_spec k id); auto; lia.
Qed.
(** An aligned address of no mapping reads as zero without exception, and writing it changes nothing, whatever the table (even
    one made by [map_abs]) and the build. *)
Lemma P_C34_unmapped : forall D (ops : bus_ops D) oc m a, mem_wf m -> is_u32 a -> a mod 4 = 0 ->
  (forall mp, In mp (mm_maps m) -> ~ occupies mp a) ->
  mem_read ops oc m a = Ret (m, 0, 0) /\ forall w, mem_write ops oc m a w = Ret (m, 0).
Proof.
  intros D ops oc m a (_ & HM & _) Ua Hal N. assert (F : find_o (covers oc a) (mm_maps m) = Ret None).
  { rewrite (find_o_ret _ (fun mp => (mp_addr mp <=? a) && (a <? mp_addr mp + mp_size mp))).
    - f_equal. destruct (find _ _) as [mp'|] eqn:Ef; [|reflexivity]. apply find_some in Ef. destruct Ef as (I' & B). apply andb_prop in B. destruct B as [B1 B2]. apply Z.leb_le in B1. apply Z.ltb_lt in B2.
      exfalso. eapply N; eauto. split; auto.
    - intros mp I. rewrite Forall_forall in HM. pose proof (HM mp I) as (H1 & H2 & H3 & H4 & _). pose proof (N mp I) as Hn. unfold occupies in Hn.
      unfold is_u32 in *. unfold covers. destruct (Z.leb_spec (mp_addr mp) a) as [L|L]; [|reflexivity].
      unfold end_addr, add_u32, sub_u32. rewrite (proj2 (Z.ltb_lt _ _)) by lia. cbn [obind]. rewrite (proj2 (Z.leb_le _ _)) by lia. cbn [obind andb].
      f_equal. rewrite (proj2 (Z.leb_gt _ _)) by lia. rewrite (proj2 (Z.ltb_ge _ _)) by lia. reflexivity. }
  split; [|intros w]; [unfold mem_read|unfold mem_write]; rewrite (proj2 (Z.eqb_eq _ _) Hal), F; reflexivity.
Qed.
(** The public [read] and [write] of an unaligned address panic (the CPU checks alignment before). *)
Lemma P_C34_unaligned : forall D (ops : bus_ops D) oc m a w, a mod 4 <> 0 -> mem_read ops oc m a = Panic /\ mem_write ops oc m a w = Panic.
Proof. intros D ops oc m a w H. unfold mem_read, mem_write. rewrite (proj2 (Z.eqb_neq _ _) H). auto. Qed.
Lemma E_C33_dispatch : exists m0 m mp, board_new words_ops [[7; 8; 9]; [5]] = Ret m0 /\ api_run words_ops false [AMapContiguous 128 [1; 0]] m0 = Ret m /\
  mem_wf (c_mem m) /\ tidy false (c_mem m) /\ In mp (mm_maps (c_mem m)) /\ occupies mp 200 /\
  mem_read words_ops false (c_mem m) 200 = Ret (c_mem m, 0, 9) /\ (forall q, In q (mm_maps (c_mem m)) -> ~ occupies q 256).
Proof.
  destruct (board_new words_ops [[7; 8; 9]; [5]]) as [m0|] eqn:E; [|discriminate].
  destruct (api_run words_ops false [AMapContiguous 128 [1; 0]] m0) as [m|] eqn:E1; [|vm_compute in E; injection E as <-; vm_compute in E1; discriminate].
  assert (HC : Forall api_wf [AMapContiguous 128 [1; 0]]) by (repeat constructor; cbn; unfold is_u32; lia).
  assert (HN : Forall no_map_abs [AMapContiguous 128 [1; 0]]) by (repeat constructor).
  destruct (P_C31_tidy _ words_ops false _ _ _ _ words_typed HC HN E E1) as (T & _).
  assert (Hr : reachable words_ops false m) by (exists [[7; 8; 9]; [5]], [AMapContiguous 128 [1; 0]], m0; auto).
  apply (reachable_wf _ words_typed) in Hr. destruct Hr as (_ & Hr & _).
  exists m0, m, (Mapping 0 1 192 64). split; auto. split; auto. split; auto. split; auto.
  vm_compute in E. injection E as <-. vm_compute in E1. injection E1 as <-.
  split; [right; left; reflexivity|]. split; [unfold occupies; cbn; lia|]. split; [vm_compute; reflexivity|].
  cbn. intros q [<-|[<-|[]]]; unfold occupies; cbn; lia.
Qed.

(** * C35 *)
(** [map_contiguous] on a tidy table, when it returns: there is one status per identifier, in order; the mapped components
    are added in order, the first at the given address and each right after the previous one (modulo 2^32); the refused
    ones are exactly those listed as failed, each with a reason that is true of the table and address at its turn; nothing
    else changes; the result is a success exactly when nothing was refused; and the same call without the refused
    components maps the same and succeeds. *)
Lemma P_C35_contiguous : forall D (m : memory D) oc a ids m' r sts, mem_wf m -> tidy oc m -> is_u32 a ->
  map_contiguous oc m a ids = Ret (m', r, sts) ->
  exists l, map as_id sts = ids /\ packed m a (ids_ok sts) l /\ m' = Memory (mm_hwb m) (mm_maps m ++ l) /\
    match r with
    | ROk rg => ids_ok sts = ids /\ mr_start rg = a /\
                (a + total_size l <= 2 ^ 32 -> mr_end rg = match ids with [] => a | _ => a + total_size l - 4 end)
    | RErr failed => failed <> [] /\ failed = ids_refused sts
    end /\
    (forall i e, In (i, e) (ids_refused sts) -> exists l1 l2, l = l1 ++ l2 /\
        refusal (Memory (mm_hwb m) (mm_maps m ++ l1)) ((a + total_size l1) mod 2 ^ 32) i e) /\
    exists rg sts', map_contiguous oc m a (ids_ok sts) = Ret (m', ROk rg, sts').
Proof.
  intros D m oc a ids m' r sts W T Ha H. unfold map_contiguous in H. inv_bind H. destruct a0 as [[[m1 mx] fl] st]. injection H as <- <- <-.
  pose proof E as E0. destruct (contiguous_loop oc _ _ _ _ _ _ _ _ _ _ W T Ha E) as (new & l & I1 & I2 & I3 & I4 & I5 & I6 & I7 & I8). cbn [app] in *. subst st fl.
  assert (Hsz : forall mp, In mp l -> 4 <= mp_size mp).
  { intros mp I. assert (W' : mem_wf m1).
    { eapply (map_contiguous_wf oc m a ids m1 _ new W Ha). unfold map_contiguous. rewrite E0. cbn [obind]. reflexivity. }
    destruct W' as (_ & W' & _). rewrite Forall_forall in W'. specialize (W' mp). rewrite I5 in W'. cbn [mm_maps] in W'.
    assert (In mp (mm_maps m ++ l)) by (apply in_or_app; auto). destruct (W' H) as (_ & _ & ? & ? & _). lia. }
  exists l. split; auto. split; auto. split; auto. split.
  { destruct (ids_refused new) as [|x y] eqn:Er.
    - assert (Eok : ids_ok new = ids).
      { rewrite <- I2. clear - Er. induction new as [|s t IH]; [reflexivity|]. cbn [ids_ok ids_refused flat_map map] in *. destruct (as_result s); [|discriminate].
        cbn in *. f_equal. apply IH. exact Er. }
      split; auto. split; auto. cbn [mr_end]. change (2 ^ 32) with 4294967296. intros Hb. rewrite I6. destruct ids as [|i t].
      + rewrite Eok in I4. inversion I4. reflexivity.
      + eapply last_words_packed; eauto; [lia|]. rewrite Eok in I4. inversion I4. discriminate.
    - split; [discriminate|reflexivity]. }
  split; [exact I7|]. destruct (I8 [] []) as (new0 & E8). unfold map_contiguous. rewrite E8. cbn [obind]. eauto.
Qed.
(** An unknown identifier anywhere in the list panics, in any build. *)
Lemma P_C35_unknown_panics : forall D (m : memory D) oc a i ids, In i ids -> znth (mm_hwb m) i = None ->
  map_contiguous oc m a ids = Panic.
Proof.
  intros D m oc a i ids I E. unfold map_contiguous. 
  assert (X : forall la mx fl sts, map_contiguous_loop oc m ids la mx fl sts = Panic); [|rewrite X; reflexivity].
  revert m E. induction ids as [|j t IH]; [destruct I|]. intros m E la mx fl sts. cbn [map_contiguous_loop].
  destruct (mem_map oc m la j) as [[m1 r]|] eqn:E1; [|reflexivity]. cbn [obind].
  assert (Hh : mm_hwb m1 = mm_hwb m) by (eapply internal_map_hwb; exact E1).
  destruct (match r with ROk _ => _ | RErr _ => _ end) as [[[la1 mx1] fl1]|]; [|reflexivity]. cbn [obind].
  unfold hw_id_of, name_of, cache_of. rewrite Hh. destruct I as [->|I].
  - rewrite E. reflexivity.
  - destruct (znth (mm_hwb m) j); [|reflexivity]. cbn [option_map unwrap obind]. apply IH; auto. rewrite Hh. exact E.
Qed.
(** The status of each component gives its hardware identifier, its name and, if it was mapped, its mapping. *)
Lemma P_C35_statuses : forall D (m : memory D) oc a ids m' r sts, mem_wf m -> tidy oc m -> is_u32 a ->
  map_contiguous oc m a ids = Ret (m', r, sts) ->
  Forall (fun s => exists e, znth (mm_hwb m) (as_id s) = Some e /\ as_hw_id s = ac_hw_id (ae_cache e) /\ as_name s = ac_name (ae_cache e) /\
    match as_result s with
    | ROk rg => exists mp, In mp (mm_maps m') /\ mp_aux_id mp = as_id s /\ mr_start rg = mp_addr mp /\ mr_end rg = mp_addr mp + mp_size mp - 4
    | RErr _ => True
    end) sts.
Proof.
  intros D m oc a ids m' r sts W T Ha H. unfold map_contiguous in H. inv_bind H. destruct a0 as [[[m1 mx] fl] st]. injection H as <- <- <-.
  assert (X : forall ids (m : memory D) la mx fl sts (m' : memory D) mx' fl' sts', mem_wf m -> tidy oc m -> is_u32 la -> map_contiguous_loop oc m ids la mx fl sts = Ret (m', mx', fl', sts') ->
    mm_hwb m' = mm_hwb m /\ (forall mp, In mp (mm_maps m) -> In mp (mm_maps m')) /\ exists new, sts' = sts ++ new /\
    Forall (fun s => exists e, znth (mm_hwb m) (as_id s) = Some e /\ as_hw_id s = ac_hw_id (ae_cache e) /\ as_name s = ac_name (ae_cache e) /\
    match as_result s with
    | ROk rg => exists mp, In mp (mm_maps m') /\ mp_aux_id mp = as_id s /\ mr_start rg = mp_addr mp /\ mr_end rg = mp_addr mp + mp_size mp - 4
    | RErr _ => True
    end) new).
  { clear. induction ids as [|id t IH]; intros m la mx fl sts m' mx' fl' sts' W T Hla H; cbn [map_contiguous_loop] in H.
    { injection H as <- <- <- <-. split; [reflexivity|]. split; [auto|]. exists []. rewrite app_nil_r. auto. }
    inv_bind H. destruct a as [m1 r]. rename E into E1. pose proof (mem_map_table oc m la id W T Hla) as X. rewrite E1 in X. inv_bind H. destruct a as [[la1 mx1] fl1].
    inv_bind H. rename E0 into Eh. inv_bind H. rename E0 into En.
    assert (W1 : mem_wf m1) by (unfold mem_map in E1; eapply internal_map_wf; [| |exact E1]; auto).
    assert (T1 : tidy oc m1) by (eapply mem_map_tidy; [| | |exact E1]; auto).
    assert (Hh : mm_hwb m1 = mm_hwb m) by (eapply internal_map_hwb; exact E1).
    assert (L1 : is_u32 la1). { destruct r as [rg|er]; [|injection E as <- _ _; exact Hla]. destruct X as (sz & mp & (V1 & V2 & V3 & V4 & V5 & _) & -> & _). inv_bind E. injection E as <- _ _. cbn [mr_end] in E0. unfold is_u32 in *. eapply add_u32_range; [| |exact E0]; lia. }
    destruct (IH m1 la1 _ _ _ _ _ _ _ W1 T1 L1 H) as (A & B & new & -> & F). split; [congruence|].
    unfold hw_id_of, name_of, cache_of in Eh, En. rewrite Hh in Eh, En. destruct (znth (mm_hwb m) id) as [e|] eqn:Ee; [|discriminate]. cbn [option_map unwrap] in Eh, En. injection Eh as <-. injection En as <-.
    split.
    - intros mp Hin. apply B. destruct r as [rg|er]; [destruct X as (sz & mp' & _ & _ & _ & _ & ->); cbn; apply in_or_app; auto|destruct X as (-> & _); auto].
    - exists (AuxStatus id (ac_hw_id (ae_cache e)) (ac_name (ae_cache e)) r :: new). split; [rewrite <- app_assoc; reflexivity|]. constructor; [|rewrite Hh in F; exact F].
      exists e. cbn [as_id as_hw_id as_name as_result]. split; [exact Ee|]. split; [reflexivity|]. split; [reflexivity|]. destruct r as [rg|er]; [|exact I].
      destruct X as (sz & mp & V & -> & MA & Ms & ->). exists mp. split; [apply B; cbn; apply in_or_app; right; left; reflexivity|].
      destruct MA as (e' & _ & ->). cbn in Ms |- *. subst. auto. }
  destruct (X _ _ _ _ _ _ _ _ _ _ W T Ha E) as (_ & _ & new & -> & F). exact F.
Qed.
(** In a release build the packing wraps at the end of the address space: the component after one that ends at 2^32 is mapped at
    address 0, and the reported range does not contain it. *)
Lemma P_C35_range_refuted : ~ (forall D (ops : bus_ops D) m a ids m' rg sts mp, typed ops -> reachable ops false m -> is_u32 a ->
  map_contiguous false (c_mem m) a ids = Ret (m', ROk rg, sts) -> In mp (mm_maps m') -> ~ In mp (mm_maps (c_mem m)) ->
  mr_start rg <= mp_addr mp <= mr_end rg).
Proof.
  intros H. destruct (board_new words_ops [[]; []]) as [m0|] eqn:E; [|discriminate].
  assert (Hr : reachable words_ops false m0) by (exists [[]; []], [], m0; repeat split; auto).
  destruct (map_contiguous false (c_mem m0) 4294967232 [0; 1]) as [[[m' r] sts]|] eqn:E1;
    [|vm_compute in E; injection E as <-; vm_compute in E1; discriminate].
  destruct r as [rg|]; [|vm_compute in E; injection E as <-; vm_compute in E1; discriminate].
  specialize (H _ words_ops m0 4294967232 [0; 1] m' rg sts (Mapping 1 1 0 64) words_typed Hr).
  vm_compute in E. injection E as <-. vm_compute in E1. injection E1 as <- <- <-. cbn in H.
  assert (4294967232 <= 0 <= 4294967292); [|lia]. apply H; auto. unfold is_u32; lia.
Qed.
(** Three components packed at 64; the middle one is refused because it is mapped already. *)
Lemma E_C35_contiguous : exists m0 m m' r sts, board_new words_ops [[]; []; []] = Ret m0 /\ api_run words_ops true [AMap 1024 1] m0 = Ret m /\
  mem_wf (c_mem m) /\ tidy true (c_mem m) /\ map_contiguous true (c_mem m) 64 [2; 1; 0] = Ret (m', r, sts) /\
  r = RErr [(1, AlreadyMapped)] /\ ids_ok sts = [2; 0] /\
  map (fun mp => (mp_aux_id mp, mp_addr mp)) (mm_maps m') = [(1, 1024); (2, 64); (0, 128)].
Proof.
  destruct (board_new words_ops [[]; []; []]) as [m0|] eqn:E; [|discriminate].
  destruct (api_run words_ops true [AMap 1024 1] m0) as [m|] eqn:E1; [|vm_compute in E; injection E as <-; vm_compute in E1; discriminate].
  assert (HC : Forall api_wf [AMap 1024 1]) by (repeat constructor; cbn; unfold is_u32; lia).
  assert (HN : Forall no_map_abs [AMap 1024 1]) by (repeat constructor).
  destruct (P_C31_tidy _ words_ops true _ _ _ _ words_typed HC HN E E1) as (T & _).
  assert (Hr : reachable words_ops true m) by (exists [[]; []; []], [AMap 1024 1], m0; auto).
  apply (reachable_wf _ words_typed) in Hr. destruct Hr as (_ & Hr & _).
  destruct (map_contiguous true (c_mem m) 64 [2; 1; 0]) as [[[m' r] sts]|] eqn:E2;
    [|vm_compute in E; injection E as <-; vm_compute in E1; injection E1 as <-; vm_compute in E2; discriminate].
  exists m0, m, m', r, sts. split; auto. split; auto. split; auto. split; auto. split; auto.
  vm_compute in E. injection E as <-. vm_compute in E1. injection E1 as <-. vm_compute in E2. injection E2 as <- <- <-.
  repeat split; vm_compute; reflexivity.
Qed.

(** * C36 *)
(** [map_abs], when it succeeds: whatever the end address, the whole component is mapped at the start address. The end
    address may be anything from the start to start + size, and only the part up to it is checked against other mappings. *)
Lemma P_C36_outcome : forall D (m : memory D) oc a e id m' r, mem_wf m -> is_u32 a -> is_u32 e -> mem_map_abs oc m a e id = Ret (m', ROk r) ->
  exists sz mp, comp_size m id = Some sz /\ a mod 4 = 0 /\ e mod 4 = 0 /\ 0 < sz /\ sz mod 4 = 0 /\ a <= e <= a + sz /\ ~ mapped m id /\
    r = MappingRange a e /\ mapping_at m id a mp /\ m' = Memory (mm_hwb m) (mm_maps m ++ [mp]) /\
    (tidy oc m -> forall mp' b, In mp' (mm_maps m) -> occupies mp' b -> ~ (a <= b <= e)).
Proof.
  intros D m oc a e id m' r W Ha He H. unfold mem_map_abs in H. apply internal_map_inv in H.
  destruct H as [[_ (? & X)]|(sz&e'&x&Es&?&?&?&?&<-&_&?&?&Ex&Ef&Ez&->&X)]; [discriminate|]. injection X as ->.
  pose proof (comp_size_u32 _ _ _ W Es). unfold is_u32 in *. exists sz, (Mapping id (ac_hw_id (ae_cache x)) a sz).
  repeat split; auto; try lia.
  - intros N. apply mapped_existsb in N. congruence.
  - exists x. split; auto. unfold comp_size in Es. rewrite Ez in Es. injection Es as ->. reflexivity.
  - intros T mp' b I O Hb. pose proof (find_o_none _ _ _ Ef I) as N. rewrite (tidy_overlaps _ _ _ _ _ T I) in N. injection N as N.
    apply andb_false_iff in N. unfold occupies in O. destruct N as [N|N]; [apply Z.leb_gt in N|apply Z.ltb_ge in N]; lia.
Qed.
(** The whole decision table of [map_abs], on a tidy table: success exactly on valid requests, the reason given for a refusal, no effect when refused, and when a debug build panics. *)
Lemma P_C36_requests : forall D (m : memory D) oc a e id, mem_wf m -> tidy oc m -> is_u32 a -> is_u32 e ->
  match mem_map_abs oc m a e id with
  | Ret (m', ROk r) => valid_range oc m a e id /\ r = MappingRange a e /\ exists mp, mapping_at m id a mp /\ m' = Memory (mm_hwb m) (mm_maps m ++ [mp])
  | Ret (m', RErr err) => m' = m /\ range_refusal m a e id err /\ ~ valid_range oc m a e id
  | Panic => oc = true /\ ~ valid_range oc m a e id /\ exists sz, comp_size m id = Some sz /\ (a + sz < 4 \/ 2 ^ 32 <= a + sz \/ 2 ^ 32 <= e + 4)
  end.
Proof.
  intros D m oc a e id W T Ha He. unfold mem_map_abs, internal_map. rewrite size_of_comp. destruct (comp_size m id) as [sz|] eqn:Es.
  2:{ split; auto. split; [exact Es|]. intros (sz & X & _). congruence. }
  pose proof (comp_size_u32 _ _ _ W Es) as Hsz. unfold is_u32 in *. change (2 ^ 32) with 4294967296.
  assert (VR : valid_range oc m a e id -> a mod 4 = 0 /\ e mod 4 = 0 /\ 0 < sz /\ sz mod 4 = 0 /\ a <= e <= a + sz /\ ~ (a = 0 /\ e = 4294967292) /\
    (oc = true -> a + sz < 4294967296 /\ e + 4 < 4294967296) /\ ~ mapped m id /\ forall mp b, In mp (mm_maps m) -> occupies mp b -> ~ (a <= b <= e)).
  { intros (sz' & X & V). rewrite Es in X. injection X as <-. exact V. }
  assert (Hd : (oc = true /\ (a + sz < 4 \/ 4294967296 <= a + sz) /\ (do! s1 <- add_u32 oc a sz; sub_u32 oc s1 4) = Panic) \/
    (~ (oc = true /\ (a + sz < 4 \/ 4294967296 <= a + sz)) /\ exists s1 dflt, add_u32 oc a sz = Ret s1 /\ sub_u32 oc s1 4 = Ret dflt)).
  { unfold add_u32, sub_u32, u32. destruct (Z.ltb_spec (a + sz) 4294967296); cbn [obind].
    - destruct (Z.leb_spec 4 (a + sz)).
      + right. split; [lia|]. eexists _, _. split; [reflexivity|]. destruct (Z.leb_spec 4 (a + sz)); [|lia]. reflexivity.
      + destruct oc; [left; repeat split; auto; lia|]. right. split; [intros [? _]; discriminate|]. eexists _, _. split; [reflexivity|].
        destruct (Z.leb_spec 4 (a + sz)); [lia|]. reflexivity.
    - destruct oc; [left; auto|]. right. split; [intros [? _]; discriminate|]. destruct (4 <=? (a + sz) mod 4294967296) eqn:E4; (eexists _, _; split; [reflexivity|]; rewrite E4; reflexivity). }
  destruct Hd as [(-> & Hb & E)|(Hnp & s1 & dflt & E1 & E2)].
  { assert (G : true = true /\ ~ valid_range true m a e id /\ exists sz, comp_size m id = Some sz /\ (a + sz < 4 \/ 4294967296 <= a + sz \/ 4294967296 <= e + 4)).
    { split; auto. split; [|exists sz; split; [exact Es|lia]]. intros V. destruct (VR V) as (A1&A2&A3&A4&A5&A6&A7&_). specialize (A7 eq_refl). lia. }
    destruct (add_u32 true a sz) as [s1|]; cbn [obind] in E |- *; [rewrite E; cbn [obind]|]; rewrite <- Es; exact G. }
  rewrite E1. cbn [obind]. rewrite E2. cbn [obind]. cbv zeta.
  destruct (Z.eqb_spec (a mod 4) 0); cbn [negb]; [|split; auto; split; auto; intros V; destruct (VR V); lia].
  destruct (Z.eqb_spec sz 0) as [Z0|]; cbn [negb]; [split; auto; split; [cbn; congruence|]; intros V; destruct (VR V) as (_&_&?&_); lia|].
  destruct (Z.eqb_spec (sz mod 4) 0); cbn [negb]; [|split; auto; split; [exists sz; auto|]; intros V; destruct (VR V) as (_&_&_&?&_); lia].
  destruct (Z.eqb_spec (e mod 4) 0); cbn [negb]; [|split; auto; split; auto; intros V; destruct (VR V) as (_&?&_); lia].
  unfold add_u32, u32. destruct (Z.ltb_spec (e + 4) 4294967296) as [E4|E4].
  2:{ destruct oc; [cbn [obind]; split; auto; split; [intros V; destruct (VR V) as (_&_&_&_&_&_&V'&_); specialize (V' eq_refl); lia|exists sz; split; [reflexivity|lia]]|]. cbn [obind].
      assert (e = 4294967292) as -> by lia. change ((4294967292 + 4) mod 4294967296) with 0. destruct (Z.eqb_spec a 0) as [->|NA]; cbn [orb].
      { split; auto. split; [right; split; reflexivity|]. intros V. destruct (VR V) as (_&_&_&_&_&V'&_). apply V'. auto. }
      destruct (Z.ltb_spec 4294967292 a); [lia|]. revert Ha. intros Ha.
      destruct (Z.ltb_spec sz (4294967292 - a)); [split; auto; split; [split; auto|]; intros V; destruct (VR V) as (_&_&_&_&?&_); lia|].
      destruct (existsb _ _) eqn:Ex; [apply mapped_existsb in Ex; split; auto; split; [exact Ex|]; intros V; destruct (VR V) as (_&_&_&_&_&_&_&?&_); auto|].
      assert (Hnm : ~ mapped m id) by (intros X; apply mapped_existsb in X; congruence).
      rewrite (find_o_ret _ (fun mp => (mp_addr mp <=? 4294967292) && (a <? mp_addr mp + mp_size mp))) by (intros mp I; apply (tidy_overlaps _ _ _ _ _ T I)).
      cbn [obind]. destruct (find _ _) as [mp|] eqn:Ef.
      + apply find_some in Ef. destruct Ef as (I & Eb). apply andb_prop in Eb. destruct Eb as [B1 B2]. apply Z.leb_le in B1. apply Z.ltb_lt in B2. destruct (tidy_mapping _ _ _ T I) as (?&?&?&?&?&?).
        assert (exists b, occupies mp b /\ a <= b <= 4294967292) as (b & Hb1 & Hb2) by (unfold occupies; destruct (Z.leb_spec a (mp_addr mp)); [exists (mp_addr mp)|exists a]; lia).
        split; auto. split; [exists b; auto|]. intros V. destruct (VR V) as (_&_&_&_&_&_&_&_&HN). eapply HN; eauto.
      + assert (Hex : exists ent, znth (mm_hwb m) id = Some ent /\ ac_size (ae_cache ent) = sz) by (unfold comp_size in Es; destruct (znth (mm_hwb m) id) as [ent|]; [|discriminate]; injection Es as <-; eauto).
        destruct Hex as (ent & En & Esz). unfold hw_id_of, cache_of. rewrite En. cbn [option_map unwrap obind]. split.
        { exists sz. change (2 ^ 32) with 4294967296. repeat split; auto; try lia; try discriminate. intros mp b I Ho Hb. pose proof (find_none _ _ Ef _ I) as Hf. cbn beta in Hf. apply andb_false_iff in Hf. unfold occupies in Ho.
          destruct (tidy_mapping _ _ _ T I) as (?&?&?&?&?&?). destruct Hf as [Hf|Hf]; [apply Z.leb_gt in Hf|apply Z.ltb_ge in Hf]; lia. }
        split; auto. exists (Mapping id (ac_hw_id (ae_cache ent)) a sz). split; [exists ent; rewrite Esz; auto|reflexivity]. }
  cbn [obind].
  destruct (Z.ltb_spec e a) as [EA|EA]; [rewrite orb_true_r|rewrite orb_false_r].
  { split; auto. split; [left; exact EA|]. intros V. destruct (VR V) as (_&_&_&_&?&_). lia. }
  destruct (Z.eqb_spec a (e + 4)) as [EE|_]; [lia|].
  destruct (Z.ltb_spec sz (e - a)); [split; auto; split; [split; auto|]; intros V; destruct (VR V) as (_&_&_&_&?&_); lia|].
  destruct (existsb _ _) eqn:Ex; [apply mapped_existsb in Ex; split; auto; split; [exact Ex|]; intros V; destruct (VR V) as (_&_&_&_&_&_&_&?&_); auto|].
  assert (Hnm : ~ mapped m id) by (intros X; apply mapped_existsb in X; congruence).
  rewrite (find_o_ret _ (fun mp => (mp_addr mp <=? e) && (a <? mp_addr mp + mp_size mp))) by (intros mp I; apply (tidy_overlaps _ _ _ _ _ T I)).
  cbn [obind]. destruct (find _ _) as [mp|] eqn:Ef.
  - apply find_some in Ef. destruct Ef as (I & Eb). apply andb_prop in Eb. destruct Eb as [B1 B2]. apply Z.leb_le in B1. apply Z.ltb_lt in B2. destruct (tidy_mapping _ _ _ T I) as (?&?&?&?&?&?).
    assert (exists b, occupies mp b /\ a <= b <= e) as (b & Hb1 & Hb2) by (unfold occupies; destruct (Z.leb_spec a (mp_addr mp)); [exists (mp_addr mp)|exists a]; lia).
    split; auto. split; [exists b; auto|]. intros V. destruct (VR V) as (_&_&_&_&_&_&_&_&HN). eapply HN; eauto.
  - assert (Hex : exists ent, znth (mm_hwb m) id = Some ent /\ ac_size (ae_cache ent) = sz) by (unfold comp_size in Es; destruct (znth (mm_hwb m) id) as [ent|]; [|discriminate]; injection Es as <-; eauto).
    destruct Hex as (ent & En & Esz). unfold hw_id_of, cache_of. rewrite En. cbn [option_map unwrap obind]. split.
    { assert (HOC : oc = true -> a + sz < 4294967296 /\ e + 4 < 4294967296) by (intros ->; assert (~ (a + sz < 4 \/ 4294967296 <= a + sz)) by (intros ?; apply Hnp; auto); lia).
      exists sz. change (2 ^ 32) with 4294967296. split; [exact Es|]. do 4 (split; [assumption || lia|]). split; [lia|]. split; [lia|]. split; [exact HOC|]. split; [exact Hnm|].
      - intros mp b I Ho Hb. pose proof (find_none _ _ Ef _ I) as Hf. cbn beta in Hf. apply andb_false_iff in Hf. unfold occupies in Ho.
        destruct (tidy_mapping _ _ _ T I) as (?&?&?&?&?&?). destruct Hf as [Hf|Hf]; [apply Z.leb_gt in Hf|apply Z.ltb_ge in Hf]; lia. }
    split; auto. exists (Mapping id (ac_hw_id (ae_cache ent)) a sz). split; [exists ent; rewrite Esz; auto|reflexivity].
Qed.
(** With the component's own last word as end address, [map_abs] is [map]. *)
Lemma P_C36_exact : forall D (m : memory D) oc a id sz, mem_wf m -> is_u32 a -> comp_size m id = Some sz -> 4 <= a + sz <= 2 ^ 32 ->
  mem_map_abs oc m a (a + sz - 4) id = mem_map oc m a id.
Proof.
  intros D m oc a id sz W Ha Es Hb. unfold mem_map_abs, mem_map, internal_map. rewrite size_of_comp, Es.
  pose proof (comp_size_u32 _ _ _ W Es). unfold is_u32 in *. change (2 ^ 32) with 4294967296 in *.
  unfold add_u32 at 1 3. destruct (Z.ltb_spec (a + sz) 4294967296).
  - cbn [obind]. unfold sub_u32. destruct (Z.leb_spec 4 (a + sz)); [reflexivity|lia].
  - destruct oc; [reflexivity|]. assert (a + sz = 4294967296) as -> by lia. reflexivity.
Qed.
(** A component mapped with a smaller end address is nevertheless accessible beyond it, two accepted mappings can share
    addresses, and a range one word larger than the component is accepted. *)
Lemma P_C36_overlap_refuted : ~ (forall D (ops : bus_ops D) oc m mp mp' b, typed ops -> reachable ops oc m ->
  In mp (mm_maps (c_mem m)) -> In mp' (mm_maps (c_mem m)) -> occupies mp b -> occupies mp' b -> mp = mp').
Proof.
  intros H. assert (X : exists m0 m, board_new words_ops [[]; []] = Ret m0 /\ api_run words_ops false [AMapAbs 64 124 0; AMapAbs 32 36 1] m0 = Ret m /\
     mm_maps (c_mem m) = [Mapping 0 1 64 64; Mapping 1 1 32 64]).
  { eexists _, _. split; [vm_compute; reflexivity|]. split; vm_compute; reflexivity. }
  destruct X as (m0 & m & E & E1 & Em).
  assert (Hr : reachable words_ops false m). { exists [[]; []], [AMapAbs 64 124 0; AMapAbs 32 36 1], m0. split; auto. repeat constructor; cbn; unfold is_u32; lia. }
  specialize (H _ words_ops false m (Mapping 0 1 64 64) (Mapping 1 1 32 64) 64 words_typed Hr). rewrite Em in H.
  assert (Mapping 0 1 64 64 = Mapping 1 1 32 64); [|discriminate]. apply H; cbn; auto; unfold occupies; cbn; lia.
Qed.
(** The natural claim that map_abs makes the component answer exactly from the first address to the last is false. *)
Lemma P_C36_range_refuted : ~ (forall D (ops : bus_ops D) oc m a e id m' r mp, typed ops -> reachable ops oc m -> is_u32 a -> is_u32 e ->
  mem_map_abs oc (c_mem m) a e id = Ret (m', ROk r) -> In mp (mm_maps m') -> mp_aux_id mp = id ->
  forall b, b mod 4 = 0 -> (occupies mp b <-> a <= b <= e)).
Proof.
  intros H. assert (X : exists m0 m', board_new words_ops [[]] = Ret m0 /\ mem_map_abs false (c_mem m0) 0 64 0 = Ret (m', ROk (MappingRange 0 64)) /\
     mm_maps m' = [Mapping 0 1 0 64]).
  { eexists _, _. split; [vm_compute; reflexivity|]. split; vm_compute; reflexivity. }
  destruct X as (m0 & m' & E & E1 & Em).
  assert (Hr : reachable words_ops false m0) by (exists [[]], [], m0; repeat split; auto).
  assert (Ha : is_u32 0) by (unfold is_u32; lia). assert (He : is_u32 64) by (unfold is_u32; lia).
  specialize (H _ words_ops false m0 0 64 0 m' _ (Mapping 0 1 0 64) words_typed Hr Ha He E1). rewrite Em in H.
  destruct (H (or_introl eq_refl) eq_refl 64 eq_refl) as (_ & B). unfold occupies in B. cbn in B. lia.
Qed.
Lemma E_C36_outcome : exists m0 m' r, board_new words_ops [[]; []] = Ret m0 /\ mem_wf (c_mem m0) /\ mem_map_abs true (c_mem m0) 128 140 1 = Ret (m', ROk r) /\
  mm_maps m' = [Mapping 1 1 128 64].
Proof.
  destruct (board_new words_ops [[]; []]) as [m0|] eqn:E; [|discriminate].
  destruct (board_new_spec words_ops words_typed _ _ E) as (W0 & _). destruct W0 as (_ & W0 & _).
  vm_compute in E. injection E as <-. eexists _, _, _. split; [reflexivity|]. split; [exact W0|]. split; vm_compute; reflexivity.
Qed.
(** A component of 64 bytes at 128: the range 32 .. 36 is accepted for the other one, 96 .. 128 is not, nor is 32 .. 100. *)
Lemma E_C36_requests : exists m0 m1 r, board_new words_ops [[]; []] = Ret m0 /\ mem_map false (c_mem m0) 128 0 = Ret (m1, ROk r) /\ mem_wf m1 /\ tidy false m1 /\
  valid_range false m1 32 36 1 /\ (exists m2 r2, mem_map_abs false m1 32 36 1 = Ret (m2, ROk r2)) /\
  mem_map_abs false m1 96 128 1 = Ret (m1, RErr (AddressOverlaps (Mapping 0 1 128 64))) /\ mem_map_abs false m1 32 100 1 = Ret (m1, RErr (MappingTooLarge 64)).
Proof.
  destruct (board_new words_ops [[]; []]) as [m0|] eqn:E; [|discriminate].
  destruct (board_new_spec words_ops words_typed _ _ E) as (W0 & _ & _ & _ & Wm0). destruct W0 as (_ & W0 & _).
  vm_compute in E. injection E as <-. set (mm0 := c_mem _) in *.
  assert (A : is_u32 128) by (unfold is_u32; lia).
  destruct (mem_map false mm0 128 0) as [[m1 [r|]]|] eqn:E1; try (vm_compute in E1; discriminate).
  assert (W1 : mem_wf m1) by (eapply internal_map_wf; [| |exact E1]; auto).
  assert (T0 : tidy false mm0). { split; [|split]; cbn; [constructor|tauto|tauto]. }
  pose proof (mem_map_tidy false mm0 128 0 m1 _ W0 T0 A E1) as T1.
  vm_compute in E1. injection E1 as <- <-. eexists _, _, _. split; [reflexivity|]. split; [reflexivity|]. split; [exact W1|]. split; [exact T1|].
  split. { exists 64. split; [reflexivity|]. repeat split; try lia; try discriminate.
    - intros (mp & [<-|[]] & X). discriminate X.
    - intros mp b [<-|[]] Ho. unfold occupies in Ho. cbn in Ho. lia. }
  split; [eexists _, _; vm_compute; reflexivity|]. split; vm_compute; reflexivity.
Qed.
(** The same three components: the second status is that of the refused component. *)
Lemma E_C35_statuses : exists m0 m m' r, board_new words_ops [[]; []; []] = Ret m0 /\ api_run words_ops true [AMap 1024 1] m0 = Ret m /\
  map_contiguous true (c_mem m) 64 [2; 1] = Ret (m', r, [AuxStatus 2 1 [] (ROk (MappingRange 64 124)); AuxStatus 1 1 [] (RErr AlreadyMapped)]).
Proof.
  destruct (board_new words_ops [[]; []; []]) as [m0|] eqn:E; [|discriminate].
  destruct (api_run words_ops true [AMap 1024 1] m0) as [m|] eqn:E1; [|vm_compute in E; injection E as <-; vm_compute in E1; discriminate].
  destruct (map_contiguous true (c_mem m) 64 [2; 1]) as [[[m' r] sts]|] eqn:E2; [|vm_compute in E; injection E as <-; vm_compute in E1; injection E1 as <-; vm_compute in E2; discriminate].
  exists m0, m, m', r. split; [reflexivity|]. split; [exact E1|].
  vm_compute in E; injection E as <-; vm_compute in E1; injection E1 as <-. vm_compute in E2. injection E2 as <- <- <-. vm_compute. reflexivity.
Qed.

(* Concrete cases for the theorems above that have none beside them. *)
Lemma E_C31_guest : exists m m', words_run false 0 (map encode_word [Cpy R_a0 (Lit2 7); Wsa (Lit1 4) (Lit1 0) (Lit1 1)]) 1 = Ret m /\ wf m /\ next words_ops false m = Ret m' /\ mm_maps (c_mem m) = [Mapping 0 1 0 64].
Proof.
  assert (X : exists m, words_run false 0 (map encode_word [Cpy R_a0 (Lit2 7); Wsa (Lit1 4) (Lit1 0) (Lit1 1)]) 1 = Ret m) by (vm_compute; eauto). destruct X as (m & E).
  destruct (next words_ops false m) as [m'|] eqn:En; [|vm_compute in E; injection E as <-; vm_compute in En; discriminate].
  exists m, m'. split; auto. split; [eapply reachable_wf; [apply words_typed|eapply words_reachable; [|exact E]; unfold is_u32; lia]|]. split; auto.
  vm_compute in E. injection E as <-. reflexivity.
Qed.
Lemma E_C32_iff : exists m0, board_new words_ops [[]; []] = Ret m0 /\ mem_wf (c_mem m0) /\ tidy false (c_mem m0) /\ valid_request false (c_mem m0) 4294967232 0 64 /\
  (exists m' r, mem_map false (c_mem m0) 4294967232 0 = Ret (m', ROk r)) /\ ~ (exists m' r, mem_map false (c_mem m0) 4294967236 0 = Ret (m', ROk r)).
Proof.
  destruct E_C32_map as (m0 & m1 & mp & E & W & T & H & V & _). exists m0. split; auto. split; auto. split; auto. split; auto. split; [eauto|].
  intros (m' & r & X). vm_compute in E. injection E as <-. vm_compute in X. discriminate.
Qed.
Lemma E_C32_debug_panic : exists m0, board_new words_ops [[]; []] = Ret m0 /\ mem_wf (c_mem m0) /\ tidy true (c_mem m0) /\ comp_size (c_mem m0) 0 = Some 64 /\
  mem_map true (c_mem m0) 4294967232 0 = Panic /\ exists m' r, mem_map true (c_mem m0) 4294967228 0 = Ret (m', ROk r).
Proof.
  destruct E_C32_map as (m0 & m1 & mp & E & W & T & H & V & _). exists m0. split; auto. split; auto. vm_compute in E. injection E as <-.
  split; [split; [constructor|split; cbn; tauto]|]. split; [reflexivity|]. split; [vm_compute; reflexivity|]. eexists _, _. vm_compute. reflexivity.
Qed.
Lemma E_C33_in_range : exists m0 m, board_new words_ops [[7; 8; 9]; [5]] = Ret m0 /\ api_run words_ops false [AMapContiguous 128 [1; 0]] m0 = Ret m /\
  mem_wf (c_mem m) /\ mem_read words_ops false (c_mem m) 200 = Ret (c_mem m, 0, 9) /\ exists m', mem_write words_ops false (c_mem m) 200 4 = Ret (m', 0).
Proof.
  destruct E_C33_dispatch as (m0 & m & mp & E & E1 & W & T & _ & _ & Er & _). exists m0, m. split; auto. split; auto. split; auto. split; auto.
  vm_compute in E. injection E as <-. vm_compute in E1. injection E1 as <-. eexists. vm_compute. reflexivity.
Qed.
Lemma E_C33_others : let h := [AuxEntry [7] (AuxCache 0 1 [] (W8 0 1 64 0 0 0 0 0) 64); AuxEntry [8] (AuxCache 1 2 [] (W8 0 2 64 0 0 0 0 0) 64)] in
  znth (set_dev h 1 [9]) 1 <> znth h 1 /\ znth (set_dev h 1 [9]) 0 = znth h 0.
Proof. vm_compute. split; congruence. Qed.
Lemma E_C34_unmapped : exists m0 m, board_new words_ops [[7; 8; 9]; [5]] = Ret m0 /\ api_run words_ops false [AMapContiguous 128 [1; 0]] m0 = Ret m /\
  mem_wf (c_mem m) /\ is_u32 256 /\ 256 mod 4 = 0 /\ (forall q, In q (mm_maps (c_mem m)) -> ~ occupies q 256).
Proof. destruct E_C33_dispatch as (m0 & m & mp & E & E1 & W & T & _ & _ & _ & H). exists m0, m. repeat (split; [assumption|]). split; [unfold is_u32; lia|]. split; [reflexivity|assumption]. Qed.
Lemma E_C34_unaligned : exists m0 m, board_new words_ops [[7; 8; 9]; [5]] = Ret m0 /\ api_run words_ops false [AMapContiguous 128 [1; 0]] m0 = Ret m /\ 202 mod 4 <> 0 /\
  mem_read words_ops false (c_mem m) 200 <> Panic /\ mem_read words_ops false (c_mem m) 202 = Panic.
Proof.
  destruct E_C33_dispatch as (m0 & m & mp & E & E1 & W & T & _ & _ & Er & _). exists m0, m. split; auto. split; auto. split; [discriminate|]. split; [congruence|].
  apply (P_C34_unaligned _ words_ops false (c_mem m) 202 0). discriminate.
Qed.
Lemma E_C35_unknown_panics : exists m0, board_new words_ops [[]; []] = Ret m0 /\ In 2 [0; 2] /\ znth (mm_hwb (c_mem m0)) 2 = None /\ exists x, map_contiguous true (c_mem m0) 64 [0; 1] = Ret x.
Proof. eexists. split; [vm_compute; reflexivity|]. split; [right; left; reflexivity|]. split; [reflexivity|]. eexists. vm_compute. reflexivity. Qed.
Lemma E_C36_exact : exists m0, board_new words_ops [[]; []] = Ret m0 /\ mem_wf (c_mem m0) /\ comp_size (c_mem m0) 1 = Some 64 /\ 4 <= 128 + 64 <= 2 ^ 32 /\
  exists m' r, mem_map_abs true (c_mem m0) 128 188 1 = Ret (m', ROk r).
Proof.
  destruct E_C36_outcome as (m0 & m' & r & E & W & _). exists m0. split; auto. split; auto. vm_compute in E. injection E as <-. split; [reflexivity|]. split; [lia|].
  eexists _, _. vm_compute. reflexivity.
Qed.
