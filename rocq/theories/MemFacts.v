(** Lemmas about the hardware bridge and the mapped memory. *)
From Coq Require Import ZArith List Bool Lia.
From Verif Require Import Base Board Mem Cpu Asm SpecMach BaseFacts.
Import ListNotations.
Open Scope Z_scope.
Ltac Zify.zify_post_hook ::= Z.div_mod_to_equations.

Lemma obind_ret {A B} (x : outcome A) (f : A -> outcome B) b :
  obind x f = Ret b -> exists a, x = Ret a /\ f a = Ret b.
Proof. destruct x; cbn; intros; [eauto|congruence]. Qed.

Ltac inv_bind H :=
  match type of H with
  | obind ?x ?f = Ret _ =>
      let a := fresh "a" in let E := fresh "E" in
      apply obind_ret in H; destruct H as (a & E & H); cbv beta in H
  end.

Section Hwb.
Context {D : Type} (ops : bus_ops D).
Implicit Type h : hwb D.

Lemma set_dev_length h i d : length (set_dev h i d) = length h.
Proof. revert i; induction h; intros; cbn; auto. destruct (i =? 0); cbn; auto. Qed.
Lemma set_dev_caches h i d : map ae_cache (set_dev h i d) = map ae_cache h.
Proof. revert i; induction h; intros; cbn; auto. destruct (i =? 0); cbn; f_equal; auto. Qed.
Lemma set_dev_znth h i d j e : znth h i = Some e ->
  znth (set_dev h i d) j = if j =? i then Some (AuxEntry d (ae_cache e)) else znth h j.
Proof.
  revert i j; induction h as [|x t IH]; intros i j; cbn [znth set_dev]; [congruence|].
  destruct (Z.eqb_spec i 0).
  - intros E; injection E as <-. subst. cbn [znth]. destruct (j =? 0); auto.
  - intros E. cbn [znth]. destruct (Z.eqb_spec j 0).
    + destruct (Z.eqb_spec j i); [lia|auto].
    + rewrite (IH _ _ E). destruct (Z.eqb_spec j i), (Z.eqb_spec (j - 1) (i - 1)); auto; lia.
Qed.
Lemma set_dev_Forall (P : aux_entry D -> Prop) h i d e : Forall P h -> znth h i = Some e ->
  P (AuxEntry d (ae_cache e)) -> Forall P (set_dev h i d).
Proof.
  revert i; induction h as [|x t IH]; intros i HF; cbn [znth set_dev]; [congruence|].
  inversion HF; subst.
  destruct (Z.eqb_spec i 0).
  - intros E; injection E as <-. constructor; auto.
  - intros; constructor; eauto.
Qed.
Lemma caches_znth h h' i : map ae_cache h' = map ae_cache h ->
  option_map ae_cache (znth h' i) = option_map ae_cache (znth h i).
Proof.
  revert h' i; induction h as [|x t IH]; intros h' i; destruct h' as [|y u]; cbn; try congruence.
  intros E; injection E as E1 E2. destruct (i =? 0); cbn; [congruence|]. auto.
Qed.
Lemma cache_of_caches h h' i : map ae_cache h' = map ae_cache h -> cache_of h' i = cache_of h i.
Proof. apply caches_znth. Qed.
Lemma caches_zlen h h' : map ae_cache h' = map ae_cache h -> zlen h' = zlen h.
Proof. intros E. unfold zlen. rewrite <- (map_length ae_cache h'), E, map_length. reflexivity. Qed.

(** The same board up to component states. *)
Definition mem_ext (m m' : memory D) : Prop :=
  mm_maps m' = mm_maps m /\ map ae_cache (mm_hwb m') = map ae_cache (mm_hwb m).
Lemma mem_ext_refl m : mem_ext m m.
Proof. split; auto. Qed.
Lemma mem_ext_trans m m' m'' : mem_ext m m' -> mem_ext m' m'' -> mem_ext m m''.
Proof. intros [? ?] [? ?]; split; congruence. Qed.

Lemma mapping_wf_caches h h' mp : map ae_cache h' = map ae_cache h -> mapping_wf h mp -> mapping_wf h' mp.
Proof.
  intros E (? & ? & ? & ? & e & Hn & Hs & Hh). split; [auto|]; split; [auto|]; split; [auto|]; split; [auto|].
  pose proof (caches_znth _ _ (mp_aux_id mp) E) as C. rewrite Hn in C.
  destruct (znth h' (mp_aux_id mp)) eqn:E'; cbn in C; [|discriminate]. injection C as C.
  exists a. rewrite C. auto.
Qed.
Lemma mem_wf_ext m m' : mem_ext m m' -> mem_wf m -> mem_wf m'.
Proof.
  intros [Hm Hc] (H1 & H2 & H3). split; [|split].
  - rewrite Forall_forall in *. intros e He.
    apply (in_map ae_cache) in He. rewrite Hc, in_map_iff in He.
    destruct He as (e' & E & I). rewrite <- E. auto.
  - rewrite Hm. eapply Forall_impl; [|exact H2]. intros; eapply mapping_wf_caches; eauto.
  - rewrite (caches_zlen _ _ Hc). auto.
Qed.
End Hwb.

Section Mem.
Context {D : Type} (ops : bus_ops D).
Implicit Type m : memory D.

Lemma find_o_some {A} (p : A -> outcome bool) l x : find_o p l = Ret (Some x) -> In x l /\ p x = Ret true.
Proof.
  induction l as [|y t IH]; cbn [find_o]; [congruence|]. intros H. inv_bind H.
  destruct a.
  - injection H as <-. split; [left; auto|auto].
  - destruct (IH H). split; [right|]; auto.
Qed.
Lemma find_o_none {A} (p : A -> outcome bool) l x : find_o p l = Ret None -> In x l -> p x = Ret false.
Proof.
  induction l as [|y t IH]; cbn [find_o]; [intros _ []|]. intros H. inv_bind H.
  destruct a; [congruence|]. intros [->|I]; auto.
Qed.

Lemma find_o_mono {A} (p q : A -> outcome bool) l r :
  (forall x b, p x = Ret b -> q x = Ret b) -> find_o p l = Ret r -> find_o q l = Ret r.
Proof.
  intros Hpq. induction l as [|y t IH]; cbn [find_o]; auto. intros H. inv_bind H.
  rewrite (Hpq _ _ E). cbn. destruct a; auto.
Qed.

Lemma end_addr_mono mp e : end_addr true mp = Ret e -> end_addr false mp = Ret e.
Proof.
  unfold end_addr. intros H. inv_bind H. rewrite (add_u32_mono _ _ _ E). cbn.
  apply sub_u32_mono; auto.
Qed.
Lemma covers_mono a mp b : covers true a mp = Ret b -> covers false a mp = Ret b.
Proof.
  unfold covers. destruct (mp_addr mp <=? a); auto. intros H. inv_bind H.
  rewrite (end_addr_mono _ _ E). exact H.
Qed.
Lemma mem_read_mono m a r : mem_read ops true m a = Ret r -> mem_read ops false m a = Ret r.
Proof.
  unfold mem_read. destruct (a mod 4 =? 0); auto. intros H. inv_bind H.
  rewrite (find_o_mono _ _ _ _ (covers_mono a) E). exact H.
Qed.
Lemma mem_write_mono m a w r : mem_write ops true m a w = Ret r -> mem_write ops false m a w = Ret r.
Proof.
  unfold mem_write. destruct (a mod 4 =? 0); auto. intros H. inv_bind H.
  rewrite (find_o_mono _ _ _ _ (covers_mono a) E). exact H.
Qed.

(** The mapping covering an address: exact meaning in both profiles. *)
Lemma end_addr_val oc mp e : is_u32 (mp_addr mp) -> 0 < mp_size mp < 4294967296 ->
  end_addr oc mp = Ret e ->
  (mp_addr mp + mp_size mp < 4294967296 /\ e = mp_addr mp + mp_size mp - 1) \/
  (oc = false /\ 4294967296 <= mp_addr mp + mp_size mp /\ e = (mp_addr mp + mp_size mp - 1) mod 4294967296).
Proof.
  unfold end_addr, is_u32. intros Ha Hs H. inv_bind H.
  unfold add_u32 in E. destruct (Z.ltb_spec (mp_addr mp + mp_size mp) 4294967296).
  - injection E as <-. unfold sub_u32 in H.
    destruct (Z.leb_spec 1 (mp_addr mp + mp_size mp)); [|lia]. injection H as <-. left; lia.
  - right. destruct oc; [discriminate|]. injection E as <-.
    rewrite sub_u32_release in H; try lia.
    2:{ unfold u32; lia. }
    injection H as <-. repeat split; auto. unfold u32. 
    rewrite Zminus_mod_idemp_l. reflexivity.
Qed.

Lemma covers_true oc a mp : is_u32 (mp_addr mp) -> 0 < mp_size mp < 4294967296 -> is_u32 a ->
  covers oc a mp = Ret true -> mp_addr mp <= a < mp_addr mp + mp_size mp.
Proof.
  unfold covers. intros Ha Hs Hu H.
  destruct (Z.leb_spec (mp_addr mp) a); [|congruence].
  inv_bind H. injection H as H. apply Z.leb_le in H.
  apply end_addr_val in E; auto. unfold is_u32 in *. lia.
Qed.
Lemma covers_release_total a mp : 0 <= mp_addr mp < 4294967296 -> 0 <= mp_size mp -> exists b, covers false a mp = Ret b.
Proof.
  intros. unfold covers. destruct (mp_addr mp <=? a); eauto.
  unfold end_addr. rewrite add_u32_release by lia. cbn.
  rewrite sub_u32_release by (unfold u32; lia). cbn. eauto.
Qed.
Lemma find_o_total {A} (p : A -> outcome bool) l :
  (forall x, In x l -> exists b, p x = Ret b) -> exists r, find_o p l = Ret r.
Proof.
  induction l as [|y t IH]; cbn [find_o]; intros H; eauto.
  destruct (H y) as [b ->]; [left; auto|]. cbn. destruct b; eauto. apply IH. intros; apply H; right; auto.
Qed.

Lemma mapping_size_u32 (h : hwb D) mp :
  Forall (fun e => cache_wf (ae_cache e)) h -> mapping_wf h mp -> 0 < mp_size mp < 4294967296.
Proof.
  intros HF (_ & _ & ? & _ & e & Hn & Hs & _). split; auto.
  apply znth_In in Hn. rewrite Forall_forall in HF. apply HF in Hn.
  destruct Hn as (_ & _ & H2 & _ & _ & _ & _ & _ & S & _). rewrite Hs, S. apply H2.
Qed.

Lemma hwb_read_inv h i a h' ex v : hwb_read ops h i a = Ret (Some (h', ex, v)) ->
  a mod 4 = 0 /\ exists e d, znth h i = Some e /\ bo_read ops (ae_dev e) a = Ret (d, ex, v) /\ h' = set_dev h i d.
Proof.
  unfold hwb_read. destruct (Z.eqb_spec (a mod 4) 0); [|congruence]. intros H. split; auto.
  destruct (znth h i) eqn:En; [|congruence]. inv_bind H. destruct a1 as [[d ex'] v'].
  injection H as <- <- <-. exists a0, d. auto.
Qed.
Lemma hwb_write_inv h i a w h' ex : hwb_write ops h i a w = Ret (Some (h', ex)) ->
  a mod 4 = 0 /\ exists e d, znth h i = Some e /\ bo_write ops (ae_dev e) a w = Ret (d, ex) /\ h' = set_dev h i d.
Proof.
  unfold hwb_write. destruct (Z.eqb_spec (a mod 4) 0); [|congruence]. intros H. split; auto.
  destruct (znth h i) eqn:En; [|congruence]. inv_bind H. destruct a1 as [d ex'].
  injection H as <- <-. exists a0, d. auto.
Qed.

Lemma mem_read_inv oc m a m' ex v : mem_read ops oc m a = Ret (m', ex, v) ->
  a mod 4 = 0 /\
  ((find_o (covers oc a) (mm_maps m) = Ret None /\ m' = m /\ ex = 0 /\ v = 0) \/
   exists mp e d, find_o (covers oc a) (mm_maps m) = Ret (Some mp) /\
     znth (mm_hwb m) (mp_aux_id mp) = Some e /\
     bo_read ops (ae_dev e) (a - mp_addr mp) = Ret (d, ex, v) /\
     m' = Memory (set_dev (mm_hwb m) (mp_aux_id mp) d) (mm_maps m)).
Proof.
  unfold mem_read. destruct (Z.eqb_spec (a mod 4) 0); [|congruence]. intros H. split; auto.
  inv_bind H. destruct a0 as [mp|].
  - right. inv_bind H. inv_bind H. destruct a1 as [[h ex'] v'].
    destruct a0 as [[[h0 ex0] v0]|]; [|discriminate]. injection E1 as -> -> ->. injection H as <- <- <-.
    apply hwb_read_inv in E0. destruct E0 as (_ & e' & d & ? & ? & ->).
    exists mp, e', d. auto.
  - left. injection H as <- <- <-. auto.
Qed.
Lemma mem_write_inv oc m a w m' ex : mem_write ops oc m a w = Ret (m', ex) ->
  a mod 4 = 0 /\
  ((find_o (covers oc a) (mm_maps m) = Ret None /\ m' = m /\ ex = 0) \/
   exists mp e d, find_o (covers oc a) (mm_maps m) = Ret (Some mp) /\
     znth (mm_hwb m) (mp_aux_id mp) = Some e /\
     bo_write ops (ae_dev e) (a - mp_addr mp) w = Ret (d, ex) /\
     m' = Memory (set_dev (mm_hwb m) (mp_aux_id mp) d) (mm_maps m)).
Proof.
  unfold mem_write. destruct (Z.eqb_spec (a mod 4) 0); [|congruence]. intros H. split; auto.
  inv_bind H. destruct a0 as [mp|].
  - right. inv_bind H. inv_bind H. destruct a1 as [h ex'].
    destruct a0 as [[h0 ex0]|]; [|discriminate]. injection E1 as -> ->. injection H as <- <-.
    apply hwb_write_inv in E0. destruct E0 as (_ & e' & d & ? & ? & ->).
    exists mp, e', d. auto.
  - left. injection H as <- <-. auto.
Qed.

Lemma mem_read_ext oc m a m' ex v : mem_read ops oc m a = Ret (m', ex, v) -> mem_ext m m'.
Proof.
  intros H. apply mem_read_inv in H. destruct H as (_ & [(_ & -> & _) | (mp & e & d & _ & _ & _ & ->)]).
  - apply mem_ext_refl.
  - split; cbn; auto. apply set_dev_caches.
Qed.
Lemma mem_write_ext oc m a w m' ex : mem_write ops oc m a w = Ret (m', ex) -> mem_ext m m'.
Proof.
  intros H. apply mem_write_inv in H. destruct H as (_ & [(_ & -> & _) | (mp & e & d & _ & _ & _ & ->)]).
  - apply mem_ext_refl.
  - split; cbn; auto. apply set_dev_caches.
Qed.
Lemma mem_read_typed oc m a m' ex v : typed ops -> mem_read ops oc m a = Ret (m', ex, v) -> is_u16 ex /\ is_u32 v.
Proof.
  intros T H. apply mem_read_inv in H. destruct H as (_ & [(_ & -> & -> & ->) | (mp & e & d & _ & _ & E & ->)]).
  - unfold is_u16, is_u32; lia.
  - eapply ty_read; eauto.
Qed.
Lemma mem_write_typed oc m a w m' ex : typed ops -> mem_write ops oc m a w = Ret (m', ex) -> is_u16 ex.
Proof.
  intros T H. apply mem_write_inv in H. destruct H as (_ & [(_ & -> & ->) | (mp & e & d & _ & _ & E & ->)]).
  - unfold is_u16; lia.
  - eapply ty_write; eauto.
Qed.

(** Aligned accesses never panic in release builds, provided components behave. *)
Section NoPanic.
Context (inv : Z -> D -> Prop) (B : behaved ops inv).

Lemma find_covers_release m a : mem_wf m -> exists r, find_o (covers false a) (mm_maps m) = Ret r.
Proof.
  intros (HF & HM & _). apply find_o_total. intros mp I.
  rewrite Forall_forall in HM. apply HM in I. destruct I as (Ha & _ & Hs & _).
  apply covers_release_total; [exact Ha|lia].
Qed.

Lemma devs_znth m i e : devs_ok inv m -> znth (mm_hwb m) i = Some e -> inv (ac_size (ae_cache e)) (ae_dev e).
Proof. intros H E. apply znth_In in E. unfold devs_ok in H. rewrite Forall_forall in H. auto. Qed.

Lemma mem_read_offset oc m a mp e : mem_wf m -> is_u32 a -> a mod 4 = 0 ->
  find_o (covers oc a) (mm_maps m) = Ret (Some mp) -> znth (mm_hwb m) (mp_aux_id mp) = Some e ->
  0 <= a - mp_addr mp < ac_size (ae_cache e) /\ (a - mp_addr mp) mod 4 = 0.
Proof.
  intros (HF & HM & _) Ha Hal E En. apply find_o_some in E. destruct E as (I & C).
  rewrite Forall_forall in HM. apply HM in I. pose proof (mapping_size_u32 _ _ HF I).
  destruct I as (Hma & Hmal & Hms & Hmsal & e' & En' & Hs & _).
  rewrite En in En'; injection En' as <-.
  apply covers_true in C; auto. rewrite <- Hs. split; lia.
Qed.

Lemma mem_read_safe m a : mem_wf m -> devs_ok inv m -> is_u32 a -> a mod 4 = 0 ->
  exists m' ex v, mem_read ops false m a = Ret (m', ex, v) /\ devs_ok inv m'.
Proof.
  intros W HD Ha Hal. unfold mem_read. rewrite (proj2 (Z.eqb_eq _ _) Hal).
  destruct (find_covers_release m a W) as [[mp|] E]; rewrite E; cbn [obind].
  - assert (Hz : exists e, znth (mm_hwb m) (mp_aux_id mp) = Some e).
    { destruct W as (_ & HM & _). rewrite Forall_forall in HM.
      apply find_o_some in E. destruct E as (I & _). apply HM in I.
      destruct I as (_ & _ & _ & _ & e & ? & _). eauto. }
    destruct Hz as [e En].
    destruct (mem_read_offset _ _ _ _ _ W Ha Hal E En) as (Ho & Hoal).
    destruct (bh_read _ _ B _ _ _ (devs_znth _ _ _ HD En) Ho Hoal) as (d & ex & v & Hr & Hi).
    unfold hwb_read. rewrite (proj2 (Z.eqb_eq _ _) Hoal), En, Hr. cbn.
    repeat eexists. eapply set_dev_Forall; eauto.
  - repeat eexists; auto.
Qed.
Lemma mem_write_safe m a w : mem_wf m -> devs_ok inv m -> is_u32 a -> a mod 4 = 0 -> is_u32 w ->
  exists m' ex, mem_write ops false m a w = Ret (m', ex) /\ devs_ok inv m'.
Proof.
  intros W HD Ha Hal Hw. unfold mem_write. rewrite (proj2 (Z.eqb_eq _ _) Hal).
  destruct (find_covers_release m a W) as [[mp|] E]; rewrite E; cbn [obind].
  - assert (Hz : exists e, znth (mm_hwb m) (mp_aux_id mp) = Some e).
    { destruct W as (_ & HM & _). rewrite Forall_forall in HM.
      apply find_o_some in E. destruct E as (I & _). apply HM in I.
      destruct I as (_ & _ & _ & _ & e & ? & _). eauto. }
    destruct Hz as [e En].
    destruct (mem_read_offset _ _ _ _ _ W Ha Hal E En) as (Ho & Hoal).
    destruct (bh_write _ _ B _ _ _ _ (devs_znth _ _ _ HD En) Ho Hoal Hw) as (d & ex & Hr & Hi).
    unfold hwb_write. rewrite (proj2 (Z.eqb_eq _ _) Hoal), En, Hr. cbn.
    repeat eexists. eapply set_dev_Forall; eauto.
  - repeat eexists; auto.
Qed.
End NoPanic.
End Mem.
