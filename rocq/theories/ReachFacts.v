(** Every state reachable through the API is well formed. *)
From Coq Require Import ZArith List Bool Lia.
From Verif Require Import Base Board Mem Cpu Asm SpecMach SpecIsa SpecBus SpecObs SpecMap BaseFacts RegFacts MemFacts
  AluFacts IsaFacts IsaStep MonoFacts CycleFacts UndFacts HoareFacts CyclePost InvFacts MapFacts.
Import ListNotations.
Open Scope Z_scope.
Ltac Zify.zify_post_hook ::= Z.div_mod_to_equations.

(** Names. *)
Lemma str_len_app p q : str_len (p ++ q) = str_len p + str_len q.
Proof. unfold str_len, utf8. rewrite flat_map_app. apply zlen_app. Qed.
Lemma str_len_nonneg p : 0 <= str_len p.
Proof. apply zlen_nonneg. Qed.
Lemma cut_rev_spec l : exists rest, rev l = cut_rev l ++ rest /\ str_len (cut_rev l) <= 32 /\
  forall p q, rev l = p ++ q -> str_len p <= 32 -> (length p <= length (cut_rev l))%nat.
Proof.
  induction l as [|c t IH]; cbn [cut_rev].
  - exists []. cbn. repeat split; auto; try lia. intros p q H _. destruct p; [auto|discriminate].
  - destruct (Z.ltb_spec 32 (str_len (rev (c :: t)))).
    + destruct IH as (rest & E & H1 & H2). exists (rest ++ [c]). split; [|split; auto].
      { cbn [rev]. rewrite E at 1. rewrite app_assoc. reflexivity. }
      intros p q Epq Hp. destruct q as [|x q] using rev_ind.
      { rewrite app_nil_r in Epq. subst p. lia. }
      clear IHq. cbn [rev] in Epq. rewrite app_assoc in Epq. apply app_inj_tail in Epq. destruct Epq as [Epq _].
      eauto.
    + exists []. rewrite app_nil_r. repeat split; auto.
      intros p q Epq _. rewrite Epq, app_length. lia.
Qed.
Lemma cut_name_spec name : exists rest, name = cut_name name ++ rest /\ str_len (cut_name name) <= 32 /\
  forall p q, name = p ++ q -> str_len p <= 32 -> (length p <= length (cut_name name))%nat.
Proof. unfold cut_name. pose proof (cut_rev_spec (rev name)) as H. rewrite rev_involutive in H. exact H. Qed.
Lemma cut_name_scalar name : Forall scalar name -> Forall scalar (cut_name name).
Proof.
  intros H. destruct (cut_name_spec name) as (rest & E & _). rewrite E in H. apply Forall_app in H. tauto.
Qed.

Section Reach.
Context {D : Type} (ops : bus_ops D) (T : typed ops).
Implicit Type m : cpu D.

Lemma hwb_new_from_spec ds : forall id h, hwb_new_from ops id ds = Ret h -> 0 <= id <= 4294967295 ->
  id + zlen h <= 4294967295 /\ Forall (fun e => cache_wf (ae_cache e)) h /\ map ae_dev h = ds /\
  forall k e, znth h k = Some e -> exists md, bo_metadata ops (ae_dev e) = Ret md /\
     ae_cache e = AuxCache (id + k) (w0 md * 4294967296 + w1 md) (cut_name (bo_name ops (ae_dev e))) md (w2 md).
Proof.
  induction ds as [|d t IH]; intros id h H Hid; cbn [hwb_new_from] in H.
  { injection H as <-. cbn. repeat split; auto; try lia. discriminate. }
  destruct (Z.ltb_spec id 4294967295); [|discriminate].
  inv_bind H. inv_bind H. injection H as <-. rename a into e, a0 into r.
  unfold create_from_aux in E. inv_bind E. injection E as <-. rename a into md.
  destruct (IH _ _ E0) as (I1 & I2 & I3 & I4); [lia|].
  rewrite zlen_cons. split; [lia|]. split; [|split].
  - constructor; auto. cbn [ae_cache].
    destruct (ty_meta _ T _ _ E1) as (?&?&?&?&?&?&?&?).
    repeat split; cbn; auto; try (unfold is_u32 in *; lia).
    + destruct (cut_name_spec (bo_name ops d)) as (? & _ & X & _). exact X.
    + apply cut_name_scalar, ty_name; auto.
  - cbn. rewrite I3. reflexivity.
  - intros k e Hk. cbn [znth] in Hk. destruct (Z.eqb_spec k 0).
    + injection Hk as <-. subst. exists md. cbn. rewrite Z.add_0_r. auto.
    + destruct (I4 _ _ Hk) as (md' & ? & Hc). exists md'. split; auto. rewrite Hc. f_equal. lia.
Qed.
Lemma board_new_spec ds m : board_new ops ds = Ret m ->
  wf m /\ mm_maps (c_mem m) = [] /\ map ae_dev (c_hwb m) = ds /\
  c_regs m = set_smt 1 regs_new /\ c_cycles m = 0 /\ c_halted m = true /\
  forall k e, znth (c_hwb m) k = Some e -> exists md, bo_metadata ops (ae_dev e) = Ret md /\
     ae_cache e = AuxCache k (w0 md * 4294967296 + w1 md) (cut_name (bo_name ops (ae_dev e))) md (w2 md).
Proof.
  unfold board_new. intros H. inv_bind H. injection H as <-. rename a into h.
  apply hwb_new_from_spec in E; [|lia]. destruct E as (E1 & E2 & E3 & E4).
  split; [|cbn; auto 10]. split; [apply regs_new_wf|]. split; [|cbn; unfold two128; lia].
  split; [auto|]. split; [constructor|]. cbn. lia.
Qed.

Lemma reset_where_caches test h h' : reset_where ops test h = Ret h' -> map ae_cache h' = map ae_cache h.
Proof. rewrite reset_where_sel. apply reset_sel_caches. Qed.
Lemma board_reset_inv m m' : board_reset ops m = Ret m' ->
  exists h, reset_sel ops 0 (fun _ => true) (c_hwb m) = Ret h /\
    m' = Cpu (set_smt 1 regs_new) (Memory h (mm_maps (c_mem m))) 0 false true.
Proof.
  unfold board_reset. intros H. inv_bind H. injection H as <-. rewrite reset_where_sel in E.
  exists a. split; auto.
Qed.
Lemma board_reset_wf m m' : wf m -> board_reset ops m = Ret m' -> wf m'.
Proof.
  intros (_ & Hm & _) H. apply board_reset_inv in H. destruct H as (h & E & ->).
  split; [apply regs_new_wf|]. split; [|cbn; unfold two128; lia].
  eapply mem_wf_ext; [|exact Hm]. apply reset_sel_caches in E. split; auto.
Qed.
Lemma wf_with_mem m mem : wf m -> mem_wf mem -> wf (with_mem mem m).
Proof. intros (? & _ & ?) ?. repeat split; auto; try apply H; try apply H0; try apply H1. Qed.

Lemma api_call_wf oc c m m' : wf m -> api_wf c -> api_call ops oc c m = Ret m' -> wf m'.
Proof.
  intros Hwf Hc H. destruct c; cbn [api_call api_wf] in *.
  - eapply next_wf; eauto.
  - eapply board_reset_wf; eauto.
  - destruct (mem_map _ _ _ _) as [[mem r]|] eqn:E; [|discriminate]. injection H as <-.
    apply wf_with_mem; auto. eapply internal_map_wf; [| |exact E]; [apply Hwf|apply Hc].
  - destruct (mem_map_abs _ _ _ _) as [[mem r]|] eqn:E; [|discriminate]. injection H as <-.
    apply wf_with_mem; auto. eapply internal_map_wf; [| |exact E]; [apply Hwf|apply Hc].
  - destruct (map_contiguous _ _ _ _) as [[[mem r] ?]|] eqn:E; [|discriminate]. injection H as <-.
    apply wf_with_mem; auto. eapply map_contiguous_wf; [| |exact E]; [apply Hwf|apply Hc].
  - destruct (mem_read _ _ _ _) as [[[mem r] ?]|] eqn:E; [|discriminate]. injection H as <-.
    apply wf_with_mem; auto. eapply mem_wf_ext; [eapply mem_read_ext; eauto|apply Hwf].
  - destruct (mem_write _ _ _ _ _) as [[mem r]|] eqn:E; [|discriminate]. injection H as <-.
    apply wf_with_mem; auto. eapply mem_wf_ext; [eapply mem_write_ext; eauto|apply Hwf].
Qed.

(** Induction over API histories. *)
Lemma api_run_ind oc (P : cpu D -> Prop) :
  (forall c m m', wf m -> P m -> api_wf c -> api_call ops oc c m = Ret m' -> P m') ->
  forall cs m m', wf m -> P m -> Forall api_wf cs -> api_run ops oc cs m = Ret m' -> wf m' /\ P m'.
Proof.
  intros HP. induction cs as [|c t IH]; intros m m' Hw Hm Hf H; cbn [api_run] in H.
  { injection H as <-. auto. }
  destruct (api_call ops oc c m) as [m1|] eqn:E; [|discriminate]. inversion Hf; subst.
  eapply IH; [| | |exact H]; eauto using api_call_wf.
Qed.
Lemma reachable_ind oc (P : cpu D -> Prop) :
  (forall ds m, board_new ops ds = Ret m -> wf m -> P m) ->
  (forall c m m', wf m -> P m -> api_wf c -> api_call ops oc c m = Ret m' -> P m') ->
  forall m, reachable ops oc m -> wf m /\ P m.
Proof.
  intros H0 HP m (ds & cs & m0 & Hf & Hn & Hr).
  assert (wf m0) by (apply (board_new_spec _ _ Hn)).
  eapply api_run_ind; eauto.
Qed.
Lemma reachable_wf oc m : reachable ops oc m -> wf m.
Proof. intros H. apply (reachable_ind oc (fun _ => True)) in H; tauto. Qed.

Lemma api_run_app oc cs cs' m m' m'' : api_run ops oc cs m = Ret m' -> api_run ops oc cs' m' = Ret m'' ->
  api_run ops oc (cs ++ cs') m = Ret m''.
Proof.
  revert m; induction cs as [|c t IH]; intros m H; cbn [api_run app] in *. { injection H as ->. auto. }
  destruct (api_call ops oc c m); [|discriminate]. eauto.
Qed.
Lemma reachable_step oc m c m' : reachable ops oc m -> api_wf c -> api_call ops oc c m = Ret m' -> reachable ops oc m'.
Proof.
  intros (ds & cs & m0 & Hf & Hn & Hr) Hc H. exists ds, (cs ++ [c]), m0. split; [apply Forall_app; auto|]. split; auto.
  eapply api_run_app; eauto. cbn. rewrite H. reflexivity.
Qed.
End Reach.
