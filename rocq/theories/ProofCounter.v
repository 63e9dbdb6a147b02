(** Proofs about the asynchronous counter, for every interleaving. *)
From Coq Require Import ZArith List Bool Lia.
From Verif Require Import Base Board Asm Tools Counter SpecCounter SpecAsm SpecDev BaseFacts DevTyped ProofTools.
Import ListNotations.
Open Scope Z_scope.
Ltac Zify.zify_post_hook ::= Z.div_mod_to_equations.

Lemma set_nth_length {A} (l : list A) n x : length (set_nth l n x) = length l.
Proof. revert n; induction l; intros [|n]; cbn; auto. Qed.
Lemma set_nth_same {A} (l : list A) n x d : (n < length l)%nat -> nth n (set_nth l n x) d = x.
Proof. revert n; induction l; intros [|n] H; cbn in *; try lia; auto. apply IHl. lia. Qed.
Lemma set_nth_error {A} (l : list A) n x k : nth_error (set_nth l n x) k = if Nat.eqb n k then match nth_error l n with Some _ => Some x | None => None end else nth_error l k.
Proof.
  revert n k; induction l as [|a l IH]; intros [|n] [|k]; cbn; auto; try apply IH.
  destruct (Nat.eqb n k); auto.
Qed.

(** The thread the component is responsible for. *)
Definition current (w : world) : option nat :=
  match wd_owner w with
  | OStore _ h | OJoin _ h => Some h
  | OIdle => wd_handle w
  | _ => None
  end.
Definition joined (w : world) : bool := match wd_owner w with OStore _ _ | OJoin _ _ => true | _ => false end.
Record inv (tr : list label) (w : world) : Prop := Inv {
  i_counter : (wd_counter w < length (wd_counters w))%nat;
  i_flag : (wd_flag w < length (wd_flags w))%nat;
  i_handle : wd_owner w <> OIdle -> wd_handle w = None;
  i_cur : forall j, current w = Some j -> exists t, nth_error (wd_threads w) j = Some t /\ th_counter t = wd_counter w /\ th_flag t = wd_flag w /\ last_thread tr = Some j;
  i_alive : forall j, alive w j -> current w = Some j;
  i_unset : forall j, current w = Some j -> (forall k h, wd_owner w <> OJoin k h) -> nth (wd_flag w) (wd_flags w) false = false /\ alive w j;
  i_set : forall k h, wd_owner w = OJoin k h -> nth (wd_flag w) (wd_flags w) false = true;
  i_value : nth (wd_counter w) (wd_counters w) 0 = match wd_owner w with ONewFlag | OSpawn => 0 | _ => ticks tr mod 2 ^ 32 end;
  i_pace : forall j t, nth_error (wd_threads w) j = Some t -> match th_pc t with TPoll i => 1 <= i <= 99 /\ polls j tr = i - 1 | TAdd => polls j tr = 99 | TDone => True end;
  i_fresh : wd_owner w = OSpawn -> nth (wd_flag w) (wd_flags w) false = false;
  i_last : forall j, last_thread tr = Some j -> (j < length (wd_threads w))%nat }.


Lemma inv_new : inv [] world_new.
Proof.
  split; cbn; auto; try lia; try discriminate; try congruence.
  - intros j (t & H & _). destruct j; discriminate.
  - intros j t H. destruct j; discriminate.
Qed.
Lemma with_thread_eq w j t p : nth_error (wd_threads w) j = Some t ->
  with_thread w j p = World (wd_counters w) (wd_flags w) (set_nth (wd_threads w) j (Thread (th_counter t) (th_flag t) p)) (wd_counter w) (wd_flag w) (wd_handle w) (wd_owner w).
Proof. intros H. unfold with_thread. rewrite H. reflexivity. Qed.

(** A step of thread [j] that keeps the cells. *)
Lemma inv_thread tr w j t p l : inv tr w -> nth_error (wd_threads w) j = Some t -> th_pc t <> TDone ->
  l = LPoll j true /\ p = TDone /\ nth (wd_flag w) (wd_flags w) false = true \/
  l = LPoll j false /\ (exists i, th_pc t = TPoll i /\ p = if i + 1 <? 100 then TPoll (i + 1) else TAdd) ->
  inv (l :: tr) (with_thread w j p).
Proof.
  intros V Ht Hp HL. assert (HA : alive w j) by (exists t; auto). pose proof (i_alive _ _ V j HA) as Hc. rewrite (with_thread_eq w j t p Ht).
  destruct (i_cur _ _ V j Hc) as (t' & Ht' & C1 & C2 & C3). rewrite Ht in Ht'. injection Ht' as <-.
  assert (LT : last_thread (l :: tr) = last_thread tr) by (destruct HL as [(-> & _)|(-> & _)]; reflexivity).
  assert (TK : ticks (l :: tr) = ticks tr) by (destruct HL as [(-> & _)|(-> & _)]; reflexivity).
  assert (Hb : (j < length (wd_threads w))%nat) by (apply nth_error_Some; congruence).
  split; cbn [wd_counter wd_counters wd_flag wd_flags wd_threads wd_handle wd_owner].
  - apply V.
  - apply V.
  - apply V.
  - intros k Hk. change (current w = Some k) in Hk. assert (k = j) as -> by congruence. exists (Thread (th_counter t) (th_flag t) p). rewrite set_nth_error, Nat.eqb_refl, Ht, LT. auto.
  - intros k (t2 & E & N). cbn in E. rewrite set_nth_error in E. change (current w = Some k). destruct (Nat.eqb_spec j k) as [<-|]; [auto|]. apply (i_alive _ _ V). exists t2. auto.
  - intros k Hk HJ. change (current w = Some k) in Hk. assert (k = j) as -> by congruence. destruct (i_unset _ _ V j Hk HJ) as (U1 & U2). split; auto.
    destruct HL as [(_ & _ & X)|(_ & i & X & ->)]; [congruence|]. exists (Thread (th_counter t) (th_flag t) (if i + 1 <? 100 then TPoll (i + 1) else TAdd)). cbn. rewrite set_nth_error, Nat.eqb_refl, Ht. split; auto. destruct (i + 1 <? 100); discriminate.
  - apply V.
  - rewrite TK. apply V.
  - intros k t2 E. rewrite set_nth_error in E. destruct (Nat.eqb_spec j k) as [<-|NE].
    + rewrite Ht in E. injection E as <-. cbn [th_pc]. pose proof (i_pace _ _ V j t Ht) as P. destruct HL as [(-> & -> & _)|(-> & i & X & ->)]; [exact I|]. rewrite X in P. destruct P as (P1 & P2).
      destruct (Z.ltb_spec (i + 1) 100); cbn [polls]; rewrite Nat.eqb_refl; try lia.
    + pose proof (i_pace _ _ V k t2 E) as P. assert (polls k (l :: tr) = polls k tr) as ->; auto. apply Nat.eqb_neq in NE. destruct HL as [(-> & _)|(-> & _)]; cbn [polls]; rewrite ?NE; reflexivity.
  - apply V.
  - rewrite set_nth_length, LT. apply V.
Qed.
Lemma inv_add tr w j t : inv tr w -> nth_error (wd_threads w) j = Some t -> th_pc t = TAdd ->
  inv (LAdd j :: tr) (with_thread (World (set_nth (wd_counters w) (th_counter t) (u32 (nth (th_counter t) (wd_counters w) 0 + 1))) (wd_flags w) (wd_threads w) (wd_counter w) (wd_flag w) (wd_handle w) (wd_owner w)) j (TPoll 1)).
Proof.
  intros V Ht Hp. assert (HA : alive w j) by (exists t; split; [auto|congruence]). pose proof (i_alive _ _ V j HA) as Hc. erewrite with_thread_eq by (cbn; exact Ht).
  destruct (i_cur _ _ V j Hc) as (t' & Ht' & C1 & C2 & C3). rewrite Ht in Ht'. injection Ht' as <-.
  split; cbn [wd_counter wd_counters wd_flag wd_flags wd_threads wd_handle wd_owner last_thread ticks].
  - rewrite set_nth_length. apply V.
  - apply V.
  - apply V.
  - intros k Hk. change (current w = Some k) in Hk. assert (k = j) as -> by congruence. eexists. rewrite set_nth_error, Nat.eqb_refl, Ht. cbn. split; [reflexivity|]. auto.
  - intros k (t2 & E & N). cbn in E. rewrite set_nth_error in E. change (current w = Some k). destruct (Nat.eqb_spec j k) as [<-|]; [auto|]. apply (i_alive _ _ V). exists t2. auto.
  - intros k Hk HJ. change (current w = Some k) in Hk. assert (k = j) as -> by congruence. destruct (i_unset _ _ V j Hk HJ) as (U1 & U2). split; auto.
    exists (Thread (th_counter t) (th_flag t) (TPoll 1)). cbn. rewrite set_nth_error, Nat.eqb_refl, Ht. split; [auto|discriminate].
  - apply V.
  - rewrite C1. rewrite set_nth_same by apply V. rewrite (i_value _ _ V). unfold current in Hc. unfold u32.
    destruct (wd_owner w); try discriminate; change 4294967296 with (2 ^ 32); rewrite Zplus_mod_idemp_l; f_equal; lia.
  - intros k t2 E. rewrite set_nth_error in E. destruct (Nat.eqb_spec j k) as [<-|NE].
    + rewrite Ht in E. injection E as <-. cbn. rewrite Nat.eqb_refl. lia.
    + cbn. apply Nat.eqb_neq in NE. rewrite NE. apply (i_pace _ _ V k t2 E).
  - apply V.
  - rewrite set_nth_length. apply V.
Qed.
Lemma dead_after_join tr w k h : inv tr w -> wd_owner w = OJoin k h -> is_done w h = true -> forall j, ~ alive w j.
Proof.
  intros V Ho Hd j HA. pose proof (i_alive _ _ V j HA) as Hc. unfold current in Hc. rewrite Ho in Hc. injection Hc as ->. unfold is_done in Hd. destruct HA as (t & E & N). rewrite E in Hd. destruct (th_pc t); congruence.
Qed.
Lemma inv_step tr w c l w' : inv tr w -> exec w c = Some (l, w') -> inv (l :: tr) w'.
Proof.
  intros V H. destruct c; cbn [exec] in H.
  - (* read *) destruct (wd_owner w) eqn:Ho; try discriminate. injection H as <- <-. destruct V. split; cbn [last_thread ticks polls]; auto.
  - (* write *) destruct (wd_owner w) eqn:Ho; try discriminate. injection H as <- <-. destruct V. split; cbn [last_thread ticks polls]; auto.
  - (* stop *) destruct (wd_owner w) eqn:Ho; try discriminate. injection H as <- <-. destruct V as [v1 v2 v3 v4 v5 v6 v7 v8 v9 v10 v11]. unfold current in *. rewrite Ho in *.
    split; unfold current; cbn [with_owner wd_counter wd_counters wd_flag wd_flags wd_threads wd_handle wd_owner last_thread ticks polls]; auto.
    + destruct (wd_handle w) as [h|]; [|discriminate]. intros j E. injection E as <-. auto.
    + intros j HA. specialize (v5 j HA). destruct (wd_handle w) as [h|]; [auto|discriminate].
    + destruct (wd_handle w) as [h|]; [|discriminate]. intros j E HJ. injection E as <-. apply v6; auto. discriminate.
    + destruct (wd_handle w); discriminate.
    + rewrite v8. destruct (wd_handle w); reflexivity.
    + destruct (wd_handle w); discriminate.
  - (* reset *) destruct (wd_owner w) eqn:Ho; try discriminate. injection H as <- <-. destruct V as [v1 v2 v3 v4 v5 v6 v7 v8 v9 v10 v11]. unfold current in *. rewrite Ho in *.
    split; unfold current; cbn [with_owner wd_counter wd_counters wd_flag wd_flags wd_threads wd_handle wd_owner last_thread ticks polls]; auto.
    + destruct (wd_handle w) as [h|]; [|discriminate]. intros j E. injection E as <-. auto.
    + intros j HA. specialize (v5 j HA). destruct (wd_handle w) as [h|]; [auto|discriminate].
    + destruct (wd_handle w) as [h|]; [|discriminate]. intros j E HJ. injection E as <-. apply v6; auto. discriminate.
    + destruct (wd_handle w); discriminate.
    + rewrite v8. destruct (wd_handle w); reflexivity.
    + destruct (wd_handle w); discriminate.
  - (* drop *) destruct (wd_owner w) eqn:Ho; try discriminate. injection H as <- <-. destruct V as [v1 v2 v3 v4 v5 v6 v7 v8 v9 v10 v11]. unfold current in *. rewrite Ho in *.
    split; unfold current; cbn [with_owner wd_counter wd_counters wd_flag wd_flags wd_threads wd_handle wd_owner last_thread ticks polls]; auto.
    + destruct (wd_handle w) as [h|]; [|discriminate]. intros j E. injection E as <-. auto.
    + intros j HA. specialize (v5 j HA). destruct (wd_handle w) as [h|]; [auto|discriminate].
    + destruct (wd_handle w) as [h|]; [|discriminate]. intros j E HJ. injection E as <-. apply v6; auto. discriminate.
    + destruct (wd_handle w); discriminate.
    + rewrite v8. destruct (wd_handle w); reflexivity.
    + destruct (wd_handle w); discriminate.
  - (* continue *) assert (H' : owner_step w = Some (l, w')) by (destruct (wd_owner w); exact H). clear H. unfold owner_step in H'. destruct (wd_owner w) as [|k h|k h| | | |] eqn:Ho; try discriminate.
    + injection H' as <- <-. destruct V as [v1 v2 v3 v4 v5 v6 v7 v8 v9 v10 v11]. unfold current in *. rewrite Ho in *.
      split; unfold current; cbn [wd_counter wd_counters wd_flag wd_flags wd_threads wd_handle wd_owner last_thread ticks polls]; auto.
      * rewrite set_nth_length. auto.
      * intros _. apply v3. discriminate.
      * intros j E HJ. exfalso. exact (HJ k h eq_refl).
      * intros k0 h0 E. apply set_nth_same. auto.
      * discriminate.
    + destruct (is_done w h) eqn:Hd; [|discriminate]. injection H' as <- <-. pose proof (dead_after_join _ _ _ _ V Ho Hd) as DD. destruct V as [v1 v2 v3 v4 v5 v6 v7 v8 v9 v10 v11]. unfold current in *. rewrite Ho in *.
      assert (HN : wd_handle w = None) by (apply v3; discriminate).
      split; unfold current; cbn [with_owner wd_counter wd_counters wd_flag wd_flags wd_threads wd_handle wd_owner last_thread ticks polls]; auto.
      * destruct k; try discriminate. rewrite HN. discriminate.
      * intros j HA. destruct (DD j HA).
      * destruct k; try discriminate. rewrite HN. discriminate.
      * destruct k; discriminate.
      * rewrite v8. destruct k; reflexivity.
      * destruct k; discriminate.
    + injection H' as <- <-. destruct V as [v1 v2 v3 v4 v5 v6 v7 v8 v9 v10 v11]. unfold current in *. rewrite Ho in *.
      split; unfold current; cbn [wd_counter wd_counters wd_flag wd_flags wd_threads wd_handle wd_owner last_thread ticks polls]; auto; try discriminate.
      * rewrite app_length. cbn. lia.
      * intros _. apply v3. discriminate.
      * rewrite app_nth2, Nat.sub_diag by lia. reflexivity.
    + injection H' as <- <-. destruct V as [v1 v2 v3 v4 v5 v6 v7 v8 v9 v10 v11]. unfold current in *. rewrite Ho in *.
      split; unfold current; cbn [wd_counter wd_counters wd_flag wd_flags wd_threads wd_handle wd_owner last_thread ticks polls]; auto; try discriminate.
      * rewrite app_length. cbn. lia.
      * intros _. apply v3. discriminate.
      * intros _. rewrite app_nth2, Nat.sub_diag by lia. reflexivity.
    + injection H' as <- <-. destruct V as [v1 v2 v3 v4 v5 v6 v7 v8 v9 v10 v11]. unfold current in *. rewrite Ho in *.
      assert (NT : forall k, nth_error (wd_threads w ++ [Thread (wd_counter w) (wd_flag w) (TPoll 1)]) k = if Nat.eqb (length (wd_threads w)) k then Some (Thread (wd_counter w) (wd_flag w) (TPoll 1)) else nth_error (wd_threads w) k).
      { intros k. destruct (Nat.eqb_spec (length (wd_threads w)) k) as [<-|N]; [rewrite nth_error_app2, Nat.sub_diag by lia; reflexivity|].
        destruct (Nat.lt_ge_cases k (length (wd_threads w))); [apply nth_error_app1; auto|]. rewrite (proj2 (nth_error_None (wd_threads w) k)) by lia. apply nth_error_None. rewrite app_length. cbn. lia. }
      split; unfold current; cbn [wd_counter wd_counters wd_flag wd_flags wd_threads wd_handle wd_owner last_thread ticks]; auto; try discriminate; try congruence.
      * intros j E. injection E as <-. rewrite NT, Nat.eqb_refl. eexists. split; [reflexivity|]. auto.
      * intros j (t & E & N). cbn in E. rewrite NT in E. destruct (Nat.eqb_spec (length (wd_threads w)) j) as [<-|]; [auto|]. exfalso. assert (None = Some j); [|discriminate]. apply v5. exists t. auto.
      * intros j E _. injection E as <-. split; [|exists (Thread (wd_counter w) (wd_flag w) (TPoll 1)); cbn; rewrite NT, Nat.eqb_refl; split; [auto|discriminate]]. apply v10; reflexivity.
      * intros j t E. rewrite NT in E. cbn [polls]. destruct (Nat.eqb_spec (length (wd_threads w)) j) as [<-|]; [injection E as <-; cbn; lia|]. apply v9; auto.
      * intros j E. injection E as <-. rewrite app_length. cbn. lia.
  - (* thread *) assert (H' : thread_step w j = Some (l, w')) by (destruct (wd_owner w); exact H). clear H. unfold thread_step in H'. destruct (nth_error (wd_threads w) j) as [t|] eqn:Ht; [|discriminate].
    destruct (th_pc t) as [i| |] eqn:Hp; try discriminate.
    + assert (HA : alive w j) by (exists t; split; [auto|congruence]). destruct (i_cur _ _ V j (i_alive _ _ V j HA)) as (t' & Ht' & _ & C2 & _). rewrite Ht in Ht'. injection Ht' as <-. rewrite C2 in H'.
      destruct (nth (wd_flag w) (wd_flags w) false) eqn:Hf; injection H' as <- <-; eapply inv_thread; eauto; congruence.
    + injection H' as <- <-. apply inv_add; auto.
Qed.
Lemma history_inv tr w : history tr w -> inv tr w.
Proof. induction 1; [apply inv_new|eapply inv_step; eauto]. Qed.
Lemma history_cons l tr w : history (l :: tr) w -> exists c w0, history tr w0 /\ exec w0 c = Some (l, w).
Proof. inversion 1; subst; eauto. Qed.
Lemma history_app mid tr w : history (mid ++ tr) w -> exists w0, history tr w0.
Proof. revert w; induction mid; intros w H; [eauto|]. apply history_cons in H. destruct H as (c & w0 & H & _). eauto. Qed.
Lemma exec_cases w c l w' : exec w c = Some (l, w') ->
  match c with
  | Run j => thread_step w j = Some (l, w')
  | Continue => owner_step w = Some (l, w')
  | _ => wd_owner w = OIdle /\ is_call l
  end.
Proof. intros H. destruct c; cbn [exec] in H; auto; destruct (wd_owner w); try discriminate; injection H as <- <-; cbn; auto. Qed.
Lemma run_choices_history cs : forall tr w ls w', history tr w -> run_choices w cs = Some (ls, w') -> history (rev ls ++ tr) w'.
Proof.
  induction cs as [|c cs IH]; intros tr w ls w' H E; cbn in E.
  - injection E as <- <-. exact H.
  - destruct (exec w c) as [[l w1]|] eqn:X; [|discriminate]. destruct (run_choices w1 cs) as [[ls' w2]|] eqn:Y; [|discriminate]. injection E as <- <-.
    cbn. rewrite <- app_assoc. cbn. eapply IH; eauto. econstructor; eauto.
Qed.
Lemma thread_step_label w j l w' : thread_step w j = Some (l, w') -> of_thread j l /\ alive w j.
Proof.
  unfold thread_step. destruct (nth_error (wd_threads w) j) as [t|] eqn:E; [|discriminate]. intros H. unfold alive. rewrite E.
  destruct (th_pc t) eqn:P; [|injection H as <- _; split; [reflexivity|]; exists t; split; congruence|discriminate].
  destruct (nth (th_flag t) (wd_flags w) false); injection H as <- _; (split; [reflexivity|]; exists t; split; congruence).
Qed.
Lemma owner_step_label w l w' : owner_step w = Some (l, w') -> ~ by_thread l /\ ~ is_call l.
Proof. unfold owner_step. destruct (wd_owner w); try discriminate; try (intros H; injection H as <- _; cbn; tauto). destruct (is_done w h); [|discriminate]. intros H; injection H as <- _; cbn; tauto. Qed.

(** A read returns the number of increments made by the counting thread since the last reset returned (since the creation if there was none), modulo 2^32, whatever threads did before. *)
Lemma P_C67_reads : forall tr w v, history (LRead v :: tr) w -> v = ticks tr mod 2 ^ 32.
Proof.
  intros tr w v H. apply history_cons in H. destruct H as (c & w0 & H & E). apply history_inv in H.
  destruct c; try (apply exec_cases in E; first [apply thread_step_label in E; cbn in E; tauto | apply owner_step_label in E; cbn in E; tauto]);
    cbn [exec] in E; destruct (wd_owner w0) eqn:Ho; try discriminate. injection E as <- _. rewrite (i_value _ _ H), Ho. reflexivity.
Qed.
(** Between calls the component can always be read, and reading changes nothing. *)
Lemma P_C67_readable : forall tr w, history tr w -> idle w -> exec w CallRead = Some (LRead (ticks tr mod 2 ^ 32), w).
Proof. intros tr w H Hi. apply history_inv in H. unfold idle in Hi. cbn [exec]. rewrite Hi, (i_value _ _ H), Hi. reflexivity. Qed.
(** A write is refused as not writable (code 0x31 with no data, in the upper byte) and changes nothing. *)
Lemma P_C67_writes : forall w, idle w -> exec w CallWrite = Some (LWrite (49 * 2 ^ 8), w).
Proof. intros w Hi. unfold idle in Hi. cbn [exec]. rewrite Hi. reflexivity. Qed.
(** At most one counting thread is alive, and it is the one created by the last reset that returned. *)
Lemma P_C67_one_alive : forall tr w i j, history tr w -> alive w i -> alive w j -> i = j /\ last_thread tr = Some i.
Proof.
  intros tr w i j H Hi Hj. apply history_inv in H. pose proof (i_alive _ _ H i Hi) as A. pose proof (i_alive _ _ H j Hj) as B.
  destruct (i_cur _ _ H i A) as (t & _ & _ & _ & C). split; congruence.
Qed.
(** Every step of a counting thread (poll or increment) is one of the thread created by the last reset that returned. *)
Lemma P_C67_current : forall l tr w j, history (l :: tr) w -> of_thread j l -> last_thread tr = Some j.
Proof.
  intros l tr w j H Hl. apply history_cons in H. destruct H as (c & w0 & H & E). apply exec_cases in E.
  assert (X : ~ is_call l) by (destruct l; cbn in *; tauto). assert (Y : by_thread l) by (destruct l; cbn in *; tauto).
  destruct c; try (exfalso; tauto).
  - apply owner_step_label in E. tauto.
  - apply thread_step_label in E. destruct E as (E & A). assert (j0 = j) as -> by (destruct l; cbn in *; try tauto; congruence). exact (proj2 (P_C67_one_alive _ _ _ _ H A A)).
Qed.
(** When a reset returns: the thread it created is alive and is the only one, the component is ready for a call and reads 0. *)
Lemma P_C67_reset : forall tr w j, history (LSpawn j :: tr) w ->
  (forall i, alive w i <-> i = j) /\ idle w /\ exec w CallRead = Some (LRead 0, w) /\ ~ (exists k, last_thread tr = Some k /\ (j <= k)%nat).
Proof.
  intros tr w j H. pose proof (history_inv _ _ H) as V.
  assert (HI : idle w /\ ~ (exists k, last_thread tr = Some k /\ (j <= k)%nat)).
  { apply history_cons in H. destruct H as (c & w0 & H & E). apply exec_cases in E. destruct c; try (cbn in E; tauto).
    - unfold owner_step in E. destruct (wd_owner w0); try discriminate; [destruct (is_done w0 h); discriminate|]. injection E as <- <-. split; [reflexivity|].
      intros (k & Hk & L). pose proof (i_last _ _ (history_inv _ _ H) k Hk). lia.
    - apply thread_step_label in E. cbn in E. tauto. }
  destruct HI as (HI & HN). split; [|split; [|split]]; auto.
  - intros i. split.
    + intros A. destruct (P_C67_one_alive _ _ _ _ H A A) as (_ & L). cbn in L. congruence.
    + intros ->. unfold idle in HI. destruct (wd_handle w) as [h|] eqn:Hh.
      * assert (HC : current w = Some h) by (unfold current; rewrite HI; exact Hh). destruct (i_cur _ _ V h HC) as (_ & _ & _ & _ & L). cbn in L. injection L as ->.
        apply (i_unset _ _ V h HC). rewrite HI. discriminate.
      * exfalso. apply history_cons in H. destruct H as (c & w0 & H & E). apply exec_cases in E. destruct c; try (cbn in E; tauto).
        -- unfold owner_step in E. destruct (wd_owner w0); try discriminate; [destruct (is_done w0 h); discriminate|]. injection E as <- <-. discriminate.
        -- apply thread_step_label in E. cbn in E. tauto.
  - exact (P_C67_readable _ _ H HI).
Qed.
(** From the moment a reset returns until the next one returns, only the thread it created makes steps: those of earlier generations never act again. *)
Lemma P_C67_isolated : forall later j tr w l i, history (later ++ LSpawn j :: tr) w -> no_spawn later -> In l later -> of_thread i l -> i = j.
Proof.
  induction later as [|a later IH]; intros j tr w l i H HN HI HL; [destruct HI|]. inversion HN as [|? ? Ha Hl]; subst. destruct HI as [->|HI].
  - assert (C : last_thread (later ++ LSpawn j :: tr) = Some i) by exact (P_C67_current _ _ _ i H HL). clear H HN IH. assert (X : last_thread (later ++ LSpawn j :: tr) = Some j); [|congruence].
    clear C. induction later as [|b later IH]; [reflexivity|]. inversion Hl; subst. cbn. destruct b; cbn in *; try tauto; auto.
  - apply history_cons in H. destruct H as (c & w0 & H & _). eauto.
Qed.
(** A call of [stop] that found a thread returns only once no counting thread is left. *)
Lemma P_C67_joined : forall tr w h, history (LJoin h :: tr) w -> forall j, ~ alive w j.
Proof.
  intros tr w h H. apply history_cons in H. destruct H as (c & w0 & H & E). apply exec_cases in E. destruct c; try (cbn in E; tauto).
  - unfold owner_step in E. destruct (wd_owner w0) eqn:Ho; try discriminate. destruct (is_done w0 h0) eqn:D; [|discriminate]. injection E as <- <-.
    pose proof (dead_after_join _ _ _ _ (history_inv _ _ H) Ho D) as DD. intros j (t & X & Y). apply (DD j). exists t. auto.
  - apply thread_step_label in E. cbn in E. tauto.
Qed.
(** The component declares 4 bytes and no category. *)
Lemma P_C67_metadata : forall id, is_u64 id -> counter_metadata id = Ret (W8 (id / 2 ^ 32) (id mod 2 ^ 32) 4 (2 ^ 32 - 1) 0 0 0 0).
Proof.
  intros id H. unfold counter_metadata. destruct (P_C54_new id 4 CatUncategorized None None H) as (_ & E).
  - unfold is_u32. lia.
  - exact I.
  - exact I.
  - exact I.
  - refine (eq_trans _ (E _)); [reflexivity|exists 1; reflexivity].
Qed.

Lemma ticks_app mid tr : no_spawn mid -> ticks (mid ++ tr) = adds mid + ticks tr.
Proof.
  induction mid as [|l mid IH]; intros H; [reflexivity|]. inversion H as [|? ? Hl Hm]; subst. specialize (IH Hm). unfold adds in *. cbn [app ticks filter].
  destruct l; cbn in Hl; try tauto; try exact IH. cbn [length]. rewrite IH. lia.
Qed.
Lemma ticks_pos tr : 0 <= ticks tr.
Proof. induction tr as [|l tr IH]; cbn [ticks]; [lia|]. destruct l; lia. Qed.
(** Between two resets, a later read returns the value of an earlier one plus the number of increments made in between (modulo 2^32); it is never less before 2^32 increments. *)
Lemma P_C68_monotone : forall mid tr w v1 v2, history (LRead v2 :: mid ++ LRead v1 :: tr) w -> no_spawn mid ->
  v2 = (v1 + adds mid) mod 2 ^ 32 /\ (ticks (mid ++ tr) < 2 ^ 32 -> v1 <= v2).
Proof.
  intros mid tr w v1 v2 H HM. pose proof (P_C67_reads _ _ _ H) as E2. apply history_cons in H. destruct H as (c & w0 & H & _).
  apply history_app in H. destruct H as (w1 & H). pose proof (P_C67_reads _ _ _ H) as E1. rewrite (ticks_app mid (LRead v1 :: tr) HM) in E2. cbn [ticks] in E2.
  split.
  - subst. rewrite Zplus_mod_idemp_l. f_equal. lia.
  - rewrite (ticks_app mid tr HM). intros L. pose proof (ticks_pos tr). assert (0 <= adds mid) by (unfold adds; lia). subst. rewrite !Z.mod_small by lia. lia.
Qed.
(** A thread increments the counter only after exactly 99 polls since its creation or its previous increment. *)
Lemma P_C68_pace : forall tr w j, history (LAdd j :: tr) w -> polls j tr = 99.
Proof.
  intros tr w j H. apply history_cons in H. destruct H as (c & w0 & H & E). apply exec_cases in E. destruct c; try (cbn in E; tauto).
  - apply owner_step_label in E. cbn in E. tauto.
  - pose proof (thread_step_label _ _ _ _ E) as (L & _). cbn in L. subst j0. unfold thread_step in E. destruct (nth_error (wd_threads w0) j) as [t|] eqn:Et; [|discriminate].
    pose proof (i_pace _ _ (history_inv _ _ H) j t Et) as P. destruct (th_pc t); [|exact P|discriminate]. destruct (nth (th_flag t) (wd_flags w0) false); discriminate.
Qed.

(** What holds after the flag was stored for thread [h] and until the next thread is created. *)
Definition stopping (mid : list label) (w : world) (h : nat) : Prop :=
  (forall j, alive w j -> j = h) /\
  exists t, nth_error (wd_threads w) h = Some t /\ (th_flag t < length (wd_flags w))%nat /\ nth (th_flag t) (wd_flags w) false = true /\
    match th_pc t with
    | TAdd => thread_labels mid = []
    | TPoll _ => thread_labels mid = [] \/ thread_labels mid = [LAdd h]
    | TDone => thread_labels mid = [LPoll h true] \/ thread_labels mid = [LPoll h true; LAdd h]
    end.
Definition rank (o : opc) : nat := match o with OIdle | ONewCounter | ODropped => 1 | ONewFlag => 2 | OSpawn => 3 | _ => 0 end.
Lemma stopping_start tr w h : history (LStore h :: tr) w -> stopping [] w h /\ exists k, wd_owner w = OJoin k h.
Proof.
  intros H. pose proof (history_inv _ _ H) as V. apply history_cons in H. destruct H as (c & w0 & H & E). pose proof (history_inv _ _ H) as V0. apply exec_cases in E. destruct c; try (cbn in E; tauto).
  - unfold owner_step in E. destruct (wd_owner w0) eqn:Ho; try discriminate; [|destruct (is_done w0 h0); discriminate].
    injection E as -> E. assert (HO : wd_owner w = OJoin k h) by (rewrite <- E; reflexivity). split; [|eauto]. split.
    + intros j A. pose proof (i_alive _ _ V j A) as C. unfold current in C. rewrite HO in C. congruence.
    + assert (HC : current w0 = Some h) by (unfold current; rewrite Ho; reflexivity). destruct (i_cur _ _ V0 h HC) as (t & Et & C1 & C2 & _).
      destruct (i_unset _ _ V0 h HC) as (U & (t' & Et' & N)); [rewrite Ho; discriminate|]. rewrite Et in Et'. injection Et' as <-.
      exists t. rewrite <- E. cbn [wd_threads wd_flags]. rewrite C2. split; [exact Et|]. split; [rewrite set_nth_length; apply V0|]. split; [apply set_nth_same; apply V0|].
      destruct (th_pc t); cbn; auto; congruence.
  - apply thread_step_label in E. cbn in E. tauto.
Qed.
Lemma flags_true (f : list bool) n x : (n < length f)%nat -> nth n f false = true -> nth n (set_nth f x true) false = true.
Proof. revert n x; induction f as [|b f IH]; intros [|n] [|x] L H; cbn in *; auto; try lia. apply IH; auto; lia. Qed.
Lemma stopping_step mid w h c l w' : stopping mid w h -> exec w c = Some (l, w') -> ~ is_spawn l -> stopping (l :: mid) w' h.
Proof.
  intros (S1 & t & Et & Hb & Hf & Hp) E HN.
  assert (KEEP : wd_threads w' = wd_threads w -> (length (wd_flags w) <= length (wd_flags w'))%nat -> nth (th_flag t) (wd_flags w') false = true -> ~ by_thread l -> stopping (l :: mid) w' h).
  { intros K1 K2 K3 K4. split; [intros j (t2 & X & Y); apply S1; exists t2; rewrite <- K1; auto|]. exists t. rewrite K1. split; [exact Et|]. split; [lia|]. split; [exact K3|].
    assert (thread_labels (l :: mid) = thread_labels mid) as ->; [|exact Hp]. unfold thread_labels. cbn. destruct l; cbn in K4; tauto. }
  destruct c; cbn [exec] in E.
  1-5: destruct (wd_owner w); try discriminate; injection E as <- <-; apply KEEP; cbn; auto.
  - assert (E' : owner_step w = Some (l, w')) by (destruct (wd_owner w); exact E). clear E. pose proof (owner_step_label _ _ _ E') as (Q & _). unfold owner_step in E'. destruct (wd_owner w); try discriminate.
    + injection E' as <- <-. apply KEEP; cbn [wd_threads wd_flags]; auto. rewrite set_nth_length; lia. apply flags_true; auto.
    + destruct (is_done w h0); [|discriminate]. injection E' as <- <-. apply KEEP; cbn; auto.
    + injection E' as <- <-. apply KEEP; cbn; auto.
    + injection E' as <- <-. apply KEEP; cbn [wd_threads wd_flags]; auto. rewrite app_length; lia. rewrite app_nth1; auto.
    + injection E' as <- <-. exfalso. apply HN. exact I.
  - assert (E' : thread_step w j = Some (l, w')) by (destruct (wd_owner w); exact E). clear E. pose proof (thread_step_label _ _ _ _ E') as (_ & A). assert (j = h) as -> by (apply S1; exact A).
    unfold thread_step in E'. rewrite Et in E'. rewrite Hf in E'. destruct (th_pc t) as [i| |] eqn:P; [| |discriminate]; injection E' as <- <-.
    + rewrite (with_thread_eq _ _ _ _ Et). split.
      * intros j (t2 & X & Y). cbn [wd_threads] in X. rewrite set_nth_error in X. destruct (Nat.eqb_spec h j); [auto|]. apply S1. exists t2. auto.
      * eexists. cbn [wd_threads wd_flags]. rewrite set_nth_error, Nat.eqb_refl, Et. split; [reflexivity|]. cbn [th_flag th_pc]. split; [auto|]. split; [auto|]. unfold thread_labels in *. cbn [filter]. destruct Hp as [-> | ->]; auto.
    + erewrite with_thread_eq by (cbn [wd_threads]; exact Et). split.
      * intros j (t2 & X & Y). cbn [wd_threads] in X. rewrite set_nth_error in X. destruct (Nat.eqb_spec h j); [auto|]. apply S1. exists t2. auto.
      * eexists. cbn [wd_threads wd_flags]. rewrite set_nth_error, Nat.eqb_refl, Et. split; [reflexivity|]. cbn [th_flag th_pc]. split; [auto|]. split; [auto|]. unfold thread_labels in *. cbn [filter]. rewrite Hp. auto.
Qed.
Lemma stopping_all mid : forall tr w h, history (mid ++ LStore h :: tr) w -> no_spawn mid -> stopping mid w h.
Proof.
  induction mid as [|l mid IH]; intros tr w h H HN; [exact (proj1 (stopping_start _ _ _ H))|]. inversion HN; subst. apply history_cons in H. destruct H as (c & w0 & H & E). eapply stopping_step; eauto.
Qed.
(** Once the stop flag of thread [h] is set, until the next reset returns the counting threads make no more than an increment already due and one last poll (newest first). *)
Lemma P_C68_stop : forall mid tr w h, history (mid ++ LStore h :: tr) w -> no_spawn mid ->
  In (thread_labels mid) [[]; [LAdd h]; [LPoll h true]; [LPoll h true; LAdd h]].
Proof.
  intros mid tr w h H HN. destruct (stopping_all _ _ _ _ H HN) as (_ & t & _ & _ & _ & P). cbn. destruct (th_pc t); [destruct P as [P|P]|destruct P; auto 10|destruct P as [P|P]]; rewrite P; auto 10.
Qed.
Lemma others_rank mid : forall tr w h, history (mid ++ LStore h :: tr) w -> no_spawn mid -> no_call mid -> length mid = (length (thread_labels mid) + rank (wd_owner w))%nat /\ (forall k j, wd_owner w <> OStore k j).
Proof.
  induction mid as [|l mid IH]; intros tr w h H HN HC.
  - destruct (stopping_start _ _ _ H) as (_ & k & ->). split; [reflexivity|discriminate].
  - inversion HN; inversion HC; subst. apply history_cons in H. destruct H as (c & w0 & H & E). destruct (IH _ _ _ H) as (L & NS); auto. apply exec_cases in E. destruct c; try tauto.
    + pose proof (owner_step_label _ _ _ E) as (Q & _). assert (length (thread_labels (l :: mid)) = length (thread_labels mid)) as X by (unfold thread_labels; cbn; destruct l; cbn in Q; tauto). rewrite X. cbn [length]. rewrite L. clear X.
      unfold owner_step in E. destruct (wd_owner w0) as [|k j|k j| | | |] eqn:Ho; try discriminate.
      * destruct (NS k j eq_refl).
      * destruct (is_done w0 j); [|discriminate]. injection E as <- <-. cbn. split; [destruct k; cbn; lia|]. destruct k; discriminate.
      * injection E as <- <-. cbn. split; [lia|discriminate].
      * injection E as <- <-. cbn. split; [lia|discriminate].
      * injection E as <- <-. exfalso. cbn in *. tauto.
    + pose proof (thread_step_label _ _ _ _ E) as (Q & _). assert (X : wd_owner w = wd_owner w0).
      { unfold thread_step in E. destruct (nth_error (wd_threads w0) j) as [t|] eqn:Et; [|discriminate]. destruct (th_pc t); [|injection E as _ <-; unfold with_thread; cbn; rewrite Et; reflexivity|discriminate].
        destruct (nth (th_flag t) (wd_flags w0) false); injection E as _ <-; unfold with_thread; rewrite Et; reflexivity. }
      rewrite X. split; [|exact NS]. assert (length (thread_labels (l :: mid)) = S (length (thread_labels mid))) as -> by (unfold thread_labels; cbn; destruct l; cbn in Q; tauto). cbn [length]. lia.
Qed.
(** Once the flag is set, a stop, a reset (up to the creation of its thread, its last step) or a drop ends within five steps of the whole system, whatever the schedule. *)
Lemma P_C68_finishes : forall mid tr w h, history (mid ++ LStore h :: tr) w -> no_spawn mid -> no_call mid -> (length mid <= 5)%nat.
Proof.
  intros mid tr w h H HN HC. destruct (others_rank _ _ _ _ H HN HC) as (L & _). pose proof (P_C68_stop _ _ _ _ H HN) as S.
  assert (length (thread_labels mid) <= 2)%nat by (cbn in S; destruct S as [<-|[<-|[<-|[<-|[]]]]]; cbn; lia). destruct (wd_owner w); cbn in L; lia.
Qed.
(** No call ever blocks for good: as long as a call is in progress, it or the current counting thread can make a step. *)
Lemma P_C68_never_stuck : forall tr w, history tr w -> ~ idle w -> ~ dropped w ->
  (exists l w', exec w Continue = Some (l, w')) \/ (exists h l w', last_thread tr = Some h /\ exec w (Run h) = Some (l, w')).
Proof.
  intros tr w H HI HD. pose proof (history_inv _ _ H) as V. unfold idle, dropped in *.
  assert (X : exec w Continue = owner_step w) by (cbn; destruct (wd_owner w); reflexivity). rewrite X. clear X. unfold owner_step. destruct (wd_owner w) as [|k h|k h| | | |] eqn:Ho; try congruence; eauto.
  destruct (is_done w h) eqn:D; [eauto|]. right. assert (HC : current w = Some h) by (unfold current; rewrite Ho; reflexivity). destruct (i_cur _ _ V h HC) as (t & Et & _ & _ & L).
  exists h. assert (exec w (Run h) = thread_step w h) as -> by (cbn; destruct (wd_owner w); reflexivity). unfold thread_step. unfold is_done in D. rewrite Et in *. destruct (th_pc t); [|eauto|discriminate]. destruct (nth (th_flag t) (wd_flags w) false); eauto.
Qed.
(** Once the component has been dropped no counting thread is left and nothing more ever happens. *)
Lemma P_C68_dropped : forall tr w, history tr w -> dropped w -> (forall j, ~ alive w j) /\ forall c, exec w c = None.
Proof.
  intros tr w H HD. pose proof (history_inv _ _ H) as V. unfold dropped in HD. assert (A : forall j, ~ alive w j) by (intros j A; apply (i_alive _ _ V) in A; unfold current in A; rewrite HD in A; discriminate).
  split; [exact A|]. intros c. destruct (exec w c) as [[l w']|] eqn:E; [|reflexivity]. apply exec_cases in E. destruct c; try (destruct E; congruence).
  - unfold owner_step in E. rewrite HD in E. discriminate.
  - apply thread_step_label in E. destruct E as (_ & E). destruct (A _ E).
Qed.

(** A concrete schedule: reset, a thread makes 100 steps (one increment), a read, a second reset while the first thread runs, a read. *)
Definition sched_reset : list choice := [CallReset; Continue; Continue; Continue].
Definition sched_one : list choice := sched_reset ++ [CallRead] ++ repeat (Run 0%nat) 100 ++ [CallRead].
Definition sched_again : list choice := sched_one ++ [CallReset; Run 0%nat; Continue; Run 0%nat; Continue; Continue; Continue; Continue].
Lemma run_new cs ls w : run_choices world_new cs = Some (ls, w) -> history (rev ls) w.
Proof. intros H. pose proof (run_choices_history cs [] world_new ls w history_new H) as X. rewrite app_nil_r in X. exact X. Qed.
Definition after_one : world := World [0; 1] [false; false] [Thread 1 1 (TPoll 1)] 1 1 (Some 0%nat) OIdle.
Definition trace_one : list label := LRead 1 :: (LAdd 0 :: repeat (LPoll 0 false) 99) ++ LRead 0 :: [LSpawn 0; LNewFlag; LNewCounter; LReset].
Lemma E_C67_reads : history trace_one after_one.
Proof. apply (run_new sched_one (rev trace_one)). vm_compute. reflexivity. Qed.
Lemma E_C67_readable : history trace_one after_one /\ idle after_one /\ ticks trace_one = 1.
Proof. split; [exact E_C67_reads|]. split; reflexivity. Qed.
Lemma E_C67_writes : idle after_one /\ exec after_one CallWrite = Some (LWrite 12544, after_one).
Proof. split; reflexivity. Qed.
Lemma E_C67_one_alive : history trace_one after_one /\ alive after_one 0%nat /\ last_thread trace_one = Some 0%nat.
Proof. split; [exact E_C67_reads|]. split; [eexists; split; [reflexivity|discriminate]|reflexivity]. Qed.
Definition after_again : world := World [0; 1; 0] [false; true; false] [Thread 1 1 TDone; Thread 2 2 (TPoll 1)] 2 2 (Some 1%nat) OIdle.
Definition trace_stop : list label := LPoll 0 true :: LStore 0 :: LPoll 0 false :: LReset :: trace_one.
Definition trace_again : list label := LSpawn 1 :: LNewFlag :: LNewCounter :: LJoin 0 :: trace_stop.
Lemma E_C67_reset : history trace_again after_again /\ last_thread (tl trace_again) = Some 0%nat /\ ~ alive after_again 0%nat /\ alive after_again 1%nat.
Proof.
  split; [apply (run_new sched_again (rev trace_again)); vm_compute; reflexivity|]. split; [reflexivity|]. split; [|eexists; split; [reflexivity|discriminate]].
  intros (t & E & N). cbn in E. injection E as <-. cbn in N. congruence.
Qed.
Lemma E_C67_current : exists w, history (LPoll 0 true :: tl trace_stop) w /\ of_thread 0 (LPoll 0 true).
Proof. eexists. split; [|reflexivity]. eapply (run_new (sched_one ++ [CallReset; Run 0%nat; Continue; Run 0%nat]) (rev trace_stop)). vm_compute. reflexivity. Qed.
Lemma E_C67_isolated : exists w, history (repeat (LPoll 1 false) 7 ++ LSpawn 1 :: tl trace_again) w /\ no_spawn (repeat (LPoll 1 false) 7) /\ In (LPoll 1 false) (repeat (LPoll 1 false) 7).
Proof.
  eexists. split; [|split].
  - eapply (run_new (sched_again ++ repeat (Run 1%nat) 7) (rev (repeat (LPoll 1 false) 7 ++ trace_again))). vm_compute. reflexivity.
  - repeat constructor; cbn; tauto.
  - left. reflexivity.
Qed.
Lemma E_C67_joined : exists w, history (LJoin 0 :: trace_stop) w /\ length (wd_threads w) = 1%nat.
Proof. eexists. split; [|shelve]. eapply (run_new (sched_one ++ [CallReset; Run 0%nat; Continue; Run 0%nat; Continue]) (rev (LJoin 0 :: trace_stop))). vm_compute. reflexivity. Unshelve. reflexivity. Qed.
Lemma E_C67_metadata : is_u64 (2 ^ 40 + 7) /\ counter_metadata (2 ^ 40 + 7) = Ret (W8 256 7 4 4294967295 0 0 0 0).
Proof. split; [unfold is_u64; lia|vm_compute; reflexivity]. Qed.
Lemma E_C68_monotone : history (LRead 1 :: (LAdd 0 :: repeat (LPoll 0 false) 99) ++ LRead 0 :: [LSpawn 0; LNewFlag; LNewCounter; LReset]) after_one /\
  no_spawn (LAdd 0 :: repeat (LPoll 0 false) 99) /\ adds (LAdd 0 :: repeat (LPoll 0 false) 99) = 1.
Proof. split; [exact E_C67_reads|]. split; [|vm_compute; reflexivity]. repeat constructor; cbn; tauto. Qed.
Lemma E_C68_pace : exists w tr, history (LAdd 0 :: tr) w /\ length tr = 104%nat.
Proof. eexists. eexists. split; [|shelve]. eapply (run_new (sched_reset ++ [CallRead] ++ repeat (Run 0%nat) 100) (rev (tl trace_one))). vm_compute. reflexivity. Unshelve. reflexivity. Qed.
(** A thread caught between its last poll and its increment still makes the increment, then sees the flag. *)
Lemma E_C68_stop : exists w tr, history ([LJoin 0; LPoll 0 true; LAdd 0] ++ LStore 0 :: tr) w /\ no_spawn [LJoin 0; LPoll 0 true; LAdd 0].
Proof.
  eexists. eexists. split; [|repeat constructor; cbn; tauto].
  eapply (run_new (sched_reset ++ repeat (Run 0%nat) 99 ++ [CallStop; Continue; Run 0%nat; Run 0%nat; Continue]) (rev ([LJoin 0; LPoll 0 true; LAdd 0] ++ LStore 0 :: LStop :: repeat (LPoll 0 false) 99 ++ [LSpawn 0; LNewFlag; LNewCounter; LReset]))).
  vm_compute. reflexivity.
Qed.
(** The bound is reached. *)
Lemma E_C68_finishes : exists w tr, history ([LNewFlag; LNewCounter; LJoin 0; LPoll 0 true; LAdd 0] ++ LStore 0 :: tr) w /\
  no_spawn [LNewFlag; LNewCounter; LJoin 0; LPoll 0 true; LAdd 0] /\ no_call [LNewFlag; LNewCounter; LJoin 0; LPoll 0 true; LAdd 0].
Proof.
  eexists. eexists. split; [|split; repeat constructor; cbn; tauto].
  eapply (run_new (sched_reset ++ repeat (Run 0%nat) 99 ++ [CallReset; Continue; Run 0%nat; Run 0%nat; Continue; Continue; Continue]) (rev ([LNewFlag; LNewCounter; LJoin 0; LPoll 0 true; LAdd 0] ++ LStore 0 :: LReset :: repeat (LPoll 0 false) 99 ++ [LSpawn 0; LNewFlag; LNewCounter; LReset]))).
  vm_compute. reflexivity.
Qed.
Definition after_store : world := World [0; 1] [false; true] [Thread 1 1 (TPoll 2)] 1 1 None (OJoin ThenReset 0%nat).
(** A call that must wait for the thread. *)
Lemma E_C68_never_stuck : history (tl trace_stop) after_store /\ ~ idle after_store /\ ~ dropped after_store /\ exec after_store Continue = None.
Proof. split; [apply (run_new (sched_one ++ [CallReset; Run 0%nat; Continue]) (rev (tl trace_stop))); vm_compute; reflexivity|]. split; [discriminate|]. split; [discriminate|reflexivity]. Qed.
Lemma E_C68_dropped : exists tr w, history tr w /\ dropped w /\ length (wd_threads w) = 1%nat.
Proof.
  exists (LJoin 0 :: LPoll 0 true :: LStore 0 :: LDrop :: trace_one), (World [0; 1] [false; true] [Thread 1 1 TDone] 1 1 None ODropped). split; [|split; reflexivity].
  apply (run_new (sched_one ++ [CallDrop; Continue; Run 0%nat; Continue]) (rev (LJoin 0 :: LPoll 0 true :: LStore 0 :: LDrop :: trace_one))). vm_compute. reflexivity.
Qed.
