(** The asynchronous counter as a component of a board (C77): every request is answered, as in a history of the counter. *)
From Coq Require Import String ZArith List Bool Lia.
From Verif Require Import Base BaseFacts Board Mem Asm Tools Devices Counter Async SpecAsm SpecCounter SpecDev SpecAsync ProofCounter.
Import ListNotations.
Open Scope Z_scope.
Ltac Zify.zify_post_hook ::= Z.div_mod_to_equations.

Lemma calls_app a b : calls (a ++ b) = calls b ++ calls a.
Proof. unfold calls. rewrite filter_app, rev_app_distr. reflexivity. Qed.
Lemma calls_none tr : no_call tr -> calls tr = [].
Proof. unfold calls, no_call. induction 1 as [|l t H F IH]; [reflexivity|]. cbn [filter]. destruct l; cbn in H; try tauto; exact IH. Qed.

(** A reset in progress, or over. *)
Definition resetting (w : world) : Prop :=
  match wd_owner w with OStore k _ | OJoin k _ => k = ThenReset | ODropped => False | _ => True end.
Lemma thread_owner w j l w' : thread_step w j = Some (l, w') -> wd_owner w' = wd_owner w.
Proof.
  unfold thread_step. destruct (nth_error (wd_threads w) j) as [t|] eqn:E; [|discriminate].
  destruct (th_pc t); [destruct (nth (th_flag t) (wd_flags w) false)| |discriminate]; intros X; injection X as _ <-; unfold with_thread; cbn [wd_threads]; rewrite E; reflexivity.
Qed.
Lemma resetting_step w c l w' : resetting w -> (c = Continue \/ exists j, c = Run j) -> exec w c = Some (l, w') -> resetting w' /\ ~ is_call l.
Proof.
  intros Hr Hc E. destruct Hc as [->|(j & ->)].
  - change (owner_step w = Some (l, w')) in E. split; [|apply owner_step_label in E; tauto]. unfold resetting in *. unfold owner_step in E.
    destruct (wd_owner w) as [|k h|k h| | | |]; try discriminate; try (injection E as _ <-; cbn; auto; fail).
    destruct (is_done w h); [|discriminate]. injection E as _ <-. subst k. exact I.
  - change (thread_step w j = Some (l, w')) in E. split; [unfold resetting; rewrite (thread_owner _ _ _ _ E); exact Hr|].
    apply thread_step_label in E. destruct E as (E & _). destruct l; cbn in *; tauto.
Qed.
Lemma let_run_history cs : forall tr w, history tr w -> resetting w -> exists mid, history (mid ++ tr) (let_run w cs) /\ resetting (let_run w cs) /\ no_call mid.
Proof.
  assert (K : forall w c, (c = Continue \/ exists j, c = Run j) -> forall tr, history tr w -> resetting w ->
    exists mid, history (mid ++ tr) (match exec w c with Some (_, w') => w' | None => w end) /\ resetting (match exec w c with Some (_, w') => w' | None => w end) /\ no_call mid).
  { intros w c Hc tr H Hr. destruct (exec w c) as [[l w']|] eqn:E.
    - destruct (resetting_step _ _ _ _ Hr Hc E) as (Hr' & N). exists [l]. split; [econstructor; eauto|]. split; [exact Hr'|]. constructor; [exact N|constructor].
    - exists []. split; [exact H|]. split; [exact Hr|constructor]. }
  induction cs as [|c cs IH]; intros tr w H Hr; [exists []; split; [exact H|split; [exact Hr|constructor]]|]. cbn [let_run].
  assert (X : exists mid, history (mid ++ tr) (match c with Run _ | Continue => match exec w c with Some (_, w') => w' | None => w end | _ => w end) /\
    resetting (match c with Run _ | Continue => match exec w c with Some (_, w') => w' | None => w end | _ => w end) /\ no_call mid).
  { destruct c; try (exists []; split; [exact H|split; [exact Hr|constructor]]); apply K; eauto. }
  destruct X as (mid & H1 & R1 & N1). destruct (IH _ _ H1 R1) as (mid2 & H2 & R2 & N2). exists (mid2 ++ mid). rewrite <- app_assoc. split; [exact H2|]. split; [exact R2|].
  apply Forall_app. auto.
Qed.
Lemma let_run_idle cs : forall w, idle w -> idle (let_run w cs).
Proof.
  induction cs as [|c cs IH]; intros w H; [exact H|]. cbn [let_run]. apply IH. unfold idle in *. destruct c as [| | | | | |j]; auto.
  - cbn [exec]. unfold owner_step. rewrite H. exact H.
  - cbn [exec]. destruct (thread_step w j) as [[l w']|] eqn:E; [rewrite (thread_owner _ _ _ _ E)|]; exact H.
Qed.

Definition steps_left (w : world) : nat :=
  match wd_owner w with
  | OIdle | ODropped => 0
  | OSpawn => 1
  | ONewFlag => 2
  | ONewCounter => 3
  | OJoin _ h => 4 + match nth_error (wd_threads w) h with Some t => match th_pc t with TDone => 0 | TPoll _ => 1 | TAdd => 2 end | None => 0 end
  | OStore _ h => 7
  end.
Lemma finish_history n : forall tr w, history tr w -> resetting w -> (steps_left w <= n)%nat ->
  exists mid w', finish n w = Ret w' /\ history (mid ++ tr) w' /\ idle w' /\ no_call mid.
Proof.
  assert (Z0 : forall tr w, history tr w -> wd_owner w = OIdle -> exists mid w', Ret w = Ret w' /\ history (mid ++ tr) w' /\ idle w' /\ no_call mid).
  { intros tr w H E. exists [], w. split; [reflexivity|]. split; [exact H|]. split; [exact E|constructor]. }
  induction n as [|n IH]; intros tr w H Hr L.
  - destruct (wd_owner w) eqn:E; unfold steps_left in L; rewrite E in L; try lia; cbn [finish]; rewrite E; [auto|unfold resetting in Hr; rewrite E in Hr; tauto].
  - assert (K : forall c l w1, (c = Continue \/ exists j, c = Run j) -> exec w c = Some (l, w1) -> (steps_left w1 <= n)%nat ->
      exists mid w', finish n w1 = Ret w' /\ history (mid ++ tr) w' /\ idle w' /\ no_call mid).
    { intros c l w1 Hc E L1. destruct (resetting_step _ _ _ _ Hr Hc E) as (Hr1 & N1). destruct (IH (l :: tr) w1 ltac:(econstructor; eauto) Hr1 L1) as (mid & w' & F & H1 & I1 & N2).
      exists (mid ++ [l]), w'. split; [exact F|]. rewrite <- app_assoc. split; [exact H1|]. split; [exact I1|]. apply Forall_app. split; [exact N2|]. constructor; [exact N1|constructor]. }
    pose proof (history_inv _ _ H) as V. pose proof Hr as Hr0. unfold resetting in Hr0. unfold steps_left in L. destruct (wd_owner w) as [|k h|k h| | | |] eqn:E; try tauto.
    + cbn [finish]. rewrite E. auto.
    + cbn [finish]. rewrite E. assert (X : exists w1, exec w Continue = Some (LStore h, w1) /\ (steps_left w1 <= 6)%nat).
      { cbn [exec]. unfold owner_step. rewrite E. eexists. split; [reflexivity|]. unfold steps_left. cbn [wd_owner wd_threads]. destruct (nth_error (wd_threads w) h) as [t|]; [destruct (th_pc t)|]; lia. }
      destruct X as (w1 & X & L1). rewrite X. apply (K Continue _ _ (or_introl eq_refl) X). lia.
    + assert (HC : current w = Some h) by (unfold current; rewrite E; reflexivity). destruct (i_cur _ _ V h HC) as (t & Et & _ & Ef & _). pose proof (i_set _ _ V k h E) as Fs. rewrite <- Ef in Fs. rewrite Et in L.
      cbn [finish]. rewrite E. destruct (is_done w h) eqn:D.
      * assert (X : exec w Continue = Some (LJoin h, with_owner w (wd_handle w) ONewCounter)) by (cbn [exec]; unfold owner_step; rewrite E, D; subst k; reflexivity).
        rewrite X. apply (K Continue _ _ (or_introl eq_refl) X). unfold steps_left, with_owner. cbn [wd_owner]. destruct (th_pc t); lia.
      * assert (X : exec w Continue = None) by (cbn [exec]; unfold owner_step; rewrite E, D; reflexivity). rewrite X.
        assert (Y : exists l w1, exec w (Run h) = Some (l, w1) /\ (steps_left w1 <= n)%nat).
        { cbn [exec]. unfold thread_step. unfold is_done in D. rewrite Et in D |- *. destruct (th_pc t); [|eexists; eexists; split; [reflexivity|]|discriminate].
          - rewrite Fs. eexists; eexists. split; [reflexivity|]. unfold steps_left, with_thread. rewrite Et. cbn [wd_owner wd_threads]. rewrite E, set_nth_error, Nat.eqb_refl, Et. cbn [th_pc]. lia.
          - unfold steps_left, with_thread. cbn [wd_owner wd_threads]. rewrite Et. cbn [wd_owner wd_threads]. rewrite E, set_nth_error, Nat.eqb_refl, Et. cbn [th_pc]. lia. }
        destruct Y as (l & w1 & Y & L1). rewrite Y. apply (K (Run h) _ _ (or_intror (ex_intro _ h eq_refl)) Y L1).
    + cbn [finish]. rewrite E. assert (X : exists w1, exec w Continue = Some (LNewCounter, w1) /\ (steps_left w1 <= 2)%nat) by (cbn [exec]; unfold owner_step; rewrite E; eexists; split; [reflexivity|]; cbn; lia).
      destruct X as (w1 & X & L1). rewrite X. apply (K Continue _ _ (or_introl eq_refl) X). lia.
    + cbn [finish]. rewrite E. assert (X : exists w1, exec w Continue = Some (LNewFlag, w1) /\ (steps_left w1 <= 1)%nat) by (cbn [exec]; unfold owner_step; rewrite E; eexists; split; [reflexivity|]; cbn; lia).
      destruct X as (w1 & X & L1). rewrite X. apply (K Continue _ _ (or_introl eq_refl) X). lia.
    + cbn [finish]. rewrite E. assert (X : exists l w1, exec w Continue = Some (l, w1) /\ (steps_left w1 <= 0)%nat) by (cbn [exec]; unfold owner_step; rewrite E; eexists; eexists; split; [reflexivity|]; cbn; lia).
      destruct X as (l & w1 & X & L1). rewrite X. apply (K Continue _ _ (or_introl eq_refl) X). lia.
Qed.

Lemma served h : forall a tr0, history tr0 (ac_world a) -> idle (ac_world a) ->
  exists a' xs tr, serve async_ops a h = Ret (a', xs) /\ history tr (ac_world a') /\ idle (ac_world a') /\ length xs = length h /\
    map Some (calls tr) = map Some (calls tr0) ++ map (fun p => appears (fst p) (snd p)) (combine h xs).
Proof.
  induction h as [|r h IH]; intros a tr0 H Hi; [exists a, [], tr0; cbn; rewrite app_nil_r; auto|].
  set (cs := ac_sched a (ac_used a)).
  assert (Hr : resetting (ac_world a)) by (unfold resetting; unfold idle in Hi; rewrite Hi; exact I).
  assert (X : exists a1 x tr1 l, (match r with
             | Read o => match bo_read async_ops a o with Ret (d', ex, v) => Ret (d', Got ex v) | Panic => Panic end
             | Write o w => match bo_write async_ops a o w with Ret (d', ex) => Ret (d', Put ex) | Panic => Panic end
             | ResetReq => match bo_reset async_ops a with Ret d' => Ret (d', Done) | Panic => Panic end
             end) = Ret (a1, x) /\ history tr1 (ac_world a1) /\ idle (ac_world a1) /\ appears r x = Some l /\ calls tr1 = calls tr0 ++ [l]).
  { destruct r as [o|o w|].
    - destruct (let_run_history cs _ _ H Hr) as (mid & H1 & _ & N). pose proof (let_run_idle cs _ Hi) as I1. cbn [bo_read async_ops]. fold cs.
      rewrite (P_C67_readable _ _ H1 I1). eexists. eexists. exists (LRead (ticks (mid ++ tr0) mod 2 ^ 32) :: mid ++ tr0). eexists. split; [reflexivity|]. split; [econstructor; [exact H1|apply P_C67_readable; auto]|].
      split; [exact I1|]. split; [cbn [appears Z.eqb]; unfold u32; change (2 ^ 32) with 4294967296; rewrite Z.mod_mod by lia; reflexivity|].
      match goal with |- calls (?l :: _) = _ => change (calls ([l] ++ mid ++ tr0) = calls tr0 ++ [l]) end. rewrite calls_app, calls_app, (calls_none mid N), app_nil_r. reflexivity.
    - destruct (let_run_history cs _ _ H Hr) as (mid & H1 & _ & N). pose proof (let_run_idle cs _ Hi) as I1. cbn [bo_write async_ops]. fold cs.
      assert (E : exec (let_run (ac_world a) cs) CallWrite = Some (LWrite 12544, let_run (ac_world a) cs)) by (cbn [exec]; rewrite I1; reflexivity).
      rewrite E. eexists. eexists. exists (LWrite 12544 :: mid ++ tr0). eexists. split; [reflexivity|]. split; [econstructor; [exact H1|exact E]|]. split; [exact I1|]. split; [reflexivity|].
      match goal with |- calls (?l :: _) = _ => change (calls ([l] ++ mid ++ tr0) = calls tr0 ++ [l]) end. rewrite calls_app, calls_app, (calls_none mid N), app_nil_r. reflexivity.
    - cbn [bo_reset async_ops]. fold cs.
      assert (E : exists w1, exec (ac_world a) CallReset = Some (LReset, w1) /\ resetting w1).
      { cbn [exec]. rewrite Hi. eexists. split; [reflexivity|]. unfold resetting, with_owner. cbn [wd_owner]. destruct (wd_handle (ac_world a)); [reflexivity|exact I]. }
      destruct E as (w1 & E & R1). rewrite E. assert (H1 : history (LReset :: tr0) w1) by (econstructor; eauto).
      destruct (let_run_history cs _ _ H1 R1) as (mid & H2 & R2 & N2). assert (L : (steps_left (let_run w1 cs) <= 7)%nat).
      { unfold steps_left. destruct (wd_owner (let_run w1 cs)); try lia. destruct (nth_error _ _) as [t|]; [destruct (th_pc t)|]; lia. }
      destruct (finish_history 7 _ _ H2 R2 L) as (mid2 & w' & F & H3 & I3 & N3). rewrite F. eexists. eexists. exists (mid2 ++ mid ++ LReset :: tr0). eexists. split; [reflexivity|].
      split; [exact H3|]. split; [exact I3|]. split; [reflexivity|]. rewrite calls_app, calls_app, (calls_none mid N2), (calls_none mid2 N3), !app_nil_r. exact (calls_app [LReset] tr0). }
  destruct X as (a1 & x & tr1 & l & E & H1 & I1 & A & C). destruct (IH a1 tr1 H1 I1) as (a' & xs & tr & S & H2 & I2 & Ln & C2).
  exists a', (x :: xs), tr. split; [cbn [serve]; rewrite E, S; reflexivity|]. split; [exact H2|]. split; [exact I2|]. split; [cbn [length]; rewrite Ln; reflexivity|].
  rewrite C2, C, map_app, <- app_assoc. cbn [combine map app fst snd]. rewrite A. reflexivity.
Qed.

(** The counter on a board, for every schedule and every sequence of requests: each is answered (never a panic), no call is then in progress, and the requests with
    their answers are the calls of a history of the counter, in order: what C67 and C68 say of histories holds of it. *)
Lemma P_C77_component : forall id sched h, exists a xs tr,
  serve async_ops (async_new id sched) h = Ret (a, xs) /\ history tr (ac_world a) /\ idle (ac_world a) /\ length xs = length h /\
  map Some (calls tr) = map (fun p => appears (fst p) (snd p)) (combine h xs).
Proof. intros id sched h. destruct (served h (async_new id sched) [] history_new eq_refl) as (a & xs & tr & X). exists a, xs, tr. exact X. Qed.
(** Its answers: a write is refused as not writable, whatever the address and the word; a read or a reset raises no exception. *)
Lemma P_C77_answers : forall id sched h a xs k r x, serve async_ops (async_new id sched) h = Ret (a, xs) -> nth_error h k = Some r -> nth_error xs k = Some x ->
  match r with Read _ => exists v, x = Got 0 v /\ 0 <= v < 2 ^ 32 | Write _ _ => x = Put (49 * 256) | ResetReq => x = Done end.
Proof.
  intros id sched h. generalize (async_new id sched). clear id sched. induction h as [|r0 h IH]; intros a0 a xs k r x E Hr Hx; [destruct k; discriminate|].
  cbn [serve] in E. destruct (match r0 with Read _ => _ | Write _ _ => _ | ResetReq => _ end) as [[d' x0]|] eqn:E0; [|discriminate].
  destruct (serve async_ops d' h) as [[d'' xs0]|] eqn:ES; [|discriminate]. assert (a = d'' /\ xs = x0 :: xs0) as (-> & ->) by (split; congruence).
  destruct k as [|k]; [|exact (IH _ _ _ _ _ _ ES Hr Hx)]. cbn [nth_error] in Hr, Hx. assert (r0 = r) by congruence. assert (x0 = x) by congruence. subst r0 x0. clear Hr Hx. destruct r as [o|o w|].
  - cbn [bo_read async_ops] in E0. destruct (exec _ CallRead) as [[[] w]|]; try discriminate. injection E0 as _ <-. eexists. split; [reflexivity|]. unfold u32. change (2 ^ 32) with 4294967296. lia.
  - cbn [bo_write async_ops] in E0. destruct (exec _ CallWrite) as [[l w1]|] eqn:E1; [|discriminate]. cbn [exec] in E1. destruct (wd_owner _); try discriminate. injection E1 as <- <-. injection E0 as _ <-. reflexivity.
  - destruct (bo_reset async_ops a0); [|discriminate]. injection E0 as _ <-. reflexivity.
Qed.
(** Before and after any requests it has the same name, and in its metadata the same identifier, one word of memory, no category, type, model or data. *)
Lemma P_C77_declares : forall id sched h a xs, is_u64 id -> serve async_ops (async_new id sched) h = Ret (a, xs) ->
  bo_name async_ops a = chars "Async Counter"%string /\ bo_metadata async_ops a = Ret (W8 (id / 2 ^ 32) (id mod 2 ^ 32) 4 (2 ^ 32 - 1) 0 0 0 0).
Proof.
  intros id sched h a xs Hid E. split; [reflexivity|]. cbn [bo_metadata async_ops]. rewrite <- (P_C67_metadata id Hid). f_equal.
  change id with (ac_hw_id (async_new id sched)). revert E. generalize (async_new id sched). clear Hid id sched. revert a xs. induction h as [|r h IH]; intros a xs a0 E; cbn [serve] in E; [injection E as <- <-; reflexivity|].
  destruct (match r with Read _ => _ | Write _ _ => _ | ResetReq => _ end) as [[d' x0]|] eqn:E0; [|discriminate].
  destruct (serve async_ops d' h) as [[d'' xs0]|] eqn:ES; [|discriminate]. injection E as -> _. rewrite (IH _ _ _ ES). clear IH ES. destruct r as [o|o w|]; cbn [bo_read bo_write bo_reset async_ops] in E0.
  - destruct (exec _ CallRead) as [[[] w]|]; try discriminate. injection E0 as <- _. reflexivity.
  - destruct (exec _ CallWrite) as [[[] w1]|]; try discriminate. injection E0 as <- _. reflexivity.
  - destruct (exec _ CallReset) as [[l w]|]; [|discriminate]. destruct (finish _ _) as [w'|]; cbn [obind] in E0; [|discriminate]. injection E0 as <- _. reflexivity.
Qed.
(** A board that holds components of two kinds: each answers any sequence of requests as it does alone, and has the same name and metadata. *)
Lemma P_C77_kinds : forall A B (a : bus_ops A) (b : bus_ops B) h,
  (forall d, serve (sum_ops a b) (inl d) h = match serve a d h with Ret (d', xs) => Ret (inl d', xs) | Panic => Panic end /\
     bo_name (sum_ops a b) (inl d) = bo_name a d /\ bo_metadata (sum_ops a b) (inl d) = bo_metadata a d) /\
  (forall d, serve (sum_ops a b) (inr d) h = match serve b d h with Ret (d', xs) => Ret (inr d', xs) | Panic => Panic end /\
     bo_name (sum_ops a b) (inr d) = bo_name b d /\ bo_metadata (sum_ops a b) (inr d) = bo_metadata b d).
Proof.
  intros A B a b h. split; intros d; (split; [|split; reflexivity]); revert d; induction h as [|r h IH]; intros d; try reflexivity; cbn [serve].
  - destruct r as [o|o w|]; cbn [bo_read bo_write bo_reset sum_ops]; [destruct (bo_read a d o) as [[[d' ex] v]|]|destruct (bo_write a d o w) as [[d' ex]|]|destruct (bo_reset a d) as [d'|]]; cbn [obind]; try reflexivity; rewrite IH; destruct (serve a d' h) as [[d'' xs]|]; reflexivity.
  - destruct r as [o|o w|]; cbn [bo_read bo_write bo_reset sum_ops]; [destruct (bo_read b d o) as [[[d' ex] v]|]|destruct (bo_write b d o w) as [[d' ex]|]|destruct (bo_reset b d) as [d'|]]; cbn [obind]; try reflexivity; rewrite IH; destruct (serve b d' h) as [[d'' xs]|]; reflexivity.
Qed.

(** A reset, 100 steps of the thread (one increment), a read, a write, a second reset that waits for the first thread, a read. *)
Definition busy (n : nat) : list choice := match n with 1%nat => repeat (Run 0) 100 | 3%nat => [Run 0; Continue; Run 0] | _ => [] end.
Lemma E_C77_component : exists a, serve async_ops (async_new 7 busy) [ResetReq; Read 0; Write 0 5; ResetReq; Read 0] = Ret (a, [Done; Got 0 1; Put 12544; Done; Got 0 0]) /\
  wd_threads (ac_world a) = [Thread 1 1 TDone; Thread 2 2 (TPoll 1)].
Proof. eexists. split; vm_compute; reflexivity. Qed.
Lemma E_C77_answers : exists a xs, serve async_ops (async_new 7 busy) [ResetReq; Write 4096 9] = Ret (a, xs) /\ nth_error xs 1 = Some (Put 12544).
Proof. eexists. eexists. split; vm_compute; reflexivity. Qed.
Lemma E_C77_declares : exists a xs, is_u64 (2 ^ 40 + 7) /\ serve async_ops (async_new (2 ^ 40 + 7) busy) [ResetReq; Read 0] = Ret (a, xs) /\ List.length xs = 2%nat /\ bo_metadata async_ops a = Ret (W8 256 7 4 4294967295 0 0 0 0).
Proof. eexists. eexists. split; [unfold is_u64; lia|]. split; [vm_compute; reflexivity|]. split; vm_compute; reflexivity. Qed.
Lemma E_C77_kinds : exists d d', bo_write (sum_ops async_ops (dev_ops true)) (inr d) 4 9 = Ret (inr d', 0) /\ d <> d' /\ exists a, serve (sum_ops async_ops (dev_ops true)) (inl (async_new 7 busy)) [ResetReq; Read 0] = Ret (inl a, [Done; Got 0 1]).
Proof. exists (DRam (StoreMem [0; 0] 8 1)), (DRam (StoreMem [0; 9] 8 1)). split; [vm_compute; reflexivity|]. split; [discriminate|]. eexists. vm_compute. reflexivity. Qed.
