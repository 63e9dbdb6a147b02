(** Proofs of C87 and C90 for builds with overflow checks: crashes tell userland nothing either. *)
From Coq Require Import ZArith List Bool Lia.
From Verif Require Import Base Board Mem Cpu Asm Devices ReachFacts SpecMach SpecIsa SpecBus SpecObs SpecPanic SpecSim SpecTotal SpecUser SpecMap SpecMemory SpecGuard BaseFacts RegFacts MemFacts InvFacts MonoFacts CyclePost ProofPanic ProofRun DevTyped Demo ProofState ProofMap ProofCrash ProofUser ProofGuard.
Import ListNotations.
Open Scope Z_scope.

Section Alike.
Context {D : Type}.
Implicit Type m : cpu D.
Definition seen m1 m2 : Prop :=
  sup_mode m1 = false /\ (forall r, hidden r = false -> R m1 r = R m2 r) /\ (R m1 R_mtt = 0 \/ R m1 R_pda = R m2 R_pda).
Lemma seen_sym m1 m2 : seen m1 m2 -> seen m2 m1.
Proof.
  intros (U & H & P). split; [unfold sup_mode in *; rewrite <- (H R_smt eq_refl); exact U|]. split; [intros r Hr; symmetry; auto|].
  rewrite <- (H R_mtt eq_refl). destruct P as [P|P]; auto.
Qed.
Lemma seen_arg m1 m2 w k : seen m1 m2 -> word_arg m1 w k = word_arg m2 w k.
Proof.
  intros S. pose proof (seen_sym _ _ S) as (U2 & _). destruct S as (U & H & _). unfold word_arg. destruct (word_isreg w k); [|reflexivity]. destruct (reg_from_code (word_byte w k)) as [r|]; [|reflexivity].
  unfold reg_value, can_read. rewrite U, U2. cbn [orb]. destruct (user_reg r) eqn:E; [|reflexivity]. rewrite (H r); [reflexivity|]. apply user_visible, E.
Qed.
Lemma seen_entry m1 m2 a : seen m1 m2 -> entry_overflows m1 a -> entry_overflows m2 a.
Proof. intros (_ & H & P) (X & Y). unfold entry_overflows. rewrite <- (H R_mtt eq_refl). destruct P as [P|P]; [contradiction|]. rewrite <- P. auto. Qed.
Lemma seen_address m1 m2 w : seen m1 m2 -> word_address m1 w = word_address m2 w.
Proof.
  intros S. pose proof (seen_sym _ _ S) as (U2 & _). unfold word_address, sp_of. rewrite !(seen_arg _ _ _ _ S), U2. destruct S as (U & H & _). rewrite U, (H R_usp eq_refl). reflexivity.
Qed.
Lemma seen_word m1 m2 w : seen m1 m2 -> word_overflows m1 w -> word_overflows m2 w.
Proof.
  intros S. unfold word_overflows. rewrite !(seen_arg _ _ _ _ S), (seen_address _ _ _ S). intros [X|[X|(a & X & Y & Z)]]; [left; exact X|right; left; exact X|right; right]. exists a. split; [exact X|]. split; [exact Y|]. exact (seen_entry _ _ _ S Z).
Qed.
(** Machines that fetch alike overflow alike. *)
Lemma seen_overflows (ops : bus_ops D) m1 m2 : seen m1 m2 -> c_halted m1 = c_halted m2 ->
  (forall w b1, loads ops m1 (c_mem m1) (R m1 R_pc) w b1 -> exists b2, loads ops m2 (c_mem m2) (R m2 R_pc) w b2) -> overflows ops m1 -> overflows ops m2.
Proof.
  intros S H L (X & Y & Z). assert (P : R m1 R_pc = R m2 R_pc) by (apply S; reflexivity). split; [congruence|]. split; [congruence|]. destruct Z as [Z|(w & b1 & Z1 & Z2)]; [left; rewrite <- P; exact (seen_entry _ _ _ S Z)|right].
  destruct (L w b1 Z1) as (b2 & Z3). exists w, b2. split; [exact Z3|exact (seen_word _ _ _ S Z2)].
Qed.
(** So the debug builds end alike if the release builds do. *)
Lemma debug_both (ops : bus_ops D) (Q : cpu D -> cpu D -> Prop) m1 m2 : typed ops -> wf m1 -> wf m2 -> ends_below (c_mem m1) -> ends_below (c_mem m2) ->
  (overflows ops m1 <-> overflows ops m2) -> both Q (next ops false m1) (next ops false m2) -> both Q (next ops true m1) (next ops true m2).
Proof.
  intros T W1 W2 E1 E2 O X. destruct (P_C03_exact D ops m1 T W1 E1) as (A1 & B1). destruct (P_C03_exact D ops m2 T W2 E2) as (A2 & B2).
  destruct (next ops true m1) as [m1'|] eqn:N1.
  - assert (O1 : ~ overflows ops m1) by (intros Y; discriminate (A1 Y)). rewrite B2 by tauto. rewrite <- (B1 O1) in X. exact X.
  - destruct (next ops true m2) as [m2'|] eqn:N2; [|exact I]. assert (O2 : ~ overflows ops m2) by (intros Y; discriminate (A2 Y)). rewrite <- B1 in X by tauto. rewrite <- (B2 O2) in X. exact X.
Qed.
End Alike.

Lemma alike_seen {D} (m1 m2 : cpu D) : user_alike m1 m2 -> sup_mode m1 = false -> seen m1 m2.
Proof. intros (_ & _ & _ & H & P) U. split; [exact U|]. split; [exact H|exact P]. Qed.
Lemma alike_sym {D} (m1 m2 : cpu D) : user_alike m1 m2 -> user_alike m2 m1.
Proof. intros (A & B & C & H & P). split; [auto|]. split; [auto|]. split; [auto|]. split; [intros r Hr; symmetry; auto|]. rewrite <- (H R_mtt eq_refl). destruct P as [P|P]; auto. Qed.
Lemma alike_overflows {D} (ops : bus_ops D) m1 m2 : user_alike m1 m2 -> sup_mode m1 = false -> overflows ops m1 -> overflows ops m2.
Proof.
  intros A U. pose proof (alike_seen _ _ A U) as S. pose proof (proj1 (seen_sym _ _ S)) as U2. destruct A as (E1 & E2 & E3 & E4 & E5). apply seen_overflows; auto.
  intros w b1 (Y & b & P & L). exists b1. rewrite <- E1, <- (E4 R_pc eq_refl). split; [exact Y|]. exists b. split; [|exact L]. unfold passes in *. rewrite <- (E4 R_mtt eq_refl). destruct (Z.eqb_spec (R m1 R_mtt) 0) as [Z|Z]; [exact P|].
  destruct E5 as [E5|E5]; [contradiction|]. rewrite <- E5, U2. rewrite U in P. exact P.
Qed.
Lemma debug_alike {D} (ops : bus_ops D) m1 m2 : typed ops -> wf m1 -> wf m2 -> ends_below (c_mem m1) -> user_alike m1 m2 -> sup_mode m1 = false -> both outcomes (next ops true m1) (next ops true m2).
Proof.
  intros T W1 W2 E A U. apply debug_both; auto.
  - destruct A as (<- & _). exact E.
  - split; apply alike_overflows; auto; [apply alike_sym, A|exact (proj1 (seen_sym _ _ (alike_seen _ _ A U)))].
  - apply next_alike; auto.
Qed.
(** In a build with overflow checks, with all mappings ending below 2^32, userland cannot make a crash depend on hidden registers either: a cycle of one machine and of the other crash both, or end both as said in [C87_cycle]. *)
Lemma P_C87_debug_cycle : forall D (ops : bus_ops D) oc m1 m2, typed ops -> wf m1 -> wf m2 -> ends_below (c_mem m1) -> user_alike m1 m2 -> sup_mode m1 = false ->
  both (fun m1' m2' => user_alike m1' m2' /\ sup_mode m1' = false \/ both_entered m1' m2' \/ same_machine m1' m2') (next ops oc m1) (next ops oc m2).
Proof. intros D ops [|] m1 m2 T W1 W2 E A U; [apply debug_alike; auto|apply next_alike; auto]. Qed.
(** The same for any number of cycles in userland, in either build: both machines crash or neither does. *)
Lemma P_C87_debug_run : forall D (ops : bus_ops D) oc n m1 m2, typed ops -> wf m1 -> wf m2 -> ends_below (c_mem m1) -> user_alike m1 m2 ->
  (forall k m, (k < n)%nat -> run ops oc k m1 = Ret m -> sup_mode m = false) ->
  both (fun m1' m2' => user_alike m1' m2' \/ both_entered m1' m2' \/ same_machine m1' m2') (run ops oc n m1) (run ops oc n m2).
Proof.
  intros D ops oc n. induction n as [|n IH]; intros m1 m2 T W1 W2 E A HU. { left. exact A. }
  pose proof (P_C87_debug_cycle D ops oc m1 m2 T W1 W2 E A (HU O m1 ltac:(lia) eq_refl)) as X. cbn [run]. destruct (next ops oc m1) as [m1'|] eqn:N1, (next ops oc m2) as [m2'|] eqn:N2; cbn [both obind] in *; auto; try contradiction.
  destruct n as [|n]. { cbn [run both]. destruct X as [(X & _)|X]; [left; exact X|right; exact X]. }
  assert (U : sup_mode m1' = false). { apply (HU 1%nat); [lia|]. cbn [run]. rewrite N1. reflexivity. }
  assert (A' : user_alike m1' m2').
  { destruct X as [(X & _)|[X|X]]; [exact X| |].
    - destruct X as (_ & _ & _ & X & _). unfold sup_mode in U. rewrite X in U. discriminate U.
    - destruct X as (X1 & X2 & X3 & X4). split; [exact X1|]. split; [exact X2|]. split; [exact X3|]. split; [intros r _; apply X4|right; apply X4]. }
  apply IH; auto; [exact (next_wf ops T _ _ _ W1 N1)|exact (next_wf ops T _ _ _ W2 N2)| |].
  - intros mp Hi. rewrite (next_maps ops oc m1 m1' T W1 N1) in Hi. auto.
  - intros k m Hk Hr. apply (HU (S k)); [lia|]. cbn [run]. rewrite N1. exact Hr.
Qed.

(** Machines that differ in guarded words fetch alike. *)
Lemma veiled_loads oc guard m1 m2 a w b1 : R m1 R_mtt <> 0 -> veiled guard m1 m2 -> sup_mode m1 = false -> sup_mode m2 = false ->
  fenced (dev_ops oc) guard (R m1 R_pda) (c_mem m1) -> fenced (dev_ops oc) guard (R m2 R_pda) (c_mem m2) ->
  loads (dev_ops oc) m1 (c_mem m1) a w b1 -> exists b2, loads (dev_ops oc) m2 (c_mem m2) a w b2.
Proof.
  intros Hm (V1 & V2 & V3 & V4 & V5) U1 U2 F1 F2 (Ha & b & P & L). unfold passes in P. destruct (Z.eqb_spec (R m1 R_mtt) 0) as [|_]; [contradiction|]. destruct P as (e & P & Te). rewrite U1 in Te.
  destruct (F1 _ (touch_none _ _ _ _) a Ha) as (e' & b' & P' & Te'). unfold entry_at in P'. rewrite P in P'. apply Ret_inj in P'. injection P' as <- <-. rewrite Te in Te'. symmetry in Te'.
  destruct (F2 _ (touch_none _ _ _ _) a Ha) as (e2 & c & P2 & Te2). unfold entry_at in P2. rewrite Te' in Te2.
  pose proof (sbg_read oc guard _ _ ((R m1 R_pda + 4 * (a mod 1024)) mod 2 ^ 32) V1) as X. rewrite <- V5 in P2. rewrite P, P2 in X. cbn [both fst snd] in X. destruct X as (X & _).
  pose proof (sbg_read oc guard b c a X) as Y. rewrite L in Y. destruct (mem_read (dev_ops oc) false c a) as [[[c2 x2] w2]|] eqn:L2; [|contradiction]. cbn [both fst snd] in Y. destruct Y as (_ & <- & Y). rewrite <- (Y Te') in L2.
  exists c2. split; [exact Ha|]. exists c. split; [|exact L2]. unfold passes. rewrite <- (V4 R_mtt eq_refl). destruct (Z.eqb_spec (R m1 R_mtt) 0) as [|_]; [contradiction|]. exists e2. rewrite <- V5, U2. auto.
Qed.
Lemma sbg_sym guard mem1 mem2 : same_but_guarded guard mem1 mem2 -> same_but_guarded guard mem2 mem1.
Proof.
  intros (T & M & L & H). split; [|split; [auto|split; [auto|]]].
  - eapply tidy_ext; [|exact T]. exact M.
  - intros id e1 e2 E1 E2. destruct (H id e2 e1 E2 E1) as (A & B). split; [auto|]. assert (G : forall i, guarded_word guard mem2 id i <-> guarded_word guard mem1 id i) by (intros i; unfold guarded_word; rewrite M; tauto).
    destruct B as [B|(s1 & s2 & B1 & B2 & B3 & B4 & B5)]; [left; auto|right]. exists s2, s1. split; [tauto|]. split; [auto|]. split; [auto|]. split; [auto|]. intros i Hi. symmetry. apply B5. intros X. apply Hi, G, X.
Qed.
Lemma veiled_sym guard m1 m2 : veiled guard m1 m2 -> veiled guard m2 m1.
Proof. intros (V1 & V2 & V3 & V4 & V5). split; [apply sbg_sym, V1|]. split; [auto|]. split; [auto|]. split; [intros r Hr; symmetry; auto|auto]. Qed.
Lemma veiled_seen guard m1 m2 : veiled guard m1 m2 -> sup_mode m1 = false -> seen m1 m2.
Proof. intros (V1 & V2 & V3 & V4 & V5) U. split; [exact U|]. split; [exact V4|right; exact V5]. Qed.
(** Secrecy in both builds, with all mappings ending below 2^32: not even a crash depends on what guarded words contain. *)
Lemma P_C90_debug_secrecy : forall oc guard n m1 m2, wf m1 -> wf m2 -> ends_below (c_mem m1) -> R m1 R_mtt <> 0 -> veiled guard m1 m2 ->
  fenced (dev_ops oc) guard (R m1 R_pda) (c_mem m1) -> fenced (dev_ops oc) guard (R m2 R_pda) (c_mem m2) -> in_userland (dev_ops oc) oc (S n) m1 ->
  both (fun m1' m2' => veiled guard m1' m2' \/ both_left guard m1' m2') (run (dev_ops oc) oc (S n) m1) (run (dev_ops oc) oc (S n) m2).
Proof.
  intros oc guard n. destruct oc; [|intros; apply secret_run; auto].
  assert (ONE : forall m1 m2, wf m1 -> wf m2 -> ends_below (c_mem m1) -> R m1 R_mtt <> 0 -> veiled guard m1 m2 ->
    fenced (dev_ops true) guard (R m1 R_pda) (c_mem m1) -> fenced (dev_ops true) guard (R m2 R_pda) (c_mem m2) -> in_userland (dev_ops true) true 1 m1 ->
    both (fun m1' m2' => veiled guard m1' m2' \/ both_left guard m1' m2') (next (dev_ops true) true m1) (next (dev_ops true) true m2)).
  { intros m1 m2 W1 W2 E Hm V F1 F2 HU. destruct (HU O m1 ltac:(lia) eq_refl) as (U & HR). pose proof (veiled_seen _ _ _ V U) as S. pose proof (proj1 (seen_sym _ _ S)) as U2.
    assert (Hp : R m1 R_pc = R m2 R_pc) by (apply S; reflexivity). assert (Hm2 : R m2 R_mtt <> 0) by (rewrite <- (proj1 (proj2 S) R_mtt eq_refl); exact Hm). pose proof V as (V1 & _ & V3 & _).
    apply debug_both; auto using dev_typed.
    - intros mp Hi. rewrite <- (proj1 (proj2 V1)) in Hi. auto.
    - split; apply seen_overflows; auto using seen_sym.
      + rewrite <- Hp. intros w b1. apply (veiled_loads true guard m1 m2); auto.
      + rewrite Hp. intros w b1. apply (veiled_loads true guard m2 m1); auto using veiled_sym.
    - assert (HU' : in_userland (dev_ops true) false 1 m1). { intros k mk Hk Hr. assert (k = O) by lia. subst k. apply Ret_inj in Hr. subst mk. auto. }
      pose proof (secret_run true guard 0 m1 m2 W1 W2 Hm V F1 F2 HU') as X. cbn [run] in X. destruct (next (dev_ops true) false m1), (next (dev_ops true) false m2); exact X. }
  induction n as [|n IH]; intros m1 m2 W1 W2 E Hm V F1 F2 HU.
  { cbn [run]. pose proof (ONE m1 m2 W1 W2 E Hm V F1 F2 HU) as X. destruct (next (dev_ops true) true m1), (next (dev_ops true) true m2); exact X. }
  assert (HU1 : in_userland (dev_ops true) true 1 m1) by (intros k mk Hk Hr; apply (HU k mk); [lia|exact Hr]).
  pose proof (ONE m1 m2 W1 W2 E Hm V F1 F2 HU1) as X.
  remember (S n) as n1. cbn [run]. destruct (next (dev_ops true) true m1) as [m1'|] eqn:N1, (next (dev_ops true) true m2) as [m2'|] eqn:N2; cbn [both obind] in *; auto; try contradiction. subst n1.
  assert (U : sup_mode m1' = false). { apply (HU 1%nat); [lia|]. cbn [run]. rewrite N1. reflexivity. }
  assert (V' : veiled guard m1' m2'). { destruct X as [X|(_ & _ & _ & X & _)]; [exact X|]. unfold sup_mode in U. rewrite X in U. discriminate U. }
  assert (K : forall m m', wf m -> sup_mode m = false -> sup_mode m' = false -> next (dev_ops true) true m = Ret m' -> (forall v mem1, ~ fetches (dev_ops true) m (Reset v) mem1) -> R m' R_mtt = R m R_mtt /\ R m' R_pda = R m R_pda).
  { intros m m' W Um Um' N HR. assert (Q : run (dev_ops true) true 1 m = Ret m') by (cbn [run]; rewrite N; reflexivity).
    destruct (P_C17_run _ (dev_ops true) true 1 m m' (dev_typed true) W Um) as (Y & _); [|exact Q|split; apply Y; cbn; auto].
    intros k mk Hk Hr. assert (k = O) by lia. subst k. apply Ret_inj in Hr. subst mk. split; [exact Um|]. intros (i & mem1 & Hf & (v & mode & -> & _)). exact (HR v mem1 Hf). }
  destruct (HU O m1 ltac:(lia) eq_refl) as (Um & HR). pose proof (proj1 (seen_sym _ _ (veiled_seen _ _ _ V Um))) as Um2. pose proof (proj1 (seen_sym _ _ (veiled_seen _ _ _ V' U))) as U2.
  assert (HR2 : forall v mem1, ~ fetches (dev_ops true) m2 (Reset v) mem1).
  { intros v mem1 (w & Hl & Hd). assert (Hp : R m1 R_pc = R m2 R_pc) by (apply (proj2 (veiled_seen _ _ _ V Um)); reflexivity).
    assert (Hm2 : R m2 R_mtt <> 0) by (rewrite <- (proj1 (proj2 (veiled_seen _ _ _ V Um)) R_mtt eq_refl); exact Hm).
    destruct (veiled_loads true guard m2 m1 _ w mem1 Hm2 (veiled_sym _ _ _ V) Um2 Um F2 F1 Hl) as (b & Y). rewrite <- Hp in Y. exact (HR v b (ex_intro _ w (conj Y Hd))). }
  destruct (K m1 m1' W1 Um U N1 HR) as (K1 & K2). destruct (K m2 m2' W2 Um2 U2 N2 HR2) as (K3 & K4).
  assert (HU2 : in_userland (dev_ops true) true 1 m2) by (intros k mk Hk Hr; assert (k = O) by lia; subst k; apply Ret_inj in Hr; subst mk; auto).
  apply IH; auto.
  - exact (next_wf _ (dev_typed true) _ _ _ W1 N1).
  - exact (next_wf _ (dev_typed true) _ _ _ W2 N2).
  - intros mp Hi. rewrite (next_maps (dev_ops true) true m1 m1' (dev_typed true) W1 N1) in Hi. auto.
  - rewrite K1. exact Hm.
  - rewrite K2. apply (P_C90_confined _ (dev_ops true) true guard 0 m1 m1'); auto using dev_typed. cbn [run]. rewrite N1. reflexivity.
  - rewrite K4. apply (P_C90_confined _ (dev_ops true) true guard 0 m2 m2'); auto using dev_typed; [rewrite <- (proj1 (proj2 (veiled_seen _ _ _ V Um)) R_mtt eq_refl); exact Hm|]. cbn [run]. rewrite N2. reflexivity.
  - intros k mk Hk Hr. apply (HU (S k)); [lia|]. cbn [run]. rewrite N1. exact Hr.
Qed.

(** LSM 0, then in userland (at 4) ADD a0, 5 and IF2 with flag number 8, in two machines whose supervisor stack pointers differ: both add, then both crash. *)
Definition crash_prog : list Z := asm [Lsm (Lit2 0); Add R_a0 (Lit2 5); If2 (Lit1 8) (Lit1 0) (Lit1 1)].
Lemma crash_pair : exists m1 m2, reachable words_ops true m1 /\ wf m1 /\ wf m2 /\ ends_below (c_mem m1) /\ user_alike m1 m2 /\ R m1 R_ssp = 0 /\ R m2 R_ssp = 77 /\ sup_mode m1 = false /\
  (exists m3, next words_ops true m1 = Ret m3 /\ sup_mode m3 = false /\ R m3 R_a0 = 5) /\ run words_ops true 2 m1 = Panic /\ run words_ops true 2 m2 = Panic.
Proof.
  assert (X : exists m, words_run true 0 crash_prog 1 = Ret m /\
    ((R m R_ssp =? 0) && negb (sup_mode m) && then_check (next words_ops true m) (fun m3 => negb (sup_mode m3) && (R m3 R_a0 =? 5)) &&
     panics (run words_ops true 2 m) && panics (run words_ops true 2 (wr R_ssp 77 m))) = true)
    by (apply then_check_sound; vm_compute; reflexivity).
  destruct X as (m & E & X). destruct (words_wf true 0 _ _ m ltac:(unfold is_u32; lia) E) as (Hr & W).
  apply andb_prop in X. destruct X as (X & X5). apply andb_prop in X. destruct X as (X & X4). apply andb_prop in X. destruct X as (X & X3). apply andb_prop in X. destruct X as (X1 & X2).
  apply then_check_sound in X3. destruct X3 as (m3 & N3 & X3). apply andb_prop in X3. destruct X3 as (X3 & X3'). apply panics_sound in X4, X5. apply negb_true_iff in X2, X3. apply Z.eqb_eq in X1, X3'.
  assert (W2 : wf (wr R_ssp 77 m)). { destruct W as (Wr & Wm & Wc). split; [apply wr_wf; auto; unfold is_u32; lia|]. split; [exact Wm|exact Wc]. }
  assert (He : ends_below (c_mem m)).
  { unfold words_run in E. destruct (board_new _ _) as [m0|] eqn:E0; [|discriminate]. eapply P_C03_mappings; [apply words_typed| | |exact E0|exact E].
    - constructor; [split; unfold is_u32; lia|]. constructor; [exact I|]. apply Forall_forall. intros c Hc. apply repeat_spec in Hc. subst. exact I.
    - constructor; [exact I|]. constructor; [exact I|]. apply Forall_forall. intros c Hc. apply repeat_spec in Hc. subst. exact I. }
  exists m, (wr R_ssp 77 m). split; [exact Hr|]. split; [exact W|]. split; [exact W2|]. split; [exact He|].
  split. { split; [reflexivity|]. split; [reflexivity|]. split; [reflexivity|]. assert (Y : forall r, r <> R_ssp -> R m r = R (wr R_ssp 77 m) r).
    { intros r N. unfold R. rewrite file_wr by apply W. rewrite rg_rs by (apply file_length, W). destruct (reg_eq_dec r R_ssp); [contradiction|reflexivity]. }
    split; [intros r Hh; apply Y; intros ->; discriminate Hh|right; apply Y; discriminate]. }
  split; [exact X1|]. split; [apply R_wr_same; apply W|]. split; [exact X2|]. split; [exists m3; auto|]. auto.
Qed.
Lemma E_C87_debug_cycle : exists m1 m2, reachable words_ops true m1 /\ wf m1 /\ wf m2 /\ ends_below (c_mem m1) /\ user_alike m1 m2 /\ R m1 R_ssp <> R m2 R_ssp /\ sup_mode m1 = false /\ exists m3, next words_ops true m1 = Ret m3 /\ R m3 R_a0 = 5.
Proof. destruct crash_pair as (m1 & m2 & H1 & H2 & H3 & H4 & H5 & H6 & H7 & H8 & (m3 & H9 & _ & H10) & _). exists m1, m2. rewrite H6, H7. split; [exact H1|]. split; [exact H2|]. split; [exact H3|]. split; [exact H4|]. split; [exact H5|]. split; [discriminate|]. split; [exact H8|]. exists m3. auto. Qed.
Lemma E_C87_debug_run : exists m1 m2, wf m1 /\ wf m2 /\ ends_below (c_mem m1) /\ user_alike m1 m2 /\ R m1 R_ssp <> R m2 R_ssp /\ (forall k m, (k < 2)%nat -> run words_ops true k m1 = Ret m -> sup_mode m = false) /\
  run words_ops true 2 m1 = Panic /\ run words_ops true 2 m2 = Panic.
Proof.
  destruct crash_pair as (m1 & m2 & H1 & H2 & H3 & H4 & H5 & H6 & H7 & H8 & (m3 & H9 & H9' & _) & N1 & N2). exists m1, m2. rewrite H6, H7. split; [exact H2|]. split; [exact H3|]. split; [exact H4|]. split; [exact H5|]. split; [discriminate|].
  split; [|auto]. intros k m Hk Hr. destruct k as [|[|k]]; [|..|lia].
  - cbn [run] in Hr. apply Ret_inj in Hr. subst m. exact H8.
  - cbn [run] in Hr. rewrite H9 in Hr. cbn [obind] in Hr. apply Ret_inj in Hr. subst m. exact H9'.
Qed.

(** The vault of C90 in a build with overflow checks; after the load in userland an IF2 with flag number 8. *)
Definition dvault_code : list Z :=
  asm [Cpy R_a0 (Lit2 5376); Wsa (Reg1 R_a0) (Lit1 0) (Lit1 7); Cpy R_pda (Lit2 1024); Cpy R_mtt (Lit2 1); Lsm (Lit2 16); Lsa R_a2 (Reg1 R_a0) (Lit1 4); If2 (Lit1 8) (Lit1 0) (Lit1 1)].
Definition dvault_words : list Z := dvault_code ++ repeat 0 249 ++ repeat 0 256 ++ [2 ^ 30] ++ repeat 0 767.
Definition dvault_devs : list device := [DRom (BootRom dvault_words (zlen dvault_words) 1280 1); DRam (StoreMem (zeros 1024) 256 2)].
Definition dbuilt (cs : list api) : outcome (cpu device) := match board_new (dev_ops true) dvault_devs with Ret m => api_run (dev_ops true) true cs m | Panic => Panic end.
Lemma dbuilt_facts cs m : Forall api_wf cs -> Forall no_map_abs cs -> dbuilt cs = Ret m -> reachable (dev_ops true) true m /\ wf m /\ tidy false (c_mem m) /\ ends_below (c_mem m).
Proof.
  intros H1 H2 E. unfold dbuilt in E. destruct (board_new _ _) as [m0|] eqn:E0; [|discriminate]. assert (Hr : reachable (dev_ops true) true m) by (exists dvault_devs, cs, m0; auto).
  split; [exact Hr|]. split; [exact (reachable_wf _ (dev_typed true) _ _ Hr)|]. split; [|exact (P_C03_mappings _ _ _ _ _ _ (dev_typed true) H1 H2 E0 E)].
  destruct (P_C31_tidy _ _ _ _ _ _ _ (dev_typed true) H1 H2 E0 E) as ((A & B & C) & _). split; [exact A|]. split; [|exact C]. intros mp Hi. destruct (B mp Hi) as (B1 & B2 & B3 & B4 & B5). split; [exact B1|]. split; [exact B2|]. split; [exact B3|]. split; [exact B4|].
  unfold fits in *. destruct B5 as (B5 & B6). split; [exact B5|discriminate].
Qed.
Lemma dbuilt_then n c m m' : dbuilt (boot_calls n []) = Ret m -> api_call (dev_ops true) true c m = Ret m' -> dbuilt (boot_calls n [c]) = Ret m'.
Proof.
  unfold dbuilt. destruct (board_new (dev_ops true) dvault_devs) as [m0|]; [|discriminate]. intros E1 E2. unfold boot_calls in *. rewrite app_nil_r in E1.
  replace (AMapContiguous 0 [0; 1] :: AReset :: repeat ANext n ++ [c]) with ((AMapContiguous 0 [0; 1] :: AReset :: repeat ANext n) ++ [c]) by reflexivity.
  apply (api_run_app (dev_ops true) true _ _ m0 m m' E1). cbn [api_run]. rewrite E2. reflexivity.
Qed.
Definition dreset_free (m : cpu device) : bool :=
  match mem_read (dev_ops true) false (c_mem m) ((R m R_pda + 4 * (R m R_pc mod 1024)) mod 2 ^ 32) with
  | Ret (mem1, _, _) => match mem_read (dev_ops true) false mem1 (R m R_pc) with Ret (_, _, w) => match decode (bytes_of_word w) with ROk (Reset _) => false | _ => true end | Panic => true end
  | Panic => true end.
Fixpoint duser_n (n : nat) (m : cpu device) : bool :=
  match n with O => true | S n => negb (sup_mode m) && negb (R m R_mtt =? 0) && dreset_free m && match next (dev_ops true) true m with Ret m' => duser_n n m' | Panic => true end end.
Lemma duser_n_sound n : forall m, duser_n n m = true -> in_userland (dev_ops true) true n m.
Proof.
  induction n as [|n IH]; intros m H k mk Hk Hr; [lia|]. cbn [duser_n] in H. apply andb_prop in H. destruct H as (H & H4). apply andb_prop in H. destruct H as (H & H3). apply andb_prop in H. destruct H as (H1 & H2).
  destruct k as [|k].
  - cbn [run] in Hr. apply Ret_inj in Hr. subst mk. split; [apply negb_true_iff, H1|]. intros v mem1 (w & (_ & mem0 & P & L) & Ed). unfold passes in P. apply negb_true_iff in H2. rewrite H2 in P. destruct P as (e & P & _).
    unfold dreset_free in H3. rewrite P, L, Ed in H3. discriminate H3.
  - cbn [run] in Hr. destruct (next (dev_ops true) true m) as [m1|]; [|discriminate Hr]. cbn [obind] in Hr. apply (IH m1 H4 k mk); [lia|exact Hr].
Qed.
Definition dcheck1 (m1 : cpu device) : bool :=
  first_rom vault_rom dvault_words m1 && (R m1 R_mtt =? 1) && (R m1 R_pda =? 1024) && duser_n 2 m1 && (match second_words vault_ram m1 with Some l => nth (word_index vault_ram 5376) l 0 =? 7 | None => false end) &&
    then_check (next (dev_ops true) true m1) (fun m' => R m' R_pc =? 24) && panics (run (dev_ops true) true 2 m1).
Definition dcheck2 (m2 : cpu device) : bool :=
  first_rom vault_rom dvault_words m2 && (match second_words vault_ram m2 with Some l => nth (word_index vault_ram 5376) l 0 =? 8 | None => false end) && panics (run (dev_ops true) true 2 m2).
Lemma dvault_checked : exists m1 p, dbuilt (boot_calls 5 []) = Ret m1 /\ mem_write (dev_ops true) true (c_mem m1) 5376 8 = Ret p /\ dcheck1 m1 && dcheck2 (with_mem (fst p) m1) = true.
Proof. apply (then_check2 (dbuilt (boot_calls 5 [])) (fun m1 => mem_write (dev_ops true) true (c_mem m1) 5376 8) (fun m1 p => dcheck1 m1 && dcheck2 (with_mem (fst p) m1))). vm_compute. reflexivity. Qed.
Lemma dvault_entries : entries_ok vault_guard 1024 vault_rom dvault_words false = true.
Proof. vm_compute. reflexivity. Qed.
Lemma mem_write_oc oc mem a w p : mem_write (dev_ops oc) true mem a w = Ret p -> mem_write (dev_ops oc) false mem a w = Ret p.
Proof. apply mem_write_mono. Qed.
(** Both machines of the pair do the load, then both crash. *)
Lemma E_C90_debug_secrecy : exists m1 m2 m3, reachable (dev_ops true) true m1 /\ wf m1 /\ wf m2 /\ ends_below (c_mem m1) /\ R m1 R_mtt <> 0 /\ veiled vault_guard m1 m2 /\ holds (c_mem m1) vault_ram 5376 7 /\ holds (c_mem m2) vault_ram 5376 8 /\
  fenced (dev_ops true) vault_guard (R m1 R_pda) (c_mem m1) /\ fenced (dev_ops true) vault_guard (R m2 R_pda) (c_mem m2) /\ in_userland (dev_ops true) true 2 m1 /\
  next (dev_ops true) true m1 = Ret m3 /\ R m3 R_pc = 24 /\ run (dev_ops true) true 2 m1 = Panic /\ run (dev_ops true) true 2 m2 = Panic.
Proof.
  destruct dvault_checked as (m1 & (mem2 & ex) & E1 & EW & X). apply andb_prop in X. destruct X as (X & Y). cbn [fst] in Y. unfold dcheck1 in X. unfold dcheck2 in Y. remember (with_mem mem2 m1) as m2 eqn:EM.
  assert (E2 : dbuilt (boot_calls 5 [AWrite 5376 8]) = Ret m2). { rewrite EM. apply (dbuilt_then 5 (AWrite 5376 8) m1 _ E1). cbn [api_call]. rewrite EW. reflexivity. }
  destruct (boot_calls_wf 5 [] (Forall_nil _) (Forall_nil _)) as (C1 & C2). destruct (dbuilt_facts _ _ C1 C2 E1) as (Hr1 & W1 & T1 & B1).
  assert (D1 : Forall api_wf [AWrite 5376 8]) by (constructor; [cbn; unfold is_u32; lia|constructor]). assert (D2 : Forall no_map_abs [AWrite 5376 8]) by (constructor; [exact I|constructor]).
  destruct (boot_calls_wf 5 _ D1 D2) as (C3 & C4). destruct (dbuilt_facts _ _ C3 C4 E2) as (Hr2 & W2 & T2 & B2).
  apply andb_prop in X. destruct X as (X & X7). apply andb_prop in X. destruct X as (X & X6). apply andb_prop in X. destruct X as (X & X5). apply andb_prop in X. destruct X as (X & X4). apply andb_prop in X. destruct X as (X & X3). apply andb_prop in X. destruct X as (X1 & X2).
  apply andb_prop in Y. destruct Y as (Y & Y3). apply andb_prop in Y. destruct Y as (Y1 & Y2). apply then_check_sound in X6. destruct X6 as (m3 & N3 & X6). apply panics_sound in X7, Y3. apply Z.eqb_eq in X2, X3, X6.
  apply words_check in X5. apply words_check in Y2. destruct X5 as (l1 & L1 & X5). destruct Y2 as (l2 & L2 & Y2).
  pose proof (second_ram _ _ _ T1 L1) as R1. pose proof (second_ram _ _ _ T2 L2) as R2. pose proof dvault_entries as EO.
  assert (P2 : R m2 R_pda = 1024) by (rewrite EM; exact X3).
  exists m1, m2, m3. rewrite X2, X3, P2. split; [exact Hr1|]. split; [exact W1|]. split; [exact W2|]. split; [exact B1|]. split; [discriminate|].
  split. { rewrite EM. split. { apply (veil_write true vault_guard m1 vault_ram l1 5376 8 mem2 ex R1); auto; [unfold occupies; cbn; lia|apply mem_write_oc, EW]. } split; [reflexivity|]. split; [reflexivity|]. split; [intros r _; reflexivity|reflexivity]. }
  split; [exists l1; auto|]. split; [exists l2; auto|]. split; [exact (rom_fenced _ _ _ _ _ _ (first_rom_directory _ _ _ _ _ vault_residue T1 X1 EO))|]. split; [exact (rom_fenced _ _ _ _ _ _ (first_rom_directory _ _ _ _ _ vault_residue T2 Y1 EO))|]. split; [apply duser_n_sound, X4|]. auto.
Qed.
