(** Proofs of C87: what userland can observe. *)
From Coq Require Import ZArith List Bool Lia.
From Verif Require Import Base Board Mem Cpu Asm SpecMach SpecIsa SpecBus SpecObs SpecSim SpecTotal SpecUser BaseFacts RegFacts MemFacts AluFacts IsaFacts IsaStep CycleFacts MonoFacts InvFacts CyclePost ProofPanic ProofRun Demo ProofState ProofTotal.
Import ListNotations.
Open Scope Z_scope.

Section Spec.
Context {D : Type} (ops : bus_ops D).
Notation bs := (board_bus ops false).
Implicit Type s : st (memory D).

Record alike s1 s2 : Prop := Alike {
  al_bus : s_bus s1 = s_bus s2; al_cyc : s_cyc s1 = s_cyc s2; al_halt : s_halt s1 = s_halt s2;
  al_len1 : length (s_reg s1) = 32%nat; al_len2 : length (s_reg s2) = 32%nat;
  al_reg : forall r, hidden r = false -> get s1 r = get s2 r;
  al_pda : get s1 R_mtt = 0 \/ get s1 R_pda = get s2 R_pda;
  al_user : get s1 R_smt = 0 }.
Definition entered s1 s2 : Prop :=
  s_bus s1 = s_bus s2 /\ s_cyc s1 = s_cyc s2 /\ s_halt s1 = s_halt s2 /\
  get s1 R_smt = 1 /\ get s1 R_et = get s2 R_et /\ get s1 R_pc = get s1 R_ev /\ get s2 R_pc = get s2 R_ev /\
  (forall r, hidden r = false -> r <> R_pc -> get s1 r = get s2 r).
Definition rel s1 s2 : Prop := alike s1 s2 \/ entered s1 s2 \/ s1 = s2.
Notation RR := (both rel).

Lemma al_sup s1 s2 : alike s1 s2 -> sup s1 = false /\ sup s2 = false.
Proof. intros A. unfold sup. rewrite <- (al_reg _ _ A R_smt eq_refl), (al_user _ _ A). auto. Qed.
Lemma get_put s r v r' : length (s_reg s) = 32%nat -> get (put s r v) r' = if reg_eq_dec r' r then v else get s r'.
Proof. intros H. unfold get, put. cbn [s_reg]. apply rg_rs, H. Qed.
Lemma put_length s r v : length (s_reg (put s r v)) = length (s_reg s).
Proof. apply rs_length. Qed.

(** The same value in the same register. *)
Lemma al_put s1 s2 r v : alike s1 s2 -> r <> R_smt -> r <> R_mtt -> alike (put s1 r v) (put s2 r v).
Proof.
  intros A N1 N2. destruct A as [B C H L1 L2 G P U]. constructor; auto; try (rewrite put_length; assumption).
  - intros x Hx. rewrite !get_put by assumption. destruct (reg_eq_dec x r); auto.
  - rewrite !get_put by assumption. destruct (reg_eq_dec R_mtt r) as [X|_]; [symmetry in X; contradiction|]. destruct P as [P|P]; [left; exact P|]. right. destruct (reg_eq_dec R_pda r); auto.
  - rewrite get_put by assumption. destruct (reg_eq_dec R_smt r) as [X|_]; [symmetry in X; contradiction|]. exact U.
Qed.
Lemma al_with_bus s1 s2 b : alike s1 s2 -> alike (with_bus s1 b) (with_bus s2 b).
Proof. intros [B C H L1 L2 G P U]. constructor; auto. Qed.

Lemma rr_raise s1 s2 code data : alike s1 s2 -> RR (raise code data s1) (raise code data s2).
Proof.
  intros A. destruct (al_sup _ _ A) as (U1 & U2). unfold raise. rewrite U1, U2. cbn [both]. right. left.
  destruct A as [B C H L1 L2 G P U].
  assert (E : forall s, length (s_reg s) = 32%nat -> forall x e, get (put (put (put s R_et e) R_pc (get s R_ev)) R_smt 1) x =
    if reg_eq_dec x R_smt then 1 else if reg_eq_dec x R_pc then get s R_ev else if reg_eq_dec x R_et then e else get s x).
  { intros s L x e. rewrite !get_put by (rewrite ?put_length; exact L). reflexivity. }
  unfold entered. rewrite !E by assumption. cbn [reg_eq_dec]. repeat split; auto.
  intros r Hr N. rewrite !E by assumption. destruct (reg_eq_dec r R_smt); auto. destruct (reg_eq_dec r R_pc); [contradiction|]. destruct (reg_eq_dec r R_et); auto.
Qed.
Lemma rr_missing s1 s2 u c : alike s1 s2 -> RR (missing u c s1) (missing u c s2).
Proof. intros A. destruct (al_sup _ _ A) as (U1 & U2). unfold missing. rewrite U1, U2. apply rr_raise, A. Qed.
Lemma rr_ret s1 s2 : alike s1 s2 -> RR (Ret s1) (Ret s2).
Proof. intros A. left. exact A. Qed.
Lemma rr_advance s1 s2 n : alike s1 s2 -> RR (advance n s1) (advance n s2).
Proof. intros A. unfold advance. rewrite (al_reg _ _ A R_pc eq_refl). apply rr_ret, al_put; auto; discriminate. Qed.
Lemma user_visible r : user_reg r = true -> hidden r = false /\ r <> R_smt /\ r <> R_mtt.
Proof. destruct r; cbn; intros H; try discriminate H; (split; [reflexivity|]; split; discriminate). Qed.
Lemma rr_read r s1 s2 k1 k2 : alike s1 s2 -> (forall x, RR (k1 x) (k2 x)) -> RR (read r s1 k1) (read r s2 k2).
Proof.
  intros A K. unfold read, can_read. destruct (al_sup _ _ A) as (-> & ->). cbn [orb]. destruct (user_reg r) eqn:E; [|apply rr_raise, A].
  destruct (user_visible r E) as (V & _). rewrite (al_reg _ _ A r V). apply K.
Qed.
Lemma rr_read1 v s1 s2 k1 k2 : alike s1 s2 -> (forall x, RR (k1 x) (k2 x)) -> RR (read1 v s1 k1) (read1 v s2 k2).
Proof. intros A K. destruct v; cbn [read1]; [apply rr_read; auto|apply K]. Qed.
Lemma rr_read2 v s1 s2 k1 k2 : alike s1 s2 -> (forall x, RR (k1 x) (k2 x)) -> RR (read2 v s1 k1) (read2 v s2 k2).
Proof. intros A K. destruct v; cbn [read2]; [apply rr_read; auto|apply K]. Qed.
Lemma rr_source b p s1 s2 k1 k2 : alike s1 s2 -> (forall x, RR (k1 x) (k2 x)) -> RR (source b p s1 k1) (source b p s2 k2).
Proof. intros A K. unfold source. destruct b; [|apply K]. destruct (reg_from_code p); [apply rr_read; auto|apply rr_missing, A]. Qed.
Lemma rr_write r v s1 s2 k1 k2 : alike s1 s2 -> (forall s1 s2, alike s1 s2 -> RR (k1 s1) (k2 s2)) -> RR (write r v s1 k1) (write r v s2 k2).
Proof.
  intros A K. unfold write, can_write. destruct (al_sup _ _ A) as (-> & ->). cbn [orb]. destruct (negb (read_only r) && user_reg r) eqn:E; [|apply rr_raise, A].
  apply andb_prop in E. destruct (user_visible r (proj2 E)) as (V & N1 & N2). apply K, al_put; auto.
Qed.
Lemma rr_write_end r v s1 s2 : alike s1 s2 -> RR (write_end r v s1) (write_end r v s2).
Proof. intros A. apply rr_write; auto. intros t1 t2 B. destruct r; try (apply rr_advance, B). apply rr_ret, B. Qed.
Lemma rr_access a s1 s2 k1 k2 : alike s1 s2 -> (forall s1 s2, alike s1 s2 -> RR (k1 s1) (k2 s2)) -> RR (access bs a s1 k1) (access bs a s2 k2).
Proof.
  intros A K. unfold access. destruct (negb (a mod 4 =? 0)); [apply rr_raise, A|]. rewrite <- (al_reg _ _ A R_mtt eq_refl). destruct (Z.eqb_spec (get s1 R_mtt) 0) as [E|E]; [apply K, A|].
  destruct (al_pda _ _ A) as [X|X]; [contradiction|]. rewrite X, (al_bus _ _ A). destruct (bus_load bs (s_bus s2) _) as [[[b ex] e]|]; [|exact I].
  pose proof (al_with_bus _ _ b A) as B. destruct (negb (ex =? 0)); [apply rr_raise, B|]. destruct (al_sup _ _ B) as (-> & ->). destruct (Z.testbit e 30); [apply rr_raise, B|apply K, B].
Qed.
Lemma rr_load a s1 s2 k1 k2 : alike s1 s2 -> (forall v s1 s2, alike s1 s2 -> RR (k1 v s1) (k2 v s2)) -> RR (load bs a s1 k1) (load bs a s2 k2).
Proof.
  intros A K. apply rr_access; auto. intros t1 t2 B. rewrite (al_bus _ _ B). destruct (bus_load bs (s_bus t2) a) as [[[b ex] v]|]; [|exact I].
  pose proof (al_with_bus _ _ b B) as C. destruct (negb (ex =? 0)); [apply rr_raise, C|apply K, C].
Qed.
Lemma rr_store a v s1 s2 k1 k2 : alike s1 s2 -> (forall s1 s2, alike s1 s2 -> RR (k1 s1) (k2 s2)) -> RR (store bs a v s1 k1) (store bs a v s2 k2).
Proof.
  intros A K. apply rr_access; auto. intros t1 t2 B. rewrite (al_bus _ _ B). destruct (bus_store bs (s_bus t2) a v) as [[b ex]|]; [|exact I].
  pose proof (al_with_bus _ _ b B) as C. destruct (negb (ex =? 0)); [apply rr_raise, C|apply K, C].
Qed.
Lemma rr_arith a d y s1 s2 keep : alike s1 s2 -> RR (arith a d y s1 keep) (arith a d y s2 keep).
Proof.
  intros A. unfold arith. apply rr_read; auto. intros x. destruct (alu_spec a x y) as [r c o|code]; [|apply rr_raise, A].
  assert (B : alike (put s1 R_af (flags_spec r c o)) (put s2 R_af (flags_spec r c o))) by (apply al_put; auto; discriminate).
  destruct keep; [apply rr_write_end, B|apply rr_advance, B].
Qed.
Lemma al_sp s1 s2 : alike s1 s2 -> sp_reg s1 = R_usp /\ sp_reg s2 = R_usp /\ get s1 R_usp = get s2 R_usp.
Proof. intros A. unfold sp_reg. destruct (al_sup _ _ A) as (-> & ->). split; [reflexivity|]. split; [reflexivity|]. apply (al_reg _ _ A). reflexivity. Qed.

Lemma rr_step i s1 s2 : alike s1 s2 -> RR (step bs i s1) (step bs i s2).
Proof.
  intros A. destruct (al_sp _ _ A) as (P1 & P2 & PE). destruct (al_sup _ _ A) as (U1 & U2).
  assert (AF : get s1 R_af = get s2 R_af) by (apply (al_reg _ _ A); reflexivity).
  assert (AV : get s1 R_avr = get s2 R_avr) by (apply (al_reg _ _ A); reflexivity).
  assert (PC : get s1 R_pc = get s2 R_pc) by (apply (al_reg _ _ A); reflexivity).
  destruct i; cbn [step].
  - apply rr_read2; auto. intros x. apply rr_write_end, A.
  - apply rr_read; auto. intros x. apply rr_read; auto. intros y. apply rr_write; auto. intros t1 t2 B. apply rr_write; auto. intros u1 u2 C. destruct a; try (apply rr_ret, C); destruct b; first [apply rr_ret, C|apply rr_advance, C].
  - apply rr_read2; auto. intros y. apply rr_arith, A.
  - apply rr_read2; auto. intros y. apply rr_arith, A.
  - apply rr_read2; auto. intros y. apply rr_arith, A.
  - apply rr_read1; auto. intros y. apply rr_read1; auto. intros z. apply rr_arith, A.
  - apply rr_read1; auto. intros y. apply rr_read1; auto. intros z. apply rr_arith, A.
  - apply rr_read2; auto. intros y. apply rr_arith, A.
  - apply rr_read2; auto. intros y. apply rr_arith, A.
  - apply rr_read2; auto. intros y. apply rr_arith, A.
  - apply rr_read1; auto. intros y. apply rr_arith, A.
  - apply rr_read1; auto. intros y. apply rr_arith, A.
  - apply rr_read2; auto. intros y. apply rr_arith, A.
  - apply rr_read2; auto. intros x. apply rr_advance, A.
  - rewrite U1, U2. apply rr_raise, A.
  - apply rr_read1; auto. intros x. apply rr_raise, A.
  - apply rr_read1; auto. intros f. unfold flag_of. rewrite AF. destruct (7 <? f); [apply rr_raise, A|]. destruct (Z.testbit _ _); apply rr_advance, A.
  - apply rr_read1; auto. intros f. unfold flag_of. rewrite AF. destruct (7 <? f); [apply rr_raise, A|]. destruct (Z.testbit _ _); apply rr_advance, A.
  - apply rr_read1; auto. intros fa. apply rr_read1; auto. intros fb. apply rr_read1; auto. intros cc. unfold flag_of_unchecked. rewrite AF. destruct (cond_spec _ _ _) as [[|]|]; [apply rr_advance, A|apply rr_advance, A|apply rr_raise, A].
  - apply rr_read1; auto. intros x. apply rr_read1; auto. intros y. apply rr_load; auto. intros v t1 t2 B. apply rr_write_end, B.
  - apply rr_read1; auto. intros x. apply rr_read1; auto. intros y. apply rr_read1; auto. intros z. apply rr_load; auto. intros v t1 t2 B. apply rr_advance, al_put; auto; discriminate.
  - apply rr_read1; auto. intros x. apply rr_read1; auto. intros y. apply rr_read1; auto. intros z. apply rr_store; auto. intros t1 t2 B. apply rr_advance, B.
  - apply rr_read1; auto. intros x. apply rr_read1; auto. intros y. apply rr_read1; auto. intros z. rewrite AV. apply rr_store; auto. intros t1 t2 B. apply rr_advance, B.
  - apply rr_read1; auto. intros x. apply rr_read1; auto. intros y. apply rr_load; auto. intros v t1 t2 B. apply rr_read; auto. intros z. apply rr_store; auto. intros u1 u2 C. apply rr_write_end, C.
  - apply rr_read2; auto. intros x. rewrite P1, P2, PE. apply rr_store; auto. intros t1 t2 B. destruct (al_sp _ _ B) as (Q1 & Q2 & _). rewrite Q1, Q2. apply rr_advance, al_put; auto; discriminate.
  - rewrite P1, P2, PE. apply rr_load; auto. intros v t1 t2 B. destruct (al_sp _ _ B) as (Q1 & Q2 & QE). rewrite Q1, Q2, QE. apply rr_write_end, al_put; auto; discriminate.
  - apply rr_read2; auto. intros x. rewrite P1, P2, PE, PC. apply rr_store; auto. intros t1 t2 B. destruct (al_sp _ _ B) as (Q1 & Q2 & _). rewrite Q1, Q2. apply rr_ret, al_put; try discriminate. apply al_put; auto; discriminate.
  - apply rr_read1; auto. intros x. apply rr_read1; auto. intros y. rewrite (al_bus _ _ A). destruct ((x =? 0) && (y =? 0)); [apply rr_write_end, A|]. destruct (bus_info _ _ _ _) as [[code data]|v]; [apply rr_raise, A|apply rr_write_end, A].
  - rewrite (al_cyc _ _ A). apply rr_write_end, A.
  - apply rr_advance. destruct A as [B C H L1 L2 G P U]. constructor; auto.
  - apply rr_read1; auto. intros mode. rewrite (al_bus _ _ A), AV. destruct (reset_selected _ _ _); [|apply rr_raise, A]. destruct (bus_reset _ _ _) as [b'|]; [|exact I]. cbv zeta.
    destruct ((mode / 16) mod 16 =? 0); [right; right; reflexivity|]. apply rr_advance, al_with_bus, A.
Qed.

Lemma rr_bad w s1 s2 : alike s1 s2 -> RR (bad_word ops w s1) (bad_word ops w s2).
Proof.
  intros A. destruct (al_sp _ _ A) as (P1 & P2 & PE). destruct (al_sup _ _ A) as (U1 & U2). unfold bad_word. cbv zeta.
  set (one1 := source (Z.testbit w 26) _ s1 _). set (one2 := source (Z.testbit w 26) _ s2 (fun _ => Ret s2)). assert (ONE : RR one1 one2) by (apply rr_source; auto; intros; apply rr_ret, A).
  set (three1 := source (Z.testbit w 26) _ s1 (fun _ => source _ _ _ _)). set (three2 := source (Z.testbit w 26) _ s2 (fun _ => source _ _ _ _)).
  assert (THREE : RR three1 three2) by (apply rr_source; auto; intros; apply rr_source; auto; intros; apply rr_source; auto; intros; apply rr_ret, A). clearbody one1 one2 three1 three2.
  assert (B1 : forall f : outcome (st (memory D)) -> outcome (st (memory D)) -> Prop, True) by auto. clear B1.
  destruct (w / 2 ^ 27) as [|q|q]; [apply rr_raise, A| |apply rr_ret, A].
  do 5 (try (match goal with q : positive |- _ => destruct q as [q|q|] end)); try exact ONE; try exact THREE; try (apply rr_ret, A); try (apply rr_missing, A);
    try (rewrite U1, U2; apply rr_raise, A);
    try (apply rr_source; auto; intros; first [apply rr_missing, A|apply rr_source; auto; intros; first [apply rr_missing, A|apply rr_ret, A|
      apply rr_load; auto; intros; apply rr_missing; assumption]]).
  - rewrite P1, P2, PE. apply rr_load; auto. intros v t1 t2 B. destruct (al_sp _ _ B) as (Q1 & Q2 & QE). rewrite Q1, Q2, QE. apply rr_missing, al_put; auto; discriminate.
  - apply rr_source; auto; intros x. apply rr_source; auto; intros y. rewrite (al_bus _ _ A). destruct (_ && _); [apply rr_missing, A|]. destruct (bus_info _ _ _ _) as [[code data]|v]; [apply rr_raise, A|apply rr_missing, A].
Qed.

Lemma rr_cycle s1 s2 : alike s1 s2 -> RR (cycle ops s1) (cycle ops s2).
Proof.
  intros A. unfold cycle, cycle_spec. rewrite <- (al_halt _ _ A). destruct (s_halt s1) eqn:H; [apply rr_ret, A|]. rewrite <- (al_cyc _ _ A). unfold fetch.
  assert (B : alike (St (s_reg s1) (s_bus s1) ((s_cyc s1 + 1) mod 2 ^ 128) false) (St (s_reg s2) (s_bus s2) ((s_cyc s1 + 1) mod 2 ^ 128) false)).
  { destruct A as [B C H' L1 L2 G P U]. constructor; auto. }
  rewrite (al_reg _ _ B R_pc eq_refl). apply rr_load; auto. intros v t1 t2 C. destruct (decode (bytes_of_word v)); [apply rr_step, C|apply rr_bad, C].
Qed.
End Spec.

Section Machine.
Context {D : Type} (ops : bus_ops D) (T : typed ops).
Implicit Type m : cpu D.
Definition outcomes m1 m2 : Prop := user_alike m1 m2 /\ sup_mode m1 = false \/ both_entered m1 m2 \/ same_machine m1 m2.
Lemma next_alike m1 m2 : wf m1 -> wf m2 -> user_alike m1 m2 -> sup_mode m1 = false -> both outcomes (next ops false m1) (next ops false m2).
Proof.
  intros W1 W2 (E1 & E2 & E3 & E4 & E5) U. unfold sup_mode in U. apply negb_false_iff, Z.eqb_eq in U.
  assert (A : alike (abs m1) (abs m2)). { constructor; auto; try (apply file_length; [apply W1 || apply W2]). }
  pose proof (rr_cycle ops _ _ A) as X. rewrite <- (cycle_total ops T m1 W1), <- (cycle_total ops T m2 W2) in X.
  destruct (next ops false m1) as [m1'|] eqn:N1, (next ops false m2) as [m2'|] eqn:N2; cbn [omap both] in *; auto.
  destruct X as [[B C H L1 L2 G P U']|[X|X]].
  - left. split; [exact (conj B (conj C (conj H (conj G P))))|]. unfold sup_mode. change (get (abs m1') R_smt) with (R m1' R_smt) in U'. rewrite U'. reflexivity.
  - right. left. exact X.
  - right. right. unfold same_machine. injection X as X1 X2 X3 X4. split; [exact X2|]. split; [exact X3|]. split; [exact X4|]. intros r. unfold R. rewrite X1. reflexivity.
Qed.
End Machine.
(** Two machines that differ only in hidden registers, in userland: a cycle of one and of the other give the same thing: again machines that differ only in hidden registers, or the same
    exception for both, or (a reset of the processor) the same machine; or both crash. *)
Lemma P_C87_cycle : forall D (ops : bus_ops D) m1 m2, typed ops -> wf m1 -> wf m2 -> user_alike m1 m2 -> sup_mode m1 = false ->
  both (fun m1' m2' => user_alike m1' m2' /\ sup_mode m1' = false \/ both_entered m1' m2' \/ same_machine m1' m2') (next ops false m1) (next ops false m2).
Proof. intros D ops m1 m2 T. apply next_alike, T. Qed.
(** The same for any number of cycles in userland. *)
Lemma P_C87_run : forall D (ops : bus_ops D) oc n m1 m2, typed ops -> wf m1 -> wf m2 -> user_alike m1 m2 ->
  (forall k m, (k < n)%nat -> run ops oc k m1 = Ret m -> sup_mode m = false) ->
  match run ops oc n m1, run ops oc n m2 with
  | Ret m1', Ret m2' => user_alike m1' m2' \/ both_entered m1' m2' \/ same_machine m1' m2'
  | Panic, Panic => True
  | _, _ => oc = true
  end.
Proof.
  intros D ops oc n m1 m2 T W1 W2 A HU.
  assert (G : forall n m1 m2, wf m1 -> wf m2 -> user_alike m1 m2 -> (forall k m, (k < n)%nat -> run ops false k m1 = Ret m -> sup_mode m = false) ->
    both (fun m1' m2' => user_alike m1' m2' \/ both_entered m1' m2' \/ same_machine m1' m2') (run ops false n m1) (run ops false n m2)).
  { clear - T. induction n as [|n IH]; intros m1 m2 W1 W2 A HU. { left. exact A. }
    pose proof (next_alike ops T m1 m2 W1 W2 A (HU O m1 ltac:(lia) eq_refl)) as X. cbn [run]. destruct (next ops false m1) as [m1'|] eqn:N1, (next ops false m2) as [m2'|] eqn:N2; cbn [both obind] in *; auto; try contradiction.
    destruct n as [|n]. { cbn [run both]. destruct X as [(X & _)|X]; [left; exact X|right; exact X]. }
    assert (U : sup_mode m1' = false). { apply (HU 1%nat); [lia|]. cbn [run]. rewrite N1. reflexivity. }
    assert (A' : user_alike m1' m2').
    { destruct X as [(X & _)|[X|X]]; [exact X| |].
      - destruct X as (_ & _ & _ & X & _). unfold sup_mode in U. rewrite X in U. discriminate U.
      - destruct X as (X1 & X2 & X3 & X4). split; [exact X1|]. split; [exact X2|]. split; [exact X3|]. split; [intros r _; apply X4|right; apply X4]. }
    apply IH; [exact (next_wf ops T _ _ _ W1 N1)|exact (next_wf ops T _ _ _ W2 N2)|exact A'|]. intros k m Hk Hr. apply (HU (S k)); [lia|]. cbn [run]. rewrite N1. exact Hr. }
  destruct oc.
  - destruct (run ops true n m1) as [m1'|] eqn:R1, (run ops true n m2) as [m2'|] eqn:R2; auto.
    assert (HU' : forall k m, (k < n)%nat -> run ops false k m1 = Ret m -> sup_mode m = false).
    { intros k m Hk Hr. destruct (run ops true k m1) as [m3|] eqn:R3.
      - pose proof (run_oc ops _ _ _ _ R3) as X. rewrite Hr in X. apply Ret_inj in X. subst m3. eapply HU; eauto.
      - exfalso. destruct (run_prefix ops true n k m1 m1' R1 (Nat.lt_le_incl _ _ Hk)) as (? & X). congruence. }
    specialize (G n m1 m2 W1 W2 A HU'). rewrite (run_oc ops _ _ _ _ R1), (run_oc ops _ _ _ _ R2) in G. exact G.
  - specialize (G n m1 m2 W1 W2 A HU). unfold both in G. destruct (run ops false n m1), (run ops false n m2); auto; contradiction.
Qed.

(** LSM 0; then (at 4, in userland) ADD a0, 5 and ITR 7, in two machines whose supervisor stack pointers differ: both run the addition, then take the same exception. *)
Definition user_prog : list Z := asm [Lsm (Lit2 0); Add R_a0 (Lit2 5); Itr (Lit1 7)].
Lemma user_pair : exists m1 m2, reachable words_ops false m1 /\ wf m1 /\ wf m2 /\ user_alike m1 m2 /\ R m1 R_ssp = 0 /\ R m2 R_ssp = 77 /\ sup_mode m1 = false /\
  (exists m3, next words_ops false m1 = Ret m3 /\ sup_mode m3 = false /\ R m3 R_a0 = 5) /\
  exists m1' m2', run words_ops false 2 m1 = Ret m1' /\ run words_ops false 2 m2 = Ret m2' /\ sup_mode m1' = true /\ R m1' R_et = 240 * 65536 + 7 /\ R m2' R_et = 240 * 65536 + 7 /\ R m2' R_ssp = 77.
Proof.
  assert (X : exists m, words_run false 0 user_prog 1 = Ret m /\
    ((R m R_ssp =? 0) && negb (sup_mode m) && then_check (next words_ops false m) (fun m3 => negb (sup_mode m3) && (R m3 R_a0 =? 5)) &&
     then_check (run words_ops false 2 m) (fun m' => sup_mode m' && (R m' R_et =? 240 * 65536 + 7)) && then_check (run words_ops false 2 (wr R_ssp 77 m)) (fun m' => (R m' R_et =? 240 * 65536 + 7) && (R m' R_ssp =? 77))) = true)
    by (apply then_check_sound; vm_compute; reflexivity).
  destruct X as (m & E & X). destruct (words_wf false 0 _ _ m ltac:(unfold is_u32; lia) E) as (Hr & W).
  apply andb_prop in X. destruct X as (X & X5). apply andb_prop in X. destruct X as (X & X4). apply andb_prop in X. destruct X as (X & X3). apply andb_prop in X. destruct X as (X1 & X2).
  apply then_check_sound in X3. destruct X3 as (m3 & N3 & X3). apply andb_prop in X3. destruct X3 as (X3 & X3'). apply then_check_sound in X4. destruct X4 as (m4 & N4 & X4). apply andb_prop in X4. destruct X4 as (X4 & X4').
  apply then_check_sound in X5. destruct X5 as (m5 & N5 & X5). apply andb_prop in X5. destruct X5 as (X5 & X5'). apply negb_true_iff in X2, X3. apply Z.eqb_eq in X1, X3', X4', X5, X5'.
  assert (W2 : wf (wr R_ssp 77 m)). { destruct W as (Wr & Wm & Wc). split; [apply wr_wf; auto; unfold is_u32; lia|]. split; [exact Wm|exact Wc]. }
  exists m, (wr R_ssp 77 m). split; [exact Hr|]. split; [exact W|]. split; [exact W2|].
  split. { split; [reflexivity|]. split; [reflexivity|]. split; [reflexivity|]. assert (Y : forall r, r <> R_ssp -> R m r = R (wr R_ssp 77 m) r).
    { intros r N. unfold R. rewrite file_wr by apply W. rewrite rg_rs by (apply file_length, W). destruct (reg_eq_dec r R_ssp); [contradiction|reflexivity]. }
    split; [intros r Hh; apply Y; intros ->; discriminate Hh|right; apply Y; discriminate]. }
  split; [exact X1|]. split; [apply R_wr_same; apply W|]. split; [exact X2|]. split; [exists m3; auto|]. exists m4, m5. auto 10.
Qed.
Lemma E_C87_cycle : exists m1 m2, reachable words_ops false m1 /\ wf m1 /\ wf m2 /\ user_alike m1 m2 /\ R m1 R_ssp <> R m2 R_ssp /\ sup_mode m1 = false /\ exists m3, next words_ops false m1 = Ret m3 /\ R m3 R_a0 = 5.
Proof. destruct user_pair as (m1 & m2 & H1 & H2 & H3 & H4 & H5 & H6 & H7 & (m3 & H8 & _ & H9) & _). exists m1, m2. rewrite H5, H6. split; [exact H1|]. split; [exact H2|]. split; [exact H3|]. split; [exact H4|]. split; [discriminate|]. split; [exact H7|]. exists m3. auto. Qed.
Lemma E_C87_run : exists m1 m2 m1' m2', wf m1 /\ wf m2 /\ user_alike m1 m2 /\ R m1 R_ssp <> R m2 R_ssp /\ (forall k m, (k < 2)%nat -> run words_ops false k m1 = Ret m -> sup_mode m = false) /\
  run words_ops false 2 m1 = Ret m1' /\ run words_ops false 2 m2 = Ret m2' /\ R m1' R_et = 240 * 65536 + 7 /\ R m2' R_et = 240 * 65536 + 7 /\ R m2' R_ssp = 77.
Proof.
  destruct user_pair as (m1 & m2 & H1 & H2 & H3 & H4 & H5 & H6 & H7 & (m3 & H8 & H8' & _) & m1' & m2' & H10 & H11 & H12 & H13 & H14 & H15). exists m1, m2, m1', m2'. rewrite H5, H6. split; [exact H2|]. split; [exact H3|]. split; [exact H4|]. split; [discriminate|].
  split; [|auto 10]. intros k m Hk Hr. destruct k as [|[|k]]; [|..|lia].
  - cbn [run] in Hr. apply Ret_inj in Hr. subst m. exact H7.
  - cbn [run] in Hr. rewrite H8 in Hr. cbn [obind] in Hr. apply Ret_inj in Hr. subst m. exact H8'.
Qed.
(** However long userland runs, the registers of the supervisor keep their values; the first cycle after which userland is left lands on the handler ev pointed to (cycles that reset the processor excepted). *)
Lemma P_C17_run : forall D (ops : bus_ops D) oc n m m', typed ops -> wf m -> sup_mode m = false ->
  (forall k mk, (k < n)%nat -> run ops oc k m = Ret mk -> sup_mode mk = false /\ ~ exists i mem1, fetches ops mk i mem1 /\ resets_cpu mk i) ->
  run ops oc n m = Ret m' ->
  (forall r, In r [R_ssp; R_ev; R_mtt; R_pda; R_era] -> R m' r = R m r) /\
  (sup_mode m' = false /\ R m' R_et = R m R_et \/ R m' R_smt = 1 /\ R m' R_pc = R m R_ev).
Proof.
  intros D ops oc n. induction n as [|n IH]; intros m m' T Hw Hu HK Hr.
  { cbn [run] in Hr. apply Ret_inj in Hr. subst m'. split; [reflexivity|]. left. auto. }
  destruct (run_split ops oc n m m' Hr) as (m1 & R1 & N1).
  assert (W1 : wf m1) by (exact (run_wf ops T oc n m m1 Hw R1)).
  destruct (HK n m1 ltac:(lia) R1) as (U1 & NR).
  destruct (IH m m1 T Hw Hu (fun k mk Hk => HK k mk (Nat.lt_trans _ _ _ Hk (Nat.lt_succ_diag_r n))) R1) as (I1 & I2).
  assert (I3 : R m1 R_et = R m R_et). { destruct I2 as [(_ & X)|(X & _)]; [exact X|]. unfold sup_mode in U1. rewrite X in U1. discriminate U1. }
  destruct (c_halted m1) eqn:Hh.
  { unfold next in N1. rewrite Hh in N1. apply Ret_inj in N1. subst m'. split; [exact I1|]. left. split; [exact U1|exact I3]. }
  destruct (P_C17_confined D ops oc m1 m' T W1 Hh U1 N1) as [X|(X1 & X2 & _)]; [contradiction|].
  split. { intros r Hin. rewrite (X1 r Hin). apply I1, Hin. }
  destruct X2 as [(X2 & X3)|(X2 & X3)]; [left|right].
  - unfold sup_mode. rewrite X2. split; [reflexivity|]. congruence.
  - split; [exact X2|]. rewrite X3. apply I1. cbn. auto.
Qed.
Definition no_reset_next (m : cpu (list Z)) : bool :=
  (R m R_mtt =? 0) && match mem_read words_ops false (c_mem m) (R m R_pc) with Ret (_, _, w) => match decode (bytes_of_word w) with ROk (Reset _) => false | _ => true end | Panic => true end.
Lemma no_reset_sound m : no_reset_next m = true -> ~ exists i mem1, fetches words_ops m i mem1 /\ resets_cpu m i.
Proof.
  intros H (i & mem1 & (w & (_ & mem0 & P & L) & Ed) & (v & mode & -> & _)). apply andb_prop in H. destruct H as (H0 & H). apply Z.eqb_eq in H0. unfold passes in P. rewrite H0 in P. cbn in P. subst mem0. rewrite L, Ed in H. discriminate H.
Qed.
(** The machine of C87: two cycles in userland, then the exception. *)
Lemma E_C17_run : exists m m', wf m /\ sup_mode m = false /\ run words_ops false 2 m = Ret m' /\ R m' R_smt = 1 /\ R m' R_pc = R m R_ev /\
  (forall k mk, (k < 2)%nat -> run words_ops false k m = Ret mk -> sup_mode mk = false /\ ~ exists i mem1, fetches words_ops mk i mem1 /\ resets_cpu mk i).
Proof.
  assert (X : exists m, words_run false 0 user_prog 1 = Ret m /\
    (negb (sup_mode m) && no_reset_next m && then_check (next words_ops false m) (fun m3 => negb (sup_mode m3) && no_reset_next m3) &&
     then_check (run words_ops false 2 m) (fun m' => (R m' R_smt =? 1) && (R m' R_pc =? R m R_ev))) = true)
    by (apply then_check_sound; vm_compute; reflexivity).
  destruct X as (m & E & X). destruct (words_wf false 0 _ _ m ltac:(unfold is_u32; lia) E) as (_ & W).
  apply andb_prop in X. destruct X as (X & X4). apply andb_prop in X. destruct X as (X & X3). apply andb_prop in X. destruct X as (X1 & X2).
  apply then_check_sound in X3. destruct X3 as (m3 & N3 & X3). apply andb_prop in X3. destruct X3 as (X3 & X3'). apply then_check_sound in X4. destruct X4 as (m4 & N4 & X4). apply andb_prop in X4. destruct X4 as (X4 & X4').
  apply negb_true_iff in X1, X3. apply Z.eqb_eq in X4, X4'. exists m, m4. split; [exact W|]. split; [exact X1|]. split; [exact N4|]. split; [exact X4|]. split; [exact X4'|].
  intros k mk Hk Hr. destruct k as [|[|k]]; [|..|lia]; cbn [run] in Hr.
  - apply Ret_inj in Hr. subst mk. split; [exact X1|apply no_reset_sound, X2].
  - rewrite N3 in Hr. cbn [obind] in Hr. apply Ret_inj in Hr. subst mk. split; [exact X3|apply no_reset_sound, X3'].
Qed.
