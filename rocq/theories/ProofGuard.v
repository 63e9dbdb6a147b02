(** Proofs of C90: a page directory confines userland. *)
From Coq Require Import ZArith List Bool Lia.
From Verif Require Import Base Board Mem Cpu Asm Devices SpecMach SpecIsa SpecBus SpecObs SpecSim SpecTotal SpecUser SpecMap SpecMemory SpecGuard BaseFacts RegFacts MemFacts AluFacts IsaFacts IsaStep CycleFacts MonoFacts InvFacts ReachFacts CyclePost
  DevTyped ExecFacts ProofMap ProofMem ProofPanic ProofRun ProofRom ProofEffect Demo ProofState ProofTotal ProofRam.
Import ListNotations.
Open Scope Z_scope.
Ltac Zify.zify_post_hook ::= Z.div_mod_to_equations.

Section Spec.
Context {D : Type} (ops : bus_ops D).
Notation bs := (board_bus ops false).
Implicit Type s : st (memory D).
(** A relation between the two boards, kept by the accesses userland is let do. *)
Variable RX : memory D -> memory D -> Prop.
Variable guard : Z -> bool.
Variable pda : Z.
Hypothesis Hpage : forall b1 b2 a, RX b1 b2 -> a mod 4 = 0 -> exists b1' b2' e1 e2, mem_read ops false b1 (entry_at pda a) = Ret (b1', 0, e1) /\ mem_read ops false b2 (entry_at pda a) = Ret (b2', 0, e2) /\ RX b1' b2' /\ Z.testbit e1 30 = guard a /\ Z.testbit e2 30 = guard a.
Hypothesis Hload : forall b1 b2 a, RX b1 b2 -> a mod 4 = 0 -> guard a = false ->
  both (fun x y => RX (fst (fst x)) (fst (fst y)) /\ snd (fst x) = snd (fst y) /\ snd x = snd y) (mem_read ops false b1 a) (mem_read ops false b2 a).
Hypothesis Hstore : forall b1 b2 a w, RX b1 b2 -> a mod 4 = 0 -> guard a = false ->
  both (fun x y => RX (fst x) (fst y) /\ snd x = snd y) (mem_write ops false b1 a w) (mem_write ops false b2 a w).
Hypothesis Hinfo : forall b1 b2, RX b1 b2 -> zlen (mm_hwb b1) = zlen (mm_hwb b2) /\ forall x y, info_spec b1 x y = info_spec b2 x y.

Record alike s1 s2 : Prop := Alike {
  al_bus : RX (s_bus s1) (s_bus s2); al_cyc : s_cyc s1 = s_cyc s2; al_halt : s_halt s1 = s_halt s2;
  al_len1 : length (s_reg s1) = 32%nat; al_len2 : length (s_reg s2) = 32%nat;
  al_reg : forall r, hidden r = false -> get s1 r = get s2 r;
  al_mtt : get s1 R_mtt <> 0; al_pda : get s1 R_pda = pda /\ get s2 R_pda = pda;
  al_user : get s1 R_smt = 0 }.
Definition entered s1 s2 : Prop :=
  RX (s_bus s1) (s_bus s2) /\ s_cyc s1 = s_cyc s2 /\ s_halt s1 = s_halt s2 /\
  get s1 R_smt = 1 /\ get s1 R_et = get s2 R_et /\ get s1 R_pc = get s1 R_ev /\ get s2 R_pc = get s2 R_ev /\
  (forall r, hidden r = false -> r <> R_pc -> get s1 r = get s2 r).
Definition rel s1 s2 : Prop := alike s1 s2 \/ entered s1 s2.
Notation RR := (both rel).

Lemma al_sup s1 s2 : alike s1 s2 -> sup s1 = false /\ sup s2 = false.
Proof. intros A. unfold sup. rewrite <- (al_reg _ _ A R_smt eq_refl), (al_user _ _ A). auto. Qed.
Lemma get_put s r v r' : length (s_reg s) = 32%nat -> get (put s r v) r' = if reg_eq_dec r' r then v else get s r'.
Proof. intros H. unfold get, put. cbn [s_reg]. apply rg_rs, H. Qed.
Lemma put_length s r v : length (s_reg (put s r v)) = length (s_reg s).
Proof. apply rs_length. Qed.

(** The same value in the same register. *)
Lemma al_put s1 s2 r v : alike s1 s2 -> r <> R_smt -> r <> R_mtt -> r <> R_pda -> alike (put s1 r v) (put s2 r v).
Proof.
  intros A N1 N2 N3. destruct A as [B C H L1 L2 G M P U]. constructor; auto; try (rewrite put_length; assumption).
  - intros x Hx. rewrite !get_put by assumption. destruct (reg_eq_dec x r); auto.
  - rewrite get_put by assumption. destruct (reg_eq_dec R_mtt r) as [X|_]; [symmetry in X; contradiction|]. exact M.
  - rewrite !get_put by assumption. destruct (reg_eq_dec R_pda r) as [X|_]; [symmetry in X; contradiction|]. exact P.
  - rewrite get_put by assumption. destruct (reg_eq_dec R_smt r) as [X|_]; [symmetry in X; contradiction|]. exact U.
Qed.
Lemma al_with_bus s1 s2 b1 b2 : alike s1 s2 -> RX b1 b2 -> alike (with_bus s1 b1) (with_bus s2 b2).
Proof. intros [B C H L1 L2 G M P U] X. constructor; auto. Qed.

Lemma rr_raise s1 s2 code data : alike s1 s2 -> RR (raise code data s1) (raise code data s2).
Proof.
  intros A. destruct (al_sup _ _ A) as (U1 & U2). unfold raise. rewrite U1, U2. cbn [both]. right.
  destruct A as [B C H L1 L2 G M P U].
  assert (E : forall s, length (s_reg s) = 32%nat -> forall x e, get (put (put (put s R_et e) R_pc (get s R_ev)) R_smt 1) x =
    if reg_eq_dec x R_smt then 1 else if reg_eq_dec x R_pc then get s R_ev else if reg_eq_dec x R_et then e else get s x).
  { intros s L x e. rewrite !get_put by (rewrite ?put_length; exact L). reflexivity. }
  unfold entered. rewrite !E by assumption. cbn [reg_eq_dec]. repeat split; auto.
  intros r Hr N. rewrite !E by assumption. destruct (reg_eq_dec r R_smt); auto. destruct (reg_eq_dec r R_pc); [contradiction|]. destruct (reg_eq_dec r R_et); auto.
Qed.
Lemma rr_missing s1 s2 u c : alike s1 s2 -> RR (missing u c s1) (missing u c s2).
Proof. intros A. destruct (al_sup _ _ A) as (U1 & U2). unfold missing. rewrite U1, U2. apply rr_raise, A. Qed.
Lemma rr_ret s1 s2 : alike s1 s2 -> RR (Ret s1) (Ret s2).
Proof. intros A. left. exact A. Qed.
Lemma rr_advance s1 s2 n : alike s1 s2 -> RR (advance n s1) (advance n s2).
Proof. intros A. unfold advance. rewrite (al_reg _ _ A R_pc eq_refl). apply rr_ret, al_put; auto; discriminate. Qed.
Lemma user_visible r : user_reg r = true -> hidden r = false /\ r <> R_smt /\ r <> R_mtt /\ r <> R_pda.
Proof. destruct r; cbn; intros H; try discriminate H; (split; [reflexivity|]; split; [discriminate|]; split; discriminate). Qed.
Lemma rr_read r s1 s2 k1 k2 : alike s1 s2 -> (forall x, RR (k1 x) (k2 x)) -> RR (read r s1 k1) (read r s2 k2).
Proof.
  intros A K. unfold read, can_read. destruct (al_sup _ _ A) as (-> & ->). cbn [orb]. destruct (user_reg r) eqn:E; [|apply rr_raise, A].
  destruct (user_visible r E) as (V & _). rewrite (al_reg _ _ A r V). apply K.
Qed.
Lemma rr_read1 v s1 s2 k1 k2 : alike s1 s2 -> (forall x, RR (k1 x) (k2 x)) -> RR (read1 v s1 k1) (read1 v s2 k2).
Proof. intros A K. destruct v; cbn [read1]; [apply rr_read; auto|apply K]. Qed.
Lemma rr_read2 v s1 s2 k1 k2 : alike s1 s2 -> (forall x, RR (k1 x) (k2 x)) -> RR (read2 v s1 k1) (read2 v s2 k2).
Proof. intros A K. destruct v; cbn [read2]; [apply rr_read; auto|apply K]. Qed.
Lemma rr_source b p s1 s2 k1 k2 : alike s1 s2 -> (forall x, RR (k1 x) (k2 x)) -> RR (source b p s1 k1) (source b p s2 k2).
Proof. intros A K. unfold source. destruct b; [|apply K]. destruct (reg_from_code p); [apply rr_read; auto|apply rr_missing, A]. Qed.
Lemma rr_write r v s1 s2 k1 k2 : alike s1 s2 -> (forall s1 s2, alike s1 s2 -> RR (k1 s1) (k2 s2)) -> RR (write r v s1 k1) (write r v s2 k2).
Proof.
  intros A K. unfold write, can_write. destruct (al_sup _ _ A) as (-> & ->). cbn [orb]. destruct (negb (read_only r) && user_reg r) eqn:E; [|apply rr_raise, A].
  apply andb_prop in E. destruct (user_visible r (proj2 E)) as (V & N1 & N2 & N3). apply K, al_put; auto.
Qed.
Lemma rr_write_end r v s1 s2 : alike s1 s2 -> RR (write_end r v s1) (write_end r v s2).
Proof. intros A. apply rr_write; auto. intros t1 t2 B. destruct r; try (apply rr_advance, B). apply rr_ret, B. Qed.
Lemma rr_access a s1 s2 k1 k2 : alike s1 s2 ->
  (forall b1' b2' e1, a mod 4 = 0 -> guard a = false -> RX b1' b2' -> mem_read ops false (s_bus s1) (entry_at pda a) = Ret (b1', 0, e1) -> Z.testbit e1 30 = false -> RR (k1 (with_bus s1 b1')) (k2 (with_bus s2 b2'))) ->
  RR (access bs a s1 k1) (access bs a s2 k2).
Proof.
  intros A K. unfold access. destruct (Z.eqb_spec (a mod 4) 0) as [Ea|]; cbn [negb]; [|apply rr_raise, A].
  rewrite <- (al_reg _ _ A R_mtt eq_refl). rewrite (proj2 (Z.eqb_neq _ _) (al_mtt _ _ A)). destruct (al_pda _ _ A) as (-> & ->).
  destruct (Hpage _ _ a (al_bus _ _ A) Ea) as (b1 & b2 & e1 & e2 & L1 & L2 & X & T1 & T2). cbn [bus_load board_bus]. change (m32 (pda + 4 * (a mod 1024))) with (entry_at pda a). rewrite L1, L2. cbn [Z.eqb negb].
  pose proof (al_with_bus _ _ b1 b2 A X) as B. cbv zeta. destruct (al_sup _ _ B) as (-> & ->). rewrite T1, T2. destruct (guard a) eqn:EG; [apply rr_raise, B|]. exact (K _ _ _ Ea eq_refl X L1 T1).
Qed.
(** What a load yields. *)
Definition yields s a v s' : Prop :=
  a mod 4 = 0 /\ exists b1 b2 e, mem_read ops false (s_bus s) (entry_at pda a) = Ret (b1, 0, e) /\ Z.testbit e 30 = false /\ mem_read ops false b1 a = Ret (b2, 0, v) /\ s' = with_bus (with_bus s b1) b2.
Lemma rr_load_yields a s1 s2 k1 k2 : alike s1 s2 -> (forall v s1' s2', alike s1' s2' -> yields s1 a v s1' -> RR (k1 v s1') (k2 v s2')) -> RR (load bs a s1 k1) (load bs a s2 k2).
Proof.
  intros A K. apply rr_access; auto. intros b1 b2 e1 Ea EG X L1 T1. pose proof (al_with_bus _ _ b1 b2 A X) as B. pose proof (Hload _ _ a X Ea EG) as Y. cbn [bus_load board_bus s_bus with_bus] in *.
  destruct (mem_read ops false b1 a) as [[[c1 ex1] v1]|] eqn:R1, (mem_read ops false b2 a) as [[[c2 ex2] v2]|]; cbn [both fst snd] in Y; try contradiction; [|exact I].
  destruct Y as (Y & <- & <-). pose proof (al_with_bus _ _ c1 c2 B Y) as C. cbn [with_bus s_reg s_cyc s_halt] in C |- *.
  destruct (Z.eqb_spec ex1 0) as [->|]; cbn [negb]; [|apply rr_raise, C]. apply K; [exact C|]. split; [exact Ea|]. exists b1, c1, e1. auto.
Qed.
Lemma rr_load a s1 s2 k1 k2 : alike s1 s2 -> (forall v s1 s2, alike s1 s2 -> RR (k1 v s1) (k2 v s2)) -> RR (load bs a s1 k1) (load bs a s2 k2).
Proof. intros A K. apply rr_load_yields; auto. Qed.
Lemma rr_store a v s1 s2 k1 k2 : alike s1 s2 -> (forall s1 s2, alike s1 s2 -> RR (k1 s1) (k2 s2)) -> RR (store bs a v s1 k1) (store bs a v s2 k2).
Proof.
  intros A K. apply rr_access; auto. intros b1 b2 e1 Ea EG X L1 T1. pose proof (al_with_bus _ _ b1 b2 A X) as B. pose proof (Hstore _ _ a v X Ea EG) as Y. cbn [bus_store board_bus s_bus with_bus] in *.
  destruct (mem_write ops false b1 a v) as [[c1 ex1]|], (mem_write ops false b2 a v) as [[c2 ex2]|]; cbn [both fst snd] in Y; try contradiction; [|exact I].
  destruct Y as (Y & <-). pose proof (al_with_bus _ _ c1 c2 B Y) as C. cbn [with_bus s_reg s_cyc s_halt] in C |- *.
  destruct (negb (ex1 =? 0)); [apply rr_raise, C|apply K, C].
Qed.
Lemma rr_arith a d y s1 s2 keep : alike s1 s2 -> RR (arith a d y s1 keep) (arith a d y s2 keep).
Proof.
  intros A. unfold arith. apply rr_read; auto. intros x. destruct (alu_spec a x y) as [r c o|code]; [|apply rr_raise, A].
  assert (B : alike (put s1 R_af (flags_spec r c o)) (put s2 R_af (flags_spec r c o))) by (apply al_put; auto; discriminate).
  destruct keep; [apply rr_write_end, B|apply rr_advance, B].
Qed.
Lemma al_sp s1 s2 : alike s1 s2 -> sp_reg s1 = R_usp /\ sp_reg s2 = R_usp /\ get s1 R_usp = get s2 R_usp.
Proof. intros A. unfold sp_reg. destruct (al_sup _ _ A) as (-> & ->). split; [reflexivity|]. split; [reflexivity|]. apply (al_reg _ _ A). reflexivity. Qed.

Lemma rr_step i s1 s2 : (forall v, i <> Reset v) -> alike s1 s2 -> RR (step bs i s1) (step bs i s2).
Proof.
  intros NR A. destruct (al_sp _ _ A) as (P1 & P2 & PE). destruct (al_sup _ _ A) as (U1 & U2).
  assert (AF : get s1 R_af = get s2 R_af) by (apply (al_reg _ _ A); reflexivity).
  assert (AV : get s1 R_avr = get s2 R_avr) by (apply (al_reg _ _ A); reflexivity).
  assert (PC : get s1 R_pc = get s2 R_pc) by (apply (al_reg _ _ A); reflexivity).
  destruct i; cbn [step].
  - apply rr_read2; auto. intros x. apply rr_write_end, A.
  - apply rr_read; auto. intros x. apply rr_read; auto. intros y. apply rr_write; auto. intros t1 t2 B. apply rr_write; auto. intros u1 u2 C. destruct a; try (apply rr_ret, C); destruct b; first [apply rr_ret, C|apply rr_advance, C].
  - apply rr_read2; auto. intros y. apply rr_arith, A.
  - apply rr_read2; auto. intros y. apply rr_arith, A.
  - apply rr_read2; auto. intros y. apply rr_arith, A.
  - apply rr_read1; auto. intros y. apply rr_read1; auto. intros z. apply rr_arith, A.
  - apply rr_read1; auto. intros y. apply rr_read1; auto. intros z. apply rr_arith, A.
  - apply rr_read2; auto. intros y. apply rr_arith, A.
  - apply rr_read2; auto. intros y. apply rr_arith, A.
  - apply rr_read2; auto. intros y. apply rr_arith, A.
  - apply rr_read1; auto. intros y. apply rr_arith, A.
  - apply rr_read1; auto. intros y. apply rr_arith, A.
  - apply rr_read2; auto. intros y. apply rr_arith, A.
  - apply rr_read2; auto. intros x. apply rr_advance, A.
  - rewrite U1, U2. apply rr_raise, A.
  - apply rr_read1; auto. intros x. apply rr_raise, A.
  - apply rr_read1; auto. intros f. unfold flag_of. rewrite AF. destruct (7 <? f); [apply rr_raise, A|]. destruct (Z.testbit _ _); apply rr_advance, A.
  - apply rr_read1; auto. intros f. unfold flag_of. rewrite AF. destruct (7 <? f); [apply rr_raise, A|]. destruct (Z.testbit _ _); apply rr_advance, A.
  - apply rr_read1; auto. intros fa. apply rr_read1; auto. intros fb. apply rr_read1; auto. intros cc. unfold flag_of_unchecked. rewrite AF. destruct (cond_spec _ _ _) as [[|]|]; [apply rr_advance, A|apply rr_advance, A|apply rr_raise, A].
  - apply rr_read1; auto. intros x. apply rr_read1; auto. intros y. apply rr_load; auto. intros v t1 t2 B. apply rr_write_end, B.
  - apply rr_read1; auto. intros x. apply rr_read1; auto. intros y. apply rr_read1; auto. intros z. apply rr_load; auto. intros v t1 t2 B. apply rr_advance, al_put; auto; discriminate.
  - apply rr_read1; auto. intros x. apply rr_read1; auto. intros y. apply rr_read1; auto. intros z. apply rr_store; auto. intros t1 t2 B. apply rr_advance, B.
  - apply rr_read1; auto. intros x. apply rr_read1; auto. intros y. apply rr_read1; auto. intros z. rewrite AV. apply rr_store; auto. intros t1 t2 B. apply rr_advance, B.
  - apply rr_read1; auto. intros x. apply rr_read1; auto. intros y. apply rr_load; auto. intros v t1 t2 B. apply rr_read; auto. intros z. apply rr_store; auto. intros u1 u2 C. apply rr_write_end, C.
  - apply rr_read2; auto. intros x. rewrite P1, P2, PE. apply rr_store; auto. intros t1 t2 B. destruct (al_sp _ _ B) as (Q1 & Q2 & _). rewrite Q1, Q2. apply rr_advance, al_put; auto; discriminate.
  - rewrite P1, P2, PE. apply rr_load; auto. intros v t1 t2 B. destruct (al_sp _ _ B) as (Q1 & Q2 & QE). rewrite Q1, Q2, QE. apply rr_write_end, al_put; auto; discriminate.
  - apply rr_read2; auto. intros x. rewrite P1, P2, PE, PC. apply rr_store; auto. intros t1 t2 B. destruct (al_sp _ _ B) as (Q1 & Q2 & _). rewrite Q1, Q2. apply rr_ret, al_put; try discriminate. apply al_put; auto; discriminate.
  - apply rr_read1; auto. intros x. apply rr_read1; auto. intros y. destruct (Hinfo _ _ (al_bus _ _ A)) as (HC & HI). cbn [bus_count bus_info board_bus]. rewrite HC, HI. destruct ((x =? 0) && (y =? 0)); [apply rr_write_end, A|]. destruct (info_spec _ _ _) as [[code data]|v]; [apply rr_raise, A|apply rr_write_end, A].
  - rewrite (al_cyc _ _ A). apply rr_write_end, A.
  - apply rr_advance. destruct A as [B C H L1 L2 G M P U]. constructor; auto.
  - exfalso. exact (NR _ eq_refl).
Qed.

Lemma rr_bad w s1 s2 : alike s1 s2 -> RR (bad_word ops w s1) (bad_word ops w s2).
Proof.
  intros A. destruct (al_sp _ _ A) as (P1 & P2 & PE). destruct (al_sup _ _ A) as (U1 & U2). unfold bad_word. cbv zeta.
  set (one1 := source (Z.testbit w 26) _ s1 _). set (one2 := source (Z.testbit w 26) _ s2 (fun _ => Ret s2)). assert (ONE : RR one1 one2) by (apply rr_source; auto; intros; apply rr_ret, A).
  set (three1 := source (Z.testbit w 26) _ s1 (fun _ => source _ _ _ _)). set (three2 := source (Z.testbit w 26) _ s2 (fun _ => source _ _ _ _)).
  assert (THREE : RR three1 three2) by (apply rr_source; auto; intros; apply rr_source; auto; intros; apply rr_source; auto; intros; apply rr_ret, A). clearbody one1 one2 three1 three2.
  assert (B1 : forall f : outcome (st (memory D)) -> outcome (st (memory D)) -> Prop, True) by auto. clear B1.
  destruct (w / 2 ^ 27) as [|q|q]; [apply rr_raise, A| |apply rr_ret, A].
  do 5 (try (match goal with q : positive |- _ => destruct q as [q|q|] end)); try exact ONE; try exact THREE; try (apply rr_ret, A); try (apply rr_missing, A);
    try (rewrite U1, U2; apply rr_raise, A);
    try (apply rr_source; auto; intros; first [apply rr_missing, A|apply rr_source; auto; intros; first [apply rr_missing, A|apply rr_ret, A|
      apply rr_load; auto; intros; apply rr_missing; assumption]]).
  - rewrite P1, P2, PE. apply rr_load; auto. intros v t1 t2 B. destruct (al_sp _ _ B) as (Q1 & Q2 & QE). rewrite Q1, Q2, QE. apply rr_missing, al_put; auto; discriminate.
  - apply rr_source; auto; intros x. apply rr_source; auto; intros y. cbn [bus_info board_bus]. rewrite (proj2 (Hinfo _ _ (al_bus _ _ A))). destruct (_ && _); [apply rr_missing, A|]. destruct (info_spec _ _ _) as [[code data]|v]; [apply rr_raise, A|apply rr_missing, A].
Qed.

Lemma rr_cycle s1 s2 : alike s1 s2 -> (forall v w s', yields s1 (get s1 R_pc) w s' -> decode (bytes_of_word w) <> ROk (Reset v)) -> RR (cycle ops s1) (cycle ops s2).
Proof.
  intros A NR. unfold cycle, cycle_spec. rewrite <- (al_halt _ _ A). destruct (s_halt s1) eqn:H; [apply rr_ret, A|]. rewrite <- (al_cyc _ _ A). unfold fetch.
  assert (B : alike (St (s_reg s1) (s_bus s1) ((s_cyc s1 + 1) mod 2 ^ 128) false) (St (s_reg s2) (s_bus s2) ((s_cyc s1 + 1) mod 2 ^ 128) false)).
  { destruct A as [B C H' L1 L2 G M P U]. constructor; auto. }
  pose proof (al_reg _ _ B R_pc eq_refl) as EP. rewrite <- EP. apply rr_load_yields; auto. intros v t1 t2 C Y. destruct (decode (bytes_of_word v)) as [i|] eqn:Ed; [|apply rr_bad, C].
  apply rr_step; auto. intros x ->. destruct Y as (Ya & b1 & b2 & e & Y1 & Y2 & Y3 & _). apply (NR x v (with_bus (with_bus s1 b1) b2)); [|exact Ed]. split; [exact Ya|]. exists b1, b2, e. auto.
Qed.
End Spec.

Section Machine.
Context {D : Type} (ops : bus_ops D) (T : typed ops).
Implicit Type m : cpu D.
Variable RX : memory D -> memory D -> Prop.
Variable guard : Z -> bool.
Variable pda : Z.
Hypothesis Hpage : forall b1 b2 a, RX b1 b2 -> a mod 4 = 0 -> exists b1' b2' e1 e2, mem_read ops false b1 (entry_at pda a) = Ret (b1', 0, e1) /\ mem_read ops false b2 (entry_at pda a) = Ret (b2', 0, e2) /\
  RX b1' b2' /\ Z.testbit e1 30 = guard a /\ Z.testbit e2 30 = guard a.
Hypothesis Hload : forall b1 b2 a, RX b1 b2 -> a mod 4 = 0 -> guard a = false ->
  both (fun x y => RX (fst (fst x)) (fst (fst y)) /\ snd (fst x) = snd (fst y) /\ snd x = snd y) (mem_read ops false b1 a) (mem_read ops false b2 a).
Hypothesis Hstore : forall b1 b2 a w, RX b1 b2 -> a mod 4 = 0 -> guard a = false ->
  both (fun x y => RX (fst x) (fst y) /\ snd x = snd y) (mem_write ops false b1 a w) (mem_write ops false b2 a w).
Hypothesis Hinfo : forall b1 b2, RX b1 b2 -> zlen (mm_hwb b1) = zlen (mm_hwb b2) /\ forall x y, info_spec b1 x y = info_spec b2 x y.
Notation alike := (alike RX pda).
Notation entered := (entered RX).
Lemma next_guard m1 m2 : wf m1 -> wf m2 -> alike (abs m1) (abs m2) -> (forall v mem1, ~ fetches ops m1 (Reset v) mem1) -> both (fun m1' m2' => alike (abs m1') (abs m2') \/ entered (abs m1') (abs m2')) (next ops false m1) (next ops false m2).
Proof.
  intros W1 W2 A NR. pose proof (rr_cycle ops RX guard pda Hpage Hload Hstore Hinfo _ _ A) as X. rewrite <- (cycle_total ops T m1 W1), <- (cycle_total ops T m2 W2) in X.
  assert (Y : both (rel RX pda) (omap abs (next ops false m1)) (omap abs (next ops false m2))).
  { apply X. clear X. intros v w s' (Ya & b1 & b2 & e & Y1 & Y2 & Y3 & _) Ed. apply (NR v b2). exists w. split; [|exact Ed]. split; [exact Ya|]. exists b1. split; [|exact Y3].
    unfold passes. pose proof (al_mtt _ _ _ _ A) as Hm. change (get (abs m1) R_mtt) with (R m1 R_mtt) in Hm. rewrite (proj2 (Z.eqb_neq _ _) Hm). exists e.
    destruct (al_pda _ _ _ _ A) as (Hp & _). change (get (abs m1) R_pda) with (R m1 R_pda) in Hp. rewrite Hp. split; [exact Y1|].
    pose proof (al_user _ _ _ _ A) as Hu. change (get (abs m1) R_smt) with (R m1 R_smt) in Hu. unfold sup_mode. rewrite Hu. exact Y2. }
  destruct (next ops false m1), (next ops false m2); exact Y.
Qed.
Lemma run_guard n : forall m1 m2, wf m1 -> wf m2 -> alike (abs m1) (abs m2) -> in_userland ops false n m1 -> both (fun m1' m2' => alike (abs m1') (abs m2') \/ entered (abs m1') (abs m2')) (run ops false n m1) (run ops false n m2).
Proof.
  induction n as [|n IH]; intros m1 m2 W1 W2 A HU. { left. exact A. }
  pose proof (next_guard m1 m2 W1 W2 A (proj2 (HU O m1 ltac:(lia) eq_refl))) as X. cbn [run]. destruct (next ops false m1) as [m1'|] eqn:N1, (next ops false m2) as [m2'|] eqn:N2; cbn [both obind] in *; auto; try contradiction.
  destruct n as [|n]. { exact X. }
  assert (U : sup_mode m1' = false). { apply (HU 1%nat); [lia|]. cbn [run]. rewrite N1. reflexivity. }
  destruct X as [X|X].
  - apply IH; [exact (next_wf ops T _ _ _ W1 N1)|exact (next_wf ops T _ _ _ W2 N2)|exact X|]. intros k m Hk Hr. apply (HU (S k)); [lia|]. cbn [run]. rewrite N1. exact Hr.
  - exfalso. destruct X as (_ & _ & _ & X & _). change (get (abs m1') R_smt) with (R m1' R_smt) in X. unfold sup_mode in U. rewrite X in U. discriminate U.
Qed.
End Machine.
Lemma in_userland_false {D} (ops : bus_ops D) oc n m m' : in_userland ops oc n m -> run ops oc n m = Ret m' -> in_userland ops false n m.
Proof.
  intros HU R1 k mk Hk Hr. destruct (run_prefix ops oc n k m m' R1 (Nat.lt_le_incl _ _ Hk)) as (m3 & R3). pose proof (run_oc ops _ _ _ _ R3) as X. destruct oc; [|exact (HU k mk Hk Hr)]. rewrite Hr in X. apply Ret_inj in X. subst m3. exact (HU k mk Hk R3).
Qed.

(** Userland does nothing to the components but accesses at addresses that are not guarded, and reads of page entries. *)
Lemma P_C90_confined : forall D (ops : bus_ops D) oc guard n m m', typed ops -> wf m -> R m R_mtt <> 0 -> fenced ops guard (R m R_pda) (c_mem m) -> in_userland ops oc (S n) m -> run ops oc (S n) m = Ret m' ->
  touches ops guard (R m R_pda) (c_mem m) (c_mem m') /\ fenced ops guard (R m R_pda) (c_mem m').
Proof.
  intros D ops oc guard n m m' T W Hm HF HU Hr. set (pda := R m R_pda) in *.
  assert (TT : forall a b c, touches ops guard pda a b -> touches ops guard pda b c -> touches ops guard pda a c).
  { intros a b c H1 H2. induction H2; eauto using @touch_entry, @touch_read, @touch_write. }
  enough (X : touches ops guard pda (c_mem m) (c_mem m')). { split; [exact X|]. intros mem' Y. apply HF, TT with (c_mem m'); auto. }
  set (RX := fun b1 b2 => b1 = b2 /\ touches ops guard pda (c_mem m) b1).
  pose proof (run_guard ops T RX guard pda) as G.
  assert (Y : both (fun m1' m2' => alike RX pda (abs m1') (abs m2') \/ entered RX (abs m1') (abs m2')) (run ops false (S n) m) (run ops false (S n) m)).
  { apply G; auto.
    - intros b1 b2 a (<- & X) Ha. destruct (HF _ X a Ha) as (e & b' & L & Te). exists b', b', e, e. split; [exact L|]. split; [exact L|]. split; [|auto]. split; [reflexivity|]. eapply touch_entry; eauto.
    - intros b1 b2 a (<- & X) Ha Hg. destruct (mem_read ops false b1 a) as [[[b' ex] v]|] eqn:E; cbn [both fst snd]; auto. split; [|auto]. split; [reflexivity|]. eapply touch_read; eauto.
    - intros b1 b2 a w (<- & X) Ha Hg. destruct (mem_write ops false b1 a w) as [[b' ex]|] eqn:E; cbn [both fst snd]; auto. split; [|auto]. split; [reflexivity|]. eapply touch_write; eauto.
    - intros b1 b2 (<- & _). auto.
    - assert (U : sup_mode m = false) by (apply (HU O m); [lia|reflexivity]). unfold sup_mode in U. apply negb_false_iff, Z.eqb_eq in U.
      constructor; auto; try (apply file_length; apply W). split; [reflexivity|apply touch_none].
    - eapply in_userland_false; eauto. }
  rewrite (run_oc ops _ _ _ _ Hr) in Y. cbn [both] in Y. destruct Y as [Y|Y]; [exact (proj2 (al_bus _ _ _ _ Y))|exact (proj2 (proj1 Y))].
Qed.

Section Devices.
Variable oc : bool.
Notation ops := (dev_ops oc).
Implicit Types mem : memory device.
(** [ram_at] without the bounds on the words. *)
Definition ram0 mem (mp : mapping) (l : list Z) : Prop :=
  tidy false mem /\ In mp (mm_maps mem) /\ mp_size mp <= 4 * zlen l /\ exists e, znth (mm_hwb mem) (mp_aux_id mp) = Some e /\ contents (ae_dev e) = Some l.
Lemma ram_ram0 mem mp l : ram_at mem mp l -> ram0 mem mp l.
Proof. intros (H1 & H2 & _ & H3 & H4). exact (conj H1 (conj H2 (conj H3 H4))). Qed.
Lemma ram0_index mem mp l a : ram0 mem mp l -> occupies mp a -> a mod 4 = 0 -> 0 <= (a - mp_addr mp) / 4 < zlen l /\ (a - mp_addr mp) mod 4 = 0.
Proof. intros (T & I & S & _) O Ha. destruct (tidy_mapping _ _ _ T I) as (?&?&?&?&_). unfold occupies in O. split; lia. Qed.
Lemma ram0_read mem mp l a : ram0 mem mp l -> occupies mp a -> a mod 4 = 0 -> mem_read ops false mem a = Ret (mem, 0, u32 (nth (word_index mp a) l 0)).
Proof.
  intros HR O Ha. destruct (ram0_index _ _ _ _ HR O Ha) as (Hi & Hm). destruct HR as (T & I & S & e & En & Ec).
  unfold mem_read. destruct (Z.eqb_spec (a mod 4) 0); [|lia]. rewrite (tidy_find _ _ _ _ T I O). cbn [obind].
  unfold hwb_read. destruct (Z.eqb_spec ((a - mp_addr mp) mod 4) 0); [|lia]. rewrite En.
  assert (X : bo_read ops (ae_dev e) (a - mp_addr mp) = Ret (ae_dev e, 0, u32 (nth (word_index mp a) l 0))).
  { destruct (ae_dev e); cbn [contents] in Ec; try discriminate; injection Ec as Ec; cbn [bo_read dev_ops]; unfold sm_read, vget; rewrite Ec, (contents_znth _ _ 0 Hi); reflexivity. }
  rewrite X. cbn [obind]. rewrite (set_dev_same _ _ _ _ En). destruct mem; reflexivity.
Qed.
Lemma ram0_write mem mp l a w : ram0 mem mp l -> occupies mp a -> a mod 4 = 0 -> exists mem', mem_write ops false mem a w = Ret (mem', 0) /\ ram0 mem' mp (upd l (word_index mp a) w).
Proof.
  intros HR O Ha. destruct (ram0_index _ _ _ _ HR O Ha) as (Hi & Hm). destruct HR as (T & I & S & e & En & Ec).
  unfold mem_write. destruct (Z.eqb_spec (a mod 4) 0); [|lia]. rewrite (tidy_find _ _ _ _ T I O). cbn [obind].
  unfold hwb_write. destruct (Z.eqb_spec ((a - mp_addr mp) mod 4) 0); [|lia]. rewrite En.
  assert (X : exists d, bo_write ops (ae_dev e) (a - mp_addr mp) w = Ret (d, 0) /\ contents d = Some (upd l (word_index mp a) w)).
  { destruct (ae_dev e); cbn [contents] in Ec; try discriminate; injection Ec as Ec; cbn [bo_write dev_ops]; unfold sm_write, vset;
      rewrite Ec, (zset_upd _ _ _ Hi); cbn [obind unwrap wrap_w]; eexists; split; reflexivity. }
  destruct X as (d & -> & Ed). cbn [obind]. eexists. split; [reflexivity|]. split; [exact T|]. split; [exact I|]. split. { unfold zlen in *. rewrite upd_length. exact S. }
  cbn [mm_hwb]. exists (AuxEntry d (ae_cache e)). rewrite (set_dev_znth _ _ _ _ _ En), Z.eqb_refl. auto.
Qed.
(** Memory after a request to another component. *)
Lemma other_kept mem mp id d : tidy false mem -> In mp (mm_maps mem) -> id <> mp_aux_id mp -> znth (set_dev (mm_hwb mem) id d) (mp_aux_id mp) = znth (mm_hwb mem) (mp_aux_id mp).
Proof. intros T I N. rewrite P_C33_others. destruct (znth (mm_hwb mem) (mp_aux_id mp)); auto. destruct (Z.eqb_spec (mp_aux_id mp) id); congruence. Qed.
Lemma ram0_read_any mem mp l a mem' ex w : ram0 mem mp l -> mem_read ops false mem a = Ret (mem', ex, w) -> ram0 mem' mp l.
Proof.
  intros HR E. pose proof HR as (T & I & S & e0 & En0 & Ec0). pose proof E as E'. apply mem_read_inv in E'. destruct E' as (Ha & [(_ & -> & _)|(mp' & e & d & F & En & _ & ->)]); auto.
  destruct (found_occupies _ _ _ T F) as (I' & O'). destruct (Z.eq_dec (mp_aux_id mp') (mp_aux_id mp)) as [Ei|Ei].
  - assert (mp' = mp) by (eapply same_id; eauto). subst mp'. rewrite (ram0_read _ _ _ _ HR O' Ha) in E. injection E as E _ _. rewrite <- E. exact HR.
  - split; [exact T|]. split; [exact I|]. split; [exact S|]. cbn [mm_hwb]. rewrite (other_kept _ _ _ d T I Ei). eauto.
Qed.
Lemma ram0_write_any mem mp l a w mem' ex : ram0 mem mp l -> mem_write ops false mem a w = Ret (mem', ex) ->
  (ram0 mem' mp l /\ ~ occupies mp a) \/ (a mod 4 = 0 /\ occupies mp a /\ ram0 mem' mp (upd l (word_index mp a) w)).
Proof.
  intros HR E. pose proof HR as (T & I & S & e0 & En0 & Ec0). assert (DO : occupies mp a \/ ~ occupies mp a) by (unfold occupies; lia).
  pose proof E as E'. apply mem_write_inv in E'. destruct E' as (Ha & C). destruct DO as [O|NO].
  - right. split; auto. split; auto. destruct (ram0_write _ _ _ _ w HR O Ha) as (m2 & E2 & R2). rewrite E2 in E. injection E as -> _. exact R2.
  - left. split; auto. destruct C as [(_ & -> & _)|(mp' & e & d & F & En & _ & ->)]; auto.
    destruct (found_occupies _ _ _ T F) as (I' & O'). split; [exact T|]. split; [exact I|]. split; [exact S|]. cbn [mm_hwb]. rewrite (other_kept _ _ _ d T I); eauto. intros Ei. apply NO. rewrite <- (same_id _ _ _ T I' I Ei). exact O'.
Qed.
Lemma index_inj mem mp a b : tidy false mem -> In mp (mm_maps mem) -> occupies mp a -> occupies mp b -> a mod 4 = 0 -> b mod 4 = 0 -> word_index mp a = word_index mp b -> a = b.
Proof. intros T I Oa Ob Ha Hb E. destruct (tidy_mapping _ _ _ T I) as (?&?&_). unfold word_index, occupies in *. lia. Qed.
(** Accesses that leave guarded words alone do. *)
Lemma touch_ram0 guard pda mem mem' mp l : touches ops guard pda mem mem' -> ram0 mem mp l ->
  exists l', ram0 mem' mp l' /\ length l' = length l /\ forall a, a mod 4 = 0 -> occupies mp a -> guard a = true -> nth (word_index mp a) l' 0 = nth (word_index mp a) l 0.
Proof.
  induction 1 as [mem|mem mem1 a ex e mem2 H IH Ha E|mem mem1 a ex e mem2 H IH Ha Hg E|mem mem1 a w ex mem2 H IH Ha Hg E]; intros HR; [exists l; auto|..];
    destruct (IH HR) as (l1 & H1 & H2 & H3).
  - exists l1. split; [exact (ram0_read_any _ _ _ _ _ _ _ H1 E)|split; assumption].
  - exists l1. split; [exact (ram0_read_any _ _ _ _ _ _ _ H1 E)|split; assumption].
  - destruct (ram0_write_any _ _ _ _ _ _ _ H1 E) as [(X & _)|(_ & O & X)]; [exists l1; split; [exact X|split; assumption]|]. exists (upd l1 (word_index mp a) w). split; [exact X|]. split; [rewrite upd_length; exact H2|].
    intros b Hb Ob Gb. rewrite upd_nth. destruct (Nat.eqb_spec (word_index mp b) (word_index mp a)) as [Ew|]; [|apply H3; assumption]. exfalso.
    destruct H1 as (T1 & I1 & _). rewrite (index_inj _ _ _ _ T1 I1 Ob O Hb Ha Ew) in Gb. congruence.
Qed.
Lemma u32_bit30 x : Z.testbit (u32 x) 30 = Z.testbit x 30.
Proof. unfold u32. change 4294967296 with (2 ^ 32). rewrite Z.mod_pow2_bits_low by lia. reflexivity. Qed.
Lemma self_fenced guard pda mem mp l : self_guarding guard pda mem mp l -> fenced ops guard pda mem.
Proof.
  intros (HR & HE) mem' HT a Ha. destruct (touch_ram0 _ _ _ _ _ _ HT (ram_ram0 _ _ _ HR)) as (l' & R' & _ & K). destruct (HE a Ha) as (E1 & E2 & E3 & E4).
  rewrite (ram0_read _ _ _ _ R' E2 E1). eexists _, _. split; [reflexivity|]. rewrite u32_bit30, (K _ E1 E2 E4). exact E3.
Qed.

Definition rom0 mem (mp : mapping) (l : list Z) : Prop :=
  tidy false mem /\ In mp (mm_maps mem) /\ exists e s id, znth (mm_hwb mem) (mp_aux_id mp) = Some e /\ ae_dev e = DRom (BootRom l (zlen l) s id).
Lemma rom0_read mem mp l a : rom0 mem mp l -> occupies mp a -> a mod 4 = 0 -> mem_read ops false mem a = Ret (mem, 0, u32 (nth (word_index mp a) l 0)).
Proof.
  intros (T & I & e & s & id & En & Ed) O Ha. destruct (tidy_mapping _ _ _ T I) as (?&?&?&?&_). pose proof O as O'. unfold occupies in O'.
  unfold mem_read. destruct (Z.eqb_spec (a mod 4) 0); [|lia]. rewrite (tidy_find _ _ _ _ T I O). cbn [obind].
  unfold hwb_read. destruct (Z.eqb_spec ((a - mp_addr mp) mod 4) 0); [|lia]. rewrite En.
  assert (X : bo_read ops (ae_dev e) (a - mp_addr mp) = Ret (ae_dev e, 0, u32 (nth (word_index mp a) l 0))).
  { rewrite Ed. cbn [bo_read dev_ops]. unfold br_read, vget. cbn [br_storage br_len]. destruct (Z.ltb_spec ((a - mp_addr mp) / 4) (zlen l)).
    - rewrite (contents_znth _ _ 0) by lia. reflexivity.
    - rewrite nth_overflow by (unfold word_index, zlen in *; lia). reflexivity. }
  rewrite X. cbn [obind]. rewrite (set_dev_same _ _ _ _ En). destruct mem; reflexivity.
Qed.
Lemma touch_rom0 guard pda mem mem' mp l : touches ops guard pda mem mem' -> rom0 mem mp l -> rom0 mem' mp l.
Proof.
  intros HT HR.
  assert (RD : forall mem1 mem2 a ex w, rom0 mem1 mp l -> mem_read ops false mem1 a = Ret (mem2, ex, w) -> rom0 mem2 mp l).
  { clear. intros mem mem' a ex w HR E. pose proof HR as (T & I & e0 & s & id & En0 & Ed0). pose proof E as E'. apply mem_read_inv in E'. destruct E' as (Ha & [(_ & -> & _)|(mp' & e & d & F & En & _ & ->)]); auto.
    destruct (found_occupies _ _ _ T F) as (I' & O'). destruct (Z.eq_dec (mp_aux_id mp') (mp_aux_id mp)) as [Ei|Ei].
    - assert (mp' = mp) by (eapply same_id; eauto). subst mp'. rewrite (rom0_read _ _ _ _ HR O' Ha) in E. injection E as E _ _. rewrite <- E. exact HR.
    - split; [exact T|]. split; [exact I|]. cbn [mm_hwb]. rewrite (other_kept _ _ _ d T I Ei). eauto. }
  assert (WR : forall mem1 mem2 a ex w, rom0 mem1 mp l -> mem_write ops false mem1 a w = Ret (mem2, ex) -> rom0 mem2 mp l).
  { clear. intros mem mem' a ex w HR E. pose proof HR as (T & I & e0 & s & id & En0 & Ed0). pose proof E as E'. apply mem_write_inv in E'. destruct E' as (Ha & [(_ & -> & _)|(mp' & e & d & F & En & Hb & ->)]); auto.
    destruct (found_occupies _ _ _ T F) as (I' & O'). split; [exact T|]. split; [exact I|]. cbn [mm_hwb]. destruct (Z.eq_dec (mp_aux_id mp') (mp_aux_id mp)) as [Ei|Ei].
    - assert (mp' = mp) by (eapply same_id; eauto). subst mp'. rewrite En0 in En. injection En as <-. rewrite (set_dev_znth _ _ _ _ _ En0), Z.eqb_refl.
      rewrite Ed0 in Hb. cbn [bo_write dev_ops] in Hb. injection Hb as <- _. eexists _, s, id. split; reflexivity.
    - rewrite (other_kept _ _ _ d T I Ei). eauto. }
  induction HT; eauto.
Qed.
Lemma rom_fenced guard pda mem mp l : rom_directory guard pda mem mp l -> fenced ops guard pda mem.
Proof.
  intros (T & I & (e & s & id & En & Ed & _) & HE) mem' HT a Ha. assert (HR : rom0 mem mp l) by (split; [exact T|split; [exact I|eauto]]).
  destruct (HE a Ha) as (E1 & E2 & E3). rewrite (rom0_read _ _ _ _ (touch_rom0 _ _ _ _ _ _ HT HR) E2 E1). eexists _, _. split; [reflexivity|]. rewrite u32_bit30. exact E3.
Qed.
Lemma ram_survives n : forall m m' mp l, wf m -> run ops oc n m = Ret m' -> ram_at (c_mem m) mp l -> exists l', ram_at (c_mem m') mp l'.
Proof.
  induction n as [|n IH]; intros m m' mp l W E HR. { cbn [run] in E. apply Ret_inj in E. subst m'. eauto. }
  destruct (run_split _ _ _ _ _ E) as (m1 & E1 & E2). destruct (IH _ _ _ _ W E1 HR) as (l1 & R1).
  assert (W1 : wf m1) by (eapply run_wf; [exact (dev_typed oc)|exact W|exact E1]).
  destruct (c_halted m1) eqn:Hh. { exists l1. eapply P_C72_ram_no_fetch; eauto. }
  destruct (fetch_dec oc m1) as [(i & memf & Hf)|NF]. 2:{ exists l1. eapply P_C72_ram_no_fetch; eauto. }
  destruct (P_C72_ram oc m1 i memf m' mp l1 W1 (conj Hh (conj Hf E2)) R1) as [X|[(b & v & _ & _ & _ & X)|(v & mode & _ & _ & _ & X)]]; eauto.
Qed.
End Devices.
(** A directory in a memory that guards its own entries, and any directory in a boot ROM, keep refusing the same words. *)
Lemma P_C90_self : forall oc guard pda mem mp l, self_guarding guard pda mem mp l -> fenced (dev_ops oc) guard pda mem.
Proof. exact self_fenced. Qed.
(** A page directory held in a ROM is fenced: no store changes what it says. *)
Lemma P_C90_rom : forall oc guard pda mem mp l, rom_directory guard pda mem mp l -> fenced (dev_ops oc) guard pda mem.
Proof. exact rom_fenced. Qed.
(** Integrity: the guarded words of memories keep their values however long userland runs. *)
Lemma P_C90_integrity : forall oc guard n m m' mp a w, wf m -> R m R_mtt <> 0 -> fenced (dev_ops oc) guard (R m R_pda) (c_mem m) -> in_userland (dev_ops oc) oc n m -> run (dev_ops oc) oc n m = Ret m' ->
  a mod 4 = 0 -> occupies mp a -> guard a = true -> holds (c_mem m) mp a w -> holds (c_mem m') mp a w.
Proof.
  intros oc guard n m m' mp a w W Hm HF HU Hr Ha Ho Hg (l & HR & Hl). destruct n as [|n]. { cbn [run] in Hr. apply Ret_inj in Hr. subst m'. exists l. auto. }
  destruct (P_C90_confined _ _ oc guard n m m' (dev_typed oc) W Hm HF HU Hr) as (HT & _).
  destruct (ram_survives oc _ _ _ _ _ W Hr HR) as (l2 & R2). destruct (touch_ram0 oc _ _ _ _ _ _ HT (ram_ram0 _ _ _ HR)) as (l1 & R1 & _ & K).
  exists l2. split; [exact R2|]. pose proof R2 as (_ & _ & _ & _ & e2 & En2 & Ec2). destruct R1 as (_ & _ & _ & e1 & En1 & Ec1). rewrite En1 in En2. injection En2 as <-. rewrite Ec1 in Ec2. injection Ec2 as <-. rewrite (K a Ha Ho Hg). exact Hl.
Qed.

Section Secret.
Variable oc : bool.
Notation ops := (dev_ops oc).
Implicit Types mem : memory device.
Lemma twins_refl sec d : twins sec d d.
Proof. left. reflexivity. Qed.
Lemma znth_both {A} (l1 l2 : list A) k : length l1 = length l2 -> match znth l1 k, znth l2 k with Some _, Some _ => True | None, None => True | _, _ => False end.
Proof.
  revert l2 k. induction l1 as [|x t IH]; intros [|y t2] k E; try discriminate E; cbn [znth]; [exact I|]. destruct (k =? 0); [exact I|]. apply IH. injection E as E. exact E.
Qed.
Lemma sbg_set guard mem1 mem2 id e1 e2 d1 d2 : same_but_guarded guard mem1 mem2 -> znth (mm_hwb mem1) id = Some e1 -> znth (mm_hwb mem2) id = Some e2 -> twins (guarded_word guard mem1 id) d1 d2 ->
  same_but_guarded guard (Memory (set_dev (mm_hwb mem1) id d1) (mm_maps mem1)) (Memory (set_dev (mm_hwb mem2) id d2) (mm_maps mem2)).
Proof.
  intros (T & M & L & H) E1 E2 HT. assert (LS : forall id (h : hwb device) d, length (set_dev h id d) = length h).
  { clear. intros id h d. revert id. induction h as [|x t IH]; intros id; cbn [set_dev]; [reflexivity|]. destruct (id =? 0); cbn [length]; [reflexivity|]. rewrite IH. reflexivity. }
  split; [exact T|]. split; [exact M|]. cbn [mm_hwb]. split; [rewrite !LS; exact L|]. intros k f1 f2. rewrite !P_C33_others. unfold guarded_word. cbn [mm_maps].
  destruct (znth (mm_hwb mem1) k) as [g1|] eqn:F1; [|discriminate]. destruct (znth (mm_hwb mem2) k) as [g2|] eqn:F2; [|discriminate]. intros X Y. injection X as <-. injection Y as <-.
  destruct (H k g1 g2 F1 F2) as (C & TW). destruct (Z.eqb_spec k id) as [->|]; cbn [ae_cache ae_dev]; auto.
Qed.
Lemma twin_read sec d1 d2 a : 0 <= a -> twins sec d1 d2 -> both (fun x y => twins sec (fst (fst x)) (fst (fst y)) /\ snd (fst x) = snd (fst y) /\ (~ sec (a / 4) -> snd x = snd y)) (bo_read ops d1 a) (bo_read ops d2 a).
Proof.
  intros Ha [<-|(s1 & s2 & HC & S & I & L & K)].
  - destruct (bo_read ops d1 a) as [[[d ex] w]|]; cbn [both fst snd]; auto. split; [left; reflexivity|auto].
  - assert (X : match vget (sm_storage s1) (a / 4), vget (sm_storage s2) (a / 4) with Ret v1, Ret v2 => ~ sec (a / 4) -> v1 = v2 | Panic, Panic => True | _, _ => False end).
    { unfold vget. pose proof (znth_both _ _ (a / 4) L) as B. destruct (znth (sm_storage s1) (a / 4)) as [v1|] eqn:F1, (znth (sm_storage s2) (a / 4)) as [v2|] eqn:F2; try contradiction; cbn [unwrap]; auto.
      intros NS. assert (Q : 0 <= a / 4) by lia. rewrite znth_nth in F1, F2 by exact Q. apply nth_error_nth with (d := 0) in F1, F2. rewrite <- F1, <- F2. apply K. rewrite Z2Nat.id by lia. exact NS. }
    assert (TW : forall mk, mk = DRam \/ mk = DFlash -> twins sec (mk s1) (mk s2)).
    { intros mk HM. right. exists s1, s2. split; [destruct HM as [-> | ->]; auto|auto]. }
    destruct (vget (sm_storage s1) (a / 4)) as [v1|] eqn:F1, (vget (sm_storage s2) (a / 4)) as [v2|] eqn:F2; try contradiction;
    destruct HC as [(-> & ->)|(-> & ->)]; cbn [bo_read dev_ops]; unfold sm_read; rewrite F1, F2; cbn [obind wrap_r both fst snd]; auto;
      (split; [apply TW; auto|]; split; [reflexivity|]; intros NS; rewrite (X NS); reflexivity).
Qed.
Lemma twin_write sec d1 d2 a w : 0 <= a -> twins sec d1 d2 -> both (fun x y => twins sec (fst x) (fst y) /\ snd x = snd y) (bo_write ops d1 a w) (bo_write ops d2 a w).
Proof.
  intros Ha [<-|(s1 & s2 & HC & S & I & L & K)].
  - destruct (bo_write ops d1 a w) as [[d ex]|]; cbn [both fst snd]; auto. split; [left; reflexivity|auto].
  - assert (X : match zset (sm_storage s1) (a / 4) w, zset (sm_storage s2) (a / 4) w with
      | Some l1, Some l2 => length l1 = length l2 /\ forall i, ~ sec (Z.of_nat i) -> nth i l1 0 = nth i l2 0 | None, None => True | _, _ => False end).
    { destruct (Z.ltb_spec (a / 4) (zlen (sm_storage s1))) as [HL|HL].
      - rewrite !zset_upd by (unfold zlen in *; rewrite <- ?L; lia). rewrite !upd_length. split; [exact L|]. intros i Hi. rewrite !upd_nth, <- L. destruct (andb _ _); auto.
      - assert (ZN : forall l : list Z, zlen l <= a / 4 -> zset l (a / 4) w = None).
        { clear. intros l. assert (G : forall k, zlen l <= k -> zset l k w = None); [|apply G]. induction l as [|x t IH]; intros k H; cbn [zset]; [reflexivity|]. rewrite zlen_cons in H. pose proof (zlen_nonneg t). destruct (Z.eqb_spec k 0); [lia|]. rewrite IH by lia. reflexivity. }
        rewrite !ZN by (unfold zlen in *; lia). exact Logic.I. }
    destruct (zset (sm_storage s1) (a / 4) w) as [l1|] eqn:F1, (zset (sm_storage s2) (a / 4) w) as [l2|] eqn:F2; try contradiction;
    destruct HC as [(-> & ->)|(-> & ->)]; cbn [bo_write dev_ops]; unfold sm_write, vset; rewrite F1, F2; cbn [obind unwrap wrap_w both fst snd]; auto;
      (split; [|reflexivity]; right; eexists (StoreMem l1 _ _), (StoreMem l2 _ _); cbn [sm_size sm_hw_id sm_storage]; split; [rewrite ?S, ?I; auto|auto]).
Qed.
Lemma sbg_read guard mem1 mem2 a : same_but_guarded guard mem1 mem2 ->
  both (fun x y => same_but_guarded guard (fst (fst x)) (fst (fst y)) /\ snd (fst x) = snd (fst y) /\ (guard a = false -> snd x = snd y)) (mem_read ops false mem1 a) (mem_read ops false mem2 a).
Proof.
  intros SB. pose proof SB as (T & M & L & H). unfold mem_read. destruct (Z.eqb_spec (a mod 4) 0) as [Ha|]; [|exact I]. rewrite <- M. destruct (find_o (covers false a) (mm_maps mem1)) as [[mp|]|] eqn:F; cbn [obind]; [|cbn [both fst snd]; auto|exact I].
  destruct (found_occupies _ _ _ T F) as (I1 & O1). destruct (tidy_mapping _ _ _ T I1) as (?&?&?&?&_). unfold occupies in O1.
  unfold hwb_read. destruct (Z.eqb_spec ((a - mp_addr mp) mod 4) 0) as [Hm|]; [|exact I]. pose proof (znth_both _ _ (mp_aux_id mp) L) as B. destruct (znth (mm_hwb mem1) (mp_aux_id mp)) as [e1|] eqn:E1, (znth (mm_hwb mem2) (mp_aux_id mp)) as [e2|] eqn:E2; try contradiction; [|exact I].
  destruct (H _ _ _ E1 E2) as (_ & TW). pose proof (twin_read _ _ _ (a - mp_addr mp) ltac:(lia) TW) as X. destruct (bo_read ops (ae_dev e1) _) as [[[d1 x1] w1]|], (bo_read ops (ae_dev e2) _) as [[[d2 x2] w2]|]; cbn [both fst snd] in X; try contradiction; [|exact I].
  destruct X as (X1 & <- & X3). cbn [obind unwrap both fst snd]. split; [rewrite M; rewrite <- M at 1; exact (sbg_set _ _ _ _ _ _ _ _ SB E1 E2 X1)|]. split; [reflexivity|].
  intros Hg. apply X3. intros GW. specialize (GW mp I1 eq_refl). replace (mp_addr mp + 4 * ((a - mp_addr mp) / 4)) with a in GW by lia. congruence.
Qed.
Lemma sbg_write guard mem1 mem2 a w : same_but_guarded guard mem1 mem2 ->
  both (fun x y => same_but_guarded guard (fst x) (fst y) /\ snd x = snd y) (mem_write ops false mem1 a w) (mem_write ops false mem2 a w).
Proof.
  intros SB. pose proof SB as (T & M & L & H). unfold mem_write. destruct (Z.eqb_spec (a mod 4) 0) as [Ha|]; [|exact I]. rewrite <- M. destruct (find_o (covers false a) (mm_maps mem1)) as [[mp|]|] eqn:F; cbn [obind]; [|cbn [both fst snd]; auto|exact I].
  destruct (found_occupies _ _ _ T F) as (I1 & O1). destruct (tidy_mapping _ _ _ T I1) as (?&?&?&?&_). unfold occupies in O1.
  unfold hwb_write. destruct (Z.eqb_spec ((a - mp_addr mp) mod 4) 0) as [Hm|]; [|exact I]. pose proof (znth_both _ _ (mp_aux_id mp) L) as B. destruct (znth (mm_hwb mem1) (mp_aux_id mp)) as [e1|] eqn:E1, (znth (mm_hwb mem2) (mp_aux_id mp)) as [e2|] eqn:E2; try contradiction; [|exact I].
  destruct (H _ _ _ E1 E2) as (_ & TW). pose proof (twin_write _ _ _ (a - mp_addr mp) w ltac:(lia) TW) as X. destruct (bo_write ops (ae_dev e1) _ w) as [[d1 x1]|], (bo_write ops (ae_dev e2) _ w) as [[d2 x2]|]; cbn [both fst snd] in X; try contradiction; [|exact I].
  destruct X as (X1 & <-). cbn [obind unwrap both fst snd]. split; [rewrite M; rewrite <- M at 1; exact (sbg_set _ _ _ _ _ _ _ _ SB E1 E2 X1)|reflexivity].
Qed.
Lemma sbg_info guard mem1 mem2 : same_but_guarded guard mem1 mem2 -> zlen (mm_hwb mem1) = zlen (mm_hwb mem2) /\ forall x y, info_spec mem1 x y = info_spec mem2 x y.
Proof.
  intros (T & M & L & H). split; [unfold zlen; rewrite L; reflexivity|]. intros x y. unfold info_spec. rewrite <- M. pose proof (znth_both _ _ x L) as B.
  destruct (znth (mm_hwb mem1) x) as [e1|] eqn:E1, (znth (mm_hwb mem2) x) as [e2|] eqn:E2; try contradiction; [|reflexivity]. destruct (H _ _ _ E1 E2) as (-> & _). reflexivity.
Qed.
End Secret.
Lemma secret_run oc guard n m1 m2 : wf m1 -> wf m2 -> R m1 R_mtt <> 0 -> veiled guard m1 m2 ->
  fenced (dev_ops oc) guard (R m1 R_pda) (c_mem m1) -> fenced (dev_ops oc) guard (R m2 R_pda) (c_mem m2) -> in_userland (dev_ops oc) false (S n) m1 ->
  both (fun m1' m2' => veiled guard m1' m2' \/ both_left guard m1' m2') (run (dev_ops oc) false (S n) m1) (run (dev_ops oc) false (S n) m2).
Proof.
  intros W1 W2 Hm (V1 & V2 & V3 & V4 & V5) F1 F2 HU. rewrite <- V5 in F2. set (pda := R m1 R_pda) in *. set (ops := dev_ops oc) in *.
  set (RX := fun b1 b2 => same_but_guarded guard b1 b2 /\ fenced ops guard pda b1 /\ fenced ops guard pda b2).
  assert (TT : forall a b c, touches ops guard pda a b -> touches ops guard pda b c -> touches ops guard pda a c).
  { intros a b c H1 H2. induction H2; eauto using @touch_entry, @touch_read, @touch_write. }
  assert (FF : forall a b, fenced ops guard pda a -> touches ops guard pda a b -> fenced ops guard pda b).
  { intros a b H1 H2 c H3. apply H1. exact (TT _ _ _ H2 H3). }
  pose proof (run_guard ops (dev_typed oc) RX guard pda) as G.
  assert (Y : in_userland ops false (S n) m1 -> both (fun m1' m2' => alike RX pda (abs m1') (abs m2') \/ entered RX (abs m1') (abs m2')) (run ops false (S n) m1) (run ops false (S n) m2)).
  { intros HU'. apply G; auto.
    - intros b1 b2 a (X & X1 & X2) Ha. destruct (X1 _ (touch_none _ _ _ _) a Ha) as (e1 & b1' & L1 & T1). destruct (X2 _ (touch_none _ _ _ _) a Ha) as (e2 & b2' & L2 & T2).
      exists b1', b2', e1, e2. split; [exact L1|]. split; [exact L2|]. split; [|auto]. pose proof (sbg_read oc guard b1 b2 (entry_at pda a) X) as Z0. fold ops in Z0. rewrite L1, L2 in Z0. cbn [both fst snd] in Z0.
      split; [apply Z0|]. split; [exact (FF _ _ X1 (touch_entry _ _ _ _ _ _ _ _ _ (touch_none _ _ _ _) Ha L1))|exact (FF _ _ X2 (touch_entry _ _ _ _ _ _ _ _ _ (touch_none _ _ _ _) Ha L2))].
    - intros b1 b2 a (X & X1 & X2) Ha Hg. pose proof (sbg_read oc guard b1 b2 a X) as Z0. fold ops in Z0.
      destruct (mem_read ops false b1 a) as [[[c1 x1] v1]|] eqn:L1, (mem_read ops false b2 a) as [[[c2 x2] v2]|] eqn:L2; cbn [both fst snd] in *; try contradiction; auto. destruct Z0 as (Z1 & Z2 & Z3).
      split; [|auto]. split; [exact Z1|]. split; [exact (FF _ _ X1 (touch_read _ _ _ _ _ _ _ _ _ (touch_none _ _ _ _) Ha Hg L1))|exact (FF _ _ X2 (touch_read _ _ _ _ _ _ _ _ _ (touch_none _ _ _ _) Ha Hg L2))].
    - intros b1 b2 a w (X & X1 & X2) Ha Hg. pose proof (sbg_write oc guard b1 b2 a w X) as Z0. fold ops in Z0.
      destruct (mem_write ops false b1 a w) as [[c1 x1]|] eqn:L1, (mem_write ops false b2 a w) as [[c2 x2]|] eqn:L2; cbn [both fst snd] in *; try contradiction; auto. destruct Z0 as (Z1 & Z2).
      split; [|auto]. split; [exact Z1|]. split; [exact (FF _ _ X1 (touch_write _ _ _ _ _ _ _ _ _ (touch_none _ _ _ _) Ha Hg L1))|exact (FF _ _ X2 (touch_write _ _ _ _ _ _ _ _ _ (touch_none _ _ _ _) Ha Hg L2))].
    - intros b1 b2 (X & _). exact (sbg_info _ _ _ X).
    - assert (U : sup_mode m1 = false) by (apply (HU O m1); [lia|reflexivity]). unfold sup_mode in U. apply negb_false_iff, Z.eqb_eq in U.
      constructor; auto; try (apply file_length; [apply W1 || apply W2]). split; [exact V1|]. split; [exact F1|exact F2]. }
  assert (Q : forall m1' m2', alike RX pda (abs m1') (abs m2') \/ entered RX (abs m1') (abs m2') -> veiled guard m1' m2' \/ both_left guard m1' m2').
  { intros m1' m2' [A|A]; [left|right].
    - destruct A as [B C H L1 L2 G' M P U]. split; [exact (proj1 B)|]. split; [exact C|]. split; [exact H|]. split; [exact G'|]. destruct P as (P1 & P2). change (get (abs m1') R_pda) with (R m1' R_pda) in P1. change (get (abs m2') R_pda) with (R m2' R_pda) in P2. congruence.
    - destruct A as (A1 & A2). split; [exact (proj1 A1)|exact A2]. }
  specialize (Y HU). destruct (run ops false (S n) m1), (run ops false (S n) m2); cbn [both] in *; auto.
Qed.
(** Secrecy: what guarded words contain has no influence on userland. *)
Lemma P_C90_secrecy : forall oc guard n m1 m2, wf m1 -> wf m2 -> R m1 R_mtt <> 0 -> veiled guard m1 m2 ->
  fenced (dev_ops oc) guard (R m1 R_pda) (c_mem m1) -> fenced (dev_ops oc) guard (R m2 R_pda) (c_mem m2) -> in_userland (dev_ops oc) oc (S n) m1 ->
  match run (dev_ops oc) oc (S n) m1, run (dev_ops oc) oc (S n) m2 with
  | Ret m1', Ret m2' => veiled guard m1' m2' \/ both_left guard m1' m2'
  | Panic, Panic => True
  | _, _ => oc = true
  end.
Proof.
  intros oc guard n m1 m2 W1 W2 Hm V F1 F2 HU. destruct oc.
  - destruct (run (dev_ops true) true (S n) m1) as [m1'|] eqn:R1, (run (dev_ops true) true (S n) m2) as [m2'|] eqn:R2; auto. pose proof (secret_run true guard n m1 m2 W1 W2 Hm V F1 F2 (in_userland_false _ _ _ _ _ HU R1)) as Y.
    rewrite (run_oc (dev_ops true) _ _ _ _ R1), (run_oc (dev_ops true) _ _ _ _ R2) in Y. exact Y.
  - pose proof (secret_run false guard n m1 m2 W1 W2 Hm V F1 F2 HU) as Y. unfold both in Y. destruct (run (dev_ops false) false (S n) m1), (run (dev_ops false) false (S n) m2); auto; contradiction.
Qed.

(** A directory that guards its own entries refuses userland a quarter of all words, wherever they are. *)
Lemma P_C90_quarter : forall guard pda mem mp l a, self_guarding guard pda mem mp l -> a mod 4 = 0 -> a mod 16 = pda mod 16 -> guard a = true.
Proof.
  intros guard pda mem mp l a (_ & HE) Ha H16. set (c := 4 * (((a - pda) / 16) mod 64)).
  assert (Hc : c mod 4 = 0) by (unfold c; lia). destruct (HE c Hc) as (E1 & _ & _ & E4).
  assert (EE : entry_at pda c mod 1024 = a mod 1024).
  { assert (MM : forall x, (x mod 2 ^ 32) mod 1024 = x mod 1024) by (intros x; change (2 ^ 32) with 4294967296; lia). unfold entry_at. rewrite MM.
    unfold c. rewrite (Z.mod_small (4 * _) 1024) by lia. assert (X : a - pda = 16 * ((a - pda) / 16)) by lia. set (q := (a - pda) / 16) in *. clearbody q. replace a with (pda + 16 * q) by lia.
    replace (4 * (4 * (q mod 64))) with (16 * q + (- (q / 64)) * 1024) by lia. rewrite Z.add_assoc, Z_mod_plus_full. reflexivity. }
  destruct (HE _ E1) as (_ & _ & G1 & _). destruct (HE _ Ha) as (_ & _ & G2 & _). rewrite E4 in G1.
  assert (X : entry_at pda (entry_at pda c) = entry_at pda a). { unfold entry_at at 1 3. rewrite EE. reflexivity. }
  rewrite X in G1. congruence.
Qed.

(** Machines built through the API. *)
Definition built (devs : list device) (cs : list api) : outcome (cpu device) := match board_new (dev_ops false) devs with Ret m => api_run (dev_ops false) false cs m | Panic => Panic end.
Lemma built_facts devs cs m : Forall api_wf cs -> Forall no_map_abs cs -> built devs cs = Ret m -> reachable (dev_ops false) false m /\ wf m /\ tidy false (c_mem m).
Proof.
  intros H1 H2 E. unfold built in E. destruct (board_new _ _) as [m0|] eqn:E0; [|discriminate]. assert (Hr : reachable (dev_ops false) false m) by (exists devs, cs, m0; auto).
  split; [exact Hr|]. split; [exact (reachable_wf _ (dev_typed false) _ _ Hr)|]. exact (proj1 (P_C31_tidy _ _ _ _ _ _ _ (dev_typed false) H1 H2 E0 E)).
Qed.
Definition boot_calls (n : nat) (more : list api) : list api := AMapContiguous 0 [0; 1] :: AReset :: repeat ANext n ++ more.
Lemma boot_calls_wf n more : Forall api_wf more -> Forall no_map_abs more -> Forall api_wf (boot_calls n more) /\ Forall no_map_abs (boot_calls n more).
Proof.
  intros H1 H2. split; (apply Forall_cons; [cbn; unfold is_u32; repeat constructor; lia|]; apply Forall_cons; [exact I|]; apply Forall_app; split; [|assumption]; apply Forall_forall; intros c Hc; apply repeat_spec in Hc; subst; exact I).
Qed.
(** Executable form of [in_userland], with translation on. *)
Definition reset_free (m : cpu device) : bool :=
  match mem_read (dev_ops false) false (c_mem m) ((R m R_pda + 4 * (R m R_pc mod 1024)) mod 2 ^ 32) with
  | Ret (mem1, _, _) => match mem_read (dev_ops false) false mem1 (R m R_pc) with Ret (_, _, w) => match decode (bytes_of_word w) with ROk (Reset _) => false | _ => true end | Panic => true end
  | Panic => true end.
Fixpoint user_n (n : nat) (m : cpu device) : bool :=
  match n with O => true | S n => negb (sup_mode m) && negb (R m R_mtt =? 0) && reset_free m && match next (dev_ops false) false m with Ret m' => user_n n m' | Panic => true end end.
Lemma user_n_sound n : forall m, user_n n m = true -> in_userland (dev_ops false) false n m.
Proof.
  induction n as [|n IH]; intros m H k mk Hk Hr; [lia|]. cbn [user_n] in H. apply andb_prop in H. destruct H as (H & H4). apply andb_prop in H. destruct H as (H & H3). apply andb_prop in H. destruct H as (H1 & H2).
  destruct k as [|k].
  - cbn [run] in Hr. apply Ret_inj in Hr. subst mk. split; [apply negb_true_iff, H1|]. intros v mem1 (w & (_ & mem0 & P & L) & Ed). unfold passes in P. apply negb_true_iff in H2. rewrite H2 in P. destruct P as (e & P & _).
    unfold reset_free in H3. rewrite P, L, Ed in H3. discriminate H3.
  - cbn [run] in Hr. destruct (next (dev_ops false) false m) as [m1|]; [|discriminate Hr]. cbn [obind] in Hr. apply (IH m1 H4 k mk); [lia|exact Hr].
Qed.
(** The words of the memory mapped second. *)
Definition second_words (mp : mapping) (m : cpu device) : option (list Z) :=
  match mm_maps (c_mem m), znth (mm_hwb (c_mem m)) 1 with
  | [_; x], Some e => match contents (ae_dev e) with
      | Some l => if (mp_aux_id x =? 1) && (mp_hw_id x =? mp_hw_id mp) && (mp_addr x =? mp_addr mp) && (mp_size x =? mp_size mp) && (mp_aux_id mp =? 1) && (mp_size mp <=? 4 * zlen l) && forallb (fun x => (0 <=? x) && (x <? 4294967296)) l then Some l else None
      | None => None end
  | _, _ => None end.
Lemma second_ram mp m l : tidy false (c_mem m) -> second_words mp m = Some l -> ram_at (c_mem m) mp l.
Proof.
  intros T H. unfold second_words in H. destruct (mm_maps (c_mem m)) as [|y [|x [|]]] eqn:EM; try discriminate. destruct (znth (mm_hwb (c_mem m)) 1) as [e|] eqn:En; [|discriminate]. destruct (contents (ae_dev e)) as [l'|] eqn:Ec; [|discriminate].
  destruct (_ && _) eqn:B; [|discriminate]. injection H as ->. apply andb_prop in B. destruct B as (B & B7). apply andb_prop in B. destruct B as (B & B6). apply andb_prop in B. destruct B as (B & B5). apply andb_prop in B. destruct B as (B & B4). apply andb_prop in B. destruct B as (B & B3). apply andb_prop in B. destruct B as (B1 & B2).
  apply Z.eqb_eq in B1, B2, B3, B4, B5. apply Z.leb_le in B6.
  assert (x = mp) as ->. { destruct x, mp. cbn in *. congruence. }
  split; [exact T|]. split; [rewrite EM; right; left; reflexivity|]. split. { apply Forall_forall. intros z Hz. rewrite forallb_forall in B7. apply B7 in Hz. apply andb_prop in Hz. unfold is_u32. lia. }
  split; [exact B6|]. exists e. rewrite B1. auto.
Qed.
(** All the entries of a directory, checked. *)
Definition residues : list Z := map (fun k => 4 * Z.of_nat k) (seq 0 256).
Lemma residues_all a : a mod 4 = 0 -> In (a mod 1024) residues.
Proof. intros H. unfold residues. apply in_map_iff. exists (Z.to_nat (a mod 1024 / 4)). split; [lia|]. apply in_seq. lia. Qed.
Lemma entry_residue pda a : entry_at pda a = entry_at pda (a mod 1024).
Proof. unfold entry_at. rewrite Z.mod_mod by lia. reflexivity. Qed.
Definition occ (mp : mapping) (a : Z) : bool := (mp_addr mp <=? a) && (a <? mp_addr mp + mp_size mp).
Definition entries_ok (guard : Z -> bool) (pda : Z) (mp : mapping) (l : list Z) (self : bool) : bool :=
  forallb (fun r => (entry_at pda r mod 4 =? 0) && occ mp (entry_at pda r) && Bool.eqb (Z.testbit (nth (word_index mp (entry_at pda r)) l 0) 30) (guard r) && (negb self || guard (entry_at pda r mod 1024))) residues.
Lemma entries_sound guard pda mp l self : (forall a, guard a = guard (a mod 1024)) -> entries_ok guard pda mp l self = true ->
  forall a, a mod 4 = 0 -> entry_at pda a mod 4 = 0 /\ occupies mp (entry_at pda a) /\ Z.testbit (nth (word_index mp (entry_at pda a)) l 0) 30 = guard a /\ (self = true -> guard (entry_at pda a) = true).
Proof.
  intros G H a Ha. unfold entries_ok in H. rewrite forallb_forall in H. specialize (H _ (residues_all a Ha)). rewrite <- entry_residue in H. rewrite <- G in H.
  apply andb_prop in H. destruct H as (H & H4). apply andb_prop in H. destruct H as (H & H3). apply andb_prop in H. destruct H as (H1 & H2). apply Z.eqb_eq in H1. apply eqb_prop in H3. unfold occ in H2. apply andb_prop in H2.
  split; [exact H1|]. split; [unfold occupies; lia|]. split; [exact H3|]. intros ->. rewrite G. exact H4.
Qed.
(** 1 KiB of boot ROM, 4 KiB of RAM behind it. The supervisor makes a directory at 0x400 that guards itself, stores 9 at 0x404, and leaves for userland at 0x44, where a word
    is loaded from 0x404; the word [x] follows at 0x48. *)
Definition fence_prog (x : Z) : list Z :=
  asm [Cpy R_a0 (Lit2 1024); Cpy R_a1 (Lit2 16384); Shl R_a1 (Lit1 16); Wsa (Reg1 R_a0) (Lit1 0) (Reg1 R_a1); Add R_a0 (Lit2 64); Cmp R_a0 (Lit2 5120); IfN (Lit1 0); Jpr (Lit2 65520);
       Cpy R_a0 (Lit2 1024); Wsa (Reg1 R_a0) (Lit1 4) (Lit1 9); Cpy R_pda (Lit2 1024); Cpy R_mtt (Lit2 1); Lsm (Lit2 64)] ++ [0; 0; 0; 0] ++ asm [Lsa R_a2 (Reg1 R_a0) (Lit1 4)] ++ [x].
Definition fence_devs (x : Z) : list device := [DRom (BootRom (fence_prog x) (zlen (fence_prog x)) 256 1); DRam (StoreMem (zeros 4096) 1024 2)].
Definition sixteenth (a : Z) : bool := a mod 16 =? 0.
Definition fence_mp : mapping := Mapping 1 2 1024 4096.
Lemma sixteenth_residue a : sixteenth a = sixteenth (a mod 1024).
Proof. unfold sixteenth. replace ((a mod 1024) mod 16) with (a mod 16) by lia. reflexivity. Qed.
Lemma fence_machine x (f : cpu device -> list Z -> bool) :
  then_check (built (fence_devs x) (boot_calls 327 [])) (fun m => match second_words fence_mp m with Some l => entries_ok sixteenth 1024 fence_mp l true && (R m R_pda =? 1024) && (R m R_mtt =? 1) && f m l | None => false end) = true ->
  exists m l, reachable (dev_ops false) false m /\ wf m /\ self_guarding sixteenth 1024 (c_mem m) fence_mp l /\ R m R_pda = 1024 /\ R m R_mtt = 1 /\ f m l = true.
Proof.
  intros X. apply then_check_sound in X. destruct X as (m & E & X). destruct (second_words fence_mp m) as [l|] eqn:El; [|discriminate X].
  destruct (boot_calls_wf 327 [] (Forall_nil _) (Forall_nil _)) as (C1 & C2). destruct (built_facts _ _ _ C1 C2 E) as (Hr & W & T).
  apply andb_prop in X. destruct X as (X & X4). apply andb_prop in X. destruct X as (X & X3). apply andb_prop in X. destruct X as (X1 & X2). apply Z.eqb_eq in X2, X3.
  exists m, l. split; [exact Hr|]. split; [exact W|]. split; [|auto]. split; [exact (second_ram _ _ _ T El)|]. intros a Ha. destruct (entries_sound _ _ _ _ _ sixteenth_residue X1 a Ha) as (E1 & E2 & E3 & E4). auto.
Qed.
(** Two cycles of userland: the load succeeds, the store to the directory is refused. *)
Lemma fence_case : exists m l m1 m', reachable (dev_ops false) false m /\ wf m /\ self_guarding sixteenth (R m R_pda) (c_mem m) fence_mp l /\ R m R_pda = 1024 /\ R m R_mtt = 1 /\ in_userland (dev_ops false) false 2 m /\
  next (dev_ops false) false m = Ret m1 /\ R m1 R_a2 = 9 /\ run (dev_ops false) false 2 m = Ret m' /\ R m' R_et = et_value false 6 1024 /\ holds (c_mem m) fence_mp 1024 (2 ^ 30).
Proof.
  destruct (fence_machine (encode_word (Wsa (Reg1 R_a0) (Lit1 0) (Lit1 5))) (fun m l => user_n 2 m && then_check (next (dev_ops false) false m) (fun m1 => R m1 R_a2 =? 9) &&
    then_check (run (dev_ops false) false 2 m) (fun m' => R m' R_et =? et_value false 6 1024) && (nth (word_index fence_mp 1024) l 0 =? 2 ^ 30)) ltac:(vm_compute; reflexivity)) as (m & l & Hr & W & SG & P & M & X).
  apply andb_prop in X. destruct X as (X & X4). apply andb_prop in X. destruct X as (X & X3). apply andb_prop in X. destruct X as (X1 & X2). apply then_check_sound in X2, X3. destruct X2 as (m1 & N1 & X2). destruct X3 as (m2 & N2 & X3). apply Z.eqb_eq in X2, X3, X4.
  exists m, l, m1, m2. rewrite P. split; [exact Hr|]. split; [exact W|]. split; [exact SG|]. split; [reflexivity|]. split; [exact M|]. split; [apply user_n_sound, X1|]. split; [exact N1|]. split; [exact X2|]. split; [exact N2|]. split; [exact X3|]. exists l. split; [apply SG|exact X4].
Qed.
Lemma E_C90_confined : exists m m1 m', wf m /\ R m R_mtt <> 0 /\ fenced (dev_ops false) sixteenth (R m R_pda) (c_mem m) /\ in_userland (dev_ops false) false 2 m /\ next (dev_ops false) false m = Ret m1 /\ R m1 R_a2 = 9 /\
  run (dev_ops false) false 2 m = Ret m' /\ R m' R_et = et_value false 6 1024.
Proof.
  destruct fence_case as (m & l & m1 & m' & _ & W & SG & P & M & U & N1 & X1 & N2 & X2 & _). exists m, m1, m'. rewrite M. split; [exact W|]. split; [discriminate|]. split; [exact (self_fenced _ _ _ _ _ _ SG)|]. split; [exact U|]. auto.
Qed.
Lemma E_C90_self : exists m l, reachable (dev_ops false) false m /\ self_guarding sixteenth 1024 (c_mem m) fence_mp l /\ sixteenth 1024 = true /\ sixteenth 1028 = false.
Proof. destruct fence_case as (m & l & m1 & m' & Hr & W & SG & P & _). exists m, l. rewrite P in SG. split; [exact Hr|]. split; [exact SG|]. split; reflexivity. Qed.
Lemma E_C90_integrity : exists m m', wf m /\ R m R_mtt <> 0 /\ fenced (dev_ops false) sixteenth (R m R_pda) (c_mem m) /\ in_userland (dev_ops false) false 2 m /\ run (dev_ops false) false 2 m = Ret m' /\
  sixteenth 1024 = true /\ occupies fence_mp 1024 /\ holds (c_mem m) fence_mp 1024 (2 ^ 30) /\ holds (c_mem m') fence_mp 1024 (2 ^ 30).
Proof.
  destruct fence_case as (m & l & m1 & m' & _ & W & SG & P & M & U & N1 & X1 & N2 & X2 & HH). assert (O : occupies fence_mp 1024) by (unfold occupies; cbn; lia).
  assert (FM : fenced (dev_ops false) sixteenth (R m R_pda) (c_mem m)) by exact (self_fenced _ _ _ _ _ _ SG). assert (HM : R m R_mtt <> 0) by (rewrite M; discriminate).
  exists m, m'. split; [exact W|]. split; [exact HM|]. split; [exact FM|]. split; [exact U|]. split; [exact N2|]. split; [reflexivity|]. split; [exact O|]. split; [exact HH|].
  exact (P_C90_integrity false sixteenth 2 m m' fence_mp 1024 _ W HM FM U N2 eq_refl O eq_refl HH).
Qed.
Lemma E_C90_quarter : exists m l, reachable (dev_ops false) false m /\ self_guarding sixteenth 1024 (c_mem m) fence_mp l /\ 4096 mod 4 = 0 /\ 4096 mod 16 = 1024 mod 16 /\ sixteenth 4096 = true.
Proof. destruct E_C90_self as (m & l & Hr & SG & _). exists m, l. split; [exact Hr|]. split; [exact SG|]. split; [reflexivity|]. split; reflexivity. Qed.
(** A RESET executed in userland opens the fence: nothing keeps userland from it. *)
Lemma P_C90_reset_refuted : ~ (forall oc guard n m m' mp a w, wf m -> R m R_mtt <> 0 -> fenced (dev_ops oc) guard (R m R_pda) (c_mem m) ->
  (forall k mk, (k < n)%nat -> run (dev_ops oc) oc k m = Ret mk -> sup_mode mk = false) -> run (dev_ops oc) oc n m = Ret m' ->
  a mod 4 = 0 -> occupies mp a -> guard a = true -> holds (c_mem m) mp a w -> holds (c_mem m') mp a w).
Proof.
  intros H. destruct (fence_machine (encode_word (Reset (Lit1 16))) (fun m l => negb (sup_mode m) && then_check (next (dev_ops false) false m) (fun m1 => negb (sup_mode m1)) &&
    then_check (run (dev_ops false) false 2 m) (fun m' => match znth (mm_hwb (c_mem m')) 1 with Some e => match contents (ae_dev e) with Some l' => nth (word_index fence_mp 1024) l' 7 =? 0 | None => false end | None => false end) && (nth (word_index fence_mp 1024) l 0 =? 2 ^ 30)) ltac:(vm_compute; reflexivity)) as (m & l & Hr & W & SG & P & M & X).
  apply andb_prop in X. destruct X as (X & X4). apply andb_prop in X. destruct X as (X & X3). apply andb_prop in X. destruct X as (X1 & X2). apply then_check_sound in X2, X3. destruct X2 as (m1 & N1 & X2). destruct X3 as (m2 & N2 & X3). apply Z.eqb_eq in X4. apply negb_true_iff in X1, X2.
  assert (HH : holds (c_mem m) fence_mp 1024 (2 ^ 30)) by (exists l; split; [apply SG|exact X4]).
  rewrite <- P in SG. destruct (H false sixteenth 2%nat m m2 fence_mp 1024 (2 ^ 30) W ltac:(rewrite M; discriminate) (self_fenced _ _ _ _ _ _ SG)) as (l2 & R2 & Y); auto.
  - intros k mk Hk Hq. destruct k as [|[|k]]; [|..|lia]; cbn [run] in Hq; [apply Ret_inj in Hq; subst mk; exact X1|]. rewrite N1 in Hq. cbn [obind] in Hq. apply Ret_inj in Hq. subst mk. exact X2.
  - unfold occupies. cbn. lia.
  - destruct R2 as (_ & _ & _ & S & e & En & Ec). change (mp_aux_id fence_mp) with 1 in En. rewrite En, Ec in X3. apply Z.eqb_eq in X3. rewrite (nth_indep _ 7 0) in X3 by (change (mp_size fence_mp) with 4096 in S; unfold zlen in S; change (word_index fence_mp 1024) with 0%nat; lia). rewrite Y in X3. discriminate X3.
Qed.

(** 5 KiB of boot ROM, with a directory at 0x400 that guards the words whose address is 0x100 modulo 0x400, and 1 KiB of RAM. The supervisor stores 7 at 0x1500, which is guarded, and leaves for
    userland at 0x14, where 0x1504 is loaded; then a store to 0x1500 is refused. *)
Definition vault_code : list Z :=
  asm [Cpy R_a0 (Lit2 5376); Wsa (Reg1 R_a0) (Lit1 0) (Lit1 7); Cpy R_pda (Lit2 1024); Cpy R_mtt (Lit2 1); Lsm (Lit2 16); Lsa R_a2 (Reg1 R_a0) (Lit1 4); Wsa (Reg1 R_a0) (Lit1 0) (Lit1 9)].
Definition vault_words : list Z := vault_code ++ repeat 0 249 ++ repeat 0 256 ++ [2 ^ 30] ++ repeat 0 767.
Definition vault_devs : list device := [DRom (BootRom vault_words (zlen vault_words) 1280 1); DRam (StoreMem (zeros 1024) 256 2)].
Definition vault_guard (a : Z) : bool := a mod 1024 =? 256.
Definition vault_rom : mapping := Mapping 0 1 0 5120.
Definition vault_ram : mapping := Mapping 1 2 5120 1024.
Lemma vault_residue a : vault_guard a = vault_guard (a mod 1024).
Proof. unfold vault_guard. rewrite Z.mod_mod by lia. reflexivity. Qed.
Definition same_map (x y : mapping) : bool := (mp_aux_id x =? mp_aux_id y) && (mp_hw_id x =? mp_hw_id y) && (mp_addr x =? mp_addr y) && (mp_size x =? mp_size y).
Lemma same_map_eq x y : same_map x y = true -> x = y.
Proof. unfold same_map. intros H. destruct x, y. cbn in H. apply andb_prop in H. destruct H as (H & H4). apply andb_prop in H. destruct H as (H & H3). apply andb_prop in H. destruct H as (H1 & H2). apply Z.eqb_eq in H1, H2, H3, H4. congruence. Qed.
Fixpoint same_words (a b : list Z) : bool := match a, b with [], [] => true | x :: a, y :: b => (x =? y) && same_words a b | _, _ => false end.
Lemma same_words_eq a : forall b, same_words a b = true -> a = b.
Proof. induction a as [|x a IH]; intros [|y b] H; try discriminate H; [reflexivity|]. cbn [same_words] in H. apply andb_prop in H. destruct H as (H1 & H2). apply Z.eqb_eq in H1. rewrite (IH b H2), H1. reflexivity. Qed.
Definition first_rom (mp : mapping) (l : list Z) (m : cpu device) : bool :=
  match mm_maps (c_mem m), znth (mm_hwb (c_mem m)) 0 with
  | x :: _, Some e => same_map x mp && (mp_aux_id mp =? 0) && match ae_dev e with DRom (BootRom l' n s id) => same_words l' l && (n =? zlen l') && (mp_size mp <=? 4 * s) | _ => false end
  | _, _ => false end.
Lemma first_rom_directory guard pda mp l m : (forall a, guard a = guard (a mod 1024)) -> tidy false (c_mem m) -> first_rom mp l m = true -> entries_ok guard pda mp l false = true -> rom_directory guard pda (c_mem m) mp l.
Proof.
  intros G T H HE. unfold first_rom in H. destruct (mm_maps (c_mem m)) as [|x t] eqn:EM; [discriminate|]. destruct (znth (mm_hwb (c_mem m)) 0) as [e|] eqn:En; [|discriminate].
  apply andb_prop in H. destruct H as (H & H3). apply andb_prop in H. destruct H as (H1 & H2). apply same_map_eq in H1. subst x. apply Z.eqb_eq in H2. destruct (ae_dev e) as [| |d| | | | | | | |] eqn:Ed; try discriminate. destruct d as [l' n s id].
  apply andb_prop in H3. destruct H3 as (H3 & H5). apply andb_prop in H3. destruct H3 as (H3 & H4). apply same_words_eq in H3. subst l'. apply Z.eqb_eq in H4. subst n. apply Z.leb_le in H5.
  split; [exact T|]. split; [rewrite EM; left; reflexivity|]. split. { exists e, s, id. rewrite H2. auto. }
  intros a Ha. destruct (entries_sound _ _ _ _ _ G HE a Ha) as (E1 & E2 & E3 & _). auto.
Qed.
(** The host writes a guarded word of a memory: nothing else changes. *)
Lemma veil_write oc guard m mp l a w mem' ex : ram_at (c_mem m) mp l -> occupies mp a -> a mod 4 = 0 -> guard a = true -> mem_write (dev_ops oc) false (c_mem m) a w = Ret (mem', ex) -> same_but_guarded guard (c_mem m) mem'.
Proof.
  intros HR O Ha Hg E. destruct (ram_index _ _ _ _ HR O Ha) as (Hi & Hm). pose proof HR as (T & I & U & S & e & En & Ec). apply mem_write_inv in E. destruct E as (_ & [(F & _)|(mp' & e' & d & F & En' & Hb & ->)]).
  { rewrite (tidy_find _ _ _ _ T I O) in F. discriminate. }
  rewrite (tidy_find _ _ _ _ T I O) in F. injection F as <-. rewrite En in En'. injection En' as <-.
  split; [exact T|]. split; [reflexivity|]. cbn [mm_hwb mm_maps]. split.
  { clear. generalize (mm_hwb (c_mem m)) as h, (mp_aux_id mp) as id. induction h as [|x t IH]; intros id; cbn [set_dev]; [reflexivity|]. destruct (id =? 0); cbn [length]; [reflexivity|]. rewrite <- IH. reflexivity. }
  intros k f1 f2 F1 F2. rewrite P_C33_others, F1 in F2. injection F2 as <-. destruct (Z.eqb_spec k (mp_aux_id mp)) as [->|]; cbn [ae_cache ae_dev]; [|split; [reflexivity|left; reflexivity]].
  rewrite En in F1. injection F1 as <-. split; [reflexivity|]. right.
  assert (SEC : guarded_word guard (c_mem m) (mp_aux_id mp) ((a - mp_addr mp) / 4)). { intros x Ix Ex. rewrite (same_id _ _ _ T Ix I Ex). replace (mp_addr mp + 4 * ((a - mp_addr mp) / 4)) with a by lia. exact Hg. }
  assert (K : forall i, ~ guarded_word guard (c_mem m) (mp_aux_id mp) (Z.of_nat i) -> nth i l 0 = nth i (upd l (Z.to_nat ((a - mp_addr mp) / 4)) w) 0).
  { intros i NS. rewrite upd_nth. destruct (Nat.eqb_spec i (Z.to_nat ((a - mp_addr mp) / 4))) as [->|]; [|reflexivity]. exfalso. apply NS. rewrite Z2Nat.id by lia. exact SEC. }
  destruct (ae_dev e) as [s1|s1| | | | | | | | |] eqn:Ed; cbn [contents] in Ec; try discriminate; injection Ec as Ec; cbn [bo_write dev_ops] in Hb; unfold sm_write, vset in Hb; rewrite Ec, (zset_upd _ _ _ Hi) in Hb; cbn [obind unwrap wrap_w] in Hb; injection Hb as <- _;
    exists s1; eexists; (split; [first [left; split; reflexivity|right; split; reflexivity]|]); cbn [sm_size sm_hw_id sm_storage]; (split; [reflexivity|]); (split; [reflexivity|]); rewrite Ec, upd_length; auto.
Qed.
Lemma words_check mp m i v : (match second_words mp m with Some l => nth i l 0 =? v | None => false end) = true -> exists l, second_words mp m = Some l /\ nth i l 0 = v.
Proof. destruct (second_words mp m) as [l|]; [|discriminate]. intros H. apply Z.eqb_eq in H. eauto. Qed.
Local Notation vault more := (built vault_devs (boot_calls 5 more)).
Lemma built_then devs n c m m' : built devs (boot_calls n []) = Ret m -> api_call (dev_ops false) false c m = Ret m' -> built devs (boot_calls n [c]) = Ret m'.
Proof.
  unfold built. destruct (board_new (dev_ops false) devs) as [m0|]; [|discriminate]. intros E1 E2. unfold boot_calls in *. rewrite app_nil_r in E1.
  replace (AMapContiguous 0 [0; 1] :: AReset :: repeat ANext n ++ [c]) with ((AMapContiguous 0 [0; 1] :: AReset :: repeat ANext n) ++ [c]) by reflexivity.
  apply (api_run_app (dev_ops false) false _ _ m0 m m' E1). cbn [api_run]. rewrite E2. reflexivity.
Qed.
Definition vault_check1 (m1 : cpu device) : bool :=
  first_rom vault_rom vault_words m1 && (R m1 R_mtt =? 1) && (R m1 R_pda =? 1024) && user_n 2 m1 && (match second_words vault_ram m1 with Some l => nth (word_index vault_ram 5376) l 0 =? 7 | None => false end) &&
    then_check (run (dev_ops false) false 2 m1) (fun m' => R m' R_et =? et_value false 6 5376).
Definition vault_check2 (m2 : cpu device) : bool :=
  first_rom vault_rom vault_words m2 && (match second_words vault_ram m2 with Some l => nth (word_index vault_ram 5376) l 0 =? 8 | None => false end) && then_check (run (dev_ops false) false 2 m2) (fun m' => R m' R_et =? et_value false 6 5376).
Lemma then_check2 {A B} (o : outcome A) (g : A -> outcome B) f : then_check o (fun a => then_check (g a) (f a)) = true -> exists a b, o = Ret a /\ g a = Ret b /\ f a b = true.
Proof. intros H. apply then_check_sound in H. destruct H as (a & -> & H). apply then_check_sound in H. destruct H as (b & E & H). eauto. Qed.
Lemma vault_checked : exists m1 p, vault [] = Ret m1 /\ mem_write (dev_ops false) false (c_mem m1) 5376 8 = Ret p /\ vault_check1 m1 && vault_check2 (with_mem (fst p) m1) = true.
Proof. apply (then_check2 (vault []) (fun m1 => mem_write (dev_ops false) false (c_mem m1) 5376 8) (fun m1 p => vault_check1 m1 && vault_check2 (with_mem (fst p) m1))). vm_compute. reflexivity. Qed.
Lemma vault_entries : entries_ok vault_guard 1024 vault_rom vault_words false = true.
Proof. vm_compute. reflexivity. Qed.
(** The machine with 7 in the guarded word, and with 8 written there by the host. *)
Lemma vault_pair : exists m1 m2 l1 l2 m1' m2', reachable (dev_ops false) false m1 /\ reachable (dev_ops false) false m2 /\ wf m1 /\ wf m2 /\ R m1 R_mtt = 1 /\ R m1 R_pda = 1024 /\ R m2 R_pda = 1024 /\
  rom_directory vault_guard 1024 (c_mem m1) vault_rom l1 /\ rom_directory vault_guard 1024 (c_mem m2) vault_rom l2 /\ veiled vault_guard m1 m2 /\
  holds (c_mem m1) vault_ram 5376 7 /\ holds (c_mem m2) vault_ram 5376 8 /\ in_userland (dev_ops false) false 2 m1 /\
  run (dev_ops false) false 2 m1 = Ret m1' /\ run (dev_ops false) false 2 m2 = Ret m2' /\ R m1' R_et = et_value false 6 5376 /\ R m2' R_et = et_value false 6 5376.
Proof.
  destruct vault_checked as (m1 & (mem2 & ex) & E1 & EW & X). apply andb_prop in X. destruct X as (X & Y). cbn [fst] in Y. unfold vault_check1 in X. unfold vault_check2 in Y. remember (with_mem mem2 m1) as m2 eqn:EM.
  assert (E2 : vault [AWrite 5376 8] = Ret m2). { rewrite EM. apply (built_then vault_devs 5 (AWrite 5376 8) m1 _ E1). cbn [api_call]. rewrite EW. reflexivity. }
  destruct (boot_calls_wf 5 [] (Forall_nil _) (Forall_nil _)) as (C1 & C2). destruct (built_facts _ _ _ C1 C2 E1) as (Hr1 & W1 & T1).
  assert (D1 : Forall api_wf [AWrite 5376 8]) by (constructor; [cbn; unfold is_u32; lia|constructor]). assert (D2 : Forall no_map_abs [AWrite 5376 8]) by (constructor; [exact I|constructor]).
  destruct (boot_calls_wf 5 _ D1 D2) as (C3 & C4). destruct (built_facts _ _ _ C3 C4 E2) as (Hr2 & W2 & T2).
  apply andb_prop in X. destruct X as (X & X6). apply andb_prop in X. destruct X as (X & X5). apply andb_prop in X. destruct X as (X & X4). apply andb_prop in X. destruct X as (X & X3). apply andb_prop in X. destruct X as (X1 & X2).
  apply andb_prop in Y. destruct Y as (Y & Y3). apply andb_prop in Y. destruct Y as (Y1 & Y2). apply then_check_sound in X6, Y3. destruct X6 as (m1' & N1 & X6). destruct Y3 as (m2' & N2 & Y3). apply Z.eqb_eq in X2, X3, X6, Y3.
  apply words_check in X5. apply words_check in Y2. destruct X5 as (l1 & L1 & X5). destruct Y2 as (l2 & L2 & Y2).
  pose proof (second_ram _ _ _ T1 L1) as R1. pose proof (second_ram _ _ _ T2 L2) as R2.
  pose proof vault_entries as EO.
  exists m1, m2, vault_words, vault_words, m1', m2'. split; [exact Hr1|]. split; [exact Hr2|]. split; [exact W1|]. split; [exact W2|]. split; [exact X2|]. split; [exact X3|]. split; [rewrite EM; exact X3|].
  split; [exact (first_rom_directory _ _ _ _ _ vault_residue T1 X1 EO)|]. split; [exact (first_rom_directory _ _ _ _ _ vault_residue T2 Y1 EO)|].
  split. { rewrite EM. split. { apply (veil_write false vault_guard m1 vault_ram l1 5376 8 mem2 ex R1); auto. unfold occupies. cbn. lia. } split; [reflexivity|]. split; [reflexivity|]. split; [intros r _; reflexivity|reflexivity]. }
  split; [exists l1; auto|]. split; [exists l2; auto|]. split; [apply user_n_sound, X4|]. auto.
Qed.
Lemma E_C90_rom : exists m l, reachable (dev_ops false) false m /\ rom_directory vault_guard 1024 (c_mem m) vault_rom l /\ vault_guard 5376 = true /\ vault_guard 5380 = false.
Proof. destruct vault_pair as (m1 & m2 & l1 & l2 & m1' & m2' & H1 & _ & _ & _ & _ & _ & _ & H2 & _). exists m1, l1. split; [exact H1|]. split; [exact H2|]. split; reflexivity. Qed.
Lemma E_C90_secrecy : exists m1 m2 m1' m2', wf m1 /\ wf m2 /\ R m1 R_mtt <> 0 /\ veiled vault_guard m1 m2 /\ holds (c_mem m1) vault_ram 5376 7 /\ holds (c_mem m2) vault_ram 5376 8 /\
  fenced (dev_ops false) vault_guard (R m1 R_pda) (c_mem m1) /\ fenced (dev_ops false) vault_guard (R m2 R_pda) (c_mem m2) /\ in_userland (dev_ops false) false 2 m1 /\
  run (dev_ops false) false 2 m1 = Ret m1' /\ run (dev_ops false) false 2 m2 = Ret m2' /\ R m1' R_et = et_value false 6 5376.
Proof.
  destruct vault_pair as (m1 & m2 & l1 & l2 & m1' & m2' & _ & _ & W1 & W2 & M & P1 & P2 & D1 & D2 & V & H7 & H8 & U & N1 & N2 & X1 & _). exists m1, m2, m1', m2'. rewrite M, P1, P2.
  split; [exact W1|]. split; [exact W2|]. split; [discriminate|]. split; [exact V|]. split; [exact H7|]. split; [exact H8|]. split; [exact (rom_fenced _ _ _ _ _ _ D1)|]. split; [exact (rom_fenced _ _ _ _ _ _ D2)|]. auto.
Qed.
