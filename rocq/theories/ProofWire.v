(** Proofs of C94: boards with the same components at the same addresses. *)
From Coq Require Import ZArith List Bool Lia Permutation.
From Verif Require Import Base Board Mem Cpu Asm SpecMach SpecIsa SpecBus SpecObs SpecSim SpecTotal SpecMap SpecWire BaseFacts RegFacts MemFacts AluFacts IsaFacts IsaStep CycleFacts MonoFacts InvFacts MapFacts ReachFacts CyclePost
  ExecFacts ProofMap ProofTotal ProofPanic ProofRun ProofMove Demo.
Import ListNotations.
Open Scope Z_scope.
Ltac Zify.zify_post_hook ::= Z.div_mod_to_equations.

Lemma decode_named bs i : decode bs = ROk i ->
  match i with Hwd _ _ _ => Z.shiftr (byte_at bs 0) 3 = 28 | Reset _ => Z.shiftr (byte_at bs 0) 3 = 31 | _ => True end.
Proof.
  unfold decode. set (o := Z.shiftr (byte_at bs 0) 3). clearbody o. cbv zeta.
  destruct o as [|p|p]; try discriminate.
  do 5 (try (match goal with q : positive |- _ => destruct q as [q|q|] end)); try discriminate;
  intros H; repeat match type of H with
  | rbind ?x _ = _ => destruct x; cbn [rbind] in H; [|discriminate H]
  end; injection H as <-; first [exact I|reflexivity].
Qed.
Section Spec.
Context {D : Type} (ops : bus_ops D).
Notation bs := (board_bus ops false).
Implicit Type s : st (memory D).
Variable RX : memory D -> memory D -> Prop.
Variable full : bool.
Hypothesis Hload : forall b1 b2 a, RX b1 b2 -> a mod 4 = 0 ->
  both (fun x y => RX (fst (fst x)) (fst (fst y)) /\ snd (fst x) = snd (fst y) /\ snd x = snd y) (mem_read ops false b1 a) (mem_read ops false b2 a).
Hypothesis Hstore : forall b1 b2 a w, RX b1 b2 -> a mod 4 = 0 ->
  both (fun x y => RX (fst x) (fst y) /\ snd x = snd y) (mem_write ops false b1 a w) (mem_write ops false b2 a w).
Hypothesis Hinfo : full = true -> forall b1 b2, RX b1 b2 -> zlen (mm_hwb b1) = zlen (mm_hwb b2) /\ forall x y, info_spec b1 x y = info_spec b2 x y.
Hypothesis Hreset : full = true -> forall b1 b2 sel, RX b1 b2 -> both RX (bus_reset bs b1 sel) (bus_reset bs b2 sel).

Definition alike s1 s2 : Prop := s_reg s1 = s_reg s2 /\ s_cyc s1 = s_cyc s2 /\ s_halt s1 = s_halt s2 /\ RX (s_bus s1) (s_bus s2).
Notation RR := (both alike).

Lemma al_get s1 s2 r : alike s1 s2 -> get s1 r = get s2 r.
Proof. intros (A & _). unfold get. rewrite A. reflexivity. Qed.
Lemma al_sup s1 s2 : alike s1 s2 -> sup s1 = sup s2.
Proof. intros A. unfold sup. rewrite (al_get _ _ R_smt A). reflexivity. Qed.
Lemma al_sp s1 s2 : alike s1 s2 -> sp_reg s1 = sp_reg s2.
Proof. intros A. unfold sp_reg. rewrite (al_sup _ _ A). reflexivity. Qed.
Lemma al_put s1 s2 r v : alike s1 s2 -> alike (put s1 r v) (put s2 r v).
Proof. intros (A & B & C & X). unfold put. repeat split; cbn [s_reg s_cyc s_halt s_bus]; auto. rewrite A. reflexivity. Qed.
Lemma al_bus s1 s2 b1 b2 : alike s1 s2 -> RX b1 b2 -> alike (with_bus s1 b1) (with_bus s2 b2).
Proof. intros (A & B & C & X) Y. repeat split; auto. Qed.
Lemma rr_ret s1 s2 : alike s1 s2 -> RR (Ret s1) (Ret s2).
Proof. intros A. exact A. Qed.
Lemma rr_raise s1 s2 code data : alike s1 s2 -> RR (raise code data s1) (raise code data s2).
Proof. intros A. unfold raise. rewrite (al_sup _ _ A), (al_get _ _ R_ev A). apply rr_ret. repeat apply al_put. exact A. Qed.
Lemma rr_missing s1 s2 u c : alike s1 s2 -> RR (missing u c s1) (missing u c s2).
Proof. intros A. unfold missing. rewrite (al_sup _ _ A). apply rr_raise, A. Qed.
Lemma rr_advance s1 s2 n : alike s1 s2 -> RR (advance n s1) (advance n s2).
Proof. intros A. unfold advance. rewrite (al_get _ _ R_pc A). apply rr_ret, al_put, A. Qed.
Lemma rr_read r s1 s2 k1 k2 : alike s1 s2 -> (forall x, RR (k1 x) (k2 x)) -> RR (read r s1 k1) (read r s2 k2).
Proof. intros A K. unfold read. rewrite (al_sup _ _ A), (al_get _ _ r A). destruct (can_read _ _); [apply K|apply rr_raise, A]. Qed.
Lemma rr_read1 v s1 s2 k1 k2 : alike s1 s2 -> (forall x, RR (k1 x) (k2 x)) -> RR (read1 v s1 k1) (read1 v s2 k2).
Proof. intros A K. destruct v; cbn [read1]; [apply rr_read; auto|apply K]. Qed.
Lemma rr_read2 v s1 s2 k1 k2 : alike s1 s2 -> (forall x, RR (k1 x) (k2 x)) -> RR (read2 v s1 k1) (read2 v s2 k2).
Proof. intros A K. destruct v; cbn [read2]; [apply rr_read; auto|apply K]. Qed.
Lemma rr_source b p s1 s2 k1 k2 : alike s1 s2 -> (forall x, RR (k1 x) (k2 x)) -> RR (source b p s1 k1) (source b p s2 k2).
Proof. intros A K. unfold source. destruct b; [|apply K]. destruct (reg_from_code p); [apply rr_read; auto|apply rr_missing, A]. Qed.
Lemma rr_write r v s1 s2 k1 k2 : alike s1 s2 -> (forall s1 s2, alike s1 s2 -> RR (k1 s1) (k2 s2)) -> RR (write r v s1 k1) (write r v s2 k2).
Proof. intros A K. unfold write. rewrite (al_sup _ _ A). destruct (can_write _ _); [apply K, al_put, A|apply rr_raise, A]. Qed.
Lemma rr_write_end r v s1 s2 : alike s1 s2 -> RR (write_end r v s1) (write_end r v s2).
Proof. intros A. apply rr_write; auto. intros t1 t2 B. destruct r; try (apply rr_advance, B). apply rr_ret, B. Qed.
Lemma rr_access a s1 s2 k1 k2 : alike s1 s2 -> (a mod 4 = 0 -> forall s1 s2, alike s1 s2 -> RR (k1 s1) (k2 s2)) -> RR (access bs a s1 k1) (access bs a s2 k2).
Proof.
  intros A K. unfold access. destruct (Z.eqb_spec (a mod 4) 0) as [Ea|]; cbn [negb]; [|apply rr_raise, A].
  rewrite (al_get _ _ R_mtt A), (al_get _ _ R_pda A). destruct (_ =? 0); [apply K; auto|].
  cbn [bus_load board_bus]. set (pa := m32 _). assert (X : both (fun x y => RX (fst (fst x)) (fst (fst y)) /\ snd (fst x) = snd (fst y) /\ snd x = snd y) (mem_read ops false (s_bus s1) pa) (mem_read ops false (s_bus s2) pa)).
  { destruct (Z.eq_dec (pa mod 4) 0); [apply Hload; auto; apply A|]. unfold mem_read. rewrite (proj2 (Z.eqb_neq _ _)) by assumption. exact I. }
  destruct (mem_read ops false (s_bus s1) pa) as [[[c1 ex1] v1]|], (mem_read ops false (s_bus s2) pa) as [[[c2 ex2] v2]|]; cbn [both fst snd] in X; try contradiction; [|exact I].
  destruct X as (Y & <- & <-). pose proof (al_bus _ _ c1 c2 A Y) as B. cbv zeta. rewrite (al_sup _ _ B).
  destruct (negb _); [apply rr_raise, B|]. destruct (Z.testbit _ _); [apply rr_raise, B|]. apply K; auto.
Qed.
Lemma rr_load a s1 s2 k1 k2 : alike s1 s2 -> (forall v s1 s2, alike s1 s2 -> RR (k1 v s1) (k2 v s2)) -> RR (load bs a s1 k1) (load bs a s2 k2).
Proof.
  intros A K. apply rr_access; auto. intros Ea t1 t2 B. pose proof (Hload _ _ a (proj2 (proj2 (proj2 B))) Ea) as X. cbn [bus_load board_bus].
  destruct (mem_read ops false (s_bus t1) a) as [[[c1 ex1] v1]|], (mem_read ops false (s_bus t2) a) as [[[c2 ex2] v2]|]; cbn [both fst snd] in X; try contradiction; [|exact I].
  destruct X as (Y & <- & <-). pose proof (al_bus _ _ c1 c2 B Y) as C. destruct (negb _); [apply rr_raise, C|apply K, C].
Qed.
Lemma rr_store a v s1 s2 k1 k2 : alike s1 s2 -> (forall s1 s2, alike s1 s2 -> RR (k1 s1) (k2 s2)) -> RR (store bs a v s1 k1) (store bs a v s2 k2).
Proof.
  intros A K. apply rr_access; auto. intros Ea t1 t2 B. pose proof (Hstore _ _ a v (proj2 (proj2 (proj2 B))) Ea) as X. cbn [bus_store board_bus].
  destruct (mem_write ops false (s_bus t1) a v) as [[c1 ex1]|], (mem_write ops false (s_bus t2) a v) as [[c2 ex2]|]; cbn [both fst snd] in X; try contradiction; [|exact I].
  destruct X as (Y & <-). pose proof (al_bus _ _ c1 c2 B Y) as C. destruct (negb _); [apply rr_raise, C|apply K, C].
Qed.
Lemma rr_arith a d y s1 s2 keep : alike s1 s2 -> RR (arith a d y s1 keep) (arith a d y s2 keep).
Proof.
  intros A. unfold arith. apply rr_read; auto. intros x. destruct (alu_spec a x y) as [r c o|code]; [|apply rr_raise, A].
  pose proof (al_put _ _ R_af (flags_spec r c o) A) as B. destruct keep; [apply rr_write_end, B|apply rr_advance, B].
Qed.

Lemma rr_step i s1 s2 : full = true \/ ((forall v, i <> Reset v) /\ (forall a b c, i <> Hwd a b c)) -> alike s1 s2 -> RR (step bs i s1) (step bs i s2).
Proof.
  intros NR A. pose proof (al_sp _ _ A) as P. pose proof (al_sup _ _ A) as U.
  destruct i; cbn [step].
  - apply rr_read2; auto. intros x. apply rr_write_end, A.
  - apply rr_read; auto. intros x. apply rr_read; auto. intros y. apply rr_write; auto. intros t1 t2 B. apply rr_write; auto. intros u1 u2 C. destruct a; try (apply rr_ret, C); destruct b; first [apply rr_ret, C|apply rr_advance, C].
  - apply rr_read2; auto. intros y. apply rr_arith, A.
  - apply rr_read2; auto. intros y. apply rr_arith, A.
  - apply rr_read2; auto. intros y. apply rr_arith, A.
  - apply rr_read1; auto. intros y. apply rr_read1; auto. intros z. apply rr_arith, A.
  - apply rr_read1; auto. intros y. apply rr_read1; auto. intros z. apply rr_arith, A.
  - apply rr_read2; auto. intros y. apply rr_arith, A.
  - apply rr_read2; auto. intros y. apply rr_arith, A.
  - apply rr_read2; auto. intros y. apply rr_arith, A.
  - apply rr_read1; auto. intros y. apply rr_arith, A.
  - apply rr_read1; auto. intros y. apply rr_arith, A.
  - apply rr_read2; auto. intros y. apply rr_arith, A.
  - apply rr_read2; auto. intros x. apply rr_advance, A.
  - rewrite U. destruct (sup s2); [|apply rr_raise, A]. apply rr_read2; auto. intros x. apply rr_advance, al_put, al_put, A.
  - apply rr_read1; auto. intros x. apply rr_raise, A.
  - apply rr_read1; auto. intros f. unfold flag_of. rewrite (al_get _ _ R_af A). destruct (7 <? f); [apply rr_raise, A|]. destruct (Z.testbit _ _); apply rr_advance, A.
  - apply rr_read1; auto. intros f. unfold flag_of. rewrite (al_get _ _ R_af A). destruct (7 <? f); [apply rr_raise, A|]. destruct (Z.testbit _ _); apply rr_advance, A.
  - apply rr_read1; auto. intros fa. apply rr_read1; auto. intros fb. apply rr_read1; auto. intros cc. unfold flag_of_unchecked. rewrite (al_get _ _ R_af A). destruct (cond_spec _ _ _) as [[|]|]; [apply rr_advance, A|apply rr_advance, A|apply rr_raise, A].
  - apply rr_read1; auto. intros x. apply rr_read1; auto. intros y. apply rr_load; auto. intros v t1 t2 B. apply rr_write_end, B.
  - apply rr_read1; auto. intros x. apply rr_read1; auto. intros y. apply rr_read1; auto. intros z. apply rr_load; auto. intros v t1 t2 B. apply rr_advance, al_put, B.
  - apply rr_read1; auto. intros x. apply rr_read1; auto. intros y. apply rr_read1; auto. intros z. apply rr_store; auto. intros t1 t2 B. apply rr_advance, B.
  - apply rr_read1; auto. intros x. apply rr_read1; auto. intros y. apply rr_read1; auto. intros z. rewrite (al_get _ _ R_avr A). apply rr_store; auto. intros t1 t2 B. apply rr_advance, B.
  - apply rr_read1; auto. intros x. apply rr_read1; auto. intros y. apply rr_load; auto. intros v t1 t2 B. apply rr_read; auto. intros z. apply rr_store; auto. intros u1 u2 C. apply rr_write_end, C.
  - apply rr_read2; auto. intros x. rewrite P, (al_get _ _ (sp_reg s2) A). apply rr_store; auto. intros t1 t2 B. rewrite (al_sp _ _ B). apply rr_advance, al_put, B.
  - rewrite P, (al_get _ _ (sp_reg s2) A). apply rr_load; auto. intros v t1 t2 B. rewrite (al_sp _ _ B), (al_get _ _ (sp_reg t2) B). apply rr_write_end, al_put, B.
  - apply rr_read2; auto. intros x. rewrite P, (al_get _ _ (sp_reg s2) A), (al_get _ _ R_pc A). apply rr_store; auto. intros t1 t2 B. rewrite (al_sp _ _ B). apply rr_ret, al_put, al_put, B.
  - destruct NR as [F|(_ & N)]; [|exfalso; eapply N; reflexivity]. apply rr_read1; auto. intros x. apply rr_read1; auto. intros y.
    destruct (Hinfo F _ _ (proj2 (proj2 (proj2 A)))) as (HC & HI). cbn [bus_count bus_info board_bus]. rewrite HC, HI. destruct ((x =? 0) && (y =? 0)); [apply rr_write_end, A|]. destruct (info_spec _ _ _) as [[code data]|v]; [apply rr_raise, A|apply rr_write_end, A].
  - rewrite (proj1 (proj2 A)). apply rr_write_end, A.
  - apply rr_advance. destruct A as (A & B & C & X). repeat split; auto.
  - destruct NR as [F|(N & _)]; [|exfalso; eapply N; reflexivity]. apply rr_read1; auto. intros mode. destruct (Hinfo F _ _ (proj2 (proj2 (proj2 A)))) as (HC & _).
    change (bus_count bs (s_bus s1)) with (zlen (mm_hwb (s_bus s1))). change (bus_count bs (s_bus s2)) with (zlen (mm_hwb (s_bus s2))). rewrite HC, (al_get _ _ R_avr A).
    destruct (reset_selected _ _ _) as [sel|]; [|apply rr_raise, A]. pose proof (Hreset F _ _ sel (proj2 (proj2 (proj2 A)))) as X.
    destruct (bus_reset bs (s_bus s1) sel) as [c1|], (bus_reset bs (s_bus s2) sel) as [c2|]; cbn [both] in X; try contradiction; [|exact I]. pose proof (al_bus _ _ c1 c2 A X) as B. cbv zeta.
    destruct (_ =? 0); [|apply rr_advance, B]. apply rr_ret. repeat split; auto.
Qed.

Lemma rr_bad w s1 s2 : full = true \/ w / 2 ^ 27 <> 28 -> alike s1 s2 -> RR (bad_word ops w s1) (bad_word ops w s2).
Proof.
  intros NR A. pose proof (al_sp _ _ A) as P. pose proof (al_sup _ _ A) as U. unfold bad_word. cbv zeta.
  set (one1 := source (Z.testbit w 26) _ s1 _). set (one2 := source (Z.testbit w 26) _ s2 (fun _ => Ret s2)). assert (ONE : RR one1 one2) by (apply rr_source; auto; intros; apply rr_ret, A).
  set (three1 := source (Z.testbit w 26) _ s1 (fun _ => source _ _ _ _)). set (three2 := source (Z.testbit w 26) _ s2 (fun _ => source _ _ _ _)).
  assert (THREE : RR three1 three2) by (apply rr_source; auto; intros; apply rr_source; auto; intros; apply rr_source; auto; intros; apply rr_ret, A). clearbody one1 one2 three1 three2.
  destruct (w / 2 ^ 27) as [|q|q]; [apply rr_raise, A| |apply rr_ret, A].
  do 5 (try (match goal with q : positive |- _ => destruct q as [q|q|] end)); try exact ONE; try exact THREE; try (apply rr_ret, A); try (apply rr_missing, A);
    try (apply rr_source; auto; intros; first [apply rr_missing, A|apply rr_source; auto; intros; first [apply rr_missing, A|apply rr_ret, A|
      apply rr_load; auto; intros; apply rr_missing; assumption]]).
  all: try (rewrite U; destruct (sup s2); [exact ONE|apply rr_raise, A]).
  - rewrite P, (al_get _ _ (sp_reg s2) A). apply rr_load; auto. intros v t1 t2 B. rewrite (al_sp _ _ B), (al_get _ _ (sp_reg t2) B). apply rr_missing, al_put, B.
  - destruct NR as [F|N]; [|exfalso; apply N; reflexivity]. apply rr_source; auto; intros x. apply rr_source; auto; intros y. cbn [bus_info board_bus]. rewrite (proj2 (Hinfo F _ _ (proj2 (proj2 (proj2 A))))). destruct (_ && _); [apply rr_missing, A|]. destruct (info_spec _ _ _) as [[code data]|v]; [apply rr_raise, A|apply rr_missing, A].
Qed.
Lemma rr_word w s1 s2 : full = true \/ (w / 2 ^ 27 <> 28 /\ w / 2 ^ 27 <> 31) -> is_u32 w -> alike s1 s2 ->
  RR (match decode (bytes_of_word w) with ROk i => step bs i s1 | RErr _ => bad_word ops w s1 end) (match decode (bytes_of_word w) with ROk i => step bs i s2 | RErr _ => bad_word ops w s2 end).
Proof.
  intros NR Uw A. destruct (decode (bytes_of_word w)) as [i|] eqn:Ed; [|apply rr_bad; tauto].
  apply rr_step; auto. destruct NR as [F|(N1 & N2)]; [auto|right]. apply decode_named in Ed.
  assert (E : Z.shiftr (byte_at (bytes_of_word w) 0) 3 = w / 2 ^ 27).
  { unfold bytes_of_word, byte_at, u8, is_u32 in *. rewrite Z.shiftr_div_pow2 by lia. change (2 ^ 3) with 8. change (2 ^ 27) with 134217728. cbn [Z.eqb]. lia. }
  rewrite E in Ed. split; intros; intros ->; tauto.
Qed.
Definition yields s a v s' : Prop :=
  a mod 4 = 0 /\ exists b1 b2,
    (if get s R_mtt =? 0 then b1 = s_bus s else exists e, mem_read ops false (s_bus s) (m32 (get s R_pda + 4 * (a mod 1024))) = Ret (b1, 0, e) /\ Z.testbit e (if sup s then 31 else 30) = false) /\
    mem_read ops false b1 a = Ret (b2, 0, v) /\ s' = with_bus s b2.
Lemma rr_load_yields a s1 s2 k1 k2 : alike s1 s2 -> (forall v t1 t2, alike t1 t2 -> yields s1 a v t1 -> RR (k1 v t1) (k2 v t2)) -> RR (load bs a s1 k1) (load bs a s2 k2).
Proof.
  intros A K. unfold load, access. destruct (Z.eqb_spec (a mod 4) 0) as [Ea|]; cbn [negb]; [|apply rr_raise, A].
  assert (Go : forall c1 c2, RX c1 c2 -> (if get s1 R_mtt =? 0 then c1 = s_bus s1 else exists e, mem_read ops false (s_bus s1) (m32 (get s1 R_pda + 4 * (a mod 1024))) = Ret (c1, 0, e) /\ Z.testbit e (if sup s1 then 31 else 30) = false) ->
     RR (match mem_read ops false c1 a with Panic => Panic | Ret (b, ex, v) => if negb (ex =? 0) then raise 160 ex (with_bus s1 b) else k1 v (with_bus s1 b) end)
        (match mem_read ops false c2 a with Panic => Panic | Ret (b, ex, v) => if negb (ex =? 0) then raise 160 ex (with_bus s2 b) else k2 v (with_bus s2 b) end)).
  { intros c1 c2 X Y. pose proof (Hload _ _ a X Ea) as Z1.
    destruct (mem_read ops false c1 a) as [[[d1 ex1] v1]|] eqn:R1, (mem_read ops false c2 a) as [[[d2 ex2] v2]|]; cbn [both fst snd] in Z1; try contradiction; [|exact I].
    destruct Z1 as (Z1 & <- & <-). pose proof (al_bus _ _ d1 d2 A Z1) as C. destruct (Z.eqb_spec ex1 0) as [->|]; cbn [negb]; [|apply rr_raise, C]. apply K; [exact C|]. split; [exact Ea|]. exists c1, d1. auto. }
  rewrite <- (al_get _ _ R_mtt A), <- (al_get _ _ R_pda A). destruct (get s1 R_mtt =? 0) eqn:EM.
  - cbn [bus_load board_bus]. specialize (Go _ _ (proj2 (proj2 (proj2 A))) eq_refl). destruct s1, s2. exact Go.
  - cbn [bus_load board_bus]. set (pa := m32 _) in *. assert (X : both (fun x y => RX (fst (fst x)) (fst (fst y)) /\ snd (fst x) = snd (fst y) /\ snd x = snd y) (mem_read ops false (s_bus s1) pa) (mem_read ops false (s_bus s2) pa)).
    { destruct (Z.eq_dec (pa mod 4) 0); [apply Hload; auto; apply A|]. unfold mem_read. rewrite (proj2 (Z.eqb_neq _ _)) by assumption. exact I. }
    destruct (mem_read ops false (s_bus s1) pa) as [[[c1 ex1] v1]|] eqn:R1, (mem_read ops false (s_bus s2) pa) as [[[c2 ex2] v2]|]; cbn [both fst snd] in X; try contradiction; [|exact I].
    destruct X as (Y & <- & <-). pose proof (al_bus _ _ c1 c2 A Y) as B. cbv zeta. rewrite <- (al_sup _ _ B). change (sup (with_bus s1 c1)) with (sup s1).
    destruct (Z.eqb_spec ex1 0) as [->|]; cbn [negb]; [|apply rr_raise, B]. destruct (Z.testbit v1 _) eqn:ET; [apply rr_raise, B|]. apply (Go c1 c2 Y). exists v1. auto.
Qed.
Lemma rr_cycle (T : typed ops) s1 s2 : alike s1 s2 ->
  (full = true \/ (s_halt s1 = false -> forall w s', yields s1 (get s1 R_pc) w s' -> w / 2 ^ 27 <> 28 /\ w / 2 ^ 27 <> 31)) -> RR (cycle ops s1) (cycle ops s2).
Proof.
  intros A NR. unfold cycle, cycle_spec. rewrite <- (proj1 (proj2 (proj2 A))). destruct (s_halt s1) eqn:H; [apply rr_ret, A|]. rewrite <- (proj1 (proj2 A)). unfold fetch.
  assert (B : alike (St (s_reg s1) (s_bus s1) ((s_cyc s1 + 1) mod 2 ^ 128) false) (St (s_reg s2) (s_bus s2) ((s_cyc s1 + 1) mod 2 ^ 128) false)).
  { destruct A as (B & C & H' & X). repeat split; auto. }
  rewrite <- (al_get _ _ R_pc B). apply rr_load_yields; auto. intros v t1 t2 C Y. apply rr_word; auto.
  - destruct NR as [F|NR]; [auto|right]. destruct Y as (Ya & b1 & b2 & Y1 & Y2 & _). apply (NR eq_refl v (with_bus s1 b2)). split; [exact Ya|]. exists b1, b2. auto.
  - destruct Y as (Ya & b1 & b2 & Y1 & Y2 & _). eapply mem_read_typed; eauto.
Qed.
End Spec.

Section Machine.
Context {D : Type} (ops : bus_ops D) (T : typed ops).
Implicit Type m : cpu D.
Notation bs := (board_bus ops false).
Variable RX : memory D -> memory D -> Prop.
Variable full : bool.
Hypothesis Hload : forall b1 b2 a, RX b1 b2 -> a mod 4 = 0 ->
  both (fun x y => RX (fst (fst x)) (fst (fst y)) /\ snd (fst x) = snd (fst y) /\ snd x = snd y) (mem_read ops false b1 a) (mem_read ops false b2 a).
Hypothesis Hstore : forall b1 b2 a w, RX b1 b2 -> a mod 4 = 0 ->
  both (fun x y => RX (fst x) (fst y) /\ snd x = snd y) (mem_write ops false b1 a w) (mem_write ops false b2 a w).
Hypothesis Hinfo : full = true -> forall b1 b2, RX b1 b2 -> zlen (mm_hwb b1) = zlen (mm_hwb b2) /\ forall x y, info_spec b1 x y = info_spec b2 x y.
Hypothesis Hreset : full = true -> forall b1 b2 sel, RX b1 b2 -> both RX (bus_reset bs b1 sel) (bus_reset bs b2 sel).
Notation alike := (alike RX).
Lemma next_wire m1 m2 : wf m1 -> wf m2 -> alike (abs m1) (abs m2) -> full = true \/ (c_halted m1 = false -> nameless ops m1) -> both (fun m1' m2' => alike (abs m1') (abs m2')) (next ops false m1) (next ops false m2).
Proof.
  intros W1 W2 A NR. assert (X : both alike (omap abs (next ops false m1)) (omap abs (next ops false m2))).
  { rewrite (cycle_total ops T m1 W1), (cycle_total ops T m2 W2). apply (rr_cycle ops RX full Hload Hstore Hinfo Hreset T _ _ A). destruct NR as [F|NR]; [auto|right].
    intros H w s' (Ya & b1 & b2 & Y1 & Y2 & _). apply (NR H w b2). split; [exact Ya|]. exists b1. split; [exact Y1|exact Y2]. }
  destruct (next ops false m1), (next ops false m2); exact X.
Qed.
Lemma run_wire n : forall m1 m2, wf m1 -> wf m2 -> alike (abs m1) (abs m2) -> full = true \/ nameless_run ops n m1 -> both (fun m1' m2' => alike (abs m1') (abs m2')) (run ops false n m1) (run ops false n m2).
Proof.
  induction n as [|n IH]; intros m1 m2 W1 W2 A HU. { exact A. }
  assert (N0 : full = true \/ (c_halted m1 = false -> nameless ops m1)). { destruct HU as [F|HU]; [auto|right]. intros Hh. apply (HU O m1); [lia|reflexivity|exact Hh]. }
  pose proof (next_wire m1 m2 W1 W2 A N0) as X. cbn [run]. destruct (next ops false m1) as [m1'|] eqn:N1, (next ops false m2) as [m2'|] eqn:N2; cbn [both obind] in *; auto; try contradiction.
  apply IH; [exact (next_wf ops T _ _ _ W1 N1)|exact (next_wf ops T _ _ _ W2 N2)|exact X|]. destruct HU as [F|HU]; [auto|right]. intros k m Hk Hr. apply (HU (S k)); [lia|]. cbn [run]. rewrite N1. exact Hr.
Qed.
Lemma same_alike m1 m2 : wf m1 -> wf m2 -> (same_cpu m1 m2 /\ RX (c_mem m1) (c_mem m2)) <-> alike (abs m1) (abs m2).
Proof.
  intros W1 W2. split.
  - intros ((A & B & C) & X). repeat split; auto. cbn [abs s_reg]. apply file_ext; auto; apply file_length; [apply W1|apply W2].
  - intros (A & B & C & X). cbn [abs s_reg s_bus s_cyc s_halt] in *. repeat split; auto. intros r. unfold R. rewrite A. reflexivity.
Qed.
Lemma run_same n m1 m2 : wf m1 -> wf m2 -> same_cpu m1 m2 -> RX (c_mem m1) (c_mem m2) -> full = true \/ nameless_run ops n m1 -> both (fun m1' m2' => same_cpu m1' m2' /\ RX (c_mem m1') (c_mem m2')) (run ops false n m1) (run ops false n m2).
Proof.
  intros W1 W2 S X HU. pose proof (run_wire n m1 m2 W1 W2 (proj1 (same_alike _ _ W1 W2) (conj S X)) HU) as Y.
  destruct (run ops false n m1) as [m1'|] eqn:R1, (run ops false n m2) as [m2'|] eqn:R2; cbn [both] in *; auto.
  apply same_alike; [exact (run_wf ops T false n _ _ W1 R1)|exact (run_wf ops T false n _ _ W2 R2)|exact Y].
Qed.
End Machine.

Section Tables.
Context {D : Type} (ops : bus_ops D).
Implicit Type b : memory D.
Lemma found_at b a : tidy false b ->
  (find_o (covers false a) (mm_maps b) = Ret None /\ forall mp, In mp (mm_maps b) -> ~ occupies mp a) \/
  (exists mp, find_o (covers false a) (mm_maps b) = Ret (Some mp) /\ In mp (mm_maps b) /\ occupies mp a).
Proof.
  intros T. rewrite (find_o_ret _ (fun mp => (mp_addr mp <=? a) && (a <? mp_addr mp + mp_size mp))) by (intros; eapply tidy_covers; eauto).
  destruct (find _ _) as [mp|] eqn:E.
  - right. exists mp. apply find_some in E. destruct E as (I & B). apply andb_prop in B. destruct B as (B1 & B2). apply Z.leb_le in B1. apply Z.ltb_lt in B2. split; [reflexivity|]. split; [exact I|]. split; assumption.
  - left. split; [reflexivity|]. intros mp I (O1 & O2). pose proof (find_none _ _ E mp I) as B. cbv beta in B. rewrite (proj2 (Z.leb_le _ _) O1), (proj2 (Z.ltb_lt _ _) O2) in B. discriminate B.
Qed.

(** The order of the mappings. *)
Definition RO b1 b2 : Prop := reordered b1 b2 /\ tidy false b1 /\ tidy false b2.
Lemma perm_tidy oc b1 b2 : Permutation (mm_maps b1) (mm_maps b2) -> tidy oc b1 -> tidy oc b2.
Proof.
  intros P (N & F & O). split; [|split].
  - eapply Permutation_NoDup; [apply Permutation_map, P|exact N].
  - intros mp I. apply F. eapply Permutation_in; [apply Permutation_sym, P|exact I].
  - intros mp mp' a I I'. apply O; eapply Permutation_in; try (apply Permutation_sym, P); assumption.
Qed.
Lemma ro_find b1 b2 a : RO b1 b2 -> find_o (covers false a) (mm_maps b1) = find_o (covers false a) (mm_maps b2).
Proof.
  intros ((_ & P) & T1 & T2). destruct (found_at b1 a T1) as [(E1 & N1)|(mp1 & E1 & I1 & O1)], (found_at b2 a T2) as [(E2 & N2)|(mp2 & E2 & I2 & O2)]; rewrite E1, E2; auto.
  - exfalso. apply (N1 mp2); auto. eapply Permutation_in; [apply Permutation_sym, P|exact I2].
  - exfalso. apply (N2 mp1); auto. eapply Permutation_in; [exact P|exact I1].
  - f_equal. f_equal. destruct T2 as (_ & _ & O). apply (O mp1 mp2 a); auto. eapply Permutation_in; [exact P|exact I1].
Qed.
Lemma ro_set b1 b2 h : RO b1 b2 -> RO (Memory h (mm_maps b1)) (Memory h (mm_maps b2)).
Proof. intros ((_ & P) & T1 & T2). split; [split; [reflexivity|exact P]|]. split; [exact T1|exact T2]. Qed.
Lemma ro_load b1 b2 a : RO b1 b2 -> a mod 4 = 0 ->
  both (fun x y => RO (fst (fst x)) (fst (fst y)) /\ snd (fst x) = snd (fst y) /\ snd x = snd y) (mem_read ops false b1 a) (mem_read ops false b2 a).
Proof.
  intros X Ha. unfold mem_read. rewrite (proj2 (Z.eqb_eq _ _) Ha), (ro_find _ _ a X), (proj1 (proj1 X)). destruct (find_o _ _) as [[mp|]|]; cbn [obind both fst snd]; auto.
  destruct (hwb_read _ _ _ _) as [[[[h ex] v]|]|]; cbn [obind unwrap both fst snd]; auto. split; auto. apply ro_set, X.
Qed.
Lemma ro_store b1 b2 a w : RO b1 b2 -> a mod 4 = 0 ->
  both (fun x y => RO (fst x) (fst y) /\ snd x = snd y) (mem_write ops false b1 a w) (mem_write ops false b2 a w).
Proof.
  intros X Ha. unfold mem_write. rewrite (proj2 (Z.eqb_eq _ _) Ha), (ro_find _ _ a X), (proj1 (proj1 X)). destruct (find_o _ _) as [[mp|]|]; cbn [obind both fst snd]; auto.
  destruct (hwb_write _ _ _ _ _) as [[[h ex]|]|]; cbn [obind unwrap both fst snd]; auto. split; auto. apply ro_set, X.
Qed.
Lemma find_id l id : NoDup (map mp_aux_id l) -> forall mp, find (fun q => mp_aux_id q =? id) l = Some mp <-> In mp l /\ mp_aux_id mp = id.
Proof.
  intros N mp. split. { intros E. apply find_some in E. destruct E as (I & E). apply Z.eqb_eq in E. auto. }
  intros (I & E). induction l as [|q t IH]; [destruct I|]. cbn [find]. inversion N as [|? ? Nq Nt]; subst. destruct I as [->|I].
  - rewrite Z.eqb_refl. reflexivity.
  - destruct (Z.eqb_spec (mp_aux_id q) (mp_aux_id mp)) as [Eq|]; [|auto]. exfalso. apply Nq. rewrite Eq. apply in_map, I.
Qed.
Lemma ro_info b1 b2 : RO b1 b2 -> zlen (mm_hwb b1) = zlen (mm_hwb b2) /\ forall x y, info_spec b1 x y = info_spec b2 x y.
Proof.
  intros ((H & P) & T1 & T2). rewrite H. split; auto. intros x y. unfold info_spec. rewrite H.
  assert (F : find (fun mp => mp_aux_id mp =? x) (mm_maps b1) = find (fun mp => mp_aux_id mp =? x) (mm_maps b2)).
  { destruct (find _ (mm_maps b1)) as [mp|] eqn:E.
    - apply find_id in E; [|apply T1]. symmetry. apply find_id; [apply T2|]. destruct E as (I & E). split; auto. eapply Permutation_in; eauto.
    - destruct (find _ (mm_maps b2)) as [mp|] eqn:E2; auto. apply find_id in E2; [|apply T2]. destruct E2 as (I & E2). rewrite <- E. apply find_id; [apply T1|]. split; auto. eapply Permutation_in; [apply Permutation_sym|]; eauto. }
  rewrite F. reflexivity.
Qed.
Lemma ro_reset b1 b2 sel : RO b1 b2 -> both RO (bus_reset (board_bus ops false) b1 sel) (bus_reset (board_bus ops false) b2 sel).
Proof. intros X. cbn [bus_reset board_bus]. rewrite (proj1 (proj1 X)). destruct (reset_sel _ _ _ _); cbn [both]; auto. apply ro_set, X. Qed.

(** Renumbered components. *)
Variable P : Z -> Z -> Prop.
Definition RW b1 b2 : Prop := wired P b1 b2 /\ tidy false b1 /\ tidy false b2.
Lemma rw_find b1 b2 a : RW b1 b2 ->
  (find_o (covers false a) (mm_maps b1) = Ret None /\ find_o (covers false a) (mm_maps b2) = Ret None) \/
  (exists mp1 mp2, find_o (covers false a) (mm_maps b1) = Ret (Some mp1) /\ find_o (covers false a) (mm_maps b2) = Ret (Some mp2) /\
     mp_addr mp1 = mp_addr mp2 /\ P (mp_aux_id mp1) (mp_aux_id mp2)).
Proof.
  intros ((_ & _ & M1 & M2) & T1 & T2). destruct (found_at b1 a T1) as [(E1 & N1)|(mp1 & E1 & I1 & O1)], (found_at b2 a T2) as [(E2 & N2)|(mp2 & E2 & I2 & O2)]; rewrite E1, E2; auto.
  - exfalso. destruct (M2 mp2 I2) as (mp1 & I1 & A & S & _). apply (N1 mp1 I1). unfold occupies in *. rewrite A, S. exact O2.
  - exfalso. destruct (M1 mp1 I1) as (mp2 & I2 & A & S & _). apply (N2 mp2 I2). unfold occupies in *. rewrite A, S. exact O1.
  - right. exists mp1, mp2. split; auto. split; auto. destruct (M1 mp1 I1) as (q & Iq & A & S & Q).
    assert (q = mp2). { destruct T2 as (_ & _ & O). apply (O q mp2 a); auto. unfold occupies in *. rewrite A, S. exact O1. } subst q. auto.
Qed.
Lemma rw_set b1 b2 i j d : RW b1 b2 -> P i j -> RW (Memory (set_dev (mm_hwb b1) i d) (mm_maps b1)) (Memory (set_dev (mm_hwb b2) j d) (mm_maps b2)).
Proof.
  intros ((O & S & M1 & M2) & T1 & T2) Q. split; [|split; [exact T1|exact T2]]. split; [exact O|]. split; [|split; [exact M1|exact M2]].
  intros i' j' Q'. destruct (S i' j' Q') as (e1 & e2 & A & B & C). cbn [mm_hwb]. rewrite !P_C33_others, A, B.
  destruct (O i' j' i j Q' Q) as (X & Y). destruct (Z.eqb_spec i' i) as [Ei|Ei], (Z.eqb_spec j' j) as [Ej|Ej]; try (exfalso; tauto).
  - eexists _, _. split; [reflexivity|]. split; reflexivity.
  - exists e1, e2. auto.
Qed.
Lemma rw_load b1 b2 a : RW b1 b2 -> a mod 4 = 0 ->
  both (fun x y => RW (fst (fst x)) (fst (fst y)) /\ snd (fst x) = snd (fst y) /\ snd x = snd y) (mem_read ops false b1 a) (mem_read ops false b2 a).
Proof.
  intros X Ha. unfold mem_read. rewrite (proj2 (Z.eqb_eq _ _) Ha). destruct (rw_find _ _ a X) as [(E1 & E2)|(mp1 & mp2 & E1 & E2 & A & Q)]; rewrite E1, E2; cbn [obind both fst snd]; auto.
  unfold hwb_read. rewrite A. destruct (_ =? 0); cbn [obind]; [|exact I]. destruct (proj1 (proj2 (proj1 X)) _ _ Q) as (e1 & e2 & H1 & H2 & H3). rewrite H1, H2, H3.
  destruct (bo_read _ _ _) as [[[d ex] v]|]; cbn [obind unwrap both fst snd]; auto. split; auto. apply rw_set; auto.
Qed.
Lemma rw_store b1 b2 a w : RW b1 b2 -> a mod 4 = 0 ->
  both (fun x y => RW (fst x) (fst y) /\ snd x = snd y) (mem_write ops false b1 a w) (mem_write ops false b2 a w).
Proof.
  intros X Ha. unfold mem_write. rewrite (proj2 (Z.eqb_eq _ _) Ha). destruct (rw_find _ _ a X) as [(E1 & E2)|(mp1 & mp2 & E1 & E2 & A & Q)]; rewrite E1, E2; cbn [obind both fst snd]; auto.
  unfold hwb_write. rewrite A. destruct (_ =? 0); cbn [obind]; [|exact I]. destruct (proj1 (proj2 (proj1 X)) _ _ Q) as (e1 & e2 & H1 & H2 & H3). rewrite H1, H2, H3.
  destruct (bo_write _ _ _ _) as [[d ex]|]; cbn [obind unwrap both fst snd]; auto. split; auto. apply rw_set; auto.
Qed.
End Tables.

(** The order in which the components are mapped is invisible: with the same mappings in another order, the same program runs identically (HWD and RESET included). A debug
    build that returns agrees. *)
Lemma P_C94_order : forall D (ops : bus_ops D) n m1 m2, typed ops -> wf m1 -> wf m2 -> tidy false (c_mem m1) -> same_cpu m1 m2 -> reordered (c_mem m1) (c_mem m2) ->
  both (fun m1' m2' => same_cpu m1' m2' /\ reordered (c_mem m1') (c_mem m2')) (run ops false n m1) (run ops false n m2) /\
  forall m1' m2', run ops true n m1 = Ret m1' -> run ops true n m2 = Ret m2' -> same_cpu m1' m2' /\ reordered (c_mem m1') (c_mem m2').
Proof.
  intros D ops n m1 m2 T W1 W2 Ti S X. assert (Y : RO (c_mem m1) (c_mem m2)) by (split; [exact X|split; [exact Ti|exact (perm_tidy _ _ _ (proj2 X) Ti)]]).
  pose proof (run_same ops T RO true (ro_load ops) (ro_store ops) (fun _ => ro_info) (fun _ => ro_reset ops) n m1 m2 W1 W2 S Y (or_introl eq_refl)) as G.
  split.
  - destruct (run ops false n m1), (run ops false n m2); cbn [both] in *; auto. destruct G as (G1 & G2 & _). auto.
  - intros m1' m2' R1 R2. rewrite (run_oc ops _ _ _ _ R1), (run_oc ops _ _ _ _ R2) in G. destruct G as (G1 & G2 & _). auto.
Qed.
(** The numbers of the components and the presence of components that are not mapped are invisible to a program that uses neither HWD nor RESET. *)
Lemma P_C94_wired : forall D (ops : bus_ops D) P n m1 m2, typed ops -> wf m1 -> wf m2 -> tidy false (c_mem m1) -> tidy false (c_mem m2) -> same_cpu m1 m2 -> wired P (c_mem m1) (c_mem m2) ->
  nameless_run ops n m1 ->
  both (fun m1' m2' => same_cpu m1' m2' /\ wired P (c_mem m1') (c_mem m2')) (run ops false n m1) (run ops false n m2) /\
  forall m1' m2', run ops true n m1 = Ret m1' -> run ops true n m2 = Ret m2' -> same_cpu m1' m2' /\ wired P (c_mem m1') (c_mem m2').
Proof.
  intros D ops P n m1 m2 T W1 W2 Ti1 Ti2 S X N. assert (Y : RW P (c_mem m1) (c_mem m2)) by (split; auto).
  assert (F : false = true -> forall A : Prop, A) by discriminate.
  pose proof (run_same ops T (RW P) false (rw_load ops P) (rw_store ops P) (fun f => F f _) (fun f => F f _) n m1 m2 W1 W2 S Y (or_intror N)) as G.
  split.
  - destruct (run ops false n m1), (run ops false n m2); cbn [both] in *; auto. destruct G as (G1 & G2 & _). auto.
  - intros m1' m2' R1 R2. rewrite (run_oc ops _ _ _ _ R1), (run_oc ops _ _ _ _ R2) in G. destruct G as (G1 & G2 & _). auto.
Qed.

(** * Mapping in another order *)
Section Order.
Context {D : Type}.
Implicit Type b : memory D.
Lemma re_valid oc b1 b2 a id sz : reordered b1 b2 -> valid_request oc b1 a id sz -> valid_request oc b2 a id sz.
Proof.
  intros (H & P) (V1 & V2 & V3 & V4 & V5 & V6 & V7 & V8). unfold comp_size in *. rewrite H in V1. repeat split; auto.
  - intros (mp & I & E). apply V7. exists mp. split; auto. eapply Permutation_in; [apply Permutation_sym|]; eauto.
  - intros mp c I. apply V8. eapply Permutation_in; [apply Permutation_sym|]; eauto.
Qed.
Lemma re_refl b : reordered b b.
Proof. split; auto. Qed.
Lemma re_trans b1 b2 b3 : reordered b1 b2 -> reordered b2 b3 -> reordered b1 b3.
Proof. intros (H & P) (H' & P'). split; [congruence|]. eapply Permutation_trans; eauto. Qed.
(** One successful request. *)
Lemma one_ok oc b a id b' r : mem_wf b -> tidy oc b -> is_u32 a -> mem_map oc b a id = Ret (b', ROk r) ->
  exists sz mp, valid_request oc b a id sz /\ mapping_at b id a mp /\ b' = Memory (mm_hwb b) (mm_maps b ++ [mp]) /\ mem_wf b' /\ tidy oc b'.
Proof.
  intros W T U E. pose proof (P_C32_map D b oc a id W T U) as X. rewrite E in X. destruct X as (sz & mp & V & _ & M & ->).
  exists sz, mp. split; auto. split; auto. split; auto. split; [eapply internal_map_wf; [| |exact E]; auto|eapply mem_map_tidy; eauto].
Qed.
Lemma valid_ok oc b a id sz : mem_wf b -> tidy oc b -> is_u32 a -> valid_request oc b a id sz -> exists b' r, mem_map oc b a id = Ret (b', ROk r).
Proof. intros W T U V. apply P_C32_iff; eauto. Qed.
Lemma at_same b1 b2 id a mp1 mp2 : mm_hwb b1 = mm_hwb b2 -> mapping_at b1 id a mp1 -> mapping_at b2 id a mp2 -> mp1 = mp2.
Proof. intros H (e & E & ->) (e' & E' & ->). rewrite H, E' in E. injection E as ->. reflexivity. Qed.
Lemma re_one oc b1 b2 a id b1' r : mem_wf b1 -> tidy oc b1 -> mem_wf b2 -> tidy oc b2 -> reordered b1 b2 -> is_u32 a -> mem_map oc b1 a id = Ret (b1', ROk r) ->
  exists b2' r', mem_map oc b2 a id = Ret (b2', ROk r') /\ reordered b1' b2' /\ mem_wf b1' /\ tidy oc b1' /\ mem_wf b2' /\ tidy oc b2'.
Proof.
  intros W1 T1 W2 T2 X U E. destruct (one_ok oc b1 a id b1' r W1 T1 U E) as (sz & mp & V & M & -> & W1' & T1').
  destruct (valid_ok oc b2 a id sz W2 T2 U (re_valid _ _ _ _ _ _ X V)) as (b2' & r' & E2). exists b2', r'. split; auto.
  destruct (one_ok oc b2 a id b2' r' W2 T2 U E2) as (sz' & mp' & V' & M' & -> & W2' & T2'). split; [|auto].
  rewrite (at_same b2 b1 id a mp' mp (eq_sym (proj1 X)) M' M). split; cbn [mm_hwb mm_maps]; [apply X|apply Permutation_app_tail, X].
Qed.
Lemma re_all oc l : forall b1 b2 b1', mem_wf b1 -> tidy oc b1 -> mem_wf b2 -> tidy oc b2 -> reordered b1 b2 -> Forall (fun q => is_u32 (fst q)) l -> map_all oc l b1 = Ret (Some b1') ->
  exists b2', map_all oc l b2 = Ret (Some b2') /\ reordered b1' b2'.
Proof.
  induction l as [|[a id] t IH]; intros b1 b2 b1' W1 T1 W2 T2 X U H; cbn [map_all] in *. { apply Ret_inj in H. injection H as <-. exists b2. auto. }
  inversion U as [|? ? Ua Ut]; subst. cbn [fst] in Ua. destruct (mem_map oc b1 a id) as [[c1 [r|e]]|] eqn:E; try discriminate H.
  destruct (re_one _ _ _ _ _ _ _ W1 T1 W2 T2 X Ua E) as (c2 & r' & E2 & Y & A & B & C & F). rewrite E2. eapply IH; [exact A|exact B|exact C|exact F|exact Y|exact Ut|exact H].
Qed.
Lemma re_perm oc l1 l2 : Permutation l1 l2 -> forall b1 b2 b1', mem_wf b1 -> tidy oc b1 -> mem_wf b2 -> tidy oc b2 -> reordered b1 b2 -> Forall (fun q => is_u32 (fst q)) l1 -> map_all oc l1 b1 = Ret (Some b1') ->
  exists b2', map_all oc l2 b2 = Ret (Some b2') /\ reordered b1' b2'.
Proof.
  induction 1 as [|[a id] t t' HP IH|[a' id'] [a id] t|l l' l'' HP1 IH1 HP2 IH2]; intros b1 b2 b1' W1 T1 W2 T2 X U H.
  - exact (re_all oc [] b1 b2 b1' W1 T1 W2 T2 X U H).
  - cbn [map_all] in *. inversion U as [|? ? Ua Ut]; subst. cbn [fst] in Ua. destruct (mem_map oc b1 a id) as [[c1 [r|e]]|] eqn:E; try discriminate H.
    destruct (re_one _ _ _ _ _ _ _ W1 T1 W2 T2 X Ua E) as (c2 & r' & E2 & Y & A & B & C & F). rewrite E2. eapply IH; [exact A|exact B|exact C|exact F|exact Y|exact Ut|exact H].
  - cbn [map_all] in *. inversion U as [|? ? Ua' Ut']; subst. inversion Ut' as [|? ? Ua Ut]; subst. cbn [fst] in *.
    destruct (mem_map oc b1 a id) as [[c1 [r|e]]|] eqn:E; try discriminate H.
    destruct (mem_map oc c1 a' id') as [[d1 [r1|e]]|] eqn:E'; try discriminate H.
    destruct (one_ok _ _ _ _ _ _ W1 T1 Ua' E) as (sz & mp & V & M & -> & W1' & T1'). destruct (one_ok _ _ _ _ _ _ W1' T1' Ua E') as (sz' & mp' & V' & M' & -> & W1'' & T1'').
    assert (V2 : valid_request oc b1 a' id' sz').
    { destruct V' as (V1 & V2 & V3 & V4 & V5 & V6 & V7 & V8). repeat split; auto.
      - intros (q & I & Eq). apply V7. exists q. split; auto. cbn [mm_maps]. apply in_or_app. auto.
      - intros q c I. apply V8. cbn [mm_maps]. apply in_or_app. auto. }
    destruct (valid_ok oc b2 a' id' sz' W2 T2 Ua (re_valid _ _ _ _ _ _ X V2)) as (c2 & r2 & E2). rewrite E2.
    destruct (one_ok _ _ _ _ _ _ W2 T2 Ua E2) as (sz2 & mp2 & V2' & M2 & -> & W2' & T2').
    assert (mp2 = mp'). { eapply at_same; [|exact M2|exact M']. symmetry. apply X. } subst mp2.
    assert (V3 : valid_request oc (Memory (mm_hwb b2) (mm_maps b2 ++ [mp'])) a id sz).
    { destruct (re_valid _ _ _ _ _ _ X V) as (A1 & A2 & A3 & A4 & A5 & A6 & A7 & A8). destruct V' as (V1 & _ & _ & _ & _ & _ & V7 & V8).
      destruct M as (e & Ee & ->). destruct M' as (e' & Ee' & ->). cbn [mm_hwb] in Ee'. unfold comp_size in V1, A1. cbn [mm_hwb] in V1. rewrite Ee' in V1. rewrite <- (proj1 X), Ee in A1. injection V1 as V1. injection A1 as A1.
      repeat split; auto.
      - unfold comp_size. cbn [mm_hwb]. rewrite <- (proj1 X), Ee, A1. reflexivity.
      - intros (q & I & Eq). cbn [mm_maps] in I. apply in_app_or in I. destruct I as [I|[<-|[]]]; [apply A7; exists q; auto|]. cbn [mp_aux_id] in Eq. apply V7. eexists. cbn [mm_maps]. split; [apply in_or_app; right; left; reflexivity|]. cbn [mp_aux_id]. auto.
      - intros q c I. cbn [mm_maps] in I. apply in_app_or in I. destruct I as [I|[<-|[]]]; [apply A8; auto|]. unfold occupies. cbn [mp_addr mp_size]. intros Oc Oc'.
        eapply (V8 (Mapping id (ac_hw_id (ae_cache e)) a (ac_size (ae_cache e))) c); [cbn [mm_maps]; apply in_or_app; right; left; reflexivity| |].
        + unfold occupies. cbn [mp_addr mp_size]. lia.
        + lia. }
    destruct (valid_ok oc _ a id sz W2' T2' Ua' V3) as (d2 & r3 & E3). rewrite E3. destruct (one_ok _ _ _ _ _ _ W2' T2' Ua' E3) as (sz3 & mp3 & V3' & M3 & -> & W2'' & T2'').
    assert (mp3 = mp). { eapply at_same; [|exact M3|exact M]. cbn [mm_hwb]. symmetry. apply X. } subst mp3.
    eapply re_all; [exact W1''|exact T1''|exact W2''|exact T2''| |exact Ut|exact H]. split; cbn [mm_hwb mm_maps]; [apply X|].
    rewrite <- !app_assoc. cbn [app]. eapply Permutation_trans; [apply Permutation_app_tail, X|]. apply Permutation_app_head. constructor.
  - destruct (IH1 b1 b2 b1' W1 T1 W2 T2 X U H) as (c & E & Y). assert (U' : Forall (fun q => is_u32 (fst q)) l') by (eapply Permutation_Forall; eauto).
    destruct (IH2 b2 b2 c W2 T2 W2 T2 (re_refl b2) U' E) as (d & E' & Y'). exists d. split; auto. eapply re_trans; eauto.
Qed.
End Order.
(** [map] requests that are all accepted are all accepted in any other order, and give the same mappings. *)
Lemma P_C94_maps : forall D oc (b b1 : memory D) l1 l2, mem_wf b -> tidy oc b -> Forall (fun q => is_u32 (fst q)) l1 -> Permutation l1 l2 -> map_all oc l1 b = Ret (Some b1) ->
  exists b2, map_all oc l2 b = Ret (Some b2) /\ reordered b1 b2.
Proof. intros D oc b b1 l1 l2 W T U P H. eapply re_perm; eauto. apply re_refl. Qed.

(** * Witnesses *)
Section Check.
Context {D : Type} (ops : bus_ops D).
Fixpoint nameless_check (n : nat) (m : cpu D) : bool :=
  match n with
  | O => true
  | S n =>
      (c_halted m || ((R m R_mtt =? 0) && match mem_read ops false (c_mem m) (R m R_pc) with Ret (_, _, w) => negb (w / 2 ^ 27 =? 28) && negb (w / 2 ^ 27 =? 31) | Panic => true end))
      && match next ops false m with Ret m' => nameless_check n m' | Panic => true end
  end.
Lemma nameless_sound n : forall m, nameless_check n m = true -> nameless_run ops n m.
Proof.
  induction n as [|n IH]; intros m H k mk Hk Hr Hh; [lia|]. cbn [nameless_check] in H. apply andb_prop in H. destruct H as (H1 & H2). destruct k as [|k].
  - cbn [run] in Hr. apply Ret_inj in Hr. subst mk. rewrite Hh in H1. cbn [orb] in H1. apply andb_prop in H1. destruct H1 as (M & H1).
    intros w mem1 (Ha & mem2 & Hp & Hl). unfold passes in Hp. rewrite M in Hp. subst mem2. rewrite Hl in H1. apply andb_prop in H1. destruct H1 as (A & B). apply negb_true_iff, Z.eqb_neq in A. apply negb_true_iff, Z.eqb_neq in B. auto.
  - cbn [run] in Hr. destruct (next ops false m) as [m'|] eqn:N; [|discriminate Hr]. cbn [obind] in Hr. apply (IH m' H2 k mk); [lia|exact Hr|exact Hh].
Qed.
End Check.
Definition wire_prog : list Z := asm [Cpy R_a0 (Lit2 64); Lsa R_a1 (Reg1 R_a0) (Lit1 4); Add R_a1 (Lit2 2); Wsa (Reg1 R_a0) (Lit1 0) (Reg1 R_a1); Halt].
Definition swapped (i j : Z) : Prop := (i = 0 /\ j = 2) \/ (i = 1 /\ j = 1).
Lemma same_cpu_regs {D} (m1 m2 : cpu D) : c_regs m1 = c_regs m2 -> c_cycles m1 = c_cycles m2 -> c_halted m1 = c_halted m2 -> same_cpu m1 m2.
Proof. intros A B C. repeat split; auto. intros r. unfold R. rewrite A. reflexivity. Qed.
Definition built (ds : list (list Z)) (cs : list api) (m : cpu (list Z)) : Prop := exists m0, board_new words_ops ds = Ret m0 /\ api_run words_ops false cs m0 = Ret m.
Lemma built_ok ds cs m : built ds cs m -> Forall api_wf cs -> Forall no_map_abs cs -> reachable words_ops false m /\ wf m /\ tidy false (c_mem m).
Proof.
  intros (m0 & E & E1) HC HN. destruct (P_C31_tidy _ words_ops false _ _ _ _ words_typed HC HN E E1) as (T & _).
  assert (Hr : reachable words_ops false m) by (exists ds, cs, m0; auto). split; [exact Hr|]. split; [exact (reachable_wf _ words_typed _ _ Hr)|exact T].
Qed.
Lemma E_C94_wired : exists m1 m2 m1', reachable words_ops false m1 /\ reachable words_ops false m2 /\ wf m1 /\ wf m2 /\ tidy false (c_mem m1) /\ tidy false (c_mem m2) /\ same_cpu m1 m2 /\
  wired swapped (c_mem m1) (c_mem m2) /\ nameless_run words_ops 5 m1 /\ run words_ops false 5 m1 = Ret m1' /\ R m1' R_a1 = 8 /\ c_halted m1' = true.
Proof.
  assert (B1 : exists m, built [wire_prog; [5; 6]] [AMap 0 0; AMap 64 1; AReset] m).
  { unfold built. destruct (board_new words_ops [wire_prog; [5; 6]]) as [m0|] eqn:E; [|discriminate]. destruct (api_run words_ops false [AMap 0 0; AMap 64 1; AReset] m0) as [m|] eqn:E1; [eauto|]. vm_compute in E. injection E as <-. vm_compute in E1. discriminate. }
  assert (B2 : exists m, built [[1]; [5; 6]; wire_prog] [AMap 64 1; AMap 0 2; AReset] m).
  { unfold built. destruct (board_new words_ops [[1]; [5; 6]; wire_prog]) as [m0|] eqn:E; [|discriminate]. destruct (api_run words_ops false [AMap 64 1; AMap 0 2; AReset] m0) as [m|] eqn:E1; [eauto|]. vm_compute in E. injection E as <-. vm_compute in E1. discriminate. }
  destruct B1 as (m1 & B1). destruct B2 as (m2 & B2).
  assert (X1 : reachable words_ops false m1 /\ wf m1 /\ tidy false (c_mem m1)) by (apply (built_ok _ _ _ B1); repeat constructor; cbn; unfold is_u32; lia).
  assert (X2 : reachable words_ops false m2 /\ wf m2 /\ tidy false (c_mem m2)) by (apply (built_ok _ _ _ B2); repeat constructor; cbn; unfold is_u32; lia).
  destruct X1 as (X1 & Y1 & Z1), X2 as (X2 & Y2 & Z2). destruct B1 as (m0 & E & E1), B2 as (n0 & F & F1).
  vm_compute in E. injection E as <-. vm_compute in E1. injection E1 as E1. vm_compute in F. injection F as <-. vm_compute in F1. injection F1 as F1.
  destruct (run words_ops false 5 m1) as [m1'|] eqn:ER; [|rewrite <- E1 in ER; vm_compute in ER; discriminate ER].
  exists m1, m2, m1'. repeat (split; [assumption|]).
  split. { rewrite <- E1, <- F1. apply same_cpu_regs; reflexivity. }
  split.
  { rewrite <- E1, <- F1. unfold wired, swapped. cbn [c_mem mm_hwb mm_maps In]. repeat split.
    - intros ->. lia.
    - intros ->. lia.
    - intros i j [(-> & ->)|(-> & ->)]; eexists _, _; (split; [reflexivity|]; split; reflexivity).
    - intros mp [<-|[<-|[]]]; [eexists; split; [right; left; reflexivity|]|eexists; split; [left; reflexivity|]]; cbn [mp_addr mp_size mp_aux_id]; auto.
    - intros mp [<-|[<-|[]]]; [eexists; split; [right; left; reflexivity|]|eexists; split; [left; reflexivity|]]; cbn [mp_addr mp_size mp_aux_id]; auto. }
  split. { apply nameless_sound. rewrite <- E1. vm_compute. reflexivity. }
  split; [exact ER|]. rewrite <- E1 in ER. vm_compute in ER. injection ER as <-. split; vm_compute; reflexivity.
Qed.
Lemma E_C94_order : exists m1 m2 m1', reachable words_ops false m1 /\ reachable words_ops false m2 /\ wf m1 /\ wf m2 /\ tidy false (c_mem m1) /\ same_cpu m1 m2 /\
  reordered (c_mem m1) (c_mem m2) /\ mm_maps (c_mem m1) <> mm_maps (c_mem m2) /\ run words_ops false 5 m1 = Ret m1' /\ R m1' R_a1 = 8.
Proof.
  assert (B1 : exists m, built [wire_prog; [5; 6]] [AMap 0 0; AMap 64 1; AReset] m).
  { unfold built. destruct (board_new words_ops [wire_prog; [5; 6]]) as [m0|] eqn:E; [|discriminate]. destruct (api_run words_ops false [AMap 0 0; AMap 64 1; AReset] m0) as [m|] eqn:E1; [eauto|]. vm_compute in E. injection E as <-. vm_compute in E1. discriminate. }
  assert (B2 : exists m, built [wire_prog; [5; 6]] [AMap 64 1; AMap 0 0; AReset] m).
  { unfold built. destruct (board_new words_ops [wire_prog; [5; 6]]) as [m0|] eqn:E; [|discriminate]. destruct (api_run words_ops false [AMap 64 1; AMap 0 0; AReset] m0) as [m|] eqn:E1; [eauto|]. vm_compute in E. injection E as <-. vm_compute in E1. discriminate. }
  destruct B1 as (m1 & B1). destruct B2 as (m2 & B2).
  assert (X1 : reachable words_ops false m1 /\ wf m1 /\ tidy false (c_mem m1)) by (apply (built_ok _ _ _ B1); repeat constructor; cbn; unfold is_u32; lia).
  assert (X2 : reachable words_ops false m2 /\ wf m2 /\ tidy false (c_mem m2)) by (apply (built_ok _ _ _ B2); repeat constructor; cbn; unfold is_u32; lia).
  destruct X1 as (X1 & Y1 & Z1), X2 as (X2 & Y2 & Z2). destruct B1 as (m0 & E & E1), B2 as (n0 & F & F1).
  vm_compute in E. injection E as <-. vm_compute in E1. injection E1 as E1. vm_compute in F. injection F as <-. vm_compute in F1. injection F1 as F1.
  destruct (run words_ops false 5 m1) as [m1'|] eqn:ER; [|rewrite <- E1 in ER; vm_compute in ER; discriminate ER].
  exists m1, m2, m1'. repeat (split; [assumption|]).
  split. { rewrite <- E1, <- F1. apply same_cpu_regs; reflexivity. }
  split. { rewrite <- E1, <- F1. split; [reflexivity|]. cbn [c_mem mm_maps]. constructor. }
  split. { rewrite <- E1, <- F1. cbn [c_mem mm_maps]. discriminate. }
  split; [exact ER|]. rewrite <- E1 in ER. vm_compute in ER. injection ER as <-. vm_compute; reflexivity.
Qed.
Lemma E_C94_maps : exists m0 b1, board_new words_ops [[7]; [8]; [9]] = Ret m0 /\ mem_wf (c_mem m0) /\ tidy true (c_mem m0) /\
  map_all true [(0, 2); (64, 0); (256, 1)] (c_mem m0) = Ret (Some b1) /\ Permutation [(0, 2); (64, 0); (256, 1)] [(256, 1); (0, 2); (64, 0)].
Proof.
  destruct (board_new words_ops [[7]; [8]; [9]]) as [m0|] eqn:E; [|discriminate].
  assert (Hr : reachable words_ops true m0) by (exists [[7]; [8]; [9]], [], m0; repeat split; auto).
  apply (reachable_wf _ words_typed) in Hr. destruct Hr as (_ & Hr & _).
  destruct (P_C31_tidy _ words_ops true _ [] _ _ words_typed (Forall_nil _) (Forall_nil _) E eq_refl) as (T & _).
  destruct (map_all true [(0, 2); (64, 0); (256, 1)] (c_mem m0)) as [[b1|]|] eqn:EM; [| |];
    try (vm_compute in E; injection E as <-; vm_compute in EM; discriminate EM).
  exists m0, b1. repeat (split; [assumption || reflexivity|]).
  apply Permutation_sym. eapply Permutation_trans; [apply perm_swap|]. apply perm_skip, perm_swap.
Qed.
