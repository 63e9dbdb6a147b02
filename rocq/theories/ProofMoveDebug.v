(** Proofs of C91 for builds with overflow checks: moved code crashes the host where the original does. *)
From Coq Require Import ZArith List Bool Lia.
From Verif Require Import Base Board Mem Cpu Asm Devices ReachFacts SpecMach SpecIsa SpecBus SpecObs SpecPanic SpecSim SpecTools SpecUser SpecMove BaseFacts RegFacts MemFacts InvFacts IsaFacts MonoFacts CyclePost ProofPanic ProofState ProofMap ProofCrash ProofUser ProofDebug ProofMove DevTyped ProofRun Demo.
Import ListNotations.
Open Scope Z_scope.

Section Words.
Context {D : Type}.
Implicit Type m : cpu D.
(** What [word_overflows] says of a word, said of the instruction it decodes to. *)
Definition instr_address m (i : instr) : option Z :=
  match i with
  | Lsa _ u v => match operand1 m u, operand1 m v with Some x, Some y => Some ((x + y) mod 2 ^ 32) | _, _ => None end
  | Srm u v _ => match operand1 m u, operand1 m v with Some x, Some y => Some ((x + y) mod 2 ^ 32) | _, _ => None end
  | Wsa u v w => match operand1 m u, operand1 m v, operand1 m w with Some x, Some y, Some _ => Some ((x + y) mod 2 ^ 32) | _, _, _ => None end
  | Lea u v w | Wea u v w => match operand1 m u, operand1 m v, operand1 m w with Some x, Some y, Some z => Some ((x + y * z) mod 2 ^ 32) | _, _, _ => None end
  | Push v | Call v => match operand2 m v with Some _ => Some ((R m (sp_of m) - 4) mod 2 ^ 32) | None => None end
  | Pop _ => Some (R m (sp_of m))
  | _ => None
  end.
Definition instr_over m (i : instr) : Prop :=
  match i with If2 u v w => exists f g c, operand1 m u = Some f /\ operand1 m v = Some g /\ operand1 m w = Some c /\ (7 < f \/ 7 < g) | _ => False end \/
  match i with Srm u v _ => exists x y, operand1 m u = Some x /\ operand1 m v = Some y /\ 2 ^ 32 <= x + y | _ => False end \/
  (exists a, instr_address m i = Some a /\ a mod 4 = 0 /\ entry_overflows m a).
Lemma bits_isreg w k : 0 <= k <= 2 -> (Z.land (byte_at (bytes_of_word w) 0) (2 ^ (3 - (k + 1))) =? 0) = negb (word_isreg w k).
Proof.
  intros H. cbn [byte_at bytes_of_word Z.eqb]. rewrite <- (negb_involutive (_ =? 0)). f_equal. replace (w / 16777216) with (Z.shiftr w 24) by (rewrite Z.shiftr_div_pow2 by lia; reflexivity). rewrite bit_of by lia. unfold word_isreg. f_equal. lia.
Qed.
Lemma bytes_byte w k : 0 <= k <= 2 -> byte_at (bytes_of_word w) (k + 1) = word_byte w k.
Proof.
  intros H. unfold bytes_of_word, word_byte. assert (E : k = 0 \/ k = 1 \/ k = 2) by lia. destruct E as [->|[->| ->]]; cbn [byte_at Z.add Z.eqb Z.sub Z.mul Pos.add Pos.mul Pos.eqb Pos.succ]; cbv beta iota; unfold u8; try reflexivity.
  change (8 * (2 - 2)) with 0. rewrite Z.pow_0_r, Z.div_1_r. reflexivity.
Qed.
Lemma arg1_operand m w k v : 0 <= k <= 2 -> arg_rl1 (bytes_of_word w) (k + 1) = ROk v -> word_arg m w k = operand1 m v.
Proof.
  intros H. unfold arg_rl1, arg_reg, word_arg. rewrite bytes_byte, bits_isreg by lia. destruct (word_isreg w k); cbn [negb].
  - destruct (reg_from_code (word_byte w k)) as [r|]; cbn; intros E; [injection E as <-; reflexivity|discriminate].
  - intros E. injection E as <-. reflexivity.
Qed.
Lemma arg2_operand m w v : arg_rl2 (bytes_of_word w) 1 = ROk v -> (word_arg m w 0 = None <-> operand2 m v = None).
Proof.
  unfold arg_rl2, arg_reg, word_arg. pose proof (bits_isreg w 0 ltac:(lia)) as B. pose proof (bytes_byte w 0 ltac:(lia)) as C. change (0 + 1) with 1 in B, C. rewrite B, C. destruct (word_isreg w 0); cbn [negb].
  - destruct (reg_from_code (word_byte w 0)) as [r|]; cbn; intros E; [injection E as <-; reflexivity|discriminate].
  - intros E. injection E as <-. cbn. split; discriminate.
Qed.
Lemma op_byte w : Z.shiftr (byte_at (bytes_of_word w) 0) 3 = word_op w.
Proof.
  change (byte_at (bytes_of_word w) 0) with (u8 (w / 16777216)). unfold word_op, u8. rewrite Z.shiftr_div_pow2 by lia. change (2 ^ 27) with 134217728. change (2 ^ 3) with 8. Z.to_euclidean_division_equations. lia.
Qed.
Lemma op_range w : 0 <= word_op w < 32.
Proof. unfold word_op. apply Z.mod_pos_bound. lia. Qed.
Lemma word_instr m w i : decode (bytes_of_word w) = ROk i -> (word_overflows m w <-> instr_over m i).
Proof.
  unfold decode. rewrite op_byte. pose proof (op_range w) as Hop. intros Hd. unfold word_overflows, word_address. 
  destruct (op_cases _ Hop) as [E|[E|[E|[E|[E|[E|[E|[E|[E|[E|[E|[E|[E|[E|[E|[E|[E|[E|[E|[E|[E|[E|[E|[E|[E|[E|[E|[E|[E|[E|[E|E]]]]]]]]]]]]]]]]]]]]]]]]]]]]]]];
    rewrite E in *; cbv beta iota in Hd; cbv iota; try discriminate Hd;
    repeat match type of Hd with
    | (dor a <- arg_reg ?b ?k; _) = _ => destruct (arg_reg b k) eqn:?; cbn [rbind] in Hd; [|discriminate Hd]
    | (dor a <- arg_rl1 ?b ?k; _) = _ => destruct (arg_rl1 b k) eqn:?; cbn [rbind] in Hd; [|discriminate Hd]
    | (dor a <- arg_rl2 ?b ?k; _) = _ => destruct (arg_rl2 b k) eqn:?; cbn [rbind] in Hd; [|discriminate Hd]
    end; injection Hd as <-; unfold instr_over; cbn [instr_address].
  all: repeat match goal with
    | H : arg_rl1 _ 1 = ROk ?v |- _ => apply (arg1_operand m w 0) in H; [|lia]
    | H : arg_rl1 _ 2 = ROk ?v |- _ => apply (arg1_operand m w 1) in H; [|lia]
    | H : arg_rl1 _ 3 = ROk ?v |- _ => apply (arg1_operand m w 2) in H; [|lia]
    | H : arg_rl2 _ 1 = ROk ?v |- _ => apply (arg2_operand m w) in H
    end.
  all: repeat match goal with H : word_arg _ _ _ = operand1 _ _ |- _ => rewrite !H; clear H end.
  all: try match goal with H : ?a = None <-> ?b = None |- _ => destruct a, b; try (exfalso; destruct H as (H1 & H2); (discriminate (H1 eq_refl) || discriminate (H2 eq_refl))); clear H end.
  all: split; [intros [(X & Y)|[(X & Y)|Y]]|intros [Y|[Y|Y]]]; try discriminate X; try contradiction; auto.
Qed.
Lemma moved_reg k m1 m2 r : moved k m1 m2 -> is_pc r = false -> reg_value m2 r = reg_value m1 r.
Proof. intros (_ & _ & _ & M & _) H. unfold reg_value, sup_mode. rewrite (M R_smt) by discriminate. rewrite (M r); [reflexivity|intros ->; discriminate H]. Qed.
Lemma moved_op1 k m1 m2 v : moved k m1 m2 -> existsb is_pc (regs1 v) = false -> operand1 m2 v = operand1 m1 v.
Proof. intros M. destruct v as [r|n]; cbn [regs1 existsb operand1]; [|reflexivity]. rewrite orb_false_r. apply (moved_reg k), M. Qed.
Lemma moved_op2 k m1 m2 v : moved k m1 m2 -> existsb is_pc (regs2 v) = false -> operand2 m2 v = operand2 m1 v.
Proof. intros M. destruct v as [r|n]; cbn [regs2 existsb operand2]; [|reflexivity]. rewrite orb_false_r. apply (moved_reg k), M. Qed.
Lemma moved_sp k m1 m2 : moved k m1 m2 -> sp_of m2 = sp_of m1 /\ R m2 (sp_of m1) = R m1 (sp_of m1).
Proof. intros (_ & _ & _ & M & _). unfold sp_of, sup_mode. rewrite (M R_smt) by discriminate. split; [reflexivity|]. destruct (negb _); apply M; discriminate. Qed.
Lemma moved_entry k m1 m2 a : moved k m1 m2 -> entry_overflows m2 a <-> entry_overflows m1 a.
Proof. intros (_ & _ & _ & M & _). unfold entry_overflows. rewrite (M R_mtt), (M R_pda) by discriminate. tauto. Qed.
Lemma moved_instr k m1 m2 i : moved k m1 m2 -> uses_pc i = false -> instr_over m1 i <-> instr_over m2 i.
Proof.
  intros M U. destruct (moved_sp _ _ _ M) as (S1 & S2). unfold instr_over, instr_address. setoid_rewrite (moved_entry k m1 m2 _ M). rewrite S1, S2.
  destruct i; cbn [uses_pc reads] in U; rewrite ?existsb_app, ?orb_false_iff in U; repeat match goal with H : _ /\ _ |- _ => destruct H end;
    rewrite ?(moved_op1 k m1 m2 _ M), ?(moved_op2 k m1 m2 _ M) by assumption; try tauto; discriminate U.
Qed.
End Words.

Lemma moved_overflows {D} (ops : bus_ops D) k m1 m2 : moved k m1 m2 -> same_code ops m1 m2 -> (entry_overflows m1 (R m1 R_pc) <-> entry_overflows m2 (R m2 R_pc)) -> overflows ops m1 -> overflows ops m2.
Proof.
  intros M C E (X & Y & Z). destruct C as [(C & _)|(i & mem & (w1 & L1 & D1) & (w2 & L2 & D2) & U)]; [congruence|]. pose proof (proj1 (proj2 (proj2 M))) as Hh.
  split; [congruence|]. split; [exact (proj1 L2)|]. destruct Z as [Z|(w & b & L & O)]; [left; tauto|right]. exists w2, mem. split; [exact L2|]. apply (word_instr m2 w2 i D2). apply (moved_instr k m1 m2 i M U). apply (word_instr m1 w1 i D1).
  enough (w = w1) by (subst; exact O). destruct L as (_ & x & P & L), L1 as (_ & x1 & P1 & L1). unfold passes in *.
  destruct (R m1 R_mtt =? 0); [subst x x1; rewrite L in L1; apply Ret_inj in L1; injection L1; auto|].
  destruct P as (e & P & _), P1 as (e1 & P1 & _). rewrite P in P1. apply Ret_inj in P1. injection P1 as -> _. rewrite L in L1. apply Ret_inj in L1. injection L1; auto.
Qed.
Lemma moved_sym {D} k (m1 m2 : cpu D) : wf m1 -> moved k m1 m2 -> moved (- k) m2 m1.
Proof.
  intros W (A & B & C & E & F). split; [auto|]. split; [auto|]. split; [auto|]. split; [intros r Hr; symmetry; auto|]. rewrite F, Zplus_mod_idemp_l. replace (R m1 R_pc + k + - k) with (R m1 R_pc) by lia. symmetry. apply Z.mod_small. exact (R_u32 _ _ (proj1 W)).
Qed.
Lemma same_code_sym {D} (ops : bus_ops D) m1 m2 : same_code ops m1 m2 -> same_code ops m2 m1.
Proof. intros [(A & B)|(i & mem & A & B & U)]; [left; auto|right; exists i, mem; auto]. Qed.
(** In a build with overflow checks, with all mappings ending below 2^32, a crash does not depend on the place of the code either, unless it is the lookup of the fetch's page that overflows. *)
Lemma P_C91_debug : forall D (ops : bus_ops D) oc k m1 m2, typed ops -> wf m1 -> wf m2 -> ends_below (c_mem m1) -> moved k m1 m2 -> same_code ops m1 m2 ->
  (entry_overflows m1 (R m1 R_pc) <-> entry_overflows m2 (R m2 R_pc)) ->
  match next ops oc m1, next ops oc m2 with
  | Ret m1', Ret m2' => moved k m1' m2' \/ same_machine m1' m2'
  | Panic, Panic => True
  | _, _ => False
  end.
Proof.
  intros D ops oc k m1 m2 T W1 W2 E M C O. pose proof (P_C91_cycle D ops oc k m1 m2 T W1 W2 M C) as X. destruct oc; [|destruct (next ops false m1), (next ops false m2); auto; discriminate X].
  assert (E2 : ends_below (c_mem m2)) by (destruct M as (-> & _); exact E).
  destruct (P_C03_exact D ops m1 T W1 E) as (A1 & B1). destruct (P_C03_exact D ops m2 T W2 E2) as (A2 & B2).
  assert (OO : overflows ops m1 <-> overflows ops m2).
  { split; [apply (moved_overflows ops k m1 m2 M C O)|]. apply (moved_overflows ops (- k) m2 m1 (moved_sym _ _ _ W1 M) (same_code_sym _ _ _ C)). tauto. }
  pose proof (P_C91_cycle D ops false k m1 m2 T W1 W2 M C) as Y.
  destruct (next ops true m1) as [m1'|] eqn:N1, (next ops true m2) as [m2'|] eqn:N2; auto.
  - assert (O1 : ~ overflows ops m1) by (intros Z; discriminate (A1 Z)). assert (O2 : ~ overflows ops m2) by tauto. rewrite <- (B1 O1), <- (B2 O2) in Y. discriminate Y.
  - assert (O2 : ~ overflows ops m2) by (intros Z; discriminate (A2 Z)). assert (O1 : ~ overflows ops m1) by tauto. rewrite <- (B1 O1), <- (B2 O2) in Y. discriminate Y.
Qed.
Lemma same_word {D} (m1 m2 : cpu D) w : same_machine m1 m2 -> word_overflows m1 w -> word_overflows m2 w.
Proof.
  intros (_ & _ & _ & S). assert (A : forall k, word_arg m2 w k = word_arg m1 w k) by (intros k; unfold word_arg, reg_value, sup_mode; destruct (word_isreg w k); [|reflexivity]; destruct (reg_from_code (word_byte w k)) as [r|]; [|reflexivity]; rewrite (S R_smt), (S r); reflexivity).
  unfold word_overflows, word_address, entry_overflows, sp_of, sup_mode. rewrite !A, (S R_smt), (S R_mtt), (S R_pda). rewrite (S (if negb (R m2 R_smt =? 0) then R_ssp else R_usp)). auto.
Qed.
Lemma same_overflows {D} (ops : bus_ops D) m1 m2 : same_machine m1 m2 -> overflows ops m1 -> overflows ops m2.
Proof.
  intros S (X & Y & Z). pose proof S as (S1 & S2 & S3 & S4). rewrite S4 in Y. split; [congruence|]. split; [exact Y|]. unfold entry_overflows in *. rewrite (S4 R_mtt), (S4 R_pda), (S4 R_pc) in Z. destruct Z as [Z|(w & b & L & O)]; [left; exact Z|right].
  exists w, b. split; [|exact (same_word m1 m2 w S O)]. destruct L as (L1 & c & L2 & L3). split; [exact L1|]. exists c. split; [|exact L3]. unfold passes, sup_mode in *. rewrite S1, (S4 R_mtt), (S4 R_pda), (S4 R_smt) in L2. exact L2.
Qed.
Lemma same_sym {D} (m1 m2 : cpu D) : same_machine m1 m2 -> same_machine m2 m1.
Proof. intros (A & B & C & E). unfold same_machine. auto. Qed.
Lemma next_same_debug {D} (ops : bus_ops D) oc m1 m2 : typed ops -> wf m1 -> wf m2 -> ends_below (c_mem m1) -> same_machine m1 m2 -> both same_machine (next ops oc m1) (next ops oc m2).
Proof.
  intros T W1 W2 E S. destruct oc; [|exact (next_same ops T m1 m2 W1 W2 S)]. apply debug_both; auto.
  - destruct S as (<- & _). exact E.
  - split; apply same_overflows; [exact S|apply same_sym, S].
  - apply next_same; auto.
Qed.
(** The same for a run. *)
Lemma P_C91_debug_run : forall D (ops : bus_ops D) oc k n m1 m2, typed ops -> wf m1 -> wf m2 -> ends_below (c_mem m1) -> moved k m1 m2 ->
  (forall j a b, (j < n)%nat -> run ops oc j m1 = Ret a -> run ops oc j m2 = Ret b -> R a R_pc <> R b R_pc ->
     same_code ops a b /\ (entry_overflows a (R a R_pc) <-> entry_overflows b (R b R_pc))) ->
  match run ops oc n m1, run ops oc n m2 with
  | Ret m1', Ret m2' => moved k m1' m2' \/ same_machine m1' m2'
  | Panic, Panic => True
  | _, _ => False
  end.
Proof.
  intros D ops oc k n m1 m2 T W1 W2 E M H. enough (X : both (fun a b => moved k a b \/ same_machine a b) (run ops oc n m1) (run ops oc n m2)) by exact X.
  assert (M' : moved k m1 m2 \/ same_machine m1 m2) by (left; exact M). clear M. rename M' into M. revert m1 m2 W1 W2 E M H. induction n as [|n IH]; intros m1 m2 W1 W2 E M H; [exact M|]. cbn [run].
  assert (X : both (fun a b => moved k a b \/ same_machine a b) (next ops oc m1) (next ops oc m2)).
  { assert (S : same_machine m1 m2 \/ moved k m1 m2 /\ R m1 R_pc <> R m2 R_pc).
    { destruct M as [M|M]; [|left; exact M]. destruct (Z.eq_dec (R m1 R_pc) (R m2 R_pc)) as [X|X]; [|right; auto].
      left. destruct M as (M1 & M2 & M3 & M4 & _). split; [auto|]. split; [auto|]. split; [auto|]. intros r. destruct (reg_eq_dec r R_pc) as [->|N]; [exact X|symmetry; apply M4, N]. }
    destruct S as [S|(S & N)].
    - pose proof (next_same_debug ops oc m1 m2 T W1 W2 E S) as X. destruct (next ops oc m1), (next ops oc m2); cbn [both] in *; auto.
    - destruct (H O m1 m2 ltac:(lia) eq_refl eq_refl N) as (C & O). exact (P_C91_debug D ops oc k m1 m2 T W1 W2 E S C O). }
  destruct (next ops oc m1) as [m1'|] eqn:N1, (next ops oc m2) as [m2'|] eqn:N2; cbn [both obind] in *; auto; try contradiction.
  apply IH; [exact (next_wf ops T _ _ _ W1 N1)|exact (next_wf ops T _ _ _ W2 N2)| |exact X|].
  - intros mp Hi. rewrite (next_maps ops oc m1 m1' T W1 N1) in Hi. auto.
  - intros j a b Hj Ha Hb. apply (H (S j)); [lia| |]; cbn [run]; [rewrite N1|rewrite N2]; assumption.
Qed.

(** The same program twice, 8 bytes apart: ADD a0, 5 then IF2 with flag number 8, which crashes a debug build. *)
Definition twice_prog : list Z := asm [Add R_a0 (Lit2 5); If2 (Lit1 8) (Lit1 0) (Lit1 1); Add R_a0 (Lit2 5); If2 (Lit1 8) (Lit1 0) (Lit1 1)].
Definition shifted (k : Z) (m : cpu (list Z)) : cpu (list Z) := wr R_pc ((R m R_pc + k) mod 2 ^ 32) m.
Definition words_fetch (m : cpu (list Z)) : option (instr * memory (list Z)) :=
  if (R m R_mtt =? 0) && (R m R_pc mod 4 =? 0) then
    match mem_read words_ops false (c_mem m) (R m R_pc) with
    | Ret (mem1, 0, w) => match decode (bytes_of_word w) with ROk i => Some (i, mem1) | _ => None end
    | _ => None
    end
  else None.
Lemma words_fetch_sound m i mem : words_fetch m = Some (i, mem) -> fetches words_ops m i mem /\ ~ entry_overflows m (R m R_pc).
Proof.
  unfold words_fetch. destruct (R m R_mtt =? 0) eqn:E1; [|discriminate]. destruct (Z.eqb_spec (R m R_pc mod 4) 0) as [E2|]; [|discriminate]. cbn [andb].
  destruct (mem_read _ _ _ _) as [[[mem1 ex] w]|] eqn:E3; [|discriminate]. destruct ex; try discriminate. destruct (decode _) eqn:E4; [|discriminate]. intros H. injection H as <- <-.
  split; [|intros (X & _); apply X, Z.eqb_eq, E1]. exists w. split; [|exact E4]. split; [exact E2|]. exists (c_mem m). unfold passes. rewrite E1. auto.
Qed.
Definition both_fetch (a b : cpu (list Z)) : Prop :=
  match words_fetch a, words_fetch b with Some (i, mem), Some (j, mem') => i = j /\ mem = mem' /\ uses_pc i = false | _, _ => False end.
Lemma both_fetch_sound a b : both_fetch a b -> same_code words_ops a b /\ (entry_overflows a (R a R_pc) <-> entry_overflows b (R b R_pc)).
Proof.
  unfold both_fetch. destruct (words_fetch a) as [(i & mem)|] eqn:E1; [|intros []]. destruct (words_fetch b) as [(j & mem')|] eqn:E2; [|intros []]. intros (<- & <- & U).
  apply words_fetch_sound in E1, E2. split; [right; exists i, mem; tauto|tauto].
Qed.
Lemma twice_pair : exists m1 m2 m1' m2', reachable words_ops true m1 /\ wf m1 /\ wf m2 /\ ends_below (c_mem m1) /\ moved 8 m1 m2 /\ both_fetch m1 m2 /\
  next words_ops true m1 = Ret m1' /\ next words_ops true m2 = Ret m2' /\ both_fetch m1' m2' /\ R m1' R_a0 = 5 /\ R m1' R_pc = 4 /\ R m2' R_pc = 12 /\ next words_ops true m1' = Panic /\ next words_ops true m2' = Panic.
Proof.
  assert (X : match words_run true 0 twice_prog 0 with Ret m => both_fetch m (shifted 8 m) /\
     match next words_ops true m, next words_ops true (shifted 8 m) with Ret m1', Ret m2' => both_fetch m1' m2' /\ R m1' R_a0 = 5 /\ R m1' R_pc = 4 /\ R m2' R_pc = 12 /\ next words_ops true m1' = Panic /\ next words_ops true m2' = Panic | _, _ => False end | Panic => False end) by (vm_compute; repeat split).
  destruct (words_run true 0 twice_prog 0) as [m|] eqn:E; [|destruct X]. destruct X as (X & Y). destruct (next words_ops true m) as [m1'|] eqn:N1; [|destruct Y]. destruct (next words_ops true (shifted 8 m)) as [m2'|] eqn:N2; [|destruct Y].
  destruct (words_wf true 0 _ _ m ltac:(unfold is_u32; lia) E) as (Hr & W). exists m, (shifted 8 m), m1', m2'. split; [exact Hr|]. split; [exact W|].
  split. { destruct W as (W1 & W2). split; [apply wr_wf; [exact W1|unfold is_u32; change (2 ^ 32) with 4294967296; lia]|exact W2]. }
  split.
  { unfold words_run in E. destruct (board_new _ _) as [m0|] eqn:E0; [|discriminate]. eapply P_C03_mappings; [apply words_typed| | |exact E0|exact E].
    - constructor; [split; unfold is_u32; lia|]. constructor; [exact I|]. constructor.
    - constructor; [exact I|]. constructor; [exact I|]. constructor. }
  split. { split; [reflexivity|]. split; [reflexivity|]. split; [reflexivity|]. split; [intros r N; apply R_wr_other; [apply W|exact N]|]. apply R_wr_same, W. }
  auto.
Qed.
(** Executable form of [fetches] with translation on. *)
Definition paged_fetch (m : cpu (list Z)) : option (instr * memory (list Z)) :=
  if negb (R m R_mtt =? 0) && (R m R_pc mod 4 =? 0) then
    match mem_read words_ops false (c_mem m) ((R m R_pda + 4 * (R m R_pc mod 1024)) mod 2 ^ 32) with
    | Ret (mem1, 0, e) =>
        if Z.testbit e (if sup_mode m then 31 else 30) then None
        else match mem_read words_ops false mem1 (R m R_pc) with
             | Ret (mem2, 0, w) => match decode (bytes_of_word w) with ROk i => Some (i, mem2) | _ => None end
             | _ => None
             end
    | _ => None
    end
  else None.
Lemma paged_fetch_sound m i mem : paged_fetch m = Some (i, mem) -> fetches words_ops m i mem.
Proof.
  unfold paged_fetch. destruct (R m R_mtt =? 0) eqn:E1; [discriminate|]. destruct (Z.eqb_spec (R m R_pc mod 4) 0) as [E2|]; [|discriminate]. cbn [andb negb].
  destruct (mem_read _ _ _ _) as [[[mem1 ex] e]|] eqn:E3; [|discriminate]. destruct ex; try discriminate. destruct (Z.testbit _ _) eqn:E5; [discriminate|].
  destruct (mem_read _ _ mem1 _) as [[[mem2 ex2] w]|] eqn:E6; [|discriminate]. destruct ex2; try discriminate. destruct (decode _) eqn:E4; [|discriminate]. intros H. injection H as <- <-.
  exists w. split; [|exact E4]. split; [exact E2|]. exists mem1. split; [|exact E6]. unfold passes. rewrite E1. exists e. auto.
Qed.
(** Two components of 64 bytes, at 0 (the program) and at 2^32 - 68; translation on with its directory at 2^32 - 8: the entry of address 0 is the last word mapped, that of address 4 is beyond 2^32. *)
Definition edge_board : outcome (cpu (list Z)) :=
  match board_new words_ops [asm [Add R_a0 (Lit2 5); Add R_a0 (Lit2 5)]; []] with
  | Ret m => api_run words_ops true [AMap 0 0; AMap (2 ^ 32 - 68) 1; AReset] m
  | Panic => Panic
  end.
Definition edge (m : cpu (list Z)) : cpu (list Z) := wr R_mtt 1 (wr R_pda (2 ^ 32 - 8) m).
(** The condition on the lookup of the page of the code cannot be dropped. *)
Lemma P_C91_debug_page_refuted : ~ (forall D (ops : bus_ops D) oc k m1 m2, typed ops -> wf m1 -> wf m2 -> ends_below (c_mem m1) -> moved k m1 m2 -> same_code ops m1 m2 ->
  match next ops oc m1, next ops oc m2 with
  | Ret m1', Ret m2' => moved k m1' m2' \/ same_machine m1' m2'
  | Panic, Panic => True
  | _, _ => False
  end).
Proof.
  intros H. assert (X : match edge_board with
    | Ret m => match paged_fetch (edge m), paged_fetch (shifted 4 (edge m)) with Some (i, mem), Some (j, mem') => i = j /\ mem = mem' /\ uses_pc i = false | _, _ => False end /\
        match next words_ops true (edge m), next words_ops true (shifted 4 (edge m)) with Ret _, Panic => True | _, _ => False end
    | Panic => False end) by (vm_compute; repeat split).
  destruct edge_board as [m|] eqn:E; [|destruct X]. destruct X as (X & Y). unfold edge_board in E. destruct (board_new _ _) as [m0|] eqn:E0; [|discriminate E].
  assert (A : Forall api_wf [AMap 0 0; AMap (2 ^ 32 - 68) 1; AReset]) by (repeat constructor; unfold is_u32; lia).
  assert (W : wf m). { apply (reachable_wf words_ops words_typed true). eexists. eexists. exists m0. split; [exact A|]. split; [exact E0|exact E]. }
  assert (W1 : wf (edge m)) by (destruct W as (W1 & W2); split; [apply wr_wf; [apply wr_wf; [exact W1|]|]; unfold is_u32; lia|exact W2]).
  assert (W2 : wf (shifted 4 (edge m))). { destruct W1 as (W1 & W2). split; [apply wr_wf; [exact W1|unfold is_u32; change (2 ^ 32) with 4294967296; lia]|exact W2]. }
  specialize (H _ words_ops true 4 (edge m) (shifted 4 (edge m)) words_typed W1 W2).
  assert (B : ends_below (c_mem (edge m))). { change (c_mem (edge m)) with (c_mem m). eapply P_C03_mappings; [apply words_typed|exact A| |exact E0|exact E]. repeat constructor. }
  assert (M : moved 4 (edge m) (shifted 4 (edge m))). { split; [reflexivity|]. split; [reflexivity|]. split; [reflexivity|]. split; [intros r N; apply R_wr_other; [apply W1|exact N]|]. apply R_wr_same, W1. }
  specialize (H B M). destruct (paged_fetch (edge m)) as [(i & mem)|] eqn:F1; [|destruct X]. destruct (paged_fetch (shifted 4 (edge m))) as [(j & mem')|] eqn:F2; [|destruct X]. destruct X as (<- & <- & U).
  apply paged_fetch_sound in F1, F2. specialize (H (or_intror (ex_intro _ i (ex_intro _ mem (conj F1 (conj F2 U)))))).
  destruct (next words_ops true (edge m)); [|contradiction]. destruct (next words_ops true (shifted 4 (edge m))); contradiction.
Qed.
Lemma E_C91_debug : exists m1 m2, wf m1 /\ wf m2 /\ ends_below (c_mem m1) /\ moved 8 m1 m2 /\ same_code words_ops m1 m2 /\ (entry_overflows m1 (R m1 R_pc) <-> entry_overflows m2 (R m2 R_pc)) /\ next words_ops true m1 = Panic /\ next words_ops true m2 = Panic.
Proof.
  destruct twice_pair as (m1 & m2 & m1' & m2' & Hr & W1 & W2 & E & M & F & N1 & N2 & F' & _ & P1 & P2 & C1 & C2). destruct (both_fetch_sound _ _ F) as (F1 & F2). destruct (both_fetch_sound _ _ F') as (F1' & F2').
  exists m1', m2'. split; [exact (next_wf words_ops words_typed _ _ _ W1 N1)|]. split; [exact (next_wf words_ops words_typed _ _ _ W2 N2)|].
  split; [intros mp Hi; rewrite (next_maps words_ops true m1 m1' words_typed W1 N1) in Hi; auto|].
  pose proof (P_C91_debug _ words_ops true 8 m1 m2 words_typed W1 W2 E M F1 F2) as X. rewrite N1, N2 in X. split; [|auto]. destruct X as [X|X]; [exact X|]. destruct X as (_ & _ & _ & X). specialize (X R_pc). rewrite P1, P2 in X. discriminate X.
Qed.
Lemma E_C91_debug_run : exists m1 m2, reachable words_ops true m1 /\ wf m1 /\ wf m2 /\ ends_below (c_mem m1) /\ moved 8 m1 m2 /\
  (forall j a b, (j < 2)%nat -> run words_ops true j m1 = Ret a -> run words_ops true j m2 = Ret b -> R a R_pc <> R b R_pc ->
     same_code words_ops a b /\ (entry_overflows a (R a R_pc) <-> entry_overflows b (R b R_pc))) /\
  (exists m, run words_ops true 1 m1 = Ret m /\ R m R_a0 = 5) /\ run words_ops true 2 m1 = Panic /\ run words_ops true 2 m2 = Panic.
Proof.
  destruct twice_pair as (m1 & m2 & m1' & m2' & Hr & W1 & W2 & E & M & F & N1 & N2 & F' & A & _ & _ & C1 & C2). exists m1, m2. split; [exact Hr|]. split; [exact W1|]. split; [exact W2|]. split; [exact E|]. split; [exact M|].
  cbn [run]. rewrite N1, N2. cbn [obind]. rewrite C1, C2. split; [|split; [exists m1'; auto|auto]].
  intros j a b Hj Ha Hb _. destruct j as [|[|j]]; [| |lia]; cbn [run] in Ha, Hb.
  - apply Ret_inj in Ha, Hb. subst a b. apply both_fetch_sound, F.
  - rewrite N1 in Ha. rewrite N2 in Hb. cbn [obind] in Ha, Hb. apply Ret_inj in Ha, Hb. subst a b. apply both_fetch_sound, F'.
Qed.
