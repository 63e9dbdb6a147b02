(** Proofs about the text of extended instructions (C92). *)
From Coq Require Import String.
From Coq Require Import ZArith List Bool Lia.
From Verif Require Import Base Board Mem Cpu Asm Tools Lasm SpecMach SpecIsa SpecBus SpecObs SpecAsm SpecExt SpecLasm SpecExtText
  BaseFacts RegFacts InvFacts ReachFacts ExecFacts LasmFacts Demo DevTyped Devices ProofAlu ProofReg ProofMem ProofAsm ProofTools ProofExt ProofLasm SpecConsole ConsoleFacts.
Import ListNotations.
Open Scope list_scope.
Open Scope Z_scope.
Ltac Zify.zify_post_hook ::= Z.div_mod_to_equations.

(** The processor runs the word [w] as the instruction [i]. *)
Definition stands (w : Z) (i : instr) : Prop :=
  forall D (ops : bus_ops D) oc m mem1 m', typed ops -> wf m -> executes_word ops oc m w mem1 m' -> executes ops oc m i mem1 m'.
Definition constant (ws : list Z) (r : reg) (v : Z) : Prop :=
  exists w1 w2 w3, ws = [w1; w2; w3] /\ (stands w1 (Cpy r (Lit2 (v / 65536))) \/ (v / 65536 = 0 /\ stands w1 (Xor r (Reg2 r)))) /\
    stands w2 (Shl r (Lit1 16)) /\ stands w3 (Add r (Lit2 (v mod 65536))).

Lemma cpy_reg D (ops : bus_ops D) oc m d q mem1 m' : typed ops -> wf m -> executes ops oc m (Cpy d (Reg2 q)) mem1 m' -> can_write (sup_mode m) d = true ->
  can_read (sup_mode m) q = true -> after m m' mem1 [(d, R m q); (R_pc, (R m R_pc + 4) mod 2 ^ 32)].
Proof.
  intros T Hw He Hd Hq. eapply ends_after; eauto. cbn [step].
  erewrite read2_ok; [|cbn [operand2]; unfold reg_value; rewrite Hq; reflexivity].
  apply (ends_write_end (start m mem1) []); auto. apply sets_refl, len_start; auto.
Qed.
Lemma set_constant D (ops : bus_ops D) oc m ws r v m' : typed ops -> wf m -> is_u32 v -> can_write (sup_mode m) r = true -> r <> R_pc -> r <> R_smt ->
  constant ws r v -> runs_words ops oc m ws m' -> straight m m' 3 [(r, v)] /\ runs_quietly ops oc m ws m' /\ wf m'.
Proof.
  intros T Hw Hv Hc Hp Hs (w1 & w2 & w3 & -> & J1 & J2 & J3) H. cbn [runs_words] in H.
  destruct H as (mem1 & m1 & H1 & mem2 & m2 & H2 & mem3 & m3 & H3 & ->). unfold is_u32 in Hv.
  assert (Hw1 : wf m1) by (eapply next_wf; eauto; apply H1). assert (Hw2 : wf m2) by (eapply next_wf; eauto; apply H2). assert (Hw3 : wf m3) by (eapply next_wf; eauto; apply H3).
  assert (A1 : exists f, after m m1 mem1 [(r, v / 65536); (R_pc, (R m R_pc + 4) mod 2 ^ 32); (R_af, f)]).
  { destruct J1 as [J1|(Z0 & J1)]; specialize (J1 _ _ _ _ _ _ T Hw H1).
    - apply cpy_lit in J1; auto. exists (R m R_af). destruct J1 as (X & J1). split; [|exact J1]. intros q. rewrite X. cbn [assoc]. destruct (_ =? _); [reflexivity|]. destruct (_ =? _); [reflexivity|].
      destruct (Z.eqb_spec (reg_code q) (reg_code R_af)) as [E|E]; [|reflexivity]. apply reg_code_inj in E. subst. reflexivity.
    - destruct (P_C08_bitwise D ops oc m (Xor r (Reg2 r)) r (Reg2 r) mem1 m1 (R m r) (R m r) T Hw J1) as (x & (A & _) & B); auto.
      { cbn. tauto. } { unfold reg_value. rewrite can_write_read by auto. reflexivity. } { cbn [operand2]. unfold reg_value. rewrite can_write_read by auto. reflexivity. }
      replace x with (v / 65536) in A; [eauto|]. rewrite Z0. symmetry. apply Z.bits_inj. intros k. rewrite B, Z.bits_0. apply xorb_nilpotent. }
  destruct A1 as (f & A1).
  assert (S1 := straight_one D _ _ _ _ _ _ A1 Hp (proj1 H1)).
  assert (M1 : sup_mode m1 = sup_mode m) by (eapply straight_sup; eauto; cbn; intuition congruence).
  specialize (J2 _ _ _ _ _ _ T Hw1 H2).
  assert (V1 : R m1 r = v / 65536) by (apply S1; left; reflexivity).
  destruct (P_C08_shl D ops oc m1 r (Lit1 16) mem2 m2 (v / 65536) 16 T Hw1 J2) as (A2 & _).
  { unfold reg_value. rewrite M1, can_write_read, V1 by auto. reflexivity. } { reflexivity. } { rewrite M1; auto. }
  assert (S2 := straight_one D _ _ _ _ _ _ A2 Hp (proj1 H2)).
  assert (M2 : sup_mode m2 = sup_mode m) by (rewrite <- M1; eapply straight_sup; eauto; cbn; intuition congruence).
  specialize (J3 _ _ _ _ _ _ T Hw2 H3).
  assert (V2 : R m2 r = v / 65536 * 65536). { destruct S2 as (S2 & _). rewrite (S2 r _ (or_introl eq_refl)). change (16 mod 32) with 16. change (2 ^ 16) with 65536. change (2 ^ 32) with 4294967296. lia. }
  destruct (P_C07_add D ops oc m2 r (Lit2 (v mod 65536)) mem3 m3 (v / 65536 * 65536) (v mod 65536) T Hw2 J3) as (A3 & _).
  { unfold reg_value. rewrite M2, can_write_read, V2 by auto. reflexivity. } { reflexivity. } { rewrite M2; auto. }
  replace ((v / 65536 * 65536 + v mod 65536) mod 2 ^ 32) with v in A3 by (change (2 ^ 32) with 4294967296; lia).
  assert (S3 := straight_one D _ _ _ _ _ _ A3 Hp (proj1 H3)).
  split; [|split; [|auto]].
  - change 3 with (1 + 1 + 1). eapply straight_more; [eapply straight_more; eauto|eauto|auto].
  - cbn [runs_quietly]. exists mem1, m1. split; [auto|]. split; [apply A1|]. exists mem2, m2. split; [auto|]. split; [apply A2|]. exists mem3, m3. split; [auto|]. split; [apply A3|reflexivity].
Qed.
Lemma zero_offset a : is_u32 a -> (a + 0 * 0) mod 2 ^ 32 = a.
Proof. unfold is_u32. intros H. change (2 ^ 32) with 4294967296. lia. Qed.
Lemma after_straight D (m m' : cpu D) mem r v : after m m' mem [(r, v); (R_pc, (R m R_pc + 4) mod 2 ^ 32)] -> r <> R_pc -> c_halted m = false -> straight m m' 1 [(r, v)].
Proof.
  intros (A & A') H Hh. apply (straight_one D m m' mem r v (R m R_af)); auto. split; [|exact A'].
  intros q. rewrite A. cbn [assoc]. destruct (_ =? _); [reflexivity|]. destruct (_ =? _); [reflexivity|].
  destruct (Z.eqb_spec (reg_code q) (reg_code R_af)) as [E|E]; [apply reg_code_inj in E; subst|]; reflexivity.
Qed.
Lemma plain_avr s : can_write s R_avr = true. Proof. apply can_write_plain; reflexivity. Qed.
Lemma plain_rr0 s : can_write s R_rr0 = true. Proof. apply can_write_plain; reflexivity. Qed.

(** The load at address [a], avr being set to it. *)
Lemma lea_part D (ops : bus_ops D) oc m m3 a mem1 m4 : typed ops -> wf m3 -> is_u32 a -> straight m m3 3 [(R_avr, a)] ->
  executes ops oc m3 (Lea (Reg1 R_avr) (Lit1 0) (Lit1 0)) mem1 m4 ->
  (exists w, loads ops m mem1 a w (c_mem m4) /\ straight m m4 4 [(R_avr, w)]) \/
  (exists mem2 code data, load_faults ops m mem1 a mem2 code data /\ raised m3 m4 mem2 code data).
Proof.
  intros T Hw3 Ha S He. assert (V : R m3 R_avr = a) by (apply S; left; reflexivity).
  destruct (straight_regs _ _ _ _ _ S) as (E1 & E2 & E3); [cbn; tauto|].
  destruct (P_C21_lea D ops oc m3 _ _ _ a 0 0 mem1 m4 T Hw3 He) as [(w & mem2 & Hl & A)|(mem2 & code & data & Hf & A)]; auto.
  { cbn. unfold reg_value. rewrite can_write_read by apply plain_avr. rewrite V. reflexivity. }
  - rewrite zero_offset in Hl by auto. left. exists w. split.
    + replace (c_mem m4) with mem2 by (symmetry; apply A). eapply loads_regs; [..|exact Hl]; congruence.
    + change 4 with (3 + 1). eapply straight_more; [exact S| |discriminate]. eapply after_straight; [exact A|discriminate|apply S].
  - rewrite zero_offset in Hf by auto. right. exists mem2, code, data. split; [eapply load_faults_regs; [..|exact Hf]; congruence|exact A].
Qed.
(** The store at address [a], rr0 being set to it. *)
Lemma wea_part D (ops : bus_ops D) oc m m4 n a v mem1 m' : typed ops -> wf m4 -> is_u32 a -> straight m m4 n [(R_rr0, a); (R_avr, v)] ->
  executes ops oc m4 (Wea (Reg1 R_rr0) (Lit1 0) (Lit1 0)) mem1 m' ->
  (stores ops m mem1 a v (c_mem m') /\ straight m m' (n + 1) [(R_rr0, a); (R_avr, v)]) \/
  (exists mem2 code data, store_faults ops m mem1 a v mem2 code data /\ raised m4 m' mem2 code data).
Proof.
  intros T Hw4 Ha S He. assert (V : R m4 R_rr0 = a) by (apply S; left; reflexivity). assert (V2 : R m4 R_avr = v) by (apply S; right; left; reflexivity).
  destruct (straight_regs _ _ _ _ _ S) as (E1 & E2 & E3); [cbn; tauto|].
  destruct (P_C21_wea D ops oc m4 _ _ _ a 0 0 mem1 m' T Hw4 He) as [(mem2 & Hl & A)|(mem2 & code & data & Hf & A)]; auto.
  { cbn. unfold reg_value. rewrite can_write_read by apply plain_rr0. rewrite V. reflexivity. }
  - rewrite zero_offset, V2 in Hl by auto. left. split.
    + replace (c_mem m') with mem2 by (symmetry; apply A). eapply stores_regs; [..|exact Hl]; congruence.
    + destruct A as (A & _ & A2 & A3). destruct S as (S3 & S4 & S5 & S6 & S7). split; [|split; [|split; [|split]]].
      * intros r x Hi. rewrite A. rewrite <- (S3 r x Hi). cbn [assoc]. destruct (Z.eqb_spec (reg_code r) (reg_code R_pc)) as [E|E]; [|reflexivity].
        apply reg_code_inj in E. subst. cbn in Hi. intuition congruence.
      * intros r Hi Hp Haf. rewrite A. cbn [assoc]. destruct (Z.eqb_spec (reg_code r) (reg_code R_pc)) as [E|E]; [apply reg_code_inj in E; congruence|]. apply S4; auto.
      * rewrite A. cbn [assoc]. rewrite Z.eqb_refl, S5. rewrite Zplus_mod_idemp_l. f_equal. lia.
      * congruence.
      * rewrite A3, S7. rewrite Zplus_mod_idemp_l. f_equal. lia.
  - rewrite zero_offset, V2 in Hf by auto. right. exists mem2, code, data. split; [eapply store_faults_regs; [..|exact Hf]; congruence|exact A].
Qed.
Lemma quiet_app D (ops : bus_ops D) oc l : forall m l2 m1 m', runs_quietly ops oc m l m1 -> runs_quietly ops oc m1 l2 m' -> runs_quietly ops oc m (l ++ l2) m'.
Proof.
  induction l as [|w t IH]; intros m l2 m1 m'; cbn [app runs_quietly]; [intros ->; auto|].
  intros (mem1 & m2 & X1 & X2 & X3) H. exists mem1, m2. eauto.
Qed.

Lemma loads_gen D (ops : bus_ops D) oc m ws w4 w5 a q r m' : typed ops -> wf m -> is_u32 a -> can_write (sup_mode m) r = true -> r <> R_pc ->
  user_reg q = true -> q <> R_pc -> q <> R_af -> constant ws R_avr a -> stands w4 (Lea (Reg1 R_avr) (Lit1 0) (Lit1 0)) -> stands w5 (Cpy r (Reg2 q)) ->
  runs_words ops oc m (ws ++ [w4; w5]) m' -> loads_to ops oc m (ws ++ [w4; w5]) a q r m'.
Proof.
  intros T Hw Ha Hr Hp Hq Q1 Q2 C J4 J5 H. apply runs_words_app in H. destruct H as (m3 & H1 & H2).
  destruct (set_constant D ops oc m ws R_avr a m3 T Hw Ha (plain_avr _)) as (S & Qu & Hw3); auto; try discriminate.
  cbn [runs_words] in H2. destruct H2 as (mem1 & m4 & H4 & mem2 & m5 & H5 & ->).
  assert (Hw4 : wf m4) by (eapply next_wf; eauto; apply H4).
  pose proof (J4 _ _ _ _ _ _ T Hw3 H4) as E4. pose proof (J5 _ _ _ _ _ _ T Hw4 H5) as E5.
  exists m3, mem1, m4, mem2. destruct C as (w1 & w2 & w3 & -> & _). cbn [app firstn]. split; [split; [exact S|exact Qu]|]. split; [exact E4|]. split; [exact E5|].
  destruct (lea_part D ops oc m m3 a mem1 m4 T Hw3 Ha S E4) as [(w & Hl & S4)|X]; [left|right; exact X]. exists w. split; [exact Hl|].
  assert (M4 : sup_mode m4 = sup_mode m) by (eapply straight_sup; eauto; cbn; intuition congruence).
  pose proof (cpy_reg D ops oc m4 r q mem2 m5 T Hw4 E5) as A. rewrite M4 in A. specialize (A Hr). unfold can_read in A. rewrite Hq, orb_true_r in A. specialize (A eq_refl).
  split; [apply A|]. pose proof (after_straight _ _ _ _ _ _ A Hp (proj1 H5)) as S5.
  assert (V : R m4 q = if reg_code q =? reg_code R_avr then w else R m q).
  { destruct (Z.eqb_spec (reg_code q) (reg_code R_avr)) as [E|E].
    - apply reg_code_inj in E. subst q. apply S4. left; reflexivity.
    - apply S4; auto. cbn. intros [X|[]]. subst q. apply E; reflexivity. }
  rewrite V in S5. destruct (Z.eqb_spec (reg_code r) (reg_code R_avr)) as [E|E].
  - apply reg_code_inj in E. subst r. cbn [app]. change 5 with (4 + 1). eapply straight_more; eauto.
  - change 5 with (4 + 1). eapply straight_app; eauto; cbn; try (intuition discriminate).
    intros r0 x [X|[]]. injection X as <- <-. intros [X|[]]. subst r. apply E; reflexivity.
Qed.
Lemma stores_gen D (ops : bus_ops D) oc m ws w4 w5 a q m' : typed ops -> wf m -> is_u32 a -> can_read (sup_mode m) q = true -> q <> R_pc -> q <> R_af ->
  constant ws R_rr0 a -> stands w4 (Cpy R_avr (Reg2 q)) -> stands w5 (Wea (Reg1 R_rr0) (Lit1 0) (Lit1 0)) ->
  runs_words ops oc m (ws ++ [w4; w5]) m' -> stores_from ops oc m (ws ++ [w4; w5]) a q m'.
Proof.
  intros T Hw Ha Hq Q1 Q2 C J4 J5 H. apply runs_words_app in H. destruct H as (m3 & H1 & H2).
  destruct (set_constant D ops oc m ws R_rr0 a m3 T Hw Ha (plain_rr0 _)) as (S & Qu & Hw3); auto; try discriminate.
  cbn [runs_words] in H2. destruct H2 as (mem1 & m4 & H4 & mem2 & m5 & H5 & ->).
  assert (Hw4 : wf m4) by (eapply next_wf; eauto; apply H4).
  pose proof (J4 _ _ _ _ _ _ T Hw3 H4) as E4. pose proof (J5 _ _ _ _ _ _ T Hw4 H5) as E5.
  assert (M3 : sup_mode m3 = sup_mode m) by (eapply straight_sup; eauto; cbn; intuition congruence).
  pose proof (cpy_reg D ops oc m3 R_avr q mem1 m4 T Hw3 E4 (plain_avr _)) as A. rewrite M3 in A. specialize (A Hq).
  assert (V : R m3 q = if reg_code q =? reg_code R_rr0 then a else R m q).
  { destruct (Z.eqb_spec (reg_code q) (reg_code R_rr0)) as [E|E].
    - apply reg_code_inj in E. subst q. apply S. left; reflexivity.
    - apply S; auto. cbn. intros [X|[]]. subst q. apply E; reflexivity. }
  rewrite V in A. assert (A' : c_mem m4 = mem1) by apply A. assert (P : R_avr <> R_pc) by discriminate. pose proof (after_straight _ _ _ _ _ _ A P (proj1 H4)) as S4.
  assert (S5 : straight m m4 4 [(R_rr0, a); (R_avr, if reg_code q =? reg_code R_rr0 then a else R m q)]).
  { change 4 with (3 + 1). change [(R_rr0, a); (R_avr, if reg_code q =? reg_code R_rr0 then a else R m q)] with ([(R_rr0, a)] ++ [(R_avr, if reg_code q =? reg_code R_rr0 then a else R m q)]).
    eapply straight_app; eauto; cbn; try (intuition discriminate). intros r0 x [X|[]]. injection X as <- <-. intuition discriminate. }
  unfold stores_from. exists m4, mem2. split; [|split; [exact E5|]].
  - destruct C as (w1 & w2 & w3 & -> & _). cbn [app firstn]. split; [exact S5|]. change [w1; w2; w3; w4] with ([w1; w2; w3] ++ [w4]).
    eapply quiet_app; [exact Qu|]. cbn [runs_quietly]. exists mem1, m4. auto.
  - apply (wea_part D ops oc m m4 4 a _ mem2 m5 T Hw4 Ha S5 E5).
Qed.

(** ** What stands for what *)
Lemma stands_encoded i : instr_wf i -> wide_reg i = None -> stands (encode_word i) i.
Proof. intros W N D ops oc m mem1 m' T Hw H. apply (P_C43_executes D ops oc m i mem1 m' T Hw W N H). Qed.
Lemma stands_wide i : instr_wf i -> wide_reg i <> None -> stands (encode_word i) (with_wide_reg i R_a0).
Proof. intros W N D ops oc m mem1 m' T Hw H. apply (P_C43_wide D ops oc m i mem1 m' T Hw W N H). Qed.
Lemma stands_text bs j : runs_as bs j -> stands (word_of_bytes bs) j.
Proof. intros W D ops oc m mem1 m' T Hw H. eapply P_C69_runs; eauto. Qed.
Lemma high v : is_u32 v -> u16 (Z.shiftr v 16) = v / 65536.
Proof. unfold is_u32. intros H. rewrite Z.shiftr_div_pow2 by lia. change (2 ^ 16) with 65536. unfold u16. lia. Qed.
Lemma const_wf r v : is_u32 v -> Forall instr_wf (load_const r v).
Proof. intros H. unfold load_const. rewrite high by auto. unfold is_u32 in H. repeat constructor; cbn [instr_wf rl2_wf rl1_wf]; unfold is_u16, is_u8, u16; lia. Qed.
Lemma constant_encoded r v : is_u32 v -> constant (map encode_word (load_const r v)) r v.
Proof.
  intros H. pose proof (const_wf r v H) as W. unfold load_const in *. rewrite high in * by auto. inversion W as [|? ? W1 W']; subst. inversion W' as [|? ? W2 W'']; subst. inversion W'' as [|? ? W3 _]; subst.
  do 3 eexists. split; [reflexivity|]. split; [left; apply stands_encoded; auto|]. split; apply stands_encoded; auto.
Qed.
Lemma constant_back r v bss : is_u32 v -> r <> R_pc -> Forall2 word_back (map PInstr (load_const r v)) bss -> constant (map word_of_bytes bss) r v.
Proof.
  intros H Hp F. unfold load_const in F. rewrite high in F by auto. cbn [map] in F.
  inversion F as [|? b1 ? ? X1 F']; subst. inversion F' as [|? b2 ? ? X2 F'']; subst. inversion F'' as [|? b3 ? ? X3 F3]; subst. inversion F3; subst.
  destruct X1 as (j1 & R1 & J1), X2 as (j2 & R2 & J2), X3 as (j3 & R3 & J3). cbn [map].
  do 3 eexists. split; [reflexivity|]. apply stands_text in J1, J2, J3. cbn [reassembled] in R2, R3. injection R2 as <-. injection R3 as <-. split; [|split; [exact J2|exact J3]].
  destruct (Z.eqb_spec (v / 65536) 0) as [E|E].
  - right. split; [exact E|]. rewrite E in R1. replace (Xor r (Reg2 r)) with j1; [exact J1|]. destruct r; cbn [reassembled] in R1; try congruence; injection R1 as <-; reflexivity.
  - left. replace (Cpy r (Lit2 (v / 65536))) with j1; [exact J1|]. destruct (v / 65536); destruct r; cbn [reassembled] in R1; try congruence; injection R1 as <-; reflexivity.
Qed.
Lemma to_instr_wf e : ext_wf e -> Forall instr_wf (to_instr e).
Proof.
  assert (L : forall a, Forall instr_wf [Lea (Reg1 a) (Lit1 0) (Lit1 0)]) by (intros; repeat constructor; cbn; unfold is_u8; lia).
  destruct e; cbn [ext_wf to_instr]; intros H; repeat (apply Forall_app; split); try apply const_wf; try apply H; repeat constructor; cbn; unfold is_u8; lia.
Qed.
Lemma ext_words_wf e : ext_wf e -> Forall word_wf (from_instr (to_instr e)).
Proof. intros H. unfold from_instr. apply Forall_map. eapply Forall_impl; [|apply to_instr_wf, H]. auto. Qed.
Lemma quads_flat bss : quads (flat_map list_of_bytes bss) = bss.
Proof. induction bss as [|[[[a b] c] d] t IH]; [reflexivity|]. cbn [flat_map list_of_bytes app quads]. rewrite IH. reflexivity. Qed.
Lemma written_back oc e code : ext_wf e -> written oc e code -> exists bss, quads code = bss /\ code = flat_map list_of_bytes bss /\ Forall2 word_back (map PInstr (to_instr e)) bss.
Proof.
  intros W (t & H & A). pose proof (P_C69_program oc _ t (ext_words_wf e W) H) as X. rewrite A in X. destruct X as (bss & E & F). exists bss. split; [rewrite E; apply quads_flat|]. auto.
Qed.
Lemma never_rejected e : ~ Exists word_rejected (from_instr (to_instr e)).
Proof.
  assert (C : forall r v, ~ Exists word_rejected (map PInstr (load_const r v))).
  { intros r v X. unfold load_const in X. cbn [map] in X. inversion X as [? ? X1|? ? X1]; subst.
    - revert X1. cbn [word_rejected]. destruct r; cbn [reassembled]; try discriminate; destruct (u16 (Z.shiftr v 16)); discriminate.
    - inversion X1 as [? ? X2|? ? X2]; subst; [discriminate X2|]. inversion X2 as [? ? X3|? ? X3]; subst; [discriminate X3|]. inversion X3. }
  intros X. unfold from_instr in X. destruct e; cbn [to_instr] in X; rewrite ?map_app in X.
  - exact (C _ _ X).
  - apply Exists_app in X. destruct X as [X|X]; [exact (C _ _ X)|]. inversion X as [? ? Y|? ? Y]; subst; [discriminate Y|inversion Y].
  - apply Exists_app in X. destruct X as [X|X]; [exact (C _ _ X)|]. inversion X as [? ? Y|? ? Y]; subst; [discriminate Y|]. inversion Y as [? ? Y2|? ? Y2]; subst; [|inversion Y2]. cbn [word_rejected] in Y2. destruct r; discriminate.
  - apply Exists_app in X. destruct X as [X|X]; [exact (C _ _ X)|]. inversion X as [? ? Y|? ? Y]; subst; [discriminate Y|]. inversion Y as [? ? Y2|? ? Y2]; subst; [discriminate Y2|inversion Y2].
  - apply Exists_app in X. destruct X as [X|X]; [exact (C _ _ X)|]. apply Exists_app in X. destruct X as [X|X]; [exact (C _ _ X)|]. inversion X as [? ? Y|? ? Y]; subst; [discriminate Y|inversion Y].
Qed.

(** ** C92 *)
(** Every extended instruction prints a text, in any build, that the assembler accepts and turns into as many instructions. *)
Lemma P_C92_text : forall oc e, ext_wf e -> exists code, written oc e code /\ zlen code = 4 * ext_count e.
Proof.
  intros oc e W. pose proof (ext_words_wf e W) as F. destruct (P_C69_prints_program oc _ false F) as [(t & T)|(_ & _ & I)].
  - destruct (assemble t) as [code|] eqn:A; [|destruct (never_rejected e); apply (P_C69_rejected oc _ t F T), A]. exists code.
    assert (H : written oc e code) by (exists t; auto). split; [exact H|]. destruct (written_back oc e code W H) as (bss & _ & -> & B).
    assert (L : forall l : list bytes4, zlen (flat_map list_of_bytes l) = 4 * zlen l) by (unfold zlen; induction l as [|[[[a b] c] d] l IH]; [reflexivity|]; cbn [flat_map list_of_bytes app List.length]; lia).
    assert (N : List.length bss = List.length (to_instr e)) by (rewrite <- (map_length PInstr); clear - B; induction B; cbn [List.length]; congruence).
    rewrite L. unfold zlen. rewrite N. destruct e; reflexivity.
  - unfold from_instr in I. apply in_map_iff in I. destruct I as (x & E & I). injection E as ->. exfalso. revert I. destruct e; cbn [to_instr load_const app In]; intuition discriminate.
Qed.
(** The text of SetReg(r, v), assembled and run, sets the register and nothing else but pc and af. *)
Lemma P_C92_set_reg : forall D (ops : bus_ops D) oc oc' m r v code m', typed ops -> wf m -> is_u32 v -> can_write (sup_mode m) r = true -> r <> R_pc -> r <> R_smt ->
  written oc' (SetReg r v) code -> runs_words ops oc m (words_of code) m' -> prepared ops oc m (words_of code) [(r, v)] m'.
Proof.
  intros D ops oc oc' m r v code m' T Hw Hv Hc Hp Hs H X. destruct (written_back oc' (SetReg r v) code Hv H) as (bss & E & _ & B). unfold words_of in *. rewrite E in *. cbn [to_instr] in B.
  pose proof (constant_back r v bss Hv Hp B) as C. destruct (set_constant D ops oc m _ r v m' T Hw Hv Hc Hp Hs C X) as (S & Q & _). destruct C as (w1 & w2 & w3 & C & _). rewrite C in *. split; auto.
Qed.
(** So does the text of the others: unlike its encoding, the text of ReadAddrTo loads into the register given, *)
Lemma P_C92_read_addr_to : forall D (ops : bus_ops D) oc oc' m r a code m', typed ops -> wf m -> is_u32 a -> can_write (sup_mode m) r = true -> r <> R_pc ->
  written oc' (ReadAddrTo r a) code -> runs_words ops oc m (words_of code) m' -> loads_to ops oc m (words_of code) a R_avr r m'.
Proof.
  intros D ops oc oc' m r a code m' T Hw Ha Hc Hp H X. destruct (written_back oc' (ReadAddrTo r a) code Ha H) as (bss & E & _ & B). unfold words_of in *. rewrite E in *. cbn [to_instr] in B.
  rewrite map_app in B. apply Forall2_app_inv_l in B. destruct B as (b3 & bt & B & F & ->). rewrite map_app in *. cbn [map] in F.
  inversion F as [|? b4 ? ? X4 F']; subst. inversion F' as [|? b5 ? ? X5 F'']; subst. inversion F''; subst. destruct X4 as (j4 & R4 & J4), X5 as (j5 & R5 & J5).
  cbn [reassembled] in R4. injection R4 as <-. replace j5 with (Cpy r (Reg2 R_avr)) in J5 by (destruct r; cbn [reassembled] in R5; congruence).
  apply stands_text in J4, J5. cbn [map] in *. apply loads_gen; auto; try discriminate. apply constant_back; auto. discriminate.
Qed.
(** the text of WriteAddr stores the register given (or the address itself, if this register is rr0), *)
Lemma P_C92_write_addr : forall D (ops : bus_ops D) oc oc' m r a code m', typed ops -> wf m -> is_u32 a -> can_read (sup_mode m) r = true -> r <> R_pc -> r <> R_af ->
  written oc' (WriteAddr a r) code -> runs_words ops oc m (words_of code) m' -> stores_from ops oc m (words_of code) a r m'.
Proof.
  intros D ops oc oc' m r a code m' T Hw Ha Hc Hp Hf H X. destruct (written_back oc' (WriteAddr a r) code Ha H) as (bss & E & _ & B). unfold words_of in *. rewrite E in *. cbn [to_instr] in B.
  rewrite map_app in B. apply Forall2_app_inv_l in B. destruct B as (b3 & bt & B & F & ->). rewrite map_app in *. cbn [map] in F.
  inversion F as [|? b4 ? ? X4 F']; subst. inversion F' as [|? b5 ? ? X5 F'']; subst. inversion F''; subst. destruct X4 as (j4 & R4 & J4), X5 as (j5 & R5 & J5).
  cbn [reassembled] in R4, R5. injection R4 as <-. injection R5 as <-.
  apply stands_text in J4, J5. cbn [map] in *. apply stores_gen; auto. apply constant_back; auto. discriminate.
Qed.
(** and those of ReadAddr and WriteAddrLit load into avr and store the constant. *)
Lemma P_C92_read_addr : forall D (ops : bus_ops D) oc oc' m a code m', typed ops -> wf m -> is_u32 a ->
  written oc' (ReadAddr a) code -> runs_words ops oc m (words_of code) m' ->
  exists m3 mem1, prepared ops oc m (firstn 3 (words_of code)) [(R_avr, a)] m3 /\ executes ops oc m3 (Lea (Reg1 R_avr) (Lit1 0) (Lit1 0)) mem1 m' /\
    ((exists w, loads ops m mem1 a w (c_mem m') /\ straight m m' 4 [(R_avr, w)]) \/
     (exists mem2 code data, load_faults ops m mem1 a mem2 code data /\ raised m3 m' mem2 code data)).
Proof.
  intros D ops oc oc' m a code m' T Hw Ha H X. destruct (written_back oc' (ReadAddr a) code Ha H) as (bss & E & _ & B). unfold words_of in *. rewrite E in *. cbn [to_instr] in B.
  rewrite map_app in B. apply Forall2_app_inv_l in B. destruct B as (b3 & bt & B & F & ->). rewrite map_app in *. cbn [map] in F.
  inversion F as [|? b4 ? ? X4 F']; subst. inversion F'; subst. destruct X4 as (j4 & R4 & J4). cbn [reassembled] in R4. injection R4 as <-. apply stands_text in J4.
  apply constant_back in B; auto; try discriminate. apply runs_words_app in X. destruct X as (m3 & X1 & X2). cbn [map runs_words] in X2. destruct X2 as (mem1 & m4 & X2 & ->).
  destruct (set_constant D ops oc m _ R_avr a m3 T Hw Ha (plain_avr _) ltac:(discriminate) ltac:(discriminate) B X1) as (S & Q & Hw3).
  pose proof (J4 _ _ _ _ _ _ T Hw3 X2) as E4. exists m3, mem1. destruct B as (w1 & w2 & w3 & B & _). rewrite B in *. cbn [app firstn]. split; [split; [exact S|exact Q]|]. split; [exact E4|]. eapply lea_part; eauto.
Qed.
(** WriteAddrLit written as text and assembled: the value is stored at the address, or the store's exception is raised, after rr0 and avr were set. *)
Lemma P_C92_write_addr_lit : forall D (ops : bus_ops D) oc oc' m a v code m', typed ops -> wf m -> is_u32 a -> is_u32 v ->
  written oc' (WriteAddrLit a v) code -> runs_words ops oc m (words_of code) m' ->
  exists m6 mem1, prepared ops oc m (firstn 6 (words_of code)) [(R_rr0, a); (R_avr, v)] m6 /\ executes ops oc m6 (Wea (Reg1 R_rr0) (Lit1 0) (Lit1 0)) mem1 m' /\
    ((stores ops m mem1 a v (c_mem m') /\ straight m m' 7 [(R_rr0, a); (R_avr, v)]) \/
     (exists mem2 code data, store_faults ops m mem1 a v mem2 code data /\ raised m6 m' mem2 code data)).
Proof.
  intros D ops oc oc' m a v code m' T Hw Ha Hv H X. destruct (written_back oc' (WriteAddrLit a v) code (conj Ha Hv) H) as (bss & E & _ & B). unfold words_of in *. rewrite E in *. cbn [to_instr] in B.
  rewrite map_app in B. apply Forall2_app_inv_l in B. destruct B as (b3 & bt & B & F & ->). rewrite map_app in F. apply Forall2_app_inv_l in F. destruct F as (b6 & bu & B' & F & ->). rewrite !map_app in *. cbn [map] in F.
  inversion F as [|? b4 ? ? X4 F']; subst. inversion F'; subst. destruct X4 as (j4 & R4 & J4). cbn [reassembled] in R4. injection R4 as <-. apply stands_text in J4.
  apply constant_back in B; auto; try discriminate. apply constant_back in B'; auto; try discriminate.
  apply runs_words_app in X. destruct X as (m3 & X1 & X). apply runs_words_app in X. destruct X as (m6 & X2 & X3). cbn [map runs_words] in X3. destruct X3 as (mem1 & m7 & X3 & ->).
  destruct (set_constant D ops oc m _ R_rr0 a m3 T Hw Ha (plain_rr0 _) ltac:(discriminate) ltac:(discriminate) B X1) as (S1 & Q1 & Hw3).
  destruct (set_constant D ops oc m3 _ R_avr v m6 T Hw3 Hv (plain_avr _) ltac:(discriminate) ltac:(discriminate) B' X2) as (S2 & Q2 & Hw6).
  pose proof (J4 _ _ _ _ _ _ T Hw6 X3) as E4.
  assert (S : straight m m6 6 [(R_rr0, a); (R_avr, v)]).
  { change 6 with (3 + 3). change [(R_rr0, a); (R_avr, v)] with ([(R_rr0, a)] ++ [(R_avr, v)]). eapply straight_app; eauto; cbn; try (intuition discriminate).
    intros r x [Y|[]]. injection Y as <- <-. intuition discriminate. }
  pose proof (quiet_app D ops oc _ m _ m3 m6 Q1 Q2) as Q.
  exists m6, mem1. destruct B as (w1 & w2 & w3 & B & _). destruct B' as (u1 & u2 & u3 & B' & _). rewrite B, B' in *. cbn [app firstn] in *. split; [split; [exact S|exact Q]|]. split; [exact E4|]. change 7 with (6 + 1). eapply wea_part; eauto.
Qed.
(** The encoding of ReadAddrTo loads the word in avr but copies a0 to the register, and that of WriteAddr stores a0, whatever the register given. *)
Lemma P_C92_encoded_read_addr_to : forall D (ops : bus_ops D) oc m r a m', typed ops -> wf m -> is_u32 a -> can_write (sup_mode m) r = true -> r <> R_pc ->
  runs_words ops oc m (ext_encode_words (ReadAddrTo r a)) m' -> loads_to ops oc m (ext_encode_words (ReadAddrTo r a)) a R_a0 r m'.
Proof.
  intros D ops oc m r a m' T Hw Ha Hc Hp. unfold ext_encode_words, encode_words, from_instr. cbn [to_instr]. rewrite map_map, map_app.
  change (map (fun x : instr => pw_encode_word (PInstr x)) (load_const R_avr a)) with (map encode_word (load_const R_avr a)). cbn [map].
  apply loads_gen; auto; try discriminate; [apply constant_encoded; auto|apply (stands_encoded (Lea (Reg1 R_avr) (Lit1 0) (Lit1 0))); [cbn; unfold is_u8; lia|reflexivity]|].
  apply (stands_wide (Cpy r (Reg2 R_avr))); [cbn; auto|discriminate].
Qed.
(** WriteAddr encoded directly, not through its text, stores register a0 whatever register was asked for. *)
Lemma P_C92_encoded_write_addr : forall D (ops : bus_ops D) oc m r a m', typed ops -> wf m -> is_u32 a ->
  runs_words ops oc m (ext_encode_words (WriteAddr a r)) m' -> stores_from ops oc m (ext_encode_words (WriteAddr a r)) a R_a0 m'.
Proof.
  intros D ops oc m r a m' T Hw Ha. unfold ext_encode_words, encode_words, from_instr. cbn [to_instr]. rewrite map_map, map_app.
  change (map (fun x : instr => pw_encode_word (PInstr x)) (load_const R_rr0 a)) with (map encode_word (load_const R_rr0 a)). cbn [map].
  apply stores_gen; auto; try discriminate; [apply orb_true_r|apply constant_encoded; auto| |apply (stands_encoded (Wea (Reg1 R_rr0) (Lit1 0) (Lit1 0))); [cbn; unfold is_u8; lia|reflexivity]].
  apply (stands_wide (Cpy R_avr (Reg2 r))); [cbn; auto|discriminate].
Qed.

(** The annotated listing of a program is its plain listing, each line after the address of its word, in hexadecimal on eight digits (a program of
    less than 2^29 words, so that the addresses are positive 32-bit numbers). *)
Lemma P_C92_listing : forall oc p t, zlen p < 2 ^ 29 -> prog_to_lasm oc p true = Ret t ->
  exists xs ls, t = String.concat newline (map (fun xl => fst xl ++ ": " ++ snd xl)%string (combine xs ls)) /\
    Forall2 (fun w l => pw_to_lasm oc w = Ret l) p ls /\ prog_to_lasm oc p false = Ret (String.concat newline ls) /\
    List.length xs = List.length p /\ forall k x, nth_error xs k = Some x -> hex_of 8 x (4 * Z.of_nat k).
Proof.
  intros oc p t L H. unfold prog_to_lasm in H. destruct (to_lasm_annotated oc 0 p) as [ts|] eqn:A; [|discriminate]. cbn [obind] in H. apply ret_eq in H. subst t.
  assert (X : forall p c ts, 0 <= c -> c + 4 * zlen p <= 2 ^ 31 -> to_lasm_annotated oc c p = Ret ts -> exists xs ls, ts = map (fun xl => fst xl ++ ": " ++ snd xl)%string (combine xs ls) /\
    Forall2 (fun w l => pw_to_lasm oc w = Ret l) p ls /\ to_lasm_lines oc p = Ret ls /\ List.length xs = List.length p /\ forall k x, nth_error xs k = Some x -> hex_of 8 x (c + 4 * Z.of_nat k)).
  { clear. induction p as [|w p IH]; intros c ts Hc Hl H; cbn [to_lasm_annotated] in H.
    - apply ret_eq in H. subst ts. exists [], []. repeat split; auto. intros [|k] x Y; discriminate.
    - destruct (pw_to_lasm oc w) as [l|] eqn:E; [|discriminate]. cbn [obind] in H. destruct (to_lasm_annotated oc (c + 4) p) as [us|] eqn:F; [|discriminate]. cbn [obind] in H. apply ret_eq in H. subst ts.
      assert (N : zlen (w :: p) = 1 + zlen p) by (unfold zlen; cbn [List.length]; lia). assert (0 <= zlen p) by (unfold zlen; lia).
      destruct (IH (c + 4) us) as (xs & ls & -> & B & C & G & K); auto; try lia.
      exists (fmt_hex10 c :: xs), (l :: ls). split; [reflexivity|]. split; [constructor; auto|]. split; [cbn [to_lasm_lines]; rewrite E, C; reflexivity|]. split; [cbn [List.length]; congruence|].
      intros [|k] x Y; cbn [nth_error] in Y.
      + injection Y as <-. replace (c + 4 * Z.of_nat 0) with c by lia. apply hex_reads; [lia|]. split; [lia|]. eapply Z.le_lt_trans; [|apply (Z.pow_lt_mono_r 2 31 256); lia]. lia.
      + replace (c + 4 * Z.of_nat (S k)) with (c + 4 + 4 * Z.of_nat k) by lia. auto. }
  destruct (X p 0 ts) as (xs & ls & -> & B & C & G & K); auto; try lia.
  exists xs, ls. split; [reflexivity|]. split; [exact B|]. split; [unfold prog_to_lasm; rewrite C; reflexivity|]. auto.
Qed.

(** ** Witnesses *)
Lemma written_intro e code (P : Prop) : match ext_to_lasm true e with Ret t => assemble t | Panic => None end = Some code -> P -> written true e code /\ P.
Proof. intros H X. split; [|exact X]. unfold written. destruct (ext_to_lasm true e) as [t|]; [|discriminate]. eauto. Qed.
Lemma E_C92_listing : prog_to_lasm true (from_instr (to_instr (ReadAddr 131080))) true =
  Ret (String.concat newline ["0x00000000: cpy avr, 0x2"; "0x00000004: shl avr, 0x10"; "0x00000008: add avr, 0x8"; "0x0000000C: lea avr, 0x0, 0x0"])%string.
Proof. vm_compute. reflexivity. Qed.
Lemma E_C92_text : exists t, ext_wf (ReadAddrTo R_a3 131080) /\ ext_to_lasm true (ReadAddrTo R_a3 131080) = Ret t /\
  t = String.concat newline ["cpy avr, 0x2"; "shl avr, 0x10"; "add avr, 0x8"; "lea avr, 0x0, 0x0"; "cpy a3, avr"]%string.
Proof. eexists. split; [cbn; unfold is_u32; lia|]. split; vm_compute; reflexivity. Qed.
(** The word at address 8 is the third instruction. *)
Lemma E_C92_read_addr_to : exists code, written true (ReadAddrTo R_a3 8) code /\ demo_words (words_of code) 0 (words_of code) (fun m m' =>
  can_write (sup_mode m) R_a3 = true /\ R m R_a3 = 0 /\ R m' R_a3 = encode_word (Add R_avr (Lit2 8)) /\ R m' R_pc = 20).
Proof.
  eexists. apply written_intro; [vm_compute; reflexivity|]. apply demo_words_intro. vm_compute. repeat split; congruence.
Qed.
Lemma E_C92_write_addr : exists code, written true (WriteAddr 260 R_a3) code /\ demo_words (asm [Cpy R_a3 (Lit2 77)] ++ words_of code) 1 (words_of code) (fun m m' =>
  can_read (sup_mode m) R_a3 = true /\ R m R_a3 = 77 /\ R m R_a0 = 0 /\ mem_read (dev_ops false) false (c_mem m') 260 = Ret (c_mem m', 0, 77) /\ R m' R_pc = 24).
Proof.
  eexists. apply written_intro; [vm_compute; reflexivity|]. apply demo_words_intro. vm_compute. repeat split; congruence.
Qed.
Lemma E_C92_set_reg : exists code, written true (SetReg R_ev 65535) code /\ demo_words (words_of code) 0 (words_of code) (fun m m' =>
  can_write (sup_mode m) R_ev = true /\ R m' R_ev = 65535 /\ R m' R_pc = 12).
Proof.
  eexists. apply written_intro; [vm_compute; reflexivity|]. apply demo_words_intro. vm_compute. repeat split; congruence.
Qed.
Lemma E_C92_read_addr : exists code, written true (ReadAddr 8) code /\ demo_words (words_of code) 0 (words_of code) (fun m m' =>
  R m' R_avr = encode_word (Add R_avr (Lit2 8)) /\ R m' R_pc = 16).
Proof.
  eexists. apply written_intro; [vm_compute; reflexivity|]. apply demo_words_intro. vm_compute. repeat split; congruence.
Qed.
Lemma E_C92_write_addr_lit : exists code, written true (WriteAddrLit 260 3735928559) code /\ demo_words (words_of code) 0 (words_of code) (fun m m' =>
  mem_read (dev_ops false) false (c_mem m') 260 = Ret (c_mem m', 0, 3735928559) /\ R m' R_pc = 28).
Proof.
  eexists. apply written_intro; [vm_compute; reflexivity|]. apply demo_words_intro. vm_compute. repeat split; congruence.
Qed.
Lemma E_C92_encoded_read_addr_to : demo_words (asm [Cpy R_a0 (Lit2 77)] ++ ext_encode_words (ReadAddrTo R_a1 8)) 1 (ext_encode_words (ReadAddrTo R_a1 8)) (fun m m' =>
  R m R_a0 = 77 /\ R m' R_a1 = 77 /\ R m' R_avr = encode_word (Shl R_avr (Lit1 16))).
Proof. apply demo_words_intro. vm_compute. repeat split; congruence. Qed.
Lemma E_C92_encoded_write_addr : demo_words (asm [Cpy R_a0 (Lit2 77); Cpy R_a1 (Lit2 5)] ++ ext_encode_words (WriteAddr 260 R_a1)) 2 (ext_encode_words (WriteAddr 260 R_a1)) (fun m m' =>
  R m R_a1 = 5 /\ mem_read (dev_ops false) false (c_mem m') 260 = Ret (c_mem m', 0, 77)).
Proof. apply demo_words_intro. vm_compute. repeat split; congruence. Qed.
