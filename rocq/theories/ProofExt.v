(** Assembled code on the processor (C12, C43, C47, C48, C50, C52). *)
From Coq Require Import String ZArith List Bool Lia.
From Verif Require Import Base Board Mem Cpu Asm Tools Runner Devices SpecMach SpecIsa SpecBus SpecObs SpecTools SpecAsm SpecExt
  BaseFacts RegFacts MemFacts AluFacts IsaFacts IsaStep MonoFacts CycleFacts UndFacts HoareFacts CyclePost InvFacts MapFacts ReachFacts DevTyped ExecFacts
  StepCases Demo ProofAlu ProofState ProofPanic ProofReg ProofMem ProofAsm ProofTools.
Import ListNotations.
Open Scope Z_scope.
Ltac Zify.zify_post_hook ::= Z.div_mod_to_equations.

(** * C43 *)
Lemma bytes_word i : instr_wf i -> bytes_of_word (encode_word i) = encode i.
Proof.
  intros H. pose proof (P_C41_bytes i H) as X. unfold encode_word, word_of_bytes, bytes_of_word. destruct (encode i) as [[[a b] c] d].
  destruct X as ((Ha & Hb & Hc & Hd) & _). unfold is_u8, of_be4, u8 in *. change (2 ^ 24) with 16777216. change (2 ^ 16) with 65536. change (2 ^ 8) with 256.
  f_equal; [f_equal; [f_equal|]|]; lia.
Qed.
(** On an encoded instruction without 2-byte register operand, the CPU does what the instruction-set specification says of it. *)
Lemma P_C43_executes : forall D (ops : bus_ops D) oc m i mem1 m', typed ops -> wf m -> instr_wf i -> wide_reg i = None ->
  executes_word ops oc m (encode_word i) mem1 m' ->
  executes ops oc m i mem1 m' /\
  step (board_bus ops false) i (St (file (c_regs m)) mem1 ((c_cycles m + 1) mod 2 ^ 128) false) = Ret (abs m').
Proof.
  intros D ops oc m i mem1 m' T Hw Hi Hr (H1 & H2 & H3).
  assert (He : executes ops oc m i mem1 m').
  { split; auto. split; auto. exists (encode_word i). split; auto. rewrite bytes_word by auto. apply P_C41_roundtrip; auto. }
  split; [auto|]. exact (exec_step ops T _ _ _ _ _ Hw He).
Qed.
(** A word and the re-encoding of what it decodes to (no 2-byte register operand) are executed identically: the cycle that fetches the word
    has the effect specified for the instruction in the re-encoding, from the state after the fetch. *)
Lemma P_C42_executes : forall D (ops : bus_ops D) oc m w i mem1 m', typed ops -> wf m ->
  decode (bytes_of_word w) = ROk i -> wide_reg i = None -> executes_word ops oc m w mem1 m' ->
  exists j, decode (bytes_of_word (encode_word i)) = ROk j /\
    step (board_bus ops false) j (St (file (c_regs m)) mem1 ((c_cycles m + 1) mod 2 ^ 128) false) = Ret (abs m').
Proof.
  intros D ops oc m w i mem1 m' T Hm Hd Hr (H1 & H2 & H3).
  assert (He : executes ops oc m i mem1 m') by (split; auto; split; auto; exists w; auto).
  assert (Hb : bytes_wf (bytes_of_word w)) by (unfold bytes_of_word, bytes_wf, is_u8, u8; lia).
  exists i. split; [|exact (exec_step ops T _ _ _ _ _ Hm He)].
  pose proof (P_C42_decode _ Hb) as X. rewrite Hd in X. destruct X as (_ & X & _). rewrite bytes_word by auto. apply P_C41_roundtrip; auto.
Qed.
Lemma E_C42_executes : demo_raw (asm [Cpy R_a0 (Lit2 5)] ++ [encode_word (Shl R_a0 (Lit1 2)) + 77]) 1 (encode_word (Shl R_a0 (Lit1 2)) + 77)
  (fun m mem1 m' => decode (bytes_of_word (encode_word (Shl R_a0 (Lit1 2)) + 77)) = ROk (Shl R_a0 (Lit1 2)) /\ R m R_a0 = 5 /\ R m' R_a0 = 20).
Proof. apply demo_raw_intro. vm_compute. repeat split. Qed.
(** With a 2-byte register operand it does the same with register a0 instead, *)
Lemma P_C43_wide : forall D (ops : bus_ops D) oc m i mem1 m', typed ops -> wf m -> instr_wf i -> wide_reg i <> None ->
  executes_word ops oc m (encode_word i) mem1 m' -> executes ops oc m (with_wide_reg i R_a0) mem1 m'.
Proof.
  intros D ops oc m i mem1 m' T Hw Hi Hr (H1 & H2 & H3). split; auto. split; auto. exists (encode_word i). split; auto. rewrite bytes_word by auto.
  apply P_C41_outcome; auto.
Qed.
Lemma E_C43_wide : demo_raw (asm [Cpy R_a1 (Lit2 7); Cpy R_a2 (Reg2 R_a1)]) 1 (encode_word (Cpy R_a2 (Reg2 R_a1)))
  (fun m mem1 m' => R m R_a1 = 7 /\ R m R_a0 = 0 /\ R m' R_a2 = 0).
Proof. apply demo_raw_intro. vm_compute. repeat split. Qed.
(** so the claim that every encoded instruction is executed as written is false. *)
Lemma P_C43_executes_refuted : ~ (forall D (ops : bus_ops D) oc m i mem1 m', typed ops -> wf m -> instr_wf i ->
  executes_word ops oc m (encode_word i) mem1 m' ->
  step (board_bus ops false) i (St (file (c_regs m)) mem1 ((c_cycles m + 1) mod 2 ^ 128) false) = Ret (abs m')).
Proof.
  intros H. destruct E_C43_wide as (m & mem1 & m' & Hr & Hh & Hl & Hn & A1 & A0 & A2).
  assert (Hw : wf m) by (eapply reachable_wf; eauto; apply dev_typed).
  specialize (H _ (dev_ops false) false m (Cpy R_a2 (Reg2 R_a1)) mem1 m' (dev_typed false) Hw I (conj Hh (conj Hl Hn))).
  cbn [step read2] in H. change (St (file (c_regs m)) mem1 ((c_cycles m + 1) mod 2 ^ 128) false) with (start m mem1) in H.
  assert (E : reg_value m R_a1 = Some 7) by (unfold reg_value, can_read; cbn [user_reg]; rewrite orb_true_r, A1; reflexivity).
  erewrite read_ok in H by eauto.
  destruct (ends_write_end (start m mem1) [] (start m mem1) R_a2 7) as (s & Es & Hs).
  { apply sets_refl, len_start; auto. } { unfold can_write. cbn [user_reg read_only]. rewrite orb_true_r. reflexivity. }
  rewrite Es in H. apply Ret_inj in H. subst s. destruct Hs as (_ & _ & _ & _ & Hs). specialize (Hs R_a2). cbn in Hs.
  change (R m' R_a2 = 7) in Hs. congruence.
Qed.
Lemma E_C43_executes : demo_raw (asm [Wsa (Lit1 0) (Lit1 0) (Lit1 1)]) 0 (encode_word (Wsa (Lit1 0) (Lit1 0) (Lit1 1)))
  (fun m mem1 m' => R m' R_et = et_value true 160 (49 * 256)).
Proof. apply demo_raw_intro. vm_compute. repeat split. Qed.

(** * C12 *)
(** CMP then a comparison alias: the next instruction runs iff the comparison holds, otherwise exactly one instruction is skipped. *)
Lemma P_C12_aliases : forall D (ops : bus_ops D) oc m d v x y mem1 m1 i holds mem2 m2, typed ops -> wf m ->
  executes ops oc m (Cmp d v) mem1 m1 -> reg_value m d = Some x -> operand2 m v = Some y ->
  In (i, holds) aliases -> executes ops oc m1 i mem2 m2 ->
  after m1 m2 mem2 [(R_pc, (R m R_pc + 4 + (if holds x y then 4 else 8)) mod 2 ^ 32)].
Proof.
  intros D ops oc m d v x y mem1 m1 i holds mem2 m2 T Hw He Hx Hy Hi He2.
  destruct (P_C11_cmp D ops oc m d v mem1 m1 x y T Hw He Hx Hy) as (A & CF & _ & ZF & _).
  assert (Hw1 : wf m1) by (eapply next_wf; eauto; apply He).
  assert (Ux : is_u32 x). { unfold reg_value in Hx. destruct (can_read _ _); [|discriminate]. injection Hx as <-. apply R_u32. apply Hw. }
  assert (Uy : is_u32 y).
  { destruct He as (_ & (w & _ & Ed) & _). apply decode_ok_instr in Ed. cbn [ok_instr] in Ed. destruct v as [r|n]; cbn [operand2] in Hy.
    - unfold reg_value in Hy. destruct (can_read _ _); [|discriminate]. injection Hy as <-. apply R_u32, Hw.
    - injection Hy as <-. cbn in Ed. unfold is_u16, is_u32 in *; lia. }
  assert (Z : flag m1 7 = (x =? y)). { apply eq_true_iff_eq. rewrite ZF, Z.eqb_eq. unfold is_u32 in *. change (2 ^ 32) with 4294967296. split; [|intros ->; rewrite Z.sub_diag; reflexivity]. intros E. apply Z.mod_divide in E; [|lia]. destruct E as (k & E). lia. }
  assert (C : flag m1 6 = (x <? y)). { apply eq_true_iff_eq. rewrite CF, Z.ltb_lt. reflexivity. }
  assert (P : R m1 R_pc = (R m R_pc + 4) mod 2 ^ 32) by (destruct A as (A & _); rewrite A; reflexivity).
  assert (X : after m1 m2 mem2 [(R_pc, (R m1 R_pc + (if holds x y then 4 else 8)) mod 2 ^ 32)]).
  { cbn [aliases In] in Hi.
    destruct Hi as [E|[E|[E|[E|[E|[E|[]]]]]]]; injection E as <- <-.
    - destruct (P_C13_if D ops oc m1 _ (Lit1 0) 0 false mem2 m2 T Hw1 He2 eq_refl eq_refl) as (_ & K). specialize (K ltac:(lia)). cbn [xorb] in K. change (7 - 0) with 7 in K. rewrite Z in K. destruct (x =? y); exact K.
    - destruct (P_C13_if D ops oc m1 _ (Lit1 0) 0 true mem2 m2 T Hw1 He2 eq_refl eq_refl) as (_ & K). specialize (K ltac:(lia)). change (7 - 0) with 7 in K. rewrite Z in K. destruct (x =? y); exact K.
    - destruct (P_C13_if D ops oc m1 _ (Lit1 1) 1 false mem2 m2 T Hw1 He2 eq_refl eq_refl) as (_ & K). specialize (K ltac:(lia)). cbn [xorb] in K. change (7 - 1) with 6 in K. rewrite C in K. destruct (x <? y); exact K.
    - destruct (P_C13_if D ops oc m1 _ (Lit1 1) 1 true mem2 m2 T Hw1 He2 eq_refl eq_refl) as (_ & K). specialize (K ltac:(lia)). change (7 - 1) with 6 in K. rewrite C in K.
      rewrite Z.leb_antisym. destruct (x <? y); exact K.
    - destruct (P_C13_if2 D ops oc m1 _ _ _ 0 1 4 mem2 m2 T Hw1 He2 eq_refl eq_refl eq_refl) as (K & _). apply K; try lia. change (7 - 0) with 7. change (7 - 1) with 6. rewrite Z, C.
      cbn. f_equal. destruct (Z.eqb_spec x y), (Z.ltb_spec x y), (Z.ltb_spec y x); cbn; lia || reflexivity.
    - destruct (P_C13_if2 D ops oc m1 _ _ _ 0 1 1 mem2 m2 T Hw1 He2 eq_refl eq_refl eq_refl) as (K & _). apply K; try lia. change (7 - 0) with 7. change (7 - 1) with 6. rewrite Z, C.
      cbn. f_equal. destruct (Z.eqb_spec x y), (Z.ltb_spec x y), (Z.leb_spec x y); cbn; lia || reflexivity. }
  rewrite P in X. unfold after, regs_after in *. destruct X as (X & X2). split; [|exact X2]. intros r. rewrite X. cbn [assoc]. destruct (reg_code r =? _); [|reflexivity].
  rewrite Zplus_mod_idemp_l. reflexivity.
Qed.
Lemma E_C12_aliases : demo_case (asm [Cpy R_a0 (Lit2 3); Cmp R_a0 (Lit2 5); If2 (Lit1 0) (Lit1 1) (Lit1 1)]) 2 (fun m1 i mem1 m' =>
  In (i, fun x y => x <=? y) aliases /\ R m1 R_pc = 8 /\ R m' R_pc = 12).
Proof. apply demo_case_intro. vm_compute. split; [do 5 right; left; reflexivity|split; reflexivity]. Qed.

(** * C47 *)
(** CPY of a literal. *)
Lemma cpy_lit D (ops : bus_ops D) oc m d n mem1 m' : typed ops -> wf m -> executes ops oc m (Cpy d (Lit2 n)) mem1 m' -> can_write (sup_mode m) d = true ->
  after m m' mem1 [(d, n); (R_pc, (R m R_pc + 4) mod 2 ^ 32)].
Proof.
  intros T Hw He Hd. eapply ends_after; eauto. cbn [step read2]. apply (ends_write_end (start m mem1) []); auto. apply sets_refl, len_start; auto.
Qed.
Lemma can_write_read s r : can_write s r = true -> can_read s r = true.
Proof. unfold can_write, can_read. intros H. apply andb_true_iff in H. tauto. Qed.
Lemma assoc_other l r : ~ In r (map fst l) -> assoc l r = None.
Proof.
  induction l as [|[q v] t IH]; cbn [assoc map In]; intros H; [reflexivity|]. destruct (Z.eqb_spec (reg_code r) (reg_code q)) as [E|E].
  - apply reg_code_inj in E. subst. elim H. left; reflexivity.
  - apply IH. tauto.
Qed.
Lemma runs_quietly_words D (ops : bus_ops D) oc ws : forall m m', runs_quietly ops oc m ws m' -> runs_words ops oc m ws m'.
Proof. induction ws as [|w t IH]; cbn; intros m m' H; [auto|]. destruct H as (mem1 & m1 & H1 & _ & H2). eauto 6. Qed.
Lemma straight_one D (m m' : cpu D) mem r v a : after m m' mem [(r, v); (R_pc, (R m R_pc + 4) mod 2 ^ 32); (R_af, a)] -> r <> R_pc -> c_halted m = false -> straight m m' 1 [(r, v)].
Proof.
  intros (A & _ & B & C) Hr Hh. split; [|split; [|split; [|split]]].
  - intros q w [E|[]]. injection E as <- <-. rewrite A. cbn [assoc]. rewrite Z.eqb_refl. reflexivity.
  - intros q H1 H2 H3. rewrite A. rewrite assoc_other; [reflexivity|]. cbn in *. intuition congruence.
  - rewrite A. cbn [assoc]. destruct (Z.eqb_spec (reg_code R_pc) (reg_code r)) as [E|E]; [apply reg_code_inj in E; congruence|]. reflexivity.
  - congruence.
  - auto.
Qed.
Lemma straight_more D (a b c : cpu D) n k r v w : straight a b n [(r, v)] -> straight b c k [(r, w)] -> r <> R_pc -> straight a c (n + k) [(r, w)].
Proof.
  intros (A1 & A2 & A3 & A4 & A5) (B1 & B2 & B3 & B4 & B5) Hr. split; [auto|]. split; [|split; [|split; [auto|]]].
  - intros q H1 H2 H3. rewrite B2, A2; auto.
  - rewrite B3, A3. rewrite Zplus_mod_idemp_l. f_equal. lia.
  - rewrite B5, A5. rewrite Zplus_mod_idemp_l. f_equal. lia.
Qed.
Lemma straight_app D (a b c : cpu D) n k l l2 : straight a b n l -> straight b c k l2 -> ~ In R_pc (map fst l) -> ~ In R_af (map fst l) ->
  (forall r v, In (r, v) l -> ~ In r (map fst l2)) -> straight a c (n + k) (l ++ l2).
Proof.
  intros (A1 & A2 & A3 & A4 & A5) (B1 & B2 & B3 & B4 & B5) Hp Ha Hd. split; [|split; [|split; [|split; [auto|]]]].
  - intros r v H. apply in_app_or in H. destruct H as [H|H]; [|auto]. rewrite B2; eauto.
    + intros ->. apply Hp. apply in_map_iff. exists (R_pc, v); auto.
    + intros ->. apply Ha. apply in_map_iff. exists (R_af, v); auto.
  - intros q H1 H2 H3. rewrite map_app in H1. rewrite B2, A2; auto; intros H; apply H1, in_or_app; auto.
  - rewrite B3, A3. rewrite Zplus_mod_idemp_l. f_equal. lia.
  - rewrite B5, A5. rewrite Zplus_mod_idemp_l. f_equal. lia.
Qed.
Lemma straight_sup D (a b : cpu D) n l : straight a b n l -> ~ In R_smt (map fst l) -> sup_mode b = sup_mode a.
Proof. intros (_ & A & _) H. unfold sup_mode. rewrite A; auto; discriminate. Qed.

(** Executing SetReg(r, v) sets [r] to [v] and changes nothing else but pc, af and the cycle counter, for every register the
    current mode may write other than pc and smt. *)
Lemma set_reg D (ops : bus_ops D) oc m r v m' : typed ops -> wf m -> is_u32 v -> can_write (sup_mode m) r = true -> r <> R_pc -> r <> R_smt ->
  runs_words ops oc m (map encode_word (load_const r v)) m' ->
  straight m m' 3 [(r, v)] /\ runs_quietly ops oc m (map encode_word (load_const r v)) m' /\ wf m'.
Proof.
  intros T Hw Hv Hc Hp Hs H. unfold load_const in *. cbn [map runs_words] in H.
  destruct H as (mem1 & m1 & H1 & mem2 & m2 & H2 & mem3 & m3 & H3 & ->). unfold is_u32 in Hv.
  assert (V : u16 (Z.shiftr v 16) = v / 65536) by (rewrite Z.shiftr_div_pow2 by lia; change (2 ^ 16) with 65536; unfold u16; lia).
  assert (W1 : instr_wf (Cpy r (Lit2 (u16 (Z.shiftr v 16))))) by (cbn [instr_wf rl2_wf]; rewrite V; unfold is_u16; lia).
  assert (W2 : instr_wf (Shl r (Lit1 16))) by (cbn [instr_wf rl1_wf]; unfold is_u8; lia).
  assert (W3 : instr_wf (Add r (Lit2 (u16 v)))) by (cbn [instr_wf rl2_wf]; unfold is_u16, u16; lia).
  assert (Hw1 : wf m1) by (eapply next_wf; eauto; apply H1). assert (Hw2 : wf m2) by (eapply next_wf; eauto; apply H2). assert (Hw3 : wf m3) by (eapply next_wf; eauto; apply H3).
  destruct (P_C43_executes D ops oc m _ mem1 m1 T Hw W1 eq_refl H1) as (E1 & _).
  apply cpy_lit in E1; auto. rewrite V in E1.
  assert (A1 : after m m1 mem1 [(r, v / 65536); (R_pc, (R m R_pc + 4) mod 2 ^ 32); (R_af, R m R_af)]).
  { destruct E1 as (X & E1). split; [|exact E1]. intros q. rewrite X. cbn [assoc]. destruct (_ =? _); [reflexivity|]. destruct (_ =? _); [reflexivity|].
    destruct (Z.eqb_spec (reg_code q) (reg_code R_af)) as [E|E]; [|reflexivity]. apply reg_code_inj in E. subst. reflexivity. }
  assert (S1 := straight_one D _ _ _ _ _ _ A1 Hp (proj1 H1)).
  assert (M1 : sup_mode m1 = sup_mode m) by (eapply straight_sup; eauto; cbn; intuition congruence).
  destruct (P_C43_executes D ops oc m1 _ mem2 m2 T Hw1 W2 eq_refl H2) as (E2 & _).
  assert (V1 : R m1 r = v / 65536) by (apply S1; left; reflexivity).
  destruct (P_C08_shl D ops oc m1 r (Lit1 16) mem2 m2 (v / 65536) 16 T Hw1 E2) as (A2 & _).
  { unfold reg_value. rewrite M1, can_write_read, V1 by auto. reflexivity. } { reflexivity. } { rewrite M1; auto. }
  assert (S2 := straight_one D _ _ _ _ _ _ A2 Hp (proj1 H2)).
  assert (M2 : sup_mode m2 = sup_mode m) by (rewrite <- M1; eapply straight_sup; eauto; cbn; intuition congruence).
  destruct (P_C43_executes D ops oc m2 _ mem3 m3 T Hw2 W3 eq_refl H3) as (E3 & _).
  assert (V2 : R m2 r = v / 65536 * 65536). { destruct S2 as (S2 & _). rewrite (S2 r _ (or_introl eq_refl)). change (16 mod 32) with 16. change (2 ^ 16) with 65536. change (2 ^ 32) with 4294967296. lia. }
  destruct (P_C07_add D ops oc m2 r (Lit2 (u16 v)) mem3 m3 (v / 65536 * 65536) (u16 v) T Hw2 E3) as (A3 & _).
  { unfold reg_value. rewrite M2, can_write_read, V2 by auto. reflexivity. } { reflexivity. } { rewrite M2; auto. }
  replace ((v / 65536 * 65536 + u16 v) mod 2 ^ 32) with v in A3 by (unfold u16; change (2 ^ 32) with 4294967296; lia).
  assert (S3 := straight_one D _ _ _ _ _ _ A3 Hp (proj1 H3)).
  split; [|split; [|auto]].
  - change 3 with (1 + 1 + 1). eapply straight_more; [eapply straight_more; eauto|eauto|auto].
  - cbn [map runs_quietly]. exists mem1, m1. split; [auto|]. split; [apply E1|]. exists mem2, m2. split; [auto|]. split; [apply A2|]. exists mem3, m3. split; [auto|]. split; [apply A3|reflexivity].
Qed.
(** The three words of SetReg set the register to the value, touch nothing else, and raise nothing; pc and smt excepted. *)
Lemma P_C47_set_reg : forall D (ops : bus_ops D) oc m r v m', typed ops -> wf m -> is_u32 v -> can_write (sup_mode m) r = true ->
  r <> R_pc -> r <> R_smt -> runs_words ops oc m (ext_encode_words (SetReg r v)) m' ->
  straight m m' 3 [(r, v)] /\ runs_quietly ops oc m (ext_encode_words (SetReg r v)) m'.
Proof. intros D ops oc m r v m' T Hw Hv Hc Hp Hs H. destruct (set_reg D ops oc m r v m' T Hw Hv Hc Hp Hs H) as (A & B & _). auto. Qed.

(** Executable form of [runs_words], release build, translation off. *)
Fixpoint words_check (ws : list Z) (m : cpu device) : option (cpu device) :=
  match ws with
  | [] => Some m
  | w :: t =>
      if c_halted m then None
      else if R m R_mtt =? 0 then
        if R m R_pc mod 4 =? 0 then
          match mem_read (dev_ops false) false (c_mem m) (R m R_pc), next (dev_ops false) false m with
          | Ret (_, 0, w'), Ret m1 => if w' =? w then words_check t m1 else None
          | _, _ => None
          end
        else None
      else None
  end.
Lemma words_check_sound ws : forall m m', words_check ws m = Some m' -> runs_words (dev_ops false) false m ws m'.
Proof.
  induction ws as [|w t IH]; intros m m' H; cbn [words_check] in H; [injection H as <-; reflexivity|].
  destruct (c_halted m) eqn:Hh; [discriminate|]. destruct (R m R_mtt =? 0) eqn:Hm; [|discriminate].
  destruct (Z.eqb_spec (R m R_pc mod 4) 0) as [Ha|]; [|discriminate].
  destruct (mem_read _ _ _ _) as [[[mem1 ex] w']|] eqn:Er; [|discriminate]. destruct ex; try discriminate. destruct (next _ _ m) as [m1|] eqn:En; [|discriminate].
  destruct (Z.eqb_spec w' w) as [->|]; [|discriminate]. cbn [runs_words]. exists mem1, m1. split; [|auto]. split; [auto|]. split; [|auto].
  split; [auto|]. exists (c_mem m). unfold passes. rewrite Hm. auto.
Qed.
Definition demo_words (prog : list Z) (n : nat) (ws : list Z) (P : cpu device -> cpu device -> Prop) : Prop :=
  exists m m', reachable (dev_ops false) false m /\ runs_words (dev_ops false) false m ws m' /\ P m m'.
Lemma demo_words_intro prog n ws (P : cpu device -> cpu device -> Prop) :
  match demo_run false prog n with
  | Ret m => match words_check ws m with Some m' => P m m' | None => False end
  | Panic => False
  end -> demo_words prog n ws P.
Proof.
  destruct (demo_run false prog n) as [m|] eqn:E; [|intros []]. destruct (words_check ws m) as [m'|] eqn:E'; [|intros []].
  intros H. exists m, m'. split; [eapply demo_reachable; eauto|]. split; [apply words_check_sound; auto|auto].
Qed.
Lemma E_C47_set_reg : demo_words (ext_encode_words (SetReg R_ev 4022250974)) 0 (ext_encode_words (SetReg R_ev 4022250974)) (fun m m' =>
  is_u32 4022250974 /\ can_write (sup_mode m) R_ev = true /\ R m R_ev = 0 /\ R m' R_ev = 4022250974 /\ R m' R_pc = 12).
Proof. apply demo_words_intro. vm_compute. repeat split; congruence. Qed.
(** For smt the claim is false: the first of the three instructions may leave supervisor mode. *)
Lemma E_C47_smt_refuted : demo_words (asm [Cpy R_ev (Lit2 12)] ++ ext_encode_words (SetReg R_smt 5)) 1 (ext_encode_words (SetReg R_smt 5)) (fun m m' =>
  can_write (sup_mode m) R_smt = true /\ R m' R_smt = 6 /\ R m' R_et = et_value false 3 (reg_code R_smt)).
Proof. apply demo_words_intro. vm_compute. repeat split; congruence. Qed.
(** The same for smt is false: writing its first half may leave supervisor mode before the second half. *)
Lemma P_C47_smt_refuted : ~ (forall D (ops : bus_ops D) oc m v m', typed ops -> wf m -> is_u32 v -> can_write (sup_mode m) R_smt = true ->
  runs_words ops oc m (ext_encode_words (SetReg R_smt v)) m' -> R m' R_smt = v).
Proof.
  intros H. destruct E_C47_smt_refuted as (m & m' & Hr & Hx & Hc & Hv & _).
  assert (X : R m' R_smt = 5) by (refine (H _ (dev_ops false) false m 5 m' (dev_typed false) _ _ Hc Hx); [eapply reachable_wf; eauto; apply dev_typed|unfold is_u32; lia]).
  congruence.
Qed.

(** * C48 *)
Lemma passes_regs D (ops : bus_ops D) m n a mem mem1 : R m R_mtt = R n R_mtt -> R m R_pda = R n R_pda -> R m R_smt = R n R_smt -> passes ops m a mem mem1 -> passes ops n a mem mem1.
Proof. unfold passes, sup_mode. intros -> -> ->. auto. Qed.
Lemma loads_regs D (ops : bus_ops D) m n mem a w mem2 : R m R_mtt = R n R_mtt -> R m R_pda = R n R_pda -> R m R_smt = R n R_smt -> loads ops m mem a w mem2 -> loads ops n mem a w mem2.
Proof. intros E1 E2 E3 (H & mem1 & Hp & Hr). split; [auto|]. exists mem1. split; [eapply passes_regs; eauto|auto]. Qed.
Lemma stores_regs D (ops : bus_ops D) m n mem a w mem2 : R m R_mtt = R n R_mtt -> R m R_pda = R n R_pda -> R m R_smt = R n R_smt -> stores ops m mem a w mem2 -> stores ops n mem a w mem2.
Proof. intros E1 E2 E3 (H & mem1 & Hp & Hr). split; [auto|]. exists mem1. split; [eapply passes_regs; eauto|auto]. Qed.
Lemma access_faults_regs D (ops : bus_ops D) m n mem a mem2 c d : R m R_mtt = R n R_mtt -> R m R_pda = R n R_pda -> R m R_smt = R n R_smt -> access_faults ops m mem a mem2 c d -> access_faults ops n mem a mem2 c d.
Proof.
  intros E1 E2 E3 H. inversion H; subst.
  - apply fault_align; auto.
  - rewrite E1 in *. rewrite E2 in *. eapply fault_page; eauto.
  - rewrite E1 in *. rewrite E2 in *. unfold sup_mode in *. rewrite E3 in *. eapply fault_refused; eauto.
Qed.
Lemma load_faults_regs D (ops : bus_ops D) m n mem a mem2 c d : R m R_mtt = R n R_mtt -> R m R_pda = R n R_pda -> R m R_smt = R n R_smt -> load_faults ops m mem a mem2 c d -> load_faults ops n mem a mem2 c d.
Proof.
  intros E1 E2 E3 H. inversion H; subst.
  - apply load_fault_access. eapply access_faults_regs; eauto.
  - eapply load_fault_component; eauto. eapply passes_regs; eauto.
Qed.
Lemma store_faults_regs D (ops : bus_ops D) m n mem a w mem2 c d : R m R_mtt = R n R_mtt -> R m R_pda = R n R_pda -> R m R_smt = R n R_smt -> store_faults ops m mem a w mem2 c d -> store_faults ops n mem a w mem2 c d.
Proof.
  intros E1 E2 E3 H. inversion H; subst.
  - apply store_fault_access. eapply access_faults_regs; eauto.
  - eapply store_fault_component; eauto. eapply passes_regs; eauto.
Qed.
Lemma runs_words_app D (ops : bus_ops D) oc a : forall m b m', runs_words ops oc m (a ++ b) m' <-> exists m1, runs_words ops oc m a m1 /\ runs_words ops oc m1 b m'.
Proof.
  induction a as [|w t IH]; intros m b m'; cbn [app runs_words].
  - split; [eauto|]. intros (m1 & -> & H). exact H.
  - split.
    + intros (mem1 & m1 & H1 & H2). apply IH in H2. destruct H2 as (m2 & H2 & H3). eauto 8.
    + intros (m2 & (mem1 & m1 & H1 & H2) & H3). exists mem1, m1. split; [auto|]. apply IH. eauto.
Qed.
Lemma can_write_plain s r : user_reg r = true -> read_only r = false -> can_write s r = true.
Proof. intros H1 H2. unfold can_write. rewrite H1, H2, orb_true_r. reflexivity. Qed.
Lemma straight_regs D (a b : cpu D) n l : straight a b n l -> (forall r, In r (map fst l) -> In r [R_avr; R_rr0]) ->
  R b R_mtt = R a R_mtt /\ R b R_pda = R a R_pda /\ R b R_smt = R a R_smt.
Proof.
  intros (_ & H & _) Hl.
  assert (N : forall r, ~ In r [R_avr; R_rr0] -> ~ In r (map fst l)) by (intros r Hr Hi; apply Hr, Hl, Hi).
  repeat split; apply H; try discriminate; apply N; cbn; intuition discriminate.
Qed.

(** ReadAddr(a): after setting avr to [a], the word at address [a] is loaded into avr as the machine [m] can load it, or the access raises its exception. *)
Lemma P_C48_read_addr : forall D (ops : bus_ops D) oc m a m', typed ops -> wf m -> is_u32 a ->
  runs_words ops oc m (ext_encode_words (ReadAddr a)) m' ->
  exists m3 mem1, straight m m3 3 [(R_avr, a)] /\ runs_quietly ops oc m (ext_encode_words (SetReg R_avr a)) m3 /\
    executes ops oc m3 (Lea (Reg1 R_avr) (Lit1 0) (Lit1 0)) mem1 m' /\
    ((exists w mem2, loads ops m mem1 a w mem2 /\ c_mem m' = mem2 /\ straight m m' 4 [(R_avr, w)]) \/
     (exists mem2 code data, load_faults ops m mem1 a mem2 code data /\ raised m3 m' mem2 code data)).
Proof.
  intros D ops oc m a m' T Hw Ha H. unfold ext_encode_words in H. cbn [to_instr] in H. unfold encode_words, from_instr in H.
  rewrite map_map, map_app in H. apply runs_words_app in H. destruct H as (m3 & H1 & H2).
  change (map (fun x : instr => pw_encode_word (PInstr x)) (load_const R_avr a)) with (map encode_word (load_const R_avr a)) in H1.
  destruct (set_reg D ops oc m R_avr a m3 T Hw Ha) as (S & Q & Hw3); auto; try discriminate. { apply can_write_plain; reflexivity. }
  cbn [map runs_words] in H2. destruct H2 as (mem1 & m4 & H2 & ->).
  destruct (P_C43_executes D ops oc m3 (Lea (Reg1 R_avr) (Lit1 0) (Lit1 0)) mem1 m4 T Hw3) as (He & _); [cbn; unfold is_u8; lia|reflexivity|exact H2|].
  exists m3, mem1. split; [exact S|]. split; [exact Q|]. split; [exact He|].
  assert (V : R m3 R_avr = a) by (apply S; left; reflexivity).
  destruct (straight_regs _ _ _ _ _ S) as (E1 & E2 & E3); [cbn; tauto|].
  destruct (P_C21_lea D ops oc m3 _ _ _ a 0 0 mem1 m4 T Hw3 He) as [(w & mem2 & Hl & A)|(mem2 & code & data & Hf & A)]; auto.
  { cbn. unfold reg_value. rewrite can_write_read by (apply can_write_plain; reflexivity). rewrite V. reflexivity. }
  - replace ((a + 0 * 0) mod 2 ^ 32) with a in Hl by (unfold is_u32 in Ha; change (2 ^ 32) with 4294967296; lia).
    left. exists w, mem2. split; [eapply loads_regs; [..|exact Hl]; congruence|]. split; [apply A|]. change 4 with (3 + 1). eapply straight_more; [exact S| |discriminate].
    destruct A as (A & A'). apply (straight_one D m3 m4 mem2 R_avr w (R m3 R_af)); [|discriminate|apply H2]. split; [|exact A'].
    intros r. rewrite A. cbn [assoc]. destruct (_ =? _); [reflexivity|]. destruct (_ =? _); [reflexivity|].
    destruct (Z.eqb_spec (reg_code r) (reg_code R_af)) as [E|E]; [apply reg_code_inj in E; subst|]; reflexivity.
  - replace ((a + 0 * 0) mod 2 ^ 32) with a in Hf by (unfold is_u32 in Ha; change (2 ^ 32) with 4294967296; lia).
    right. exists mem2, code, data. split; [eapply load_faults_regs; [..|exact Hf]; congruence|exact A].
Qed.
Lemma E_C48_read_addr : demo_words (ext_encode_words (ReadAddr 8)) 0 (ext_encode_words (ReadAddr 8)) (fun m m' =>
  R m' R_avr = encode_word (Add R_avr (Lit2 8)) /\ R m' R_pc = 16).
Proof. apply demo_words_intro. vm_compute. repeat split; congruence. Qed.

(** WriteAddrLit(a, v) stores [v] at address [a] as the machine [m] can store it, or the access raises its exception; rr0 and avr are used. *)
Lemma P_C48_write_addr_lit : forall D (ops : bus_ops D) oc m a v m', typed ops -> wf m -> is_u32 a -> is_u32 v ->
  runs_words ops oc m (ext_encode_words (WriteAddrLit a v)) m' ->
  exists m6 mem1, straight m m6 6 [(R_rr0, a); (R_avr, v)] /\ executes ops oc m6 (Wea (Reg1 R_rr0) (Lit1 0) (Lit1 0)) mem1 m' /\
    runs_quietly ops oc m (ext_encode_words (SetReg R_rr0 a) ++ ext_encode_words (SetReg R_avr v)) m6 /\
    ((exists mem2, stores ops m mem1 a v mem2 /\ c_mem m' = mem2 /\ straight m m' 7 [(R_rr0, a); (R_avr, v)]) \/
     (exists mem2 code data, store_faults ops m mem1 a v mem2 code data /\ raised m6 m' mem2 code data)).
Proof.
  intros D ops oc m a v m' T Hw Ha Hv H. unfold ext_encode_words in H. cbn [to_instr] in H. unfold encode_words, from_instr in H.
  rewrite map_map, !map_app in H. apply runs_words_app in H. destruct H as (m3 & H1 & H). apply runs_words_app in H. destruct H as (m6 & H2 & H3).
  change (map (fun x : instr => pw_encode_word (PInstr x)) (load_const R_rr0 a)) with (map encode_word (load_const R_rr0 a)) in H1.
  change (map (fun x : instr => pw_encode_word (PInstr x)) (load_const R_avr v)) with (map encode_word (load_const R_avr v)) in H2.
  destruct (set_reg D ops oc m R_rr0 a m3 T Hw Ha) as (S1 & Q1 & Hw3); auto; try discriminate. { apply can_write_plain; reflexivity. }
  destruct (set_reg D ops oc m3 R_avr v m6 T Hw3 Hv) as (S2 & Q2 & Hw6); auto; try discriminate. { apply can_write_plain; reflexivity. }
  cbn [map runs_words] in H3. destruct H3 as (mem1 & m7 & H3 & ->).
  destruct (P_C43_executes D ops oc m6 (Wea (Reg1 R_rr0) (Lit1 0) (Lit1 0)) mem1 m7 T Hw6) as (He & _); [cbn; unfold is_u8; lia|reflexivity|exact H3|].
  assert (S : straight m m6 6 [(R_rr0, a); (R_avr, v)]).
  { change 6 with (3 + 3). change [(R_rr0, a); (R_avr, v)] with ([(R_rr0, a)] ++ [(R_avr, v)]). eapply straight_app; eauto; cbn; try (intuition discriminate).
    intros r x [E|[]]. injection E as <- <-. intuition discriminate. }
  exists m6, mem1. split; [exact S|]. split; [exact He|]. split.
  { revert Q1 Q2. clear. change (ext_encode_words (SetReg R_rr0 a)) with (map encode_word (load_const R_rr0 a)). change (ext_encode_words (SetReg R_avr v)) with (map encode_word (load_const R_avr v)).
    generalize (map encode_word (load_const R_rr0 a)). intros l. revert m. induction l as [|w t IH]; intros m; cbn [app runs_quietly].
    - intros -> H. exact H.
    - intros (mem1 & m1 & X1 & X2 & X3) H. exists mem1, m1. auto. }
  assert (V : R m6 R_rr0 = a) by (apply S; left; reflexivity). assert (V2 : R m6 R_avr = v) by (apply S; right; left; reflexivity).
  destruct (straight_regs _ _ _ _ _ S) as (E1 & E2 & E3); [cbn; tauto|].
  destruct (P_C21_wea D ops oc m6 _ _ _ a 0 0 mem1 m7 T Hw6 He) as [(mem2 & Hl & A)|(mem2 & code & data & Hf & A)]; auto.
  { cbn. unfold reg_value. rewrite can_write_read by (apply can_write_plain; reflexivity). rewrite V. reflexivity. }
  - replace ((a + 0 * 0) mod 2 ^ 32) with a in Hl by (unfold is_u32 in Ha; change (2 ^ 32) with 4294967296; lia). rewrite V2 in Hl.
    left. exists mem2. split; [eapply stores_regs; [..|exact Hl]; congruence|]. split; [apply A|].
    destruct A as (A & _ & A2 & A3). destruct S as (S3 & S4 & S5 & S6 & S7). split; [|split; [|split; [|split]]].
    + intros r x Hi. rewrite A. rewrite <- (S3 r x Hi). cbn [assoc]. destruct (Z.eqb_spec (reg_code r) (reg_code R_pc)) as [E|E]; [|reflexivity].
      apply reg_code_inj in E. subst. cbn in Hi. intuition congruence.
    + intros r Hi Hp Haf. rewrite A. cbn [assoc]. destruct (Z.eqb_spec (reg_code r) (reg_code R_pc)) as [E|E]; [apply reg_code_inj in E; congruence|]. apply S4; auto.
    + rewrite A. cbn [assoc]. rewrite Z.eqb_refl, S5. rewrite Zplus_mod_idemp_l. f_equal. lia.
    + congruence.
    + rewrite A3, S7. rewrite Zplus_mod_idemp_l. f_equal. lia.
  - replace ((a + 0 * 0) mod 2 ^ 32) with a in Hf by (unfold is_u32 in Ha; change (2 ^ 32) with 4294967296; lia). rewrite V2 in Hf.
    right. exists mem2, code, data. split; [eapply store_faults_regs; [..|exact Hf]; congruence|exact A].
Qed.
Lemma E_C48_write_addr_lit : demo_words (ext_encode_words (WriteAddrLit 260 3735928559)) 0 (ext_encode_words (WriteAddrLit 260 3735928559)) (fun m m' =>
  mem_read (dev_ops false) false (c_mem m') 260 = Ret (c_mem m', 0, 3735928559) /\ R m' R_pc = 28).
Proof. apply demo_words_intro. vm_compute. repeat split; congruence. Qed.

(** ReadAddrTo(r, a) leaves in [r] what a0 holds, instead of the word loaded; WriteAddr(a, r) stores a0. *)
Lemma E_C48_read_addr_to_refuted : demo_words (asm [Cpy R_a0 (Lit2 77)] ++ ext_encode_words (ReadAddrTo R_a1 8)) 1 (ext_encode_words (ReadAddrTo R_a1 8)) (fun m m' =>
  mem_read (dev_ops false) false (c_mem m) 8 = Ret (c_mem m, 0, encode_word (Shl R_avr (Lit1 16))) /\ R m' R_a1 = 77 /\ 77 <> encode_word (Shl R_avr (Lit1 16)) /\ R m R_mtt = 0).
Proof. apply demo_words_intro. vm_compute. repeat split; congruence. Qed.
(** The full claim 'ReadAddrTo loads the word at the address into the register' is false: the register gets what a0 holds. *)
Lemma P_C48_read_addr_to_refuted : ~ (forall D (ops : bus_ops D) oc m r a w m', typed ops -> wf m -> is_u32 a -> can_write (sup_mode m) r = true ->
  R m R_mtt = 0 -> mem_read ops false (c_mem m) a = Ret (c_mem m, 0, w) -> runs_words ops oc m (ext_encode_words (ReadAddrTo r a)) m' -> R m' r = w).
Proof.
  intros H. destruct E_C48_read_addr_to_refuted as (m & m' & Hr & Hx & Hm & Hv & Hn & Ht).
  assert (X : R m' R_a1 = encode_word (Shl R_avr (Lit1 16))); [|congruence].
  refine (H _ (dev_ops false) false m R_a1 8 _ m' (dev_typed false) _ _ _ Ht Hm Hx); [eapply reachable_wf; eauto; apply dev_typed|unfold is_u32; lia|apply can_write_plain; reflexivity].
Qed.
Lemma E_C48_write_addr_refuted : demo_words (asm [Cpy R_a0 (Lit2 77); Cpy R_a1 (Lit2 5)] ++ ext_encode_words (WriteAddr 260 R_a1)) 2 (ext_encode_words (WriteAddr 260 R_a1)) (fun m m' =>
  R m R_a1 = 5 /\ mem_read (dev_ops false) false (c_mem m') 260 = Ret (c_mem m', 0, 77) /\ R m R_mtt = 0).
Proof. apply demo_words_intro. vm_compute. repeat split; congruence. Qed.
(** The full claim 'WriteAddr stores the register at the address' is false. *)
Lemma P_C48_write_addr_refuted : ~ (forall D (ops : bus_ops D) oc m r a w mem2 m', typed ops -> wf m -> is_u32 a -> can_read (sup_mode m) r = true ->
  R m R_mtt = 0 -> runs_words ops oc m (ext_encode_words (WriteAddr a r)) m' -> mem_read ops false (c_mem m') a = Ret (mem2, 0, w) -> w = R m r).
Proof.
  intros H. destruct E_C48_write_addr_refuted as (m & m' & Hr & Hx & Hv & Hm & Ht).
  assert (X : 77 = R m R_a1); [|rewrite Hv in X; discriminate].
  refine (H _ (dev_ops false) false m R_a1 260 77 _ m' (dev_typed false) _ _ _ Ht Hx Hm); [eapply reachable_wf; eauto; apply dev_typed|unfold is_u32; lia|apply can_write_read, can_write_plain; reflexivity].
Qed.

(** * C50 *)
Lemma et_native D (m m' : cpu D) mem e : raised m m' mem 160 (aux_encode e) -> aux_wf e ->
  native_decode_with_mode (R m' R_et) = Some (NHardwareException e, sup_mode m).
Proof.
  intros (A & _) He. rewrite A. cbn [assoc reg_code Z.eqb Pos.eqb].
  change (et_value (sup_mode m) 160 (aux_encode e)) with ((if sup_mode m then 16777216 else 0) + 160 * 65536 + aux_encode e).
  replace ((if sup_mode m then 16777216 else 0) + 160 * 65536 + aux_encode e) with (native_encode_with_mode (NHardwareException e) (sup_mode m)).
  - apply P_C49_roundtrip. exact He.
  - unfold native_encode_with_mode, native_encode. cbn [native_code native_data opt_or0]. lia.
Qed.
(** An exception other than UnknownError that a component raises on the load, store or fetch of a cycle is raised by the processor with code
    0xA0, and decoding et gives it back. *)
Lemma P_C50_visible_load : forall D (ops : bus_ops D) oc m i a mem1 mem2 mem3 e w m', typed ops -> wf m -> executes ops oc m i mem1 m' ->
  load_address m i = Some a -> a mod 4 = 0 -> passes ops m a mem1 mem2 -> mem_read ops false mem2 a = Ret (mem3, aux_encode e, w) ->
  aux_wf e -> e <> UnknownError ->
  raised m m' mem3 160 (aux_encode e) /\ native_decode_with_mode (R m' R_et) = Some (NHardwareException e, sup_mode m).
Proof.
  intros D ops oc m i a mem1 mem2 mem3 e w m' T Hw He Ha Hal Hp Hr We Hu.
  assert (X : raised m m' mem3 160 (aux_encode e)).
  { eapply P_C22_load; eauto. eapply load_fault_component; eauto. rewrite P_C50_zero by auto. auto. }
  split; [exact X|]. eapply et_native; eauto.
Qed.
(** A store refused by a component with a hardware exception raises exception 0xA0 with that exception's code, and et decodes to it. *)
Lemma P_C50_visible_store : forall D (ops : bus_ops D) oc m i a v mem1 mem2 mem3 e m', typed ops -> wf m -> executes ops oc m i mem1 m' ->
  store_access m i = Some (a, v) -> a mod 4 = 0 -> passes ops m a mem1 mem2 -> mem_write ops false mem2 a v = Ret (mem3, aux_encode e) ->
  aux_wf e -> e <> UnknownError ->
  raised m m' mem3 160 (aux_encode e) /\ native_decode_with_mode (R m' R_et) = Some (NHardwareException e, sup_mode m).
Proof.
  intros D ops oc m i a v mem1 mem2 mem3 e m' T Hw He Ha Hal Hp Hr We Hu.
  assert (X : raised m m' mem3 160 (aux_encode e)).
  { eapply P_C22_store; eauto. eapply store_fault_component; eauto. rewrite P_C50_zero by auto. auto. }
  split; [exact X|]. eapply et_native; eauto.
Qed.
(** The same for the fetch of an instruction. *)
Lemma P_C50_visible_fetch : forall D (ops : bus_ops D) oc m mem2 mem3 e w m', typed ops -> wf m -> c_halted m = false -> next ops oc m = Ret m' ->
  R m R_pc mod 4 = 0 -> passes ops m (R m R_pc) (c_mem m) mem2 -> mem_read ops false mem2 (R m R_pc) = Ret (mem3, aux_encode e, w) ->
  aux_wf e -> e <> UnknownError ->
  raised m m' mem3 160 (aux_encode e) /\ native_decode_with_mode (R m' R_et) = Some (NHardwareException e, sup_mode m).
Proof.
  intros D ops oc m mem2 mem3 e w m' T Hw Hh Hn Hal Hp Hr We Hu.
  assert (X : raised m m' mem3 160 (aux_encode e)).
  { eapply P_C06_fetch_fault; eauto. eapply load_fault_component; eauto. rewrite P_C50_zero by auto. auto. }
  split; [exact X|]. eapply et_native; eauto.
Qed.
Lemma E_C50_visible_store : demo_case (asm [Wsa (Lit1 4) (Lit1 0) (Lit1 1)]) 0 (fun m i mem1 m' =>
  store_access m i = Some (4, 1) /\ mem_write (dev_ops false) false mem1 4 1 = Ret (mem1, aux_encode MemoryNotWritable) /\ aux_encode MemoryNotWritable <> 0 /\
  native_decode_with_mode (R m' R_et) = Some (NHardwareException MemoryNotWritable, true)).
Proof. demo_tac. Qed.
(** UnknownError is never visible: it is encoded as 0, which means no exception. *)
Lemma E_C50_unknown_error_refuted : demo_case (asm [Lsa R_a0 (Lit1 4) (Lit1 0)]) 0 (fun m i mem1 m' =>
  load_address m i = Some 4 /\ R m R_mtt = 0 /\ mem_read (dev_ops false) false mem1 4 = Ret (mem1, aux_encode UnknownError, 0) /\ R m' R_et = 0 /\ R m' R_pc = 4).
Proof. demo_tac. Qed.
(** With UnknownError included the claim is false: its code is 0, so the access passes for a success. *)
Lemma P_C50_unknown_error_refuted : ~ (forall D (ops : bus_ops D) oc m i a mem1 mem2 mem3 e w m', typed ops -> wf m -> executes ops oc m i mem1 m' ->
  load_address m i = Some a -> a mod 4 = 0 -> passes ops m a mem1 mem2 -> mem_read ops false mem2 a = Ret (mem3, aux_encode e, w) -> aux_wf e ->
  raised m m' mem3 160 (aux_encode e)).
Proof.
  intros H. destruct E_C50_unknown_error_refuted as (m & i & mem1 & m' & Hr & He & Ha & Ht & Hm & Het & Hpc).
  assert (X : raised m m' mem1 160 (aux_encode UnknownError)).
  { refine (H _ (dev_ops false) false m i 4 mem1 mem1 mem1 UnknownError 0 m' (dev_typed false) _ He Ha eq_refl _ Hm I).
    - eapply reachable_wf; eauto; apply dev_typed.
    - unfold passes. rewrite Ht. reflexivity. }
  apply et_native in X; [|exact I]. rewrite Het in X. discriminate X.
Qed.

(** * C52 *)
(** The assembler's flag codes select, in IF and IFN, the flag with their name (ZLF excepted). *)
Lemma P_C52_flags : forall D (ops : bus_ops D) oc m m1 mem d r carry overflow f neg mem2 m2, typed ops -> wf m1 -> is_u32 r ->
  computes m m1 mem d r carry overflow -> f <> FZeroLower ->
  executes ops oc m1 (if neg : bool then IfN (Lit1 (ar_flag_code f)) else If (Lit1 (ar_flag_code f))) mem2 m2 ->
  exists b, after m1 m2 mem2 [(R_pc, (R m1 R_pc + (if xorb neg b then 4 else 8)) mod 2 ^ 32)] /\ (b = true <-> flag_means f r carry overflow).
Proof.
  intros D ops oc m m1 mem d r carry overflow f neg mem2 m2 T Hw Ur (_ & CF & OF & ZF & SF & EF & ZUF & _) Hf He.
  destruct (P_C13_if D ops oc m1 _ (Lit1 (ar_flag_code f)) (ar_flag_code f) neg mem2 m2 T Hw He eq_refl eq_refl) as (_ & K).
  exists (flag m1 (7 - ar_flag_code f)). split; [apply K; destruct f; cbn; lia|].
  unfold is_u32 in Ur. change (2 ^ 16) with 65536 in *. change (2 ^ 31) with 2147483648 in *.
  destruct f; cbn [ar_flag_code flag_means Z.sub Z.add Z.opp Z.pos_sub Pos.pred_double Z.pred_double Z.succ_double Z.double]; change (7 - 0) with 7; change (7 - 1) with 6; change (7 - 2) with 5; change (7 - 3) with 4; change (7 - 4) with 3; change (7 - 5) with 2; auto.
  - rewrite ZUF. split; lia.
  - congruence.
Qed.
(** So do the constants of the crate named after the flags. *)
Lemma P_C52_flag_constants : forall D (ops : bus_ops D) oc m m1 mem d r carry overflow f neg mem2 m2, typed ops -> wf m1 -> is_u32 r ->
  computes m m1 mem d r carry overflow -> f <> FZeroLower ->
  executes ops oc m1 (if neg : bool then IfN (Lit1 (flag_constant f)) else If (Lit1 (flag_constant f))) mem2 m2 ->
  exists b, after m1 m2 mem2 [(R_pc, (R m1 R_pc + (if xorb neg b then 4 else 8)) mod 2 ^ 32)] /\ (b = true <-> flag_means f r carry overflow).
Proof.
  intros D ops oc m m1 mem d r carry overflow f neg mem2 m2. replace (flag_constant f) with (ar_flag_code f) by (destruct f; reflexivity). apply P_C52_flags.
Qed.
(** [ZLF] also selects the flag its name says, bit 6 from the top of the flag register's byte, whatever that flag means (see C11_zlf_refuted). *)
Lemma P_C52_zlf_constant : forall D (ops : bus_ops D) oc m neg mem1 m', typed ops -> wf m ->
  executes ops oc m (if neg : bool then IfN (Lit1 (flag_constant FZeroLower)) else If (Lit1 (flag_constant FZeroLower))) mem1 m' ->
  after m m' mem1 [(R_pc, (R m R_pc + (if xorb neg (flag m 1) then 4 else 8)) mod 2 ^ 32)].
Proof.
  intros D ops oc m neg mem1 m' T Hw He. destruct (P_C13_if D ops oc m _ (Lit1 6) 6 neg mem1 m' T Hw He eq_refl eq_refl) as (_ & K). apply K. lia.
Qed.
(** The constants of the crate for division modes, combined with a bitwise or, are the modes of the assembler with these names; the masks
    isolate each of the three. *)
Lemma P_C52_mode_constants : forall dm,
  let mode := Z.lor (Z.lor (sign_constant (dm_sign dm)) (zero_constant (dm_zero dm))) (overflow_constant (dm_ovf dm)) in
  mode = div_mode_encode dm /\ Z.land mode cst_DIV_SIGN_MODE_MASK = sign_constant (dm_sign dm) /\
  Z.land mode cst_DIV_ZERO_MODE_MASK = zero_constant (dm_zero dm) /\ Z.land mode cst_DIV_OVFW_MODE_MASK = overflow_constant (dm_ovf dm).
Proof. intros [[] [] []]; repeat split; reflexivity. Qed.
Lemma E_C52_flags : demo_case (asm [Cpy R_a0 (Lit2 3); Sub R_a0 (Lit2 5); If (Lit1 (ar_flag_code FCarry)); Halt]) 2 (fun m i mem1 m' =>
  i = If (Lit1 (ar_flag_code FCarry)) /\ R m R_a0 = 4294967294 /\ flag m 6 = true /\ R m' R_pc = 12).
Proof. demo_tac. Qed.
(** Flag, condition and information codes are in bijection with the names. *)
Lemma P_C52_flag_codes : forall c f, ar_flag_decode c = Some f <-> c = ar_flag_code f.
Proof.
  intros c f. split; [|intros ->; destruct f; reflexivity]. unfold ar_flag_decode. destruct c as [|c|c]; try discriminate; [intros E; injection E as <-; reflexivity|].
  do 3 (destruct c as [c|c|]; try discriminate; try (intros E; injection E as <-; reflexivity)).
Qed.
(** The codes of the IF2 conditions and their decoding are inverse of each other. *)
Lemma P_C52_cond_codes : forall c f, if2_cond_decode c = Some f <-> c = if2_cond_code f.
Proof.
  intros c f. split; [|intros ->; destruct f; reflexivity]. unfold if2_cond_decode. destruct c as [|c|c]; try discriminate.
  do 3 (destruct c as [c|c|]; try discriminate; try (intros E; injection E as <-; reflexivity)).
Qed.
(** The codes of the HWD pieces of information and their decoding are inverse of each other. *)
Lemma P_C52_info_codes : forall c f, hw_info_decode c = Some f <-> c = hw_info_to_code f.
Proof.
  intros c f. split; [|intros ->; destruct f; reflexivity]. unfold hw_info_decode. destruct c as [|c|c]; try discriminate; [intros E; injection E as <-; reflexivity|].
  do 8 (destruct c as [c|c|]; try discriminate; try (intros E; injection E as <-; reflexivity)).
Qed.
(** The assembler's condition codes combine the flags, in IF2, as their names say. *)
Lemma P_C52_conditions : forall D (ops : bus_ops D) oc m a b fa fb c mem1 m', typed ops -> wf m ->
  executes ops oc m (If2 a b (Lit1 (if2_cond_code c))) mem1 m' -> operand1 m a = Some (ar_flag_code fa) -> operand1 m b = Some (ar_flag_code fb) ->
  after m m' mem1 [(R_pc, (R m R_pc + (if cond_means c (flag m (7 - ar_flag_code fa)) (flag m (7 - ar_flag_code fb)) then 4 else 8)) mod 2 ^ 32)].
Proof.
  intros D ops oc m a b fa fb c mem1 m' T Hw He Ha Hb.
  destruct (P_C13_if2 D ops oc m a b (Lit1 (if2_cond_code c)) _ _ _ mem1 m' T Hw He Ha Hb eq_refl) as (K & _).
  apply K; [destruct fa; cbn; lia|destruct fb; cbn; lia|]. destruct c; reflexivity.
Qed.
Lemma E_C52_conditions : demo_case (asm [Cpy R_a0 (Lit2 3); Sub R_a0 (Lit2 5); If2 (Lit1 0) (Lit1 1) (Lit1 (if2_cond_code CRight))]) 2 (fun m i mem1 m' =>
  flag m 7 = false /\ flag m 6 = true /\ R m' R_pc = 12).
Proof. demo_tac. Qed.
(** The assembler's information codes give, in HWD, what their names say of the component. *)
Lemma P_C52_hardware_info : forall D (ops : bus_ops D) oc m d id x h e md mem1 m', typed ops -> wf m ->
  executes ops oc m (Hwd d id (Lit1 (hw_info_to_code h))) mem1 m' -> operand1 m id = Some x -> can_write (sup_mode m) d = true ->
  h <> HCount -> znth (mm_hwb mem1) x = Some e -> ac_metadata (ae_cache e) = metadata_words md ->
  match info_means md (ac_name (ae_cache e)) (find (fun mp => mp_aux_id mp =? x) (mm_maps mem1)) h with
  | Some v => after m m' mem1 [(d, v); (R_pc, (R m R_pc + 4) mod 2 ^ 32)]
  | None => raised m m' mem1 18 (x mod 2 ^ 16)   (* not mapped *)
  end.
Proof.
  intros D ops oc m d id x h e md mem1 m' T Hw He Hx Hd Hh Hz Hm.
  pose proof (P_C26_hwd D ops oc m d id (Lit1 (hw_info_to_code h)) x (hw_info_to_code h) mem1 m' T Hw He Hx eq_refl) as K.
  assert (E0 : (hw_info_to_code h =? 0) = false) by (destruct h; try reflexivity; congruence). rewrite E0, andb_false_r in K.
  unfold info_spec in K. rewrite Hz, Hm, Hd in K. unfold info_means. change (2 ^ 16) with 65536.
  assert (N : forall k, name_word_spec (ac_name (ae_cache e)) k = word_be (nth (Z.to_nat (4 * k)) (utf8 (ac_name (ae_cache e))) 0) (nth (Z.to_nat (4 * k + 1)) (utf8 (ac_name (ae_cache e))) 0)
     (nth (Z.to_nat (4 * k + 2)) (utf8 (ac_name (ae_cache e))) 0) (nth (Z.to_nat (4 * k + 3)) (utf8 (ac_name (ae_cache e))) 0)).
  { intros k. unfold name_word_spec, word_be. rewrite Z.add_0_r. reflexivity. }
  assert (O : forall (o : option Z) f, f 0 = 0 -> match o with Some v => f v | None => 0 end = f (opt_or0 o)) by (intros [v|] f; cbn; auto).
  destruct h; cbn [hw_info_to_code] in K |- *; cbn [Z.eqb Pos.eqb Z.leb Z.compare Pos.compare Pos.compare_cont andb] in K; try congruence; try (rewrite N in K; exact K).
  all: try exact K.
  all: cbn [metadata_words w5 w6 w7] in K.
  - rewrite (O (md_data md) (fun v => v / 2 ^ 32) eq_refl) in K. exact K.
  - rewrite (O (md_data md) (fun v => v mod 2 ^ 32) eq_refl) in K. exact K.
  - destruct (find _ _); exact K.
  - destruct (find _ _); exact K.
Qed.
Lemma E_C52_hardware_info : demo_case (asm [Hwd R_a0 (Lit1 1) (Lit1 (hw_info_to_code HMapStart))]) 0 (fun m i mem1 m' => R m' R_a0 = 256).
Proof. demo_tac. Qed.
(** The assembler's division modes: what division by zero gives, and whether operands are signed, as their names say. *)
Lemma P_C52_division_by_zero : forall D (ops : bus_ops D) oc m i d v is_div dm mem1 m' x, typed ops -> wf m ->
  div_or_mod i d v (Lit1 (div_mode_encode dm)) is_div -> executes ops oc m i mem1 m' -> reg_value m d = Some x -> operand1 m v = Some 0 ->
  can_write (sup_mode m) d = true ->
  match dm_zero dm with
  | ZForbid => raised m m' mem1 10 0
  | ZEqToMin => computes m m' mem1 d ((- 2 ^ 31) mod 2 ^ 32) True True
  | ZEqToZero => computes m m' mem1 d 0 True True
  | ZEqToMax => computes m m' mem1 d (2 ^ 31 - 1) True True
  end.
Proof.
  intros D ops oc m i d v is_div dm mem1 m' x T Hw Hi He Hx Hv Hd.
  assert (M : div_mode_encode dm / 4 mod 4 = match dm_zero dm with ZForbid => 0 | ZEqToMin => 1 | ZEqToZero => 2 | ZEqToMax => 3 end) by (destruct dm as [[] [] []]; reflexivity).
  pose proof (P_C09_zero_forbidden D ops oc m i d v _ is_div mem1 m' x (div_mode_encode dm) T Hw Hi He Hx Hv eq_refl) as K1.
  pose proof (P_C09_zero_value D ops oc m i d v _ is_div mem1 m' x (div_mode_encode dm) T Hw Hi He Hx Hv eq_refl Hd) as K2.
  rewrite M in K1, K2. destruct (dm_zero dm); [apply K1; reflexivity|exact (K2 ltac:(discriminate))..].
Qed.
(** The sign constant of a division mode does select unsigned or signed division and remainder. *)
Lemma P_C52_division_sign : forall D (ops : bus_ops D) oc m i d v is_div dm mem1 m' x y, typed ops -> wf m ->
  div_or_mod i d v (Lit1 (div_mode_encode dm)) is_div -> executes ops oc m i mem1 m' -> reg_value m d = Some x -> operand1 m v = Some y ->
  can_write (sup_mode m) d = true -> y <> 0 ->
  match dm_sign dm with
  | DUnsigned => computes m m' mem1 d (if is_div then x / y else x mod y) False False
  | DSigned => ~ (signed x = - 2 ^ 31 /\ signed y = -1) ->
      computes m m' mem1 d ((if is_div then Z.quot (signed x) (signed y) else Z.rem (signed x) (signed y)) mod 2 ^ 32) False False
  end.
Proof.
  intros D ops oc m i d v is_div dm mem1 m' x y T Hw Hi He Hx Hv Hd Hy.
  assert (M : Z.testbit (div_mode_encode dm) 4 = match dm_sign dm with DSigned => true | DUnsigned => false end) by (destruct dm as [[] [] []]; reflexivity).
  destruct (dm_sign dm).
  - exact (P_C09_unsigned D ops oc m i d v _ is_div mem1 m' x y (div_mode_encode dm) T Hw Hi He Hx Hv eq_refl Hd M Hy).
  - intros Ho. destruct (P_C09_signed D ops oc m i d v _ is_div mem1 m' x y (div_mode_encode dm) T Hw Hi He Hx Hv eq_refl Hd M Hy Ho) as (q & r & K & E1 & E2 & E3).
    assert (U : q = Z.quot (signed x) (signed y) /\ r = Z.rem (signed x) (signed y)).
    { apply Zquot.Zquot_mod_unique_full; [|auto]. unfold Zquot.Remainder. destruct (Z.lt_trichotomy (signed x) 0) as [L|[L|L]]; nia. }
    destruct U as (<- & <-). exact K.
Qed.
(** What [DivByZeroMode::result] says is what the CPU writes on a division by zero, when the mode does not forbid it. *)
Lemma P_C51_zero_result : forall D (ops : bus_ops D) oc m i d v is_div dm mem1 m' x, typed ops -> wf m ->
  div_or_mod i d v (div_mode_to_val dm) is_div -> executes ops oc m i mem1 m' -> reg_value m d = Some x -> operand1 m v = Some 0 ->
  can_write (sup_mode m) d = true -> dm_zero dm <> ZForbid -> computes m m' mem1 d (div_zero_result (dm_zero dm)) True True.
Proof.
  intros D ops oc m i d v is_div dm mem1 m' x T Hw Hi He Hx Hv Hd N. pose proof (P_C52_division_by_zero D ops oc m i d v is_div dm mem1 m' x T Hw Hi He Hx Hv Hd) as K.
  destruct (dm_zero dm); [congruence|exact K..].
Qed.
(** The default mode: unsigned, and division by zero is refused. *)
Lemma P_C51_default : forall D (ops : bus_ops D) oc m i d v is_div mem1 m' x y, typed ops -> wf m ->
  div_or_mod i d v (div_mode_to_val div_mode_new) is_div -> executes ops oc m i mem1 m' -> reg_value m d = Some x -> operand1 m v = Some y ->
  can_write (sup_mode m) d = true ->
  if y =? 0 then raised m m' mem1 10 0 else computes m m' mem1 d (if is_div then x / y else x mod y) False False.
Proof.
  intros D ops oc m i d v is_div mem1 m' x y T Hw Hi He Hx Hv Hd. destruct (Z.eqb_spec y 0) as [->|N].
  - exact (P_C52_division_by_zero D ops oc m i d v is_div div_mode_new mem1 m' x T Hw Hi He Hx Hv Hd).
  - exact (P_C52_division_sign D ops oc m i d v is_div div_mode_new mem1 m' x y T Hw Hi He Hx Hv Hd N).
Qed.
(** What the modes say their results are: the least signed number, zero, the greatest signed number. *)
Lemma P_C51_results : forall z o,
  signed (div_zero_result z) = (match z with ZEqToMin => - 2 ^ 31 | ZForbid | ZEqToZero => 0 | ZEqToMax => 2 ^ 31 - 1 end) /\ is_u32 (div_zero_result z) /\
  signed (div_ovf_result o) = (match o with OEqToMin => - 2 ^ 31 | OForbid | OEqToZero => 0 | OEqToMax => 2 ^ 31 - 1 end) /\ is_u32 (div_ovf_result o).
Proof. intros [] []; unfold is_u32; (split; [reflexivity|]; split; [cbn; lia|]; split; [reflexivity|cbn; lia]). Qed.
Lemma E_C51_results : div_zero_result ZEqToMax = 2147483647 /\ div_ovf_result OEqToMin = 2147483648.
Proof. split; reflexivity. Qed.
Lemma E_C51_zero_result : demo_case (asm [Div R_a0 (Lit1 0) (div_mode_to_val (div_mode_with_zero div_mode_new ZEqToMin))]) 0 (fun m i mem1 m' =>
  div_or_mod i R_a0 (Lit1 0) (Lit1 4) true /\ R m' R_a0 = div_zero_result ZEqToMin).
Proof. demo_tac. Qed.
Lemma E_C51_default : demo_case (asm [Cpy R_a0 (Lit2 7); Mod R_a0 (Lit1 5) (div_mode_to_val div_mode_new)]) 1 (fun m i mem1 m' =>
  div_or_mod i R_a0 (Lit1 5) (Lit1 0) false /\ R m' R_a0 = 2).
Proof. demo_tac. Qed.
(** What [DivOverflowMode::result] says is not what the CPU writes when the division overflows. *)
Lemma P_C51_overflow_result_refuted : ~ (forall D (ops : bus_ops D) oc m i d v is_div dm mem1 m' x y, typed ops -> wf m ->
  div_or_mod i d v (div_mode_to_val dm) is_div -> executes ops oc m i mem1 m' -> reg_value m d = Some x -> operand1 m v = Some y ->
  can_write (sup_mode m) d = true -> dm_sign dm = DSigned -> signed x = - 2 ^ 31 -> signed y = -1 -> dm_ovf dm <> OForbid ->
  R m' d = div_ovf_result (dm_ovf dm)).
Proof.
  intros H. assert (C : demo_case (asm [Cpy R_a0 (Lit2 32768); Shl R_a0 (Lit1 16); Sub R_a1 (Lit2 1); Div R_a0 (Reg1 R_a1) (Lit1 18)]) 3 (fun m i mem1 m' =>
    div_or_mod i R_a0 (Reg1 R_a1) (Lit1 18) true /\ reg_value m R_a0 = Some 2147483648 /\ operand1 m (Reg1 R_a1) = Some 4294967295 /\
    can_write (sup_mode m) R_a0 = true /\ R m' R_a0 = 2147483648)) by demo_tac.
  destruct C as (m & i & mem1 & m' & Hr & He & Hi & Hx & Hy & Hc & Hv).
  pose proof (H device (dev_ops false) false m i R_a0 (Reg1 R_a1) true (DivMode DSigned ZForbid OEqToZero) mem1 m' 2147483648 4294967295 (dev_typed false) (reachable_wf _ (dev_typed false) _ _ Hr) Hi He Hx Hy Hc eq_refl eq_refl eq_refl ltac:(discriminate)) as X.
  rewrite Hv in X. discriminate.
Qed.
Lemma E_C52_division_by_zero : demo_case (asm [Div R_a0 (Lit1 0) (Lit1 (div_mode_encode (DivMode DSigned ZEqToMax OForbid)))]) 0 (fun m i mem1 m' =>
  div_or_mod i R_a0 (Lit1 0) (Lit1 28) true /\ R m' R_a0 = 2 ^ 31 - 1).
Proof. demo_tac. Qed.
Lemma E_C52_division_sign : demo_case (asm [Cpy R_a0 (Lit2 7); Mod R_a0 (Lit1 5) (Lit1 (div_mode_encode (DivMode DUnsigned ZForbid OForbid)))]) 1 (fun m i mem1 m' =>
  div_or_mod i R_a0 (Lit1 5) (Lit1 0) false /\ R m' R_a0 = 2).
Proof. demo_tac. Qed.

(* Concrete cases for the theorems above that have none beside them. *)
(** A board with a display that cannot be read at address 256. *)
Definition display_run (prog : list Z) (n : nat) : outcome (cpu device) :=
  match board_new (dev_ops false) [DRom (BootRom prog (zlen prog) 64 1); DNum (NumDisplay 2 [])] with
  | Ret m => api_run (dev_ops false) false (demo_calls n) m
  | Panic => Panic
  end.
Lemma display_reachable prog n m : display_run prog n = Ret m -> reachable (dev_ops false) false m.
Proof.
  unfold display_run. destruct (board_new _ _) as [m0|] eqn:E; [|discriminate]. intros H.
  eexists _, (demo_calls n), m0. split; [apply demo_calls_wf|]. split; [exact E|exact H].
Qed.
Lemma E_C50_visible_load : exists m mem1 mem3 w m', reachable (dev_ops false) false m /\ executes (dev_ops false) false m (Lsa R_a1 (Reg1 R_a0) (Lit1 0)) mem1 m' /\
  load_address m (Lsa R_a1 (Reg1 R_a0) (Lit1 0)) = Some 256 /\ passes (dev_ops false) m 256 mem1 mem1 /\
  mem_read (dev_ops false) false mem1 256 = Ret (mem3, aux_encode MemoryNotReadable, w) /\ aux_wf MemoryNotReadable /\ MemoryNotReadable <> UnknownError /\
  native_decode_with_mode (R m' R_et) = Some (NHardwareException MemoryNotReadable, true).
Proof.
  pose (p := asm [Cpy R_a0 (Lit2 256); Lsa R_a1 (Reg1 R_a0) (Lit1 0)]).
  assert (C : match display_run p 1 with Ret m => match exec_check m with Some (i, mem1, m') => match mem_read (dev_ops false) false mem1 256 with Ret (mem3, ex, w) =>
     i = Lsa R_a1 (Reg1 R_a0) (Lit1 0) /\ R m R_mtt = 0 /\ load_address m i = Some 256 /\ ex = aux_encode MemoryNotReadable /\
     native_decode_with_mode (R m' R_et) = Some (NHardwareException MemoryNotReadable, true) | _ => False end | None => False end | Panic => False end) by (vm_compute; repeat split).
  destruct (display_run p 1) as [m|] eqn:E; [|destruct C]. destruct (exec_check m) as [[[i mem1] m']|] eqn:E1; [|destruct C].
  destruct (mem_read _ _ _ _) as [[[mem3 ex] w]|] eqn:Er; [|destruct C]. destruct C as (-> & Ht & Ha & -> & Hd).
  exists m, mem1, mem3, w, m'. split; [eapply display_reachable; eauto|]. split; [apply exec_check_sound; exact E1|]. split; auto.
  split; [unfold passes; rewrite Ht; reflexivity|]. split; auto. split; [exact I|]. split; [discriminate|]. exact Hd.
Qed.
(** The program jumps to the display. *)
Lemma E_C50_visible_fetch : exists m mem3 w m', reachable (dev_ops false) false m /\ c_halted m = false /\ next (dev_ops false) false m = Ret m' /\ R m R_pc = 256 /\
  passes (dev_ops false) m 256 (c_mem m) (c_mem m) /\
  mem_read (dev_ops false) false (c_mem m) 256 = Ret (mem3, aux_encode MemoryNotReadable, w) /\ aux_wf MemoryNotReadable /\ MemoryNotReadable <> UnknownError /\
  native_decode_with_mode (R m' R_et) = Some (NHardwareException MemoryNotReadable, true).
Proof.
  pose (p := asm [Cpy R_pc (Lit2 256)]).
  assert (C : match display_run p 1 with Ret m => match next (dev_ops false) false m, mem_read (dev_ops false) false (c_mem m) 256 with Ret m', Ret (mem3, ex, w) =>
     c_halted m = false /\ R m R_mtt = 0 /\ R m R_pc = 256 /\ ex = aux_encode MemoryNotReadable /\
     native_decode_with_mode (R m' R_et) = Some (NHardwareException MemoryNotReadable, true) | _, _ => False end | Panic => False end) by (vm_compute; repeat split).
  destruct (display_run p 1) as [m|] eqn:E; [|destruct C]. destruct (next _ _ m) as [m'|] eqn:E1; [|destruct C].
  destruct (mem_read _ _ _ _) as [[[mem3 ex] w]|] eqn:Er; [|destruct C]. destruct C as (Hh & Ht & Ha & -> & Hd).
  exists m, mem3, w, m'. split; [eapply display_reachable; eauto|]. split; auto. split; auto. split; auto.
  split; [unfold passes; rewrite Ht; reflexivity|]. split; auto. split; [exact I|]. split; [discriminate|]. exact Hd.
Qed.
Lemma E_C52_flag_constants : exists m m1 m2 mem mem2, reachable (dev_ops false) false m /\ wf m1 /\ is_u32 ((3 - 5) mod 2 ^ 32) /\
  computes m m1 mem R_a0 ((3 - 5) mod 2 ^ 32) (3 - 5 < 0) (~ (- 2 ^ 31 <= signed 3 - signed 5 < 2 ^ 31)) /\ FCarry <> FZeroLower /\
  executes (dev_ops false) false m1 (If (Lit1 (flag_constant FCarry))) mem2 m2 /\ R m2 R_pc = 12.
Proof.
  pose (p := asm [Cpy R_a0 (Lit2 3); Sub R_a0 (Lit2 5); If (Lit1 (flag_constant FCarry)); Halt]).
  assert (C : match demo_run false p 1 with Ret m => match exec_check m with Some (i, mem, m1) => match exec_check m1 with Some (i2, mem2, m2) =>
     i = Sub R_a0 (Lit2 5) /\ i2 = If (Lit1 (flag_constant FCarry)) /\ R m R_a0 = 3 /\ R m R_smt = 1 /\ R m2 R_pc = 12 | None => False end | None => False end | Panic => False end) by (vm_compute; repeat split).
  destruct (demo_run false p 1) as [m|] eqn:E; [|destruct C]. destruct (exec_check m) as [[[i mem] m1]|] eqn:E1; [|destruct C].
  destruct (exec_check m1) as [[[i2 mem2] m2]|] eqn:E2; [|destruct C]. destruct C as (-> & -> & Ha & Hs & Hp).
  apply exec_check_sound in E1, E2. assert (Hr : reachable (dev_ops false) false m) by (eapply demo_reachable; eauto).
  assert (W : wf m) by (eapply reachable_wf; [exact (dev_typed false)|exact Hr]). assert (Hu : sup_mode m = true) by (unfold sup_mode; rewrite Hs; reflexivity).
  exists m, m1, m2, mem, mem2. split; auto. split. { destruct E1 as (_ & _ & N). eapply next_wf; [exact (dev_typed false)|exact W|exact N]. }
  split; [unfold is_u32; lia|]. split. { eapply P_C07_sub; [exact (dev_typed false)|exact W|exact E1| |reflexivity|]. - unfold reg_value. rewrite Hu, Ha. reflexivity. - rewrite Hu. reflexivity. }
  split; [discriminate|]. split; auto.
Qed.
Lemma E_C52_zlf_constant : demo_case (asm [Cpy R_a0 (Lit2 3); Cmp R_a0 (Lit2 5); If (Lit1 (flag_constant FZeroLower)); Halt]) 2 (fun m i mem1 m' =>
  i = If (Lit1 (flag_constant FZeroLower)) /\ flag m 1 = true /\ R m' R_pc = 12).
Proof. demo_tac. Qed.
Lemma E_C52_mode_constants : let dm := DivMode DSigned ZEqToMax OEqToZero in
  Z.lor (Z.lor (sign_constant (dm_sign dm)) (zero_constant (dm_zero dm))) (overflow_constant (dm_ovf dm)) = 30 /\ div_mode_encode dm = 30 /\ sign_constant (dm_sign dm) = 16.
Proof. repeat split. Qed.
Lemma E_C52_flag_codes : ar_flag_decode (ar_flag_code FOverflow) = Some FOverflow /\ ar_flag_code FOverflow <> 0 /\ ar_flag_decode 7 = None.
Proof. repeat split; discriminate. Qed.
Lemma E_C52_cond_codes : if2_cond_decode (if2_cond_code CRight) = Some CRight /\ if2_cond_decode 0 = None /\ if2_cond_decode 8 = None.
Proof. repeat split. Qed.
Lemma E_C52_info_codes : hw_info_decode (hw_info_to_code HMapStart) = Some HMapStart /\ hw_info_to_code HMapStart <> 0 /\ hw_info_decode 3 = None.
Proof. repeat split; discriminate. Qed.
