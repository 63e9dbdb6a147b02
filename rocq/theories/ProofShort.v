(** C73: aliases and short forms of the assembly language. *)
From Coq Require Import String Ascii ZArith List Bool Lia.
From Verif Require Import Base Mem Asm Tools LasmRules Lasm SpecAsm SpecLasm BaseFacts RegFacts ProofAsm LasmFacts ProofLasm SpecShort.
From Verif Require Import Cpu Board SpecMach SpecIsa SpecBus SpecObs SpecExt.
Import ListNotations.
Open Scope string_scope.
Open Scope Z_scope.
Ltac Zify.zify_post_hook ::= Z.div_mod_to_equations.

Ltac stext E := cbv beta iota zeta delta [short_text textr text1 Verif.SpecLasm.text2 lasm1 lasm2 lasm1_with option_map] in E; apply some_eq in E; subst; cbn [becomes documented].
Lemma short_line s t : short_wf s -> short_text s = Some t -> comes_back t (Some (becomes s)).
Proof.
  intros W E. destruct s as [r|r|r|r| | | | | | |c a b|v| |d v|d v|d v|v|v w|v|v w|v w]; cbn [short_wf] in W;
    try (stext E; written; fail).
  all: try (destruct v as [q|n]; cbn [rl1_wf rl2_wf] in W; stext E; written; fail).
  all: try (destruct W as (W1 & W2); destruct v as [q|n], w as [u|k]; cbn [rl1_wf] in W1, W2; stext E; written; fail).
  destruct W as (W1 & W2). cbv beta iota zeta delta [short_text] in E.
  destruct (flag_text a) as [u|] eqn:M; [|discriminate]. destruct (flag_text b) as [v|] eqn:N; [|discriminate].
  apply flag_text_view in M; [|exact W1]. apply flag_text_view in N; [|exact W2]. apply some_eq in E. subst t.
  destruct c; cbn [if_name becomes documented]; known M; known N; written.
Qed.

(** What every alias and short form is assembled to. *)
Lemma P_C73_short : forall s t, short_wf s -> short_text s = Some t -> exists bs, assemble t = Some (list_of_bytes bs) /\ runs_as bs (becomes s).
Proof. intros s t W E. destruct (short_line s t W E) as (bs & H & R). exists bs. split; [apply assemble_line; exact H|exact R]. Qed.
(** The documented aliases, LSA and WSA without offset: the documented instruction, byte for byte what the long form gives. *)
Lemma P_C73_documented : forall s t i u, short_wf s -> short_text s = Some t -> sound_short s = true -> documented s = Some i -> plain i = Some u ->
  assemble t = assemble u /\ exists bs, assemble t = Some (list_of_bytes bs) /\ runs_as bs i.
Proof.
  intros s t i u W E S D P. assert (B : becomes s = i) by (destruct s; try discriminate; cbn [becomes]; rewrite D; reflexivity).
  assert (WI : instr_wf i). { destruct s; try discriminate; injection D as <-; cbn [short_wf] in W; cbn [instr_wf rl1_wf rl2_wf]; try tauto; try (unfold is_u8, is_u16; lia); try (destruct W; repeat split; auto; unfold is_u8; try destruct c; lia); try (split; [exact W|unfold is_u8; lia]). }
  destruct (P_C73_short s t W E) as (bs & A & R). rewrite B in R. destruct (P_C69_written i u WI P) as (bs2 & A2 & R2). split; [|exists bs; auto].
  destruct R as (_ & _ & ->). destruct R2 as (_ & _ & ->). congruence.
Qed.
(** The documented instruction of such a form can always be written in full. *)
Lemma P_C73_long : forall s t i, short_wf s -> short_text s = Some t -> sound_short s = true -> documented s = Some i -> exists u, plain i = Some u.
Proof.
  intros s t i W E S D. destruct s; try discriminate; injection D as <-; cbn [plain]; try (eexists; reflexivity).
  cbv beta iota zeta delta [short_text] in E. destruct (flag_text a); [|discriminate]. destruct (flag_text b); [|discriminate]. destruct c; eexists; reflexivity.
Qed.
(** LEA and WEA of an address alone: the same effect as the documented instruction. *)
Lemma P_C73_address : forall B (bs : @bus B) v s i, documented (SLea v) = Some i \/ documented (SWea v) = Some i ->
  step bs (match i with Lea _ _ _ => becomes (SLea v) | _ => becomes (SWea v) end) s = step bs i s.
Proof.
  intros B bs v s i [E|E]; injection E as <-; cbn [becomes documented step read1]; unfold read; cbn [can_read read_only user_reg]; rewrite !Z.mul_1_r; destruct v as [r|n]; cbn [read1]; unfold read.
  all: assert (C : can_read (sup s) R_a0 = true) by (destruct (sup s); reflexivity); rewrite ?C, ?Z.mul_0_r; reflexivity.
Qed.
(** LEA and WEA with an offset: the offset is ignored (a readable register or a literal). *)
Lemma P_C73_offset : forall B (bs : @bus B) v a s, match a with Reg1 r => can_read (sup s) r = true | Lit1 _ => True end ->
  step bs (becomes (SLeaAdd v a)) s = step bs (Lea v (Lit1 0) (Lit1 0)) s /\ step bs (becomes (SWeaAdd v a)) s = step bs (Wea v (Lit1 0) (Lit1 0)) s.
Proof.
  intros B bs v a s C. cbn [becomes step]. destruct v as [r|n], a as [q|k]; cbn [read1]; unfold read; rewrite ?C; rewrite ?Z.mul_0_r; split; reflexivity.
Qed.
(** DIV and MOD without a mode: the mode is read from a0; the documented instruction when the bits of a0 that say the mode are clear. *)
Lemma P_C73_mode : forall B (bs : @bus B) d v s i j, documented (SDiv d v) = Some i -> documented (SMod d v) = Some j -> (forall k, 2 <= k <= 4 -> Z.testbit (get s R_a0) k = false) ->
  step bs (becomes (SDiv d v)) s = step bs i s /\ step bs (becomes (SMod d v)) s = step bs j s.
Proof.
  intros B bs d v s i j E F Z. injection E as <-. injection F as <-. cbn [becomes step].
  assert (X : forall b x y, divide b (get s R_a0) x y = divide b 0 x y). { intros b x y. unfold divide, by_zero. rewrite !Z by lia. reflexivity. }
  assert (C : can_read (sup s) R_a0 = true) by (destruct (sup s); reflexivity).
  destruct v as [r|n]; cbn [read1]; unfold read; rewrite ?C; (split; [destruct (can_read (sup s) r) || idtac|destruct (can_read (sup s) r) || idtac]); unfold arith, read; cbn [alu_spec]; try reflexivity.
  all: destruct (can_read (sup s) d); [|reflexivity]; rewrite X; reflexivity.
Qed.
(** ZRO leaves 0 in the register (one that can be read and written). *)
Lemma P_C73_zero : forall B (bs : @bus B) r s s', length (s_reg s) = 32%nat -> can_read (sup s) r = true -> can_write (sup s) r = true -> r <> R_pc ->
  step bs (becomes (SZro r)) s = Ret s' -> get s' r = 0.
Proof.
  intros B bs r s s' L CR CW N E. cbn [becomes documented step read2] in E. unfold read, arith, read in E. rewrite CR in E. cbn [alu_spec] in E. rewrite Z.lxor_nilpotent in E. unfold write_end, write in E.
  assert (S : sup (put s R_af (flags_spec 0 false false)) = sup s). { unfold sup, get, put. cbn [s_reg]. rewrite rg_rs_other by (exact L || discriminate). reflexivity. }
  rewrite S, CW in E. assert (X : advance 4 (put (put s R_af (flags_spec 0 false false)) r 0) = Ret s') by (destruct r; try congruence; exact E).
  unfold advance in X. apply ret_eq in X. subst s'. unfold get, put. cbn [s_reg]. rewrite rg_rs_other by (rewrite ?rs_length; exact L || exact N). apply rg_rs_same. rewrite rs_length. exact L.
Qed.

(** ** Claims that fail *)
Definition dull : @bus unit := Bus (fun _ a => Ret (tt, 0, a)) (fun _ _ _ => Ret (tt, 0)) (fun _ => 0) (fun _ _ _ => inr 0) (fun _ _ => Panic).
Definition here (l : list (reg * Z)) : @st unit := St (fold_left (fun f e => rs f (fst e) (snd e)) l (repeat 0 31 ++ [1])%list) tt 0 false.
(** DIV without a mode is not an unsigned division that refuses to divide by zero. *)
Lemma P_C73_mode_refuted : ~ (forall d v t bs i j B (b : @bus B) s, short_wf (SDiv d v) -> short_text (SDiv d v) = Some t -> documented (SDiv d v) = Some i ->
  assemble t = Some (list_of_bytes bs) -> decode bs = ROk j -> step b j s = step b i s).
Proof.
  intros H. specialize (H R_a1 (Lit1 2) "div a1, 0x2" (53, 1, 2, 0) (Div R_a1 (Lit1 2) (Lit1 0)) (Div R_a1 (Lit1 2) (Reg1 R_a0)) unit dull (here [(R_a0, 16); (R_a1, 4294967292)])).
  assert (X : short_wf (SDiv R_a1 (Lit1 2))) by (cbn; unfold is_u8; lia). specialize (H X eq_refl eq_refl eq_refl eq_refl). vm_compute in H. discriminate.
Qed.
(** LEA of an address and an offset does not read at their sum. *)
Lemma P_C73_offset_refuted : ~ (forall v a t bs i j B (b : @bus B) s, short_wf (SLeaAdd v a) -> short_text (SLeaAdd v a) = Some t -> documented (SLeaAdd v a) = Some i ->
  assemble t = Some (list_of_bytes bs) -> decode bs = ROk j -> step b j s = step b i s).
Proof.
  intros H. specialize (H (Reg1 R_a1) (Lit1 4) "lea a1, 0x4" (172, 1, 4, 0) (Lea (Reg1 R_a1) (Lit1 4) (Lit1 1)) (Lea (Reg1 R_a1) (Lit1 4) (Lit1 0)) unit dull (here [(R_a1, 64)])).
  assert (X : short_wf (SLeaAdd (Reg1 R_a1) (Lit1 4))) by (cbn; unfold is_u8; lia). specialize (H X eq_refl eq_refl eq_refl eq_refl). vm_compute in H. discriminate.
Qed.
(** Nor does WEA write there. *)
Lemma P_C73_offset_write_refuted : ~ (forall v a t bs i j B (b : @bus B) s, short_wf (SWeaAdd v a) -> short_text (SWeaAdd v a) = Some t -> documented (SWeaAdd v a) = Some i ->
  assemble t = Some (list_of_bytes bs) -> decode bs = ROk j -> step b j s = step b i s).
Proof.
  intros H. specialize (H (Reg1 R_a1) (Lit1 4) "wea a1, 0x4" (188, 1, 4, 0) (Wea (Reg1 R_a1) (Lit1 4) (Lit1 1)) (Wea (Reg1 R_a1) (Lit1 4) (Lit1 0)) _
    (Bus (B := Z) (fun _ a => Ret (0, 0, a)) (fun _ a _ => Ret (a, 0)) (fun _ => 0) (fun _ _ _ => inr 0) (fun _ _ => Panic)) (St (rs (repeat 0 31 ++ [1])%list R_a1 64) 0 0 false)).
  assert (X : short_wf (SWeaAdd (Reg1 R_a1) (Lit1 4))) by (cbn; unfold is_u8; lia). specialize (H X eq_refl eq_refl eq_refl eq_refl). vm_compute in H. discriminate.
Qed.
(** NOT does not complement its register. *)
Lemma P_C73_not_refuted : ~ (forall r t bs j B (b : @bus B) s s', short_text (SNot r) = Some t -> assemble t = Some (list_of_bytes bs) -> decode bs = ROk j ->
  length (s_reg s) = 32%nat -> can_read (sup s) r = true -> can_write (sup s) r = true -> r <> R_pc -> step b j s = Ret s' -> get s' r = 2 ^ 32 - 1 - get s r).
Proof.
  intros H. specialize (H R_a1 "not a1" (86, 1, 1, 0) (Xor R_a1 (Reg2 R_a1)) unit dull (here [(R_a1, 5)])). destruct (step dull (Xor R_a1 (Reg2 R_a1)) (here [(R_a1, 5)])) as [s'|] eqn:E; [|vm_compute in E; discriminate].
  specialize (H s' eq_refl eq_refl eq_refl eq_refl eq_refl eq_refl). assert (X : R_a1 <> R_pc) by discriminate. specialize (H X eq_refl). vm_compute in E. apply ret_eq in E. subst s'. vm_compute in H. discriminate.
Qed.

(** ** Witnesses *)
Lemma E_C73_short : short_wf (SIf CNand (Lit1 5) (Reg1 R_ac0)) /\ short_text (SIf CNand (Lit1 5) (Reg1 R_ac0)) = Some "ifnand ZUF, ac0" /\ assemble "ifnand ZUF, ac0" = Some [154; 5; 10; 5] /\
  decode (154, 5, 10, 5) = ROk (If2 (Lit1 5) (Reg1 R_ac0) (Lit1 5)).
Proof. split; [cbn; unfold is_u8; lia|]. repeat split; vm_compute; reflexivity. Qed.
Lemma E_C73_documented : short_wf (SWsa (Reg1 R_a3) (Lit1 200)) /\ short_text (SWsa (Reg1 R_a3) (Lit1 200)) = Some "wsa a3, 0xC8" /\ sound_short (SWsa (Reg1 R_a3) (Lit1 200)) = true /\
  documented (SWsa (Reg1 R_a3) (Lit1 200)) = Some (Wsa (Reg1 R_a3) (Lit1 0) (Lit1 200)) /\ plain (Wsa (Reg1 R_a3) (Lit1 0) (Lit1 200)) = Some "wsa a3, 0x0, 0xC8" /\ assemble "wsa a3, 0xC8" = Some [180; 3; 0; 200].
Proof. split; [cbn; unfold is_u8; lia|]. repeat split; vm_compute; reflexivity. Qed.
Lemma E_C73_long : short_wf SRet /\ short_text SRet = Some "ret" /\ documented SRet = Some (Pop R_pc) /\ plain (Pop R_pc) = Some "pop pc".
Proof. repeat split; reflexivity. Qed.
Lemma E_C73_address : exists s', step dull (becomes (SLea (Reg1 R_a1))) (here [(R_a1, 64)]) = Ret s' /\ get s' R_avr = 64.
Proof. eexists. split; vm_compute; reflexivity. Qed.
Lemma E_C73_offset : exists s', step dull (becomes (SLeaAdd (Reg1 R_a1) (Lit1 4))) (here [(R_a1, 64)]) = Ret s' /\ get s' R_avr = 64 /\ can_read false R_a1 = true.
Proof. eexists. split; [vm_compute; reflexivity|]. split; vm_compute; reflexivity. Qed.
Lemma E_C73_mode : exists s', (forall k, 2 <= k <= 4 -> Z.testbit (get (here [(R_a0, 99); (R_a1, 17)]) R_a0) k = false) /\ step dull (becomes (SDiv R_a1 (Lit1 5))) (here [(R_a0, 99); (R_a1, 17)]) = Ret s' /\ get s' R_a1 = 3.
Proof. eexists. split; [intros k K; assert (X : k = 2 \/ k = 3 \/ k = 4) by lia; destruct X as [->|[->| ->]]; reflexivity|]. split; vm_compute; reflexivity. Qed.
Lemma E_C73_zero : exists s', can_write (sup (here [(R_a1, 17)])) R_a1 = true /\ length (s_reg (here [(R_a1, 17)])) = 32%nat /\ step dull (becomes (SZro R_a1)) (here [(R_a1, 17)]) = Ret s' /\ get s' R_a1 = 0.
Proof. eexists. split; [reflexivity|]. split; [reflexivity|]. split; vm_compute; reflexivity. Qed.
