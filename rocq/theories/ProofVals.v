(** Operand constructors: what a program built with them does, and their text. *)
From Coq Require Import String ZArith List Bool Lia.
From Verif Require Import Base Board Mem Cpu Asm Tools LasmRules Lasm LasmFacts Vals Devices DevTyped Runner Console SpecMach SpecIsa SpecBus SpecObs SpecAsm SpecTools SpecMap SpecRun SpecConsole SpecVals SpecExt BaseFacts RegFacts MemFacts
  AluFacts IsaFacts IsaStep MonoFacts CycleFacts UndFacts HoareFacts CyclePost InvFacts MapFacts ReachFacts ExecFacts StepCases ConsoleFacts ProofAlu ProofState ProofReg Demo ProofAsm ProofExt.
Import ListNotations.
Open Scope Z_scope.
Ltac Zify.zify_post_hook ::= Z.div_mod_to_equations.

Lemma some_is {A} (a b : A) : Some a = Some b -> a = b.
Proof. congruence. Qed.
Lemma value_bounds s : forall acc n, 0 <= acc -> digits_value 16 s acc = Some n -> n < (acc + 1) * 16 ^ Z.of_nat (String.length s).
Proof.
  induction s as [|c s IH]; intros acc n Ha E; cbn [digits_value String.length] in *.
  - apply some_is in E. subst n. change (16 ^ Z.of_nat 0) with 1. lia.
  - destruct (SpecConsole.digit_value c) as [d|] eqn:Ed; [|discriminate]. destruct (Z.ltb_spec d 16) as [L|]; [|discriminate].
    assert (D0 : 0 <= d). { unfold SpecConsole.digit_value in Ed. cbv zeta in Ed. destruct ((48 <=? Z.of_N (Ascii.N_of_ascii c)) && (Z.of_N (Ascii.N_of_ascii c) <=? 57)) eqn:X.
      - apply andb_prop in X. destruct X as (X & _). apply Z.leb_le in X. apply some_is in Ed. lia.
      - destruct ((65 <=? Z.of_N (Ascii.N_of_ascii c)) && (Z.of_N (Ascii.N_of_ascii c) <=? 70)) eqn:Y; [|discriminate]. apply andb_prop in Y. destruct Y as (Y & _). apply Z.leb_le in Y. apply some_is in Ed. lia. }
    specialize (IH (acc * 16 + d) n ltac:(lia) E). rewrite Nat2Z.inj_succ, Z.pow_succ_r by lia. nia.
Qed.
Lemma hex_shortest n : 0 <= n < 2 ^ 16 -> shortest (fmt_hex n) n.
Proof.
  intros H. exists (number 16 1 n). split; [reflexivity|]. split; [apply number_reads; [lia|]; change (16 ^ 64) with (2 ^ 256); split; [lia|]; apply Z.lt_trans with (2 ^ 16); [lia|reflexivity]|].
  intros d' (N & E). pose proof (value_bounds d' 0 n ltac:(lia) E) as B. assert (L : (1 <= String.length d')%nat) by (destruct d'; [congruence|cbn [String.length]; lia]).
  unfold number. cbv zeta. rewrite pad_len. pose proof (digits_length 16 64 ltac:(lia) (String.length d') n "" L ltac:(lia)) as X. cbn [String.length] in X. lia.
Qed.
Lemma jump D (ops : bus_ops D) oc m n mem1 m' : typed ops -> wf m -> is_i16 n -> executes ops oc m (Jpr (Lit2 (n mod 2 ^ 16))) mem1 m' -> after m m' mem1 [(R_pc, (R m R_pc + n) mod 2 ^ 32)].
Proof.
  intros T Hw Hn He. unfold is_i16 in Hn. eapply ends_after; eauto. cbn [step read2].
  cbv zeta. assert (X : (if n mod 2 ^ 16 mod 65536 <? 32768 then n mod 2 ^ 16 mod 65536 else n mod 2 ^ 16 mod 65536 - 65536) = n). { change (2 ^ 16) with 65536. destruct (Z.ltb_spec (n mod 65536 mod 65536) 32768); lia. }
  rewrite X. apply (ends_advance (start m mem1) [] (start m mem1) n). apply sets_refl. apply len_start. exact Hw.
Qed.
Lemma built_wf n : instr_wf (Jpr (Lit2 (n mod 2 ^ 16))).
Proof. cbn. unfold is_u16. change (2 ^ 16) with 65536. lia. Qed.

(** A JPR built from a signed number, encoded by the assembler and run by the CPU, moves pc by exactly that many bytes, back or forth ... *)
Lemma P_C89_jump : forall D (ops : bus_ops D) oc m n mem1 m', typed ops -> wf m -> is_i16 n -> executes_word ops oc m (encode_word (Jpr (rl2_from_i16 n))) mem1 m' ->
  after m m' mem1 [(R_pc, (R m R_pc + n) mod 2 ^ 32)].
Proof. intros D ops oc m n mem1 m' T Hw Hn He. apply (jump D ops oc); auto. apply (P_C43_executes D ops oc m _ mem1 m' T Hw); [apply built_wf|reflexivity|exact He]. Qed.
(** ... and so does one built from a signed byte. *)
Lemma P_C89_jump_byte : forall D (ops : bus_ops D) oc m n mem1 m', typed ops -> wf m -> is_i8 n -> executes_word ops oc m (encode_word (Jpr (rl2_from_i8 n))) mem1 m' ->
  after m m' mem1 [(R_pc, (R m R_pc + n) mod 2 ^ 32)].
Proof. intros D ops oc m n mem1 m' T Hw Hn He. apply (P_C89_jump D ops oc); auto. unfold is_i8, is_i16 in *. lia. Qed.
(** Elsewhere a negative literal is the number plus 2^16: an ADD adds that. *)
Lemma P_C89_add : forall D (ops : bus_ops D) oc m d n mem1 m' x, typed ops -> wf m -> is_i16 n -> executes_word ops oc m (encode_word (Add d (rl2_from_i16 n))) mem1 m' ->
  reg_value m d = Some x -> can_write (sup_mode m) d = true ->
  computes m m' mem1 d ((x + (if n <? 0 then n + 65536 else n)) mod 2 ^ 32) (2 ^ 32 <= x + (if n <? 0 then n + 65536 else n)) (~ (- 2 ^ 31 <= signed x + (if n <? 0 then n + 65536 else n) < 2 ^ 31)).
Proof.
  intros D ops oc m d n mem1 m' x T Hw Hn He Hx Hc. unfold is_i16 in Hn. assert (E : n mod 2 ^ 16 = (if n <? 0 then n + 65536 else n)) by (change (2 ^ 16) with 65536; destruct (Z.ltb_spec n 0); lia).
  assert (X : executes ops oc m (Add d (Lit2 (n mod 2 ^ 16))) mem1 m').
  { apply (P_C43_executes D ops oc m _ mem1 m' T Hw); [|reflexivity|exact He]. cbn. unfold is_u16. change (2 ^ 16) with 65536. lia. }
  pose proof (P_C07_add D ops oc m d _ mem1 m' x (n mod 2 ^ 16) T Hw X Hx eq_refl Hc) as Y. rewrite E in Y.
  assert (S : signed (if n <? 0 then n + 65536 else n) = (if n <? 0 then n + 65536 else n)). { unfold signed. change (2 ^ 31) with 2147483648. destruct (Z.ltb_spec n 0); [destruct (Z.ltb_spec (n + 65536) 2147483648)|destruct (Z.ltb_spec n 2147483648)]; lia. }
  rewrite S in Y. exact Y.
Qed.
(** So adding a negative literal does not subtract. *)
Lemma P_C89_add_refuted : ~ (forall D (ops : bus_ops D) oc m d n mem1 m' x, typed ops -> wf m -> is_i16 n -> executes_word ops oc m (encode_word (Add d (rl2_from_i16 n))) mem1 m' ->
  reg_value m d = Some x -> can_write (sup_mode m) d = true -> R m' d = (x + n) mod 2 ^ 32).
Proof.
  intros H. assert (X : demo_raw (asm [Add R_a0 (rl2_from_i16 (-1))]) 0 (encode_word (Add R_a0 (rl2_from_i16 (-1)))) (fun m mem1 m' => R m' R_a0 = 65535 /\ reg_value m R_a0 = Some 0 /\ can_write (sup_mode m) R_a0 = true)) by (apply demo_raw_intro; vm_compute; repeat split).
  destruct X as (m & mem1 & m' & Hr & Hh & Hl & Hn & E2 & E3 & E4).
  specialize (H _ _ false m R_a0 (-1) mem1 m' 0 (dev_typed false) (reachable_wf _ (dev_typed false) _ _ Hr) ltac:(unfold is_i16; lia) (conj Hh (conj Hl Hn)) E3 E4). rewrite E2 in H. discriminate H.
Qed.
(** A literal built from a signed number and one built from an unsigned one are the same exactly when the numbers agree modulo 2^16; different signed numbers give different operands. *)
Lemma P_C89_same : forall n k, is_i16 n -> is_u16 k -> (rl2_from_i16 n = rl2_from_u16 k <-> n = k \/ n = k - 2 ^ 16) /\ (forall n', is_i16 n' -> rl2_from_i16 n = rl2_from_i16 n' -> n = n').
Proof.
  intros n k Hn Hk. unfold rl2_from_i16, rl2_from_u16, signed_lit2, lit2, is_i16, is_u16 in *. change (2 ^ 16) with 65536. split.
  - split; [intros E; injection E as E; lia|]. intros E. f_equal. lia.
  - intros n' Hn' E. injection E as E. lia.
Qed.
(** Operands built from unsigned numbers and registers: a literal is told from a register, a byte gives the same operand as the same 16-bit number, different numbers or
    registers give different operands, and a number converted back is itself, a register its code. *)
Lemma P_C89_unsigned : forall n n' b r r', is_u16 n -> is_u16 n' -> is_u8 b ->
  (is_lit2 (rl2_from_u16 n) = true /\ is_lit2 (rl2_from_reg r) = false /\ is_lit1 (rl1_from_u8 b) = true /\ is_lit1 (rl1_from_reg r) = false) /\
  rl2_from_u8 b = rl2_from_u16 b /\
  ((rl2_from_u16 n = rl2_from_u16 n' -> n = n') /\ (rl2_from_reg r = rl2_from_reg r' -> r = r') /\ (rl1_from_reg r = rl1_from_reg r' -> r = r')) /\
  (u16_from_rl2 (rl2_from_u16 n) = n /\ u8_from_rl1 (rl1_from_u8 b) = b /\ u16_from_rl2 (rl2_from_reg r) = reg_code r /\ u8_from_rl1 (rl1_from_reg r) = reg_code r).
Proof.
  intros n n' b r r' Hn Hn' Hb. split; [repeat split|]. split; [reflexivity|]. split; [|repeat split].
  split; [|split]; intros E; injection E; auto.
Qed.
(** A CPY built from an unsigned number or byte, encoded by the assembler and run by the CPU, puts exactly that number in the register and changes no other one but pc. *)
Lemma P_C89_copy : forall D (ops : bus_ops D) oc m d n o mem1 m', typed ops -> wf m -> (is_u16 n /\ o = rl2_from_u16 n \/ is_u8 n /\ o = rl2_from_u8 n) ->
  executes_word ops oc m (encode_word (Cpy d o)) mem1 m' -> can_write (sup_mode m) d = true ->
  after m m' mem1 [(d, n); (R_pc, (R m R_pc + 4) mod 2 ^ 32)].
Proof.
  intros D ops oc m d n o mem1 m' T Hw Ho He Hc. assert (X : is_u16 n /\ o = Lit2 n) by (destruct Ho as [(H & ->)|(H & ->)]; split; try reflexivity; unfold is_u8, is_u16 in *; lia).
  destruct X as (Hn & ->). clear Ho. assert (X : executes ops oc m (Cpy d (Lit2 n)) mem1 m') by (apply (P_C43_executes D ops oc m _ mem1 m' T Hw); [exact Hn|reflexivity|exact He]).
  eapply ends_after; eauto. cbn [step read2]. apply (ends_write_end (start m mem1) [] (start m mem1) d n); [apply sets_refl; apply len_start; exact Hw|].
  exact Hc.
Qed.
(** The signed text of an operand built from a signed number is that number; printing panics only for the least one, with overflow checks. *)
Lemma P_C89_text : forall oc n, is_i16 n -> match lasm2_signed oc (rl2_from_i16 n) with Ret t => signed_text t n | Panic => oc = true /\ n = - 32768 end.
Proof.
  intros oc n Hn. unfold is_i16 in Hn. unfold rl2_from_i16, signed_lit2, lasm2_signed, signed_text, signed_of. change (2 ^ 16) with 65536.
  destruct (Z.ltb_spec (n mod 65536) 32768).
  - destruct (Z.ltb_spec n 0); [lia|]. replace (n mod 65536) with n by lia. apply hex_shortest. change (2 ^ 16) with 65536. lia.
  - destruct (Z.ltb_spec n 0); [|lia]. destruct (Z.eqb_spec (n mod 65536) 32768).
    + assert (n = -32768) by lia. subst n. destruct oc; [auto|]. exists (fmt_hex 32768). split; [reflexivity|]. apply hex_shortest. lia.
    + exists (fmt_hex (65536 - n mod 65536)). split; [reflexivity|]. replace (65536 - n mod 65536) with (- n) by lia. apply hex_shortest. change (2 ^ 16) with 65536. lia.
Qed.
(** A signed byte as an operand prints as itself, except that -128 panics in debug builds. *)
Lemma P_C89_text_byte : forall oc n, is_i8 n -> match lasm1_signed oc (rl1_from_i8 n) with Ret t => signed_text t n | Panic => oc = true /\ n = - 128 end.
Proof.
  intros oc n Hn. unfold is_i8 in Hn. unfold rl1_from_i8, signed_lit1, lasm1_signed, signed_text, signed_of. change (2 ^ 8) with 256.
  destruct (Z.ltb_spec (n mod 256) 128).
  - destruct (Z.ltb_spec n 0); [lia|]. replace (n mod 256) with n by lia. apply hex_shortest. change (2 ^ 16) with 65536. lia.
  - destruct (Z.ltb_spec n 0); [|lia]. destruct (Z.eqb_spec (n mod 256) 128).
    + assert (n = -128) by lia. subst n. destruct oc; [auto|]. exists (fmt_hex 128). split; [reflexivity|]. apply hex_shortest. lia.
    + exists (fmt_hex (256 - n mod 256)). split; [reflexivity|]. replace (256 - n mod 256) with (- n) by lia. apply hex_shortest. change (2 ^ 16) with 65536. lia.
Qed.

Lemma E_C89_jump : demo_raw (asm [Cpy R_a0 (Lit2 7); Jpr (rl2_from_i16 (-4))]) 1 (encode_word (Jpr (rl2_from_i16 (-4)))) (fun m mem1 m' => is_i16 (-4) /\ R m R_pc = 4 /\ R m' R_pc = 0).
Proof. apply demo_raw_intro. vm_compute. repeat split; discriminate. Qed.
Lemma E_C89_jump_byte : demo_raw (asm [Cpy R_a0 (Lit2 7); Jpr (rl2_from_i8 (-4))]) 1 (encode_word (Jpr (rl2_from_i8 (-4)))) (fun m mem1 m' => is_i8 (-4) /\ R m R_pc = 4 /\ R m' R_pc = 0).
Proof. apply demo_raw_intro. vm_compute. repeat split; discriminate. Qed.
Lemma E_C89_add : demo_raw (asm [Cpy R_a0 (Lit2 7); Add R_a0 (rl2_from_i16 (-4))]) 1 (encode_word (Add R_a0 (rl2_from_i16 (-4)))) (fun m mem1 m' =>
  is_i16 (-4) /\ reg_value m R_a0 = Some 7 /\ can_write (sup_mode m) R_a0 = true /\ R m' R_a0 = 7 + 65536 - 4).
Proof. apply demo_raw_intro. vm_compute. repeat split; discriminate. Qed.
Lemma E_C89_same : is_i16 (-1) /\ is_u16 65535 /\ rl2_from_i16 (-1) = rl2_from_u16 65535 /\ rl2_from_i8 (-1) <> rl2_from_u8 255.
Proof. split; [unfold is_i16; lia|]. split; [unfold is_u16; lia|]. split; [reflexivity|discriminate]. Qed.
Lemma E_C89_text : is_i16 (-255) /\ lasm2_signed true (rl2_from_i16 (-255)) = Ret "-0xFF"%string /\ lasm2_signed true (rl2_from_i16 (-32768)) = Panic.
Proof. split; [unfold is_i16; lia|]. split; reflexivity. Qed.
Lemma E_C89_text_byte : is_i8 (-16) /\ lasm1_signed true (rl1_from_i8 (-16)) = Ret "-0x10"%string /\ lasm1_signed true (rl1_from_i8 (-128)) = Panic.
Proof. split; [unfold is_i8; lia|]. split; reflexivity. Qed.
Lemma E_C89_unsigned : is_u16 65535 /\ is_u8 255 /\ rl2_from_u8 255 <> rl2_from_i8 (-1) /\ u16_from_rl2 (rl2_from_reg R_pc) = 22.
Proof. split; [unfold is_u16; lia|]. split; [unfold is_u8; lia|]. split; [discriminate|reflexivity]. Qed.
Lemma E_C89_copy : demo_raw (asm [Cpy R_a0 (Lit2 7); Cpy R_a1 (rl2_from_u8 255)]) 1 (encode_word (Cpy R_a1 (rl2_from_u8 255))) (fun m mem1 m' =>
  is_u8 255 /\ can_write (sup_mode m) R_a1 = true /\ R m' R_a1 = 255 /\ R m' R_a0 = 7).
Proof. apply demo_raw_intro. vm_compute. repeat split; discriminate. Qed.
