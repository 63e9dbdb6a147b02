(** The assembler library: instructions, programs, registers, exceptions, modes, bytes, metadata, categories
    (C41, C42, C44 to C46, C49 to C51, C53 to C55). *)
From Coq Require Import String ZArith List Bool Lia.
From Verif Require Import Base Board Mem Cpu Asm Tools SpecMach SpecAsm BaseFacts RegFacts.
Import ListNotations.
Open Scope Z_scope.
Ltac Zify.zify_post_hook ::= Z.div_mod_to_equations.

Lemma land_bit b n : 0 <= n -> (Z.land b (2 ^ n) =? 0) = negb (Z.testbit b n).
Proof.
  intros Hn. destruct (Z.testbit b n) eqn:E; cbn [negb].
  - apply Z.eqb_neq. intros H. assert (X : Z.testbit (Z.land b (2 ^ n)) n = true). { rewrite Z.land_spec, E, Z.pow2_bits_true by lia. reflexivity. }
    rewrite H, Z.bits_0 in X. discriminate.
  - apply Z.eqb_eq. apply Z.bits_inj'. intros k Hk. rewrite Z.land_spec, Z.bits_0. destruct (Z.eqb_spec k n) as [->|].
    + rewrite E. reflexivity.
    + rewrite Z.pow2_bits_false by lia. apply andb_false_r.
Qed.
Lemma arg_rl1_flag bs k : (k < 3)%nat -> arg_rl1 bs (Z.of_nat k + 1) =
  if reg_flag bs k then dor r <- arg_reg bs (Z.of_nat k + 1); ROk (Reg1 r) else ROk (Lit1 (operand_byte bs k)).
Proof.
  intros Hk. unfold arg_rl1, reg_flag, operand_byte. rewrite land_bit by lia. replace (3 - (Z.of_nat k + 1)) with (2 - Z.of_nat k) by lia.
  destruct (Z.testbit _ _); reflexivity.
Qed.
Lemma arg_rl2_flag bs k : (k < 3)%nat -> arg_rl2 bs (Z.of_nat k + 1) =
  if reg_flag bs k then dor r <- arg_reg bs (Z.of_nat k + 1); ROk (Reg2 r) else ROk (Lit2 (of_be2 (operand_byte bs k) (operand_byte bs (S k)))).
Proof.
  intros Hk. unfold arg_rl2, reg_flag, operand_byte. rewrite land_bit by lia. replace (3 - (Z.of_nat k + 1)) with (2 - Z.of_nat k) by lia.
  replace (Z.of_nat (S k) + 1) with (Z.of_nat k + 1 + 1) by lia. destruct (Z.testbit _ _); reflexivity.
Qed.
Lemma arg_reg_op bs k : arg_reg bs (Z.of_nat k + 1) =
  match reg_from_code (operand_byte bs k) with Some r => ROk r | None => RErr (UnknownRegister (Z.of_nat k) (operand_byte bs k)) end.
Proof. unfold arg_reg, operand_byte. replace (Z.of_nat k + 1 - 1) with (Z.of_nat k) by lia. reflexivity. Qed.
Lemma byte_at_wf bs p : bytes_wf bs -> is_u8 (byte_at bs p).
Proof. destruct bs as [[[a b] c] d]. intros (?&?&?&?). unfold byte_at. repeat destruct (_ =? _); auto. Qed.
Lemma opcode_range bs : bytes_wf bs -> 0 <= opcode_of bs < 32.
Proof. intros H. pose proof (byte_at_wf bs 0 H). unfold opcode_of, is_u8 in *. lia. Qed.

Ltac all_opcodes op H :=
  let I := fresh in
  assert (I : In op (map Z.of_nat (seq 0 32)));
  [ apply in_map_iff; exists (Z.to_nat op); split; [lia|apply in_seq; lia]
  | cbn in I; repeat (destruct I as [I|I]); try contradiction ].

(** Every word decodes to a well-formed instruction when it has no bad operand and its opcode is not 0; otherwise the error tells
    the unknown opcode, or the first operand that is an unknown register, and that register's code. *)
Lemma decode_table bs : bytes_wf bs ->
  match decode bs with
  | ROk i => opcode_of bs <> 0 /\ instr_wf i /\ forall k, ~ bad_operand bs k
  | RErr (UnknownOpCode o) => o = opcode_of bs /\ o = 0
  | RErr (UnknownRegister k c) => exists n, k = Z.of_nat n /\ bad_operand bs n /\ c = operand_byte bs n /\ forall j, (j < n)%nat -> ~ bad_operand bs j
  | RErr SourceNotMultipleOf4Bytes => False
  end.
Proof.
  intros H. pose proof (opcode_range bs H) as Hop.
  assert (HB : forall k, is_u8 (operand_byte bs k)) by (intros; apply byte_at_wf; auto).
  assert (HR : forall k r, reg_from_code (operand_byte bs k) = Some r -> operand_byte bs k < 32).
  { intros k r E. apply reg_code_from_code in E. pose proof (reg_code_range r). lia. }
  assert (HN : forall k, reg_from_code (operand_byte bs k) = None -> 32 <= operand_byte bs k).
  { intros k E. destruct (Z.ltb_spec (operand_byte bs k) 32); [|lia]. specialize (HB k). unfold is_u8 in HB.
    destruct (reg_from_code_total (operand_byte bs k)) as (r & E'); [lia|congruence]. }
  pose proof (arg_rl1_flag bs 0) as A1. pose proof (arg_rl1_flag bs 1) as A2. pose proof (arg_rl1_flag bs 2) as A3.
  pose proof (arg_rl2_flag bs 0) as B1. pose proof (arg_rl2_flag bs 1) as B2.
  pose proof (arg_reg_op bs 0) as C1. pose proof (arg_reg_op bs 1) as C2. pose proof (arg_reg_op bs 2) as C3.
  cbn [Z.of_nat Pos.of_succ_nat Pos.succ Z.add Pos.add] in *.
  rewrite C1 in A1, B1. rewrite C2 in A2, B2. rewrite C3 in A3.
  unfold decode. cbv zeta. rewrite Z.shiftr_div_pow2 by lia. change (byte_at bs 0 / 2 ^ 3) with (opcode_of bs).
  assert (Z1 : forall k, bad_operand bs k -> exists ks, format (opcode_of bs) = Some ks /\ 32 <= operand_byte bs k /\
     match nth_error ks k with Some KReg => True | Some _ => reg_flag bs k = true | None => False end).
  { intros k ((ks & ? & ?) & ?). eauto. }
  assert (Z2 : forall k ks, format (opcode_of bs) = Some ks -> 32 <= operand_byte bs k ->
     match nth_error ks k with Some KReg => True | Some _ => reg_flag bs k = true | None => False end -> bad_operand bs k).
  { intros k ks ? ? ?. split; auto. exists ks. auto. }
  remember (opcode_of bs) as op eqn:Eop. clear Eop.
  rewrite ?A1, ?A2, ?A3, ?B1, ?B2, ?C1, ?C2, ?C3 by lia. clear A1 A2 A3 B1 B2 C1 C2 C3 H.
  assert (BE : forall k, is_u16 (of_be2 (operand_byte bs k) (operand_byte bs (S k)))).
  { intros k. pose proof (HB k). pose proof (HB (S k)). unfold is_u8, is_u16, of_be2 in *. lia. }
  all_opcodes op Hop; subst op; cbn beta iota; cbn [format] in Z1, Z2;
  repeat match goal with
  | |- context [reg_from_code ?c] => let E := fresh "E" in destruct (reg_from_code c) eqn:E; [apply HR in E|apply HN in E]; cbn [rbind]
  | |- context [reg_flag bs ?k] => let E := fresh "F" in destruct (reg_flag bs k) eqn:E; cbn [rbind]
  end;
  first
  [ (* ok *) split; [discriminate|split; [cbn [instr_wf rl1_wf rl2_wf]; auto|]]; intros k B; apply Z1 in B; destruct B as (ks & Ef & Hb & Hk);
      injection Ef as <-; destruct k as [|[|[|k]]]; cbn [nth_error] in Hk; try congruence; try lia; try contradiction; destruct k; contradiction
  | split; reflexivity
  | exists 0%nat; split; [reflexivity|]; split; [eapply Z2; [reflexivity|assumption|cbn [nth_error]; auto]|]; split; [reflexivity|]; intros j Hj; lia
  | exists 1%nat; split; [reflexivity|]; split; [eapply Z2; [reflexivity|assumption|cbn [nth_error]; auto]|]; split; [reflexivity|]; intros j Hj B;
      apply Z1 in B; destruct B as (ks & Ef & Hb & Hk); injection Ef as <-; destruct j; [|lia]; cbn [nth_error] in Hk; first [congruence|lia]
  | exists 2%nat; split; [reflexivity|]; split; [eapply Z2; [reflexivity|assumption|cbn [nth_error]; auto]|]; split; [reflexivity|]; intros j Hj B;
      apply Z1 in B; destruct B as (ks & Ef & Hb & Hk); injection Ef as <-; destruct j as [|[|]]; [| |lia]; cbn [nth_error] in Hk; first [congruence|lia]
  | idtac ].
Qed.

(** Encoding then decoding. *)
Lemma u8_reg r : u8 (reg_code r) = reg_code r.
Proof. pose proof (reg_code_range r). unfold u8. lia. Qed.
Lemma u8_reg_high r : u8 (reg_code r / 256) = 0.
Proof. pose proof (reg_code_range r). unfold u8. lia. Qed.
Lemma be2_lit n : is_u16 n -> of_be2 (u8 (n / 256)) (u8 n) = n.
Proof. unfold is_u16, of_be2, u8. lia. Qed.
Lemma u8_lit n : is_u8 n -> u8 n = n.
Proof. unfold is_u8, u8. lia. Qed.

Lemma decode_encode i : instr_wf i -> decode (encode i) = ROk (with_wide_reg i R_a0).
Proof.
  destruct i; cbn [instr_wf rl1_wf rl2_wf with_wide_reg]; intros H;
  repeat match goal with
  | v : rl1 |- _ => destruct v
  | v : rl2 |- _ => destruct v
  | H : _ /\ _ |- _ => destruct H
  end; cbn [rl1_wf rl2_wf] in *;
  cbv beta iota zeta delta [encode encode_parts value1 value2 is_reg1 is_reg2 be_bytes8 be_bytes16 app nth];
  match goal with |- context [u8 (Z.shiftl ?a ?b) + ?c + ?d + ?e] =>
    let v := eval vm_compute in (u8 (Z.shiftl a b) + c + d + e) in change (u8 (Z.shiftl a b) + c + d + e) with v end;
  cbv -[reg_code reg_from_code u8 of_be2 Z.div is_u8 is_u16];
  rewrite ?u8_reg, ?u8_reg_high; rewrite ?be2_lit by assumption; rewrite ?u8_lit by assumption;
  rewrite ?reg_from_code_code; try reflexivity.
Qed.

Lemma byte0_parts bs : bytes_wf bs -> byte_at bs 0 = 8 * opcode_of bs + 4 * Z.b2z (reg_flag bs 0) + 2 * Z.b2z (reg_flag bs 1) + Z.b2z (reg_flag bs 2).
Proof.
  intros H. pose proof (byte_at_wf bs 0 H) as B. unfold opcode_of, reg_flag. cbn [Z.of_nat Pos.of_succ_nat Pos.succ Z.sub Z.add Z.opp Z.pos_sub Pos.pred_double].
  generalize dependent (byte_at bs 0). intros b B. change (2 - 1) with 1. 
  rewrite !Z.testbit_spec' by lia. change (2 ^ 2) with 4. change (2 ^ 1) with 2. change (2 ^ 0) with 1. unfold is_u8 in B. lia.
Qed.
Lemma canonical_encode bs i : bytes_wf bs -> canonical bs -> decode bs = ROk i -> encode i = bs.
Proof.
  intros H (ks & Ef & Hk) D. pose proof (opcode_range bs H) as Hop. pose proof (byte0_parts bs H) as B0.
  assert (HB : forall k, is_u8 (operand_byte bs k)) by (intros; apply byte_at_wf; auto).
  pose proof (Hk 0%nat ltac:(lia)) as H0. pose proof (Hk 1%nat ltac:(lia)) as H1. pose proof (Hk 2%nat ltac:(lia)) as H2. clear Hk.
  pose proof (arg_rl1_flag bs 0) as A1. pose proof (arg_rl1_flag bs 1) as A2. pose proof (arg_rl1_flag bs 2) as A3.
  pose proof (arg_rl2_flag bs 0) as B1. pose proof (arg_rl2_flag bs 1) as B2.
  pose proof (arg_reg_op bs 0) as C1. pose proof (arg_reg_op bs 1) as C2. pose proof (arg_reg_op bs 2) as C3.
  cbn [Z.of_nat Pos.of_succ_nat Pos.succ Z.add Pos.add] in *.
  rewrite C1 in A1, B1. rewrite C2 in A2, B2. rewrite C3 in A3.
  assert (Ebs : bs = (byte_at bs 0, operand_byte bs 0, operand_byte bs 1, operand_byte bs 2)) by (destruct bs as [[[? ?] ?] ?]; reflexivity).
  unfold decode in D. cbv zeta in D. rewrite Z.shiftr_div_pow2 in D by lia. change (byte_at bs 0 / 2 ^ 3) with (opcode_of bs) in D.
  rewrite ?A1, ?A2, ?A3, ?B1, ?B2, ?C1, ?C2, ?C3 in D by lia. clear A1 A2 A3 B1 B2 C1 C2 C3 H.
  assert (BE : forall k, be_bytes16 (of_be2 (operand_byte bs k) (operand_byte bs (S k))) = [operand_byte bs k; operand_byte bs (S k)]).
  { intros k. pose proof (HB k). pose proof (HB (S k)). unfold is_u8, be_bytes16, u8, of_be2 in *. f_equal; [|f_equal]; lia. }
  rewrite Ebs, B0. clear Ebs B0.
  assert (P3 : forall a b c d a' b' c' d' : Z, a = a' -> b = b' -> c = c' -> d = d' -> (a, b, c, d) = (a', b', c', d')) by (intros; subst; reflexivity).
  remember (opcode_of bs) as op eqn:Eop. clear Eop.
  all_opcodes op Hop; subst op; cbn beta iota in D; cbn [format] in Ef; try discriminate; injection Ef as <-; cbn [nth_error] in H0, H1, H2;
  repeat match goal with
  | H : _ /\ _ |- _ => destruct H
  | H : reg_flag bs ?k = _ |- _ => rewrite H in *; clear H
  end; cbn [rbind] in D;
  repeat match type of D with
  | context [reg_from_code ?c] => let E := fresh "E" in destruct (reg_from_code c) eqn:E; [apply reg_code_from_code in E|]; cbn [rbind] in D; try discriminate
  | context [reg_flag bs ?k] => let E := fresh "F" in destruct (reg_flag bs k) eqn:E; cbn [rbind] in D; try discriminate
  end; injection D as <-;
  unfold encode, encode_parts; cbv beta iota zeta delta [is_reg1 is_reg2 value1 value2]; rewrite ?BE;
  cbv beta iota zeta delta [be_bytes8 app nth]; cbn [Z.b2z];
  (apply P3; [vm_compute; reflexivity| | |]);
  repeat match goal with
  | H : reg_code _ = _ |- _ => rewrite H; clear H
  | H : _ = 0 \/ (exists j, _) |- _ => destruct H as [H|H]; [|let j := fresh in let Hj := fresh in let Hn := fresh in
        destruct H as (j & Hj & Hn); try discriminate Hj; injection Hj as <-; cbn in Hn; try discriminate Hn; clear Hn]
  end; try reflexivity; try congruence; try (apply u8_lit; apply HB).
Qed.

(** * C41 *)
(** Decoding the encoding of an instruction gives the same instruction, with a0 in place of its 2-byte register operand if it has
    one. The two assertions of [encode] always hold and the result is four bytes. *)
Lemma P_C41_outcome : forall i, instr_wf i -> decode (encode i) = ROk (with_wide_reg i R_a0).
Proof. exact decode_encode. Qed.
Lemma with_wide_same i : wide_reg i = None \/ wide_reg i = Some R_a0 -> with_wide_reg i R_a0 = i.
Proof. destruct i; cbn; try reflexivity; destruct b || destruct a; cbn; intros [E|E]; congruence. Qed.
Lemma wide_of_with i r : wide_reg i = Some r -> wide_reg (with_wide_reg i R_a0) = Some R_a0.
Proof. destruct i; cbn; try discriminate; try destruct b; try destruct a; cbn; congruence. Qed.
(** So encoding round-trips exactly when the instruction has no 2-byte register operand other than a0. *)
Lemma P_C41_roundtrip : forall i, instr_wf i -> (decode (encode i) = ROk i <-> wide_reg i = None \/ wide_reg i = Some R_a0).
Proof.
  intros i H. rewrite (decode_encode i H). split.
  - intros E. injection E as E. destruct (wide_reg i) as [r|] eqn:W; [|auto]. right. rewrite <- W, <- E. apply (wide_of_with i r W).
  - intros E. rewrite with_wide_same; auto.
Qed.
(** The full claim 'decoding an encoded instruction gives it back' is false: operands of two bytes given as registers are not encoded as such. *)
Lemma P_C41_roundtrip_refuted : ~ (forall i, instr_wf i -> decode (encode i) = ROk i).
Proof. intros H. specialize (H (Cpy R_a1 (Reg2 R_a2)) I). vm_compute in H. discriminate. Qed.
(** Encodings are four bytes, and [encode]'s assertions never fail. *)
Lemma encode_bytes i : instr_wf i -> bytes_wf (encode i) /\ encode_asserts i = true.
Proof.
  intros H. assert (U : forall x, is_u8 (u8 x)) by (intros; unfold is_u8, u8; lia).
  assert (RR : forall r, is_u8 (reg_code r)) by (intros r; pose proof (reg_code_range r); unfold is_u8; lia).
  assert (Z0 : is_u8 0) by (unfold is_u8; lia).
  destruct i; repeat match goal with v : rl1 |- _ => destruct v | v : rl2 |- _ => destruct v end;
  (split; [|reflexivity]);
  cbv beta iota zeta delta [encode encode_parts value1 value2 is_reg1 is_reg2 be_bytes8 be_bytes16 app nth bytes_wf];
  (split; [vm_compute; split; [discriminate|reflexivity]|auto]).
Qed.
(** Encoding gives four bytes for every instruction, and none of the encoder's own assertions fails. *)
Lemma P_C41_bytes : forall i, instr_wf i -> bytes_wf (encode i) /\ encode_asserts i = true.
Proof. exact encode_bytes. Qed.
(** Different instructions (without 2-byte register operands) have different encodings. *)
Lemma P_C41_injective : forall i j, instr_wf i -> instr_wf j -> wide_reg i = None -> wide_reg j = None -> encode i = encode j -> i = j.
Proof.
  intros i j Hi Hj Wi Wj E. pose proof (decode_encode i Hi) as A. pose proof (decode_encode j Hj) as B. rewrite E, B in A. injection A as A.
  rewrite !with_wide_same in A by auto. auto.
Qed.
Lemma E_C41_roundtrip : instr_wf (Lea (Reg1 R_avr) (Lit1 255) (Lit1 3)) /\ wide_reg (Lea (Reg1 R_avr) (Lit1 255) (Lit1 3)) = None /\
  encode (Lea (Reg1 R_avr) (Lit1 255) (Lit1 3)) = (172, 21, 255, 3) /\
  instr_wf (Cpy R_a1 (Reg2 R_a2)) /\ encode (Cpy R_a1 (Reg2 R_a2)) = (14, 1, 0, 2) /\ decode (14, 1, 0, 2) = ROk (Cpy R_a1 (Reg2 R_a0)).
Proof. repeat split; vm_compute; congruence. Qed.

(** * C42 *)
(** Every word decodes, to a well-formed instruction when its opcode is not 0 and it designates no unknown register; otherwise
    the error gives the opcode 0, or the position and code of the first unknown register (the table of operand kinds is [format]). *)
Lemma P_C42_decode : forall bs, bytes_wf bs ->
  match decode bs with
  | ROk i => opcode_of bs <> 0 /\ instr_wf i /\ forall k, ~ bad_operand bs k
  | RErr (UnknownOpCode o) => o = opcode_of bs /\ o = 0
  | RErr (UnknownRegister k c) => exists n, k = Z.of_nat n /\ bad_operand bs n /\ c = operand_byte bs n /\ forall j, (j < n)%nat -> ~ bad_operand bs j
  | RErr SourceNotMultipleOf4Bytes => False
  end.
Proof. exact decode_table. Qed.
(** Re-encoding what a word decodes to gives a word that decodes to the same instruction, unless it has a 2-byte register operand;
    for a canonical word it gives this very word. *)
Lemma P_C42_reencode : forall bs i, bytes_wf bs -> decode bs = ROk i -> wide_reg i = None -> decode (encode i) = ROk i.
Proof.
  intros bs i H D W. pose proof (decode_table bs H) as T. rewrite D in T. destruct T as (_ & Hi & _). rewrite decode_encode, with_wide_same by auto. reflexivity.
Qed.
(** Decoding loses nothing on canonical bytes: encoding the result gives the same bytes. *)
Lemma P_C42_canonical : forall bs i, bytes_wf bs -> canonical bs -> decode bs = ROk i -> encode i = bs.
Proof. exact canonical_encode. Qed.
(** The word 0x0A010203 (CPY a1, a2) is re-encoded as CPY a1, a0. *)
Lemma P_C42_reencode_refuted : ~ (forall bs i, bytes_wf bs -> decode bs = ROk i -> decode (encode i) = ROk i).
Proof.
  intros H. assert (X : decode (encode (Cpy R_a1 (Reg2 R_a2))) = ROk (Cpy R_a1 (Reg2 R_a2))); [|vm_compute in X; discriminate].
  apply (H (10, 1, 2, 3)). { repeat split; vm_compute; congruence. } reflexivity.
Qed.
Lemma E_C42_decode : bytes_wf (172, 21, 255, 3) /\ canonical (172, 21, 255, 3) /\ decode (172, 21, 255, 3) = ROk (Lea (Reg1 R_avr) (Lit1 255) (Lit1 3)) /\
  bytes_wf (175, 21, 40, 50) /\ decode (175, 21, 40, 50) = RErr (UnknownRegister 1 40) /\ decode (7, 1, 2, 3) = RErr (UnknownOpCode 0).
Proof.
  split; [repeat split; vm_compute; congruence|]. split; [|repeat split; vm_compute; congruence].
  exists [KReg1; KReg1; KReg1]. split; [reflexivity|]. intros k Hk. destruct k as [|[|[|k]]]; try lia; exact I.
Qed.

(** * C44 *)
Lemma list4_ind (P : list Z -> Prop) : P [] -> (forall a, P [a]) -> (forall a b, P [a; b]) -> (forall a b c, P [a; b; c]) ->
  (forall a b c d t, P t -> P (a :: b :: c :: d :: t)) -> forall l, P l.
Proof.
  intros H0 H1 H2 H3 H4. assert (X : forall n l, (length l <= n)%nat -> P l).
  { induction n as [|n IH]; intros l Hl. { destruct l; [auto|cbn in Hl; lia]. }
    destruct l as [|a [|b [|c [|d t]]]]; auto. apply H4, IH. cbn in Hl. lia. }
  intros l. apply (X (length l)). lia.
Qed.
Lemma quads_concat l : zlen l mod 4 = 0 -> flat_map list_of_bytes (quads l) = l.
Proof.
  induction l using list4_ind; cbn [quads flat_map list_of_bytes app]; unfold zlen in *; cbn [length]; intros H; try reflexivity; try (cbn in H; lia).
  rewrite IHl; auto. lia.
Qed.
Lemma quads_length l : zlen l mod 4 = 0 -> 4 * zlen (quads l) = zlen l.
Proof.
  induction l using list4_ind; cbn [quads]; unfold zlen in *; cbn [length]; intros H; try reflexivity; try (cbn in H; lia).
Qed.
Lemma decode_loop_raw l : forall i, prog_decode_loop i l false = ROk (map pw_decode (quads l)).
Proof.
  induction l using list4_ind; intros i; cbn [prog_decode_loop quads map]; try reflexivity. rewrite IHl.
  assert (X : forall bs, pw_decode bs = match decode bs with ROk i => PInstr i | RErr _ => PRaw bs end) by reflexivity. rewrite (X (a, b, c, d)).
  destruct (decode (a, b, c, d)); reflexivity.
Qed.
Lemma decode_loop_strict l : forall i, match prog_decode_loop i l true with
  | ROk p => exists is, p = map PInstr is /\ map decode (quads l) = map ROk is
  | RErr (k, e) => exists pre bs post is, quads l = pre ++ bs :: post /\ k = i + zlen pre /\ decode bs = RErr e /\ map decode pre = map ROk is
  end.
Proof.
  induction l using list4_ind; intros i; cbn [prog_decode_loop quads map]; try (exists []; split; reflexivity).
  destruct (decode (a, b, c, d)) as [ins|e] eqn:E; cbn [rbind].
  - specialize (IHl (i + 1)). destruct (prog_decode_loop (i + 1) l true) as [p|[k e]]; cbn [rbind].
    + destruct IHl as (is & -> & Eq). exists (ins :: is). split; [reflexivity|]. cbn [map]. congruence.
    + destruct IHl as (pre & bs & post & is & Eq & -> & Ed & Ep). exists ((a, b, c, d) :: pre), bs, post, (ins :: is).
      split; [rewrite Eq; reflexivity|]. split; [unfold zlen; cbn [length]; lia|]. split; auto. cbn [map]. congruence.
  - exists [], (a, b, c, d), (quads l), []. split; [reflexivity|]. split; [cbn; lia|]. auto.
Qed.
(** A program is encoded as four bytes per word. *)
Lemma P_C44_size : forall p, zlen (prog_encode p) = 4 * zlen p.
Proof.
  induction p as [|w t IH]; [reflexivity|]. unfold prog_encode in *. cbn [flat_map]. unfold zlen in *. rewrite app_length. cbn [length].
  destruct (pw_encode w) as [[[? ?] ?] ?]. cbn [list_of_bytes length]. lia.
Qed.
(** Bytes whose number is no multiple of 4 are rejected. *)
Lemma P_C44_length_rejected : forall bytes fr, zlen bytes mod 4 <> 0 -> prog_decode bytes fr = RErr (0, SourceNotMultipleOf4Bytes).
Proof. intros bytes fr H. unfold prog_decode. rewrite (proj2 (Z.eqb_neq _ _) H). reflexivity. Qed.
(** With raw words allowed every other byte string decodes, word by word. *)
Lemma P_C44_raw : forall bytes, zlen bytes mod 4 = 0 ->
  prog_decode bytes false = ROk (map pw_decode (quads bytes)) /\ flat_map list_of_bytes (quads bytes) = bytes.
Proof.
  intros bytes H. unfold prog_decode. rewrite (proj2 (Z.eqb_eq _ _) H). cbn [negb]. split; [apply decode_loop_raw|apply quads_concat; auto].
Qed.
(** With raw words forbidden, either all words are instructions or the error is that of the first word that is none, with its index. *)
Lemma P_C44_strict : forall bytes, zlen bytes mod 4 = 0 ->
  match prog_decode bytes true with
  | ROk p => exists is, p = from_instr is /\ map decode (quads bytes) = map ROk is
  | RErr (k, e) => exists pre bs post is, quads bytes = pre ++ bs :: post /\ k = zlen pre /\ decode bs = RErr e /\ map decode pre = map ROk is
  end.
Proof.
  intros bytes H. unfold prog_decode. rewrite (proj2 (Z.eqb_eq _ _) H). cbn [negb]. pose proof (decode_loop_strict bytes 0) as X. cbn [Z.add] in X. exact X.
Qed.
Lemma quads_app4 bs l : quads (list_of_bytes bs ++ l) = bs :: quads l.
Proof. destruct bs as [[[a b] c] d]. reflexivity. Qed.
Lemma quads_encode p : quads (prog_encode p) = map pw_encode p.
Proof. induction p as [|w t IH]; [reflexivity|]. unfold prog_encode in *. cbn [flat_map map]. rewrite quads_app4, IH. reflexivity. Qed.
(** Decoding an encoded program gives it back, if its instructions have no 2-byte register operand (a0 excepted) and its raw
    words are no instructions. *)
Lemma P_C44_roundtrip : forall p, Forall stable_word p -> prog_decode (prog_encode p) false = ROk p.
Proof.
  intros p H. destruct (P_C44_raw (prog_encode p)) as (E & _). { rewrite P_C44_size. unfold zlen. lia. }
  rewrite E, quads_encode, map_map. f_equal. rewrite <- (map_id p) at 2. apply map_ext_in. intros w I. rewrite Forall_forall in H. apply H in I.
  unfold pw_decode. destruct w as [i|bs]; cbn [pw_encode] in *.
  - destruct I as (Hi & Hw). rewrite decode_encode, with_wide_same by auto. reflexivity.
  - destruct I as (_ & e & ->). reflexivity.
Qed.
(** A program of stable instructions decodes, in strict mode, to itself. *)
Lemma P_C44_roundtrip_strict : forall is, Forall (fun i => stable_word (PInstr i)) is ->
  prog_decode (prog_encode (from_instr is)) true = ROk (from_instr is).
Proof.
  intros is H. pose proof (P_C44_strict (prog_encode (from_instr is))) as X.
  assert (Hd : map decode (quads (prog_encode (from_instr is))) = map ROk is).
  { rewrite quads_encode. unfold from_instr. rewrite !map_map. apply map_ext_in. intros i I. rewrite Forall_forall in H. apply H in I. destruct I as (Hi & Hw).
    cbn [pw_encode]. rewrite decode_encode, with_wide_same by auto. reflexivity. }
  destruct (prog_decode _ true) as [p|[k e]].
  - destruct X as (is' & -> & E); [rewrite P_C44_size; unfold zlen; lia|]. rewrite Hd in E.
    f_equal. f_equal. revert is' E. clear. induction is as [|x t IH]; destruct is'; cbn [map]; intros E; try discriminate; [reflexivity|]. injection E as -> E. f_equal. auto.
  - destruct X as (pre & bs & post & is' & E1 & _ & E2 & _); [rewrite P_C44_size; unfold zlen; lia|].
    rewrite E1, map_app in Hd. cbn [map] in Hd. rewrite E2 in Hd. assert (Y : In (RErr e) (map ROk is)) by (rewrite <- Hd; apply in_or_app; right; left; reflexivity).
    apply in_map_iff in Y. destruct Y as (? & ? & _). discriminate.
Qed.
(** Re-encoding a decoded program gives the same bytes, if every word is canonical or no instruction. *)
Lemma P_C44_reencode : forall bytes p, zlen bytes mod 4 = 0 -> Forall is_u8 bytes ->
  Forall (fun bs => canonical bs \/ exists e, decode bs = RErr e) (quads bytes) ->
  prog_decode bytes false = ROk p -> prog_encode p = bytes.
Proof.
  intros bytes p H HB HC E. destruct (P_C44_raw bytes H) as (E1 & E2). rewrite E1 in E. injection E as <-. rewrite <- E2 at 2.
  assert (HW : Forall bytes_wf (quads bytes)).
  { clear - HB. revert HB. induction bytes using list4_ind; cbn [quads]; intros H; try (constructor; fail).
    rewrite !Forall_cons_iff in H. destruct H as (?&?&?&?&?). constructor; [repeat split; try apply H; try apply H0; try apply H1; try apply H2|auto]. }
  unfold prog_encode. rewrite flat_map_concat_map, map_map, <- flat_map_concat_map. revert HC HW. generalize (quads bytes). clear. intros q.
  induction q as [|bs t IH]; intros HC HW; [reflexivity|]. inversion HC as [|? ? H1 H2]; inversion HW as [|? ? H3 H4]; subst. cbn [flat_map]. rewrite IH by auto. f_equal.
  unfold pw_decode. destruct (decode bs) as [i|e] eqn:D; [|reflexivity]. cbn [pw_encode]. destruct H1 as [H1|(e & He)]; [|congruence].
  rewrite (canonical_encode bs i); auto.
Qed.

(** * C53 *)
Lemma b2w_quad i ws a b c d t : i mod 4 = 0 -> b2w_loop i 0 ws (a :: b :: c :: d :: t) = b2w_loop (i + 4) 0 (word_be a b c d :: ws) t.
Proof.
  intros H. cbn [b2w_loop].
  replace (i mod 4) with 0 by lia. replace ((i + 1) mod 4) with 1 by lia. replace ((i + 1 + 1) mod 4) with 2 by lia. replace ((i + 1 + 1 + 1) mod 4) with 3 by lia.
  cbn [Z.eqb Pos.eqb].
  change ((3 - 0) * 8) with 24. change ((3 - 1) * 8) with 16. change ((3 - 2) * 8) with 8. change ((3 - 3) * 8) with 0.
  replace (i + 1 + 1 + 1 + 1) with (i + 4) by lia. rewrite !Z.shiftl_mul_pow2 by lia.
  replace (0 + a * 2 ^ 24 + b * 2 ^ 16 + c * 2 ^ 8 + d * 2 ^ 0) with (word_be a b c d); [reflexivity|]. unfold word_be. change (2 ^ 0) with 1. lia.
Qed.
Lemma b2w_quads l : forall i ws t, zlen l mod 4 = 0 -> i mod 4 = 0 -> b2w_loop i 0 ws (l ++ t) = b2w_loop (i + zlen l) 0 (rev (words_be l) ++ ws) t.
Proof.
  induction l using list4_ind; intros i ws t Hl Hi; try (unfold zlen in Hl; cbn in Hl; lia).
  - cbn [words_be rev app]. unfold zlen. cbn. f_equal. lia.
  - cbn [app]. rewrite b2w_quad by auto. rewrite IHl.
    + cbn [words_be rev]. rewrite <- app_assoc. cbn [app]. f_equal. unfold zlen. cbn [length]. lia.
    + unfold zlen in *. cbn [length] in Hl. lia.
    + lia.
Qed.
Lemma bytes_to_words_full l : zlen l mod 4 = 0 -> bytes_to_words l = words_be l.
Proof.
  intros H. unfold bytes_to_words. rewrite H. pose proof (b2w_quads l 0 [] [] H eq_refl) as X. rewrite app_nil_r in X. rewrite X. cbn [b2w_loop Z.eqb negb].
  rewrite app_nil_r. apply rev_involutive.
Qed.
(** Complete words: big endian, in order, in both directions. *)
Lemma P_C53_words : forall bytes, zlen bytes mod 4 = 0 -> bytes_to_words bytes = words_be bytes.
Proof. exact bytes_to_words_full. Qed.
Lemma words_to_bytes_len ws : zlen (words_to_bytes ws) = 4 * zlen ws.
Proof. induction ws as [|w t IH]; [reflexivity|]. unfold words_to_bytes in *. cbn [flat_map]. unfold zlen in *. rewrite app_length. cbn [length be_bytes32]. lia. Qed.
(** Words survive a trip through bytes. *)
Lemma P_C53_roundtrip : forall ws, Forall is_u32 ws -> bytes_to_words (words_to_bytes ws) = ws.
Proof.
  intros ws H. rewrite bytes_to_words_full by (rewrite words_to_bytes_len; unfold zlen; lia).
  induction H as [|w t Hw Ht IH]; [reflexivity|]. unfold words_to_bytes in *. cbn [flat_map be_bytes32 app words_be]. rewrite IH. f_equal.
  unfold word_be, u8, is_u32 in *. change (2 ^ 24) with 16777216. change (2 ^ 16) with 65536. change (2 ^ 8) with 256. lia.
Qed.
(** Bytes survive a trip through words when their number is a multiple of four. *)
Lemma P_C53_roundtrip_bytes : forall bytes, Forall is_u8 bytes -> zlen bytes mod 4 = 0 -> words_to_bytes (bytes_to_words bytes) = bytes.
Proof.
  intros bytes H Hl. rewrite bytes_to_words_full by auto. revert H Hl. induction bytes using list4_ind; intros H Hl; try (unfold zlen in Hl; cbn in Hl; lia); [reflexivity|].
  rewrite !Forall_cons_iff in H. destruct H as (?&?&?&?&?). cbn [words_be]. unfold words_to_bytes in *. cbn [flat_map]. rewrite IHbytes.
  - cbn [be_bytes32 app]. unfold u8, word_be, is_u8 in *. change (2 ^ 24) with 16777216. change (2 ^ 16) with 65536. change (2 ^ 8) with 256.
    f_equal; [lia|f_equal; [lia|f_equal; [lia|f_equal; lia]]].
  - auto.
  - unfold zlen in *. cbn [length] in Hl. lia.
Qed.
(** One, two or three bytes left over make one more word: 0 for one or two bytes, and without its first byte for three. *)
Lemma P_C53_leftover : forall bytes a b c, zlen bytes mod 4 = 0 -> is_u8 a -> is_u8 b -> is_u8 c ->
  bytes_to_words (bytes ++ [a]) = words_be bytes ++ [0] /\ bytes_to_words (bytes ++ [a; b]) = words_be bytes ++ [0] /\
  bytes_to_words (bytes ++ [a; b; c]) = words_be bytes ++ [word_be b c 0 0].
Proof.
  intros bytes a b c H Ha Hb Hc.
  assert (L : forall r, zlen (bytes ++ r) mod 4 = zlen r mod 4). { intros r. unfold zlen in *. rewrite app_length, Nat2Z.inj_add. lia. }
  unfold bytes_to_words. rewrite !L. rewrite !b2w_quads by auto. rewrite app_nil_r. cbn [Z.add].
  assert (Z0 : zlen bytes mod 4 = 0) by auto. unfold is_u8 in *.
  cbn [b2w_loop]. replace ((zlen bytes + 1 + 1) mod 4) with 2 by lia. replace ((zlen bytes + 1) mod 4) with 1 by lia. rewrite Z0.
  cbn [Z.eqb Pos.eqb]. change (zlen [a] mod 4) with 1. change (zlen [a; b] mod 4) with 2. change (zlen [a; b; c] mod 4) with 3.
  cbn [Z.eqb Pos.eqb negb rev]. rewrite !rev_involutive.
  change ((3 - 0) * 8) with 24. change ((3 - 1) * 8) with 16. change ((3 - 2) * 8) with 8. change ((4 - 1) * 8) with 24. change ((4 - 2) * 8) with 16. change ((4 - 3) * 8) with 8.
  rewrite !Z.shiftl_mul_pow2 by lia. unfold u32, word_be. change (2 ^ 24) with 16777216. change (2 ^ 16) with 65536. change (2 ^ 8) with 256.
  repeat split; f_equal; f_equal; lia.
Qed.
(** The natural claim that a partial last word is padded with zeroes on the right is false. *)
Lemma P_C53_padding_refuted : ~ (forall bytes a, zlen bytes mod 4 = 0 -> is_u8 a -> bytes_to_words (bytes ++ [a]) = words_be bytes ++ [word_be a 0 0 0]).
Proof. intros H. assert (X : is_u8 7) by (unfold is_u8; lia). specialize (H [] 7 eq_refl X). vm_compute in H. discriminate. Qed.
Lemma E_C53_words : bytes_to_words [1; 2; 3; 4; 255; 0; 0; 1] = [16909060; 4278190081] /\ zlen [1; 2; 3; 4; 255; 0; 0; 1] mod 4 = 0.
Proof. split; vm_compute; reflexivity. Qed.

(** Program words and bytes agree (C44). *)
Lemma P_C44_words : forall p, bytes_to_words (prog_encode p) = encode_words p.
Proof.
  intros p. rewrite bytes_to_words_full by (rewrite P_C44_size; unfold zlen; lia). unfold prog_encode, encode_words.
  induction p as [|w t IH]; [reflexivity|]. cbn [flat_map map]. rewrite <- IH. unfold pw_encode_word, encode_word.
  destruct w as [i|[[[a b] c] d]]; cbn [pw_encode]; [destruct (encode i) as [[[a b] c] d]|]; cbn [list_of_bytes app words_be word_of_bytes]; unfold word_be, of_be4; reflexivity.
Qed.
Lemma E_C44_roundtrip : Forall stable_word [PInstr (Cpy R_a0 (Lit2 5)); PRaw (1, 2, 3, 4); PInstr Halt] /\
  prog_encode [PInstr (Cpy R_a0 (Lit2 5)); PRaw (1, 2, 3, 4); PInstr Halt] = [12; 0; 0; 5; 1; 2; 3; 4; 240; 0; 0; 0] /\
  prog_decode [12; 0; 0; 5; 1; 2; 3; 4; 240; 0; 0; 0] true = RErr (1, UnknownOpCode 0).
Proof.
  split; [|split; reflexivity]. constructor; [|constructor; [|constructor; [|constructor]]].
  - split; [cbn; unfold is_u16; lia|left; reflexivity].
  - split; [cbn; unfold is_u8; lia|eexists; reflexivity].
  - split; [exact I|left; reflexivity].
Qed.

(** * C45 *)
(** [append], [append_all] and [prepend] put words where their names say. *)
Lemma P_C45_append : forall p w ws, append p w = p ++ [w] /\ append_all p ws = p ++ ws /\ prepend p w = w :: p.
Proof. auto. Qed.
(** [prepend_all] inserts the words at index (number of words) instead of 0, and panics when there are more of them than the
    program has words. *)
Lemma P_C45_prepend_all : forall oc p ws, zlen ws < 2 ^ 64 ->
  prepend_all oc p ws = if zlen ws <=? zlen p then Ret (firstn (length ws) p ++ ws ++ skipn (length ws) p) else Panic.
Proof.
  intros oc p ws Hl. unfold prepend_all. destruct (Z.leb_spec (zlen ws) (zlen p)).
  - cbn [obind]. unfold rotate_left. unfold zlen in *. rewrite skipn_length, app_length.
    destruct (Z.leb_spec (Z.of_nat (length p) - Z.of_nat (length ws)) (Z.of_nat (length p + length ws - length ws))); [|lia]. cbn [obind]. f_equal.
    rewrite firstn_app. replace (length ws - length p)%nat with 0%nat by lia. cbn [firstn]. rewrite app_nil_r. f_equal.
    rewrite skipn_app. replace (length ws - length p)%nat with 0%nat by lia. cbn [skipn].
    replace (Z.to_nat (Z.of_nat (length p) - Z.of_nat (length ws))) with (length (skipn (length ws) p)) by (rewrite skipn_length; lia).
    rewrite skipn_app, skipn_all, Nat.sub_diag. cbn [skipn app]. rewrite firstn_app, firstn_all, Nat.sub_diag. cbn [firstn]. rewrite app_nil_r. reflexivity.
  - destruct oc; [reflexivity|]. cbn [obind]. unfold rotate_left. unfold zlen, two64 in *. change (2 ^ 64) with 18446744073709551616 in Hl. rewrite skipn_length, app_length.
    destruct (Z.leb_spec (Z.of_nat (length p) - Z.of_nat (length ws) + 18446744073709551616) (Z.of_nat (length p + length ws - length ws))); [lia|reflexivity].
Qed.
(** The natural claim that prepending words puts them before the program, in order, is false even for short lists. *)
Lemma P_C45_prepend_all_refuted : ~ (forall oc p ws, zlen ws <= zlen p -> prepend_all oc p ws = Ret (ws ++ p)).
Proof.
  intros H. specialize (H false [PInstr Halt; PRaw (0, 0, 0, 0)] [PRaw (1, 2, 3, 4)]). assert (X : zlen [PRaw (1, 2, 3, 4)] <= zlen [PInstr Halt; PRaw (0, 0, 0, 0)]) by (vm_compute; discriminate).
  apply H in X. vm_compute in X. discriminate.
Qed.
Lemma E_C45_prepend_all : prepend_all true [PInstr Halt; PRaw (0, 0, 0, 0)] [PRaw (1, 2, 3, 4)] = Ret [PInstr Halt; PRaw (1, 2, 3, 4); PRaw (0, 0, 0, 0)] /\
  prepend_all false [PInstr Halt] [PRaw (0, 0, 0, 0); PInstr Halt] = Panic.
Proof. split; vm_compute; reflexivity. Qed.

(** * C46 *)
(** Register codes are exactly 0 to 31, one per register; codes and names are decoded to the register they belong to and nothing
    else is. *)
Lemma P_C46_codes : forall c r, reg_from_code c = Some r <-> c = reg_code r.
Proof. intros c r. split; [intros H; symmetry; apply reg_code_from_code; auto|intros ->; apply reg_from_code_code]. Qed.
(** The register codes are exactly 0 to 31. *)
Lemma P_C46_range : forall c, 0 <= c < 32 <-> exists r, c = reg_code r.
Proof.
  intros c. split.
  - intros H. destruct (reg_from_code_total c H) as (r & E). exists r. symmetry. apply reg_code_from_code; auto.
  - intros (r & ->). apply reg_code_range.
Qed.
(** A name designates a register exactly when it is that register's name. *)
Lemma P_C46_names : forall s r, reg_from_name s = Some r <-> s = reg_name r.
Proof.
  intros s r. split.
  - unfold reg_from_name. intros H.
    repeat match type of H with (if String.eqb s ?x then _ else _) = _ => destruct (String.eqb_spec s x) as [->|]; [injection H as <-; reflexivity|] end. discriminate.
  - intros ->. destruct r; reflexivity.
Qed.
(** The list of all registers is complete, without repetition, and codes and names are distinct. *)
Lemma P_C46_all : forall r, In r all_regs /\ NoDup all_regs /\ NoDup (map reg_code all_regs) /\ NoDup (map reg_name all_regs).
Proof.
  intros r. split; [destruct r; cbn; tauto|]. split; [|split].
  - apply NoDup_map_inv with (f := reg_code). cbn. repeat constructor; cbn; intuition discriminate.
  - cbn. repeat constructor; cbn; intuition discriminate.
  - cbn. repeat constructor; cbn; intuition discriminate.
Qed.
Lemma E_C46_codes : reg_from_code 22 = Some R_pc /\ reg_from_name "af" = Some R_af /\ reg_from_code 32 = None /\ reg_from_name "A0" = None.
Proof. repeat split. Qed.

(** * C49, C50 *)
Lemma aux_roundtrip e : aux_wf e -> is_u16 (aux_encode e) /\ aux_decode (aux_encode e) = Some e.
Proof.
  destruct e; cbn [aux_wf]; intros H; try (split; [vm_compute; split; congruence|reflexivity]).
  unfold aux_encode, aux_decode. cbn [aux_code aux_data opt_or0]. unfold is_u8, is_u16 in *. split; [lia|].
  rewrite Z.shiftr_div_pow2 by lia. change (2 ^ 8) with 256. replace (u8 ((16 * 256 + op) / 256)) with 16 by (unfold u8; lia).
  replace (u8 (16 * 256 + op)) with op by (unfold u8; lia). reflexivity.
Qed.
(** Hardware exceptions: encoding fits 16 bits, decoding gives the exception back; only UnknownError encodes to "no exception". *)
Lemma P_C50_roundtrip : forall e, aux_wf e -> is_u16 (aux_encode e) /\ aux_decode (aux_encode e) = Some e.
Proof. exact aux_roundtrip. Qed.
(** The only hardware exception encoded as 0, that is, as 'no exception', is UnknownError. *)
Lemma P_C50_zero : forall e, aux_wf e -> (aux_encode e = 0 <-> e = UnknownError).
Proof. intros e H. split; [|intros ->; reflexivity]. unfold aux_encode. destruct e; cbn [aux_code aux_data opt_or0 aux_wf] in *; intros X; unfold is_u8 in *; solve [reflexivity|exfalso; lia]. Qed.
(** Decoding yields the exception with that code, and its operation when it has one; the codes that decode are those of the table. *)
Lemma P_C50_decode : forall x, is_u16 x -> match aux_decode x with
  | Some e => aux_wf e /\ aux_code e = x / 256 /\ (e = UnknownOperation (x mod 256) \/ aux_data e = None)
  | None => ~ In (x / 256) [0; 1; 2; 16; 17; 32; 33; 48; 49] end.
Proof.
  intros x H. unfold aux_decode, is_u16 in *. rewrite Z.shiftr_div_pow2 by lia. change (2 ^ 8) with 256.
  replace (u8 (x / 256)) with (x / 256) by (unfold u8; lia).
  assert (Hc : 0 <= x / 256 < 256) by lia. generalize dependent (x / 256). intros c Hc. unfold aux_decode_parts.
  destruct (in_dec Z.eq_dec c [0; 1; 2; 16; 17; 32; 33; 48; 49]) as [I|N].
  - cbn in I. destruct I as [<-|[<-|[<-|[<-|[<-|[<-|[<-|[<-|[<-|[]]]]]]]]]]; cbn; auto. unfold u8, is_u8. split; [lia|]. auto.
  - destruct c as [|c|c]; [exfalso; apply N; cbn; auto| |lia].
    do 7 (destruct c as [c|c|]; cbn; try (exact N); try (exfalso; apply N; cbn; tauto)).
Qed.

(* Concrete cases for the theorems above that have none beside them. *)
Lemma E_C41_outcome : instr_wf (Cpy R_a1 (Reg2 R_a2)) /\ with_wide_reg (Cpy R_a1 (Reg2 R_a2)) R_a0 = Cpy R_a1 (Reg2 R_a0) /\ instr_wf (Div R_a1 (Lit1 3) (Reg1 R_a2)).
Proof. repeat split; vm_compute; congruence. Qed.
Lemma E_C41_bytes : instr_wf (If2 (Lit1 255) (Reg1 R_smt) (Lit1 3)) /\ encode (If2 (Lit1 255) (Reg1 R_smt) (Lit1 3)) = (154, 255, 31, 3).
Proof. repeat split; vm_compute; congruence. Qed.
Lemma E_C41_injective : instr_wf (Add R_a0 (Lit2 1)) /\ instr_wf (Add R_a1 (Lit2 1)) /\ wide_reg (Add R_a0 (Lit2 1)) = None /\ encode (Add R_a0 (Lit2 1)) <> encode (Add R_a1 (Lit2 1)).
Proof. repeat split; vm_compute; congruence. Qed.
Lemma E_C42_reencode : bytes_wf (175, 21, 31, 5) /\ exists i, decode (175, 21, 31, 5) = ROk i /\ wide_reg i = None /\ i = Lea (Reg1 R_avr) (Reg1 R_smt) (Reg1 R_a5).
Proof. split; [repeat split; vm_compute; congruence|]. eexists. split; [vm_compute; reflexivity|]. split; reflexivity. Qed.
Lemma E_C42_canonical : bytes_wf (172, 21, 255, 3) /\ canonical (172, 21, 255, 3) /\ decode (172, 21, 255, 3) = ROk (Lea (Reg1 R_avr) (Lit1 255) (Lit1 3)).
Proof. destruct E_C42_decode as (A & B & C & _). auto. Qed.
Lemma E_C44_size : prog_encode [PInstr Halt; PRaw (1, 2, 3, 4)] = [240; 0; 0; 0; 1; 2; 3; 4].
Proof. vm_compute. reflexivity. Qed.
Lemma E_C44_length_rejected : zlen [240; 0; 0; 0; 1] mod 4 <> 0 /\ prog_decode [240; 0; 0; 0; 1] false = RErr (0, SourceNotMultipleOf4Bytes).
Proof. split; vm_compute; [discriminate|reflexivity]. Qed.
Lemma E_C44_raw : zlen [240; 0; 0; 0; 1; 2; 3; 4] mod 4 = 0 /\ prog_decode [240; 0; 0; 0; 1; 2; 3; 4] false = ROk [PInstr Halt; PRaw (1, 2, 3, 4)].
Proof. split; vm_compute; reflexivity. Qed.
Lemma E_C44_strict : zlen [240; 0; 0; 0; 1; 2; 3; 4] mod 4 = 0 /\ prog_decode [240; 0; 0; 0; 1; 2; 3; 4] true = RErr (1, UnknownOpCode 0) /\
  prog_decode [240; 0; 0; 0; 12; 0; 0; 5] true = ROk (from_instr [Halt; Cpy R_a0 (Lit2 5)]).
Proof. repeat split; vm_compute; reflexivity. Qed.
Lemma E_C44_roundtrip_strict : Forall (fun i => stable_word (PInstr i)) [Halt; Cpy R_a0 (Lit2 5); Lea (Reg1 R_avr) (Lit1 255) (Lit1 3)].
Proof. repeat constructor; vm_compute; congruence. Qed.
Lemma E_C44_reencode : zlen [172; 21; 255; 3; 7; 1; 2; 3] mod 4 = 0 /\ Forall is_u8 [172; 21; 255; 3; 7; 1; 2; 3] /\
  Forall (fun bs => canonical bs \/ exists e, decode bs = RErr e) (quads [172; 21; 255; 3; 7; 1; 2; 3]) /\
  prog_decode [172; 21; 255; 3; 7; 1; 2; 3] false = ROk [PInstr (Lea (Reg1 R_avr) (Lit1 255) (Lit1 3)); PRaw (7, 1, 2, 3)].
Proof.
  split; [reflexivity|]. split; [repeat constructor; vm_compute; congruence|]. split; [|vm_compute; reflexivity].
  constructor; [left; apply E_C42_canonical|]. constructor; [right; eexists; vm_compute; reflexivity|]. constructor.
Qed.
Lemma E_C53_roundtrip : Forall is_u32 [4278190081; 7] /\ words_to_bytes [4278190081; 7] = [255; 0; 0; 1; 0; 0; 0; 7].
Proof. split; [repeat constructor; vm_compute; congruence|vm_compute; reflexivity]. Qed.
Lemma E_C53_roundtrip_bytes : Forall is_u8 [255; 0; 0; 1; 0; 0; 0; 7] /\ zlen [255; 0; 0; 1; 0; 0; 0; 7] mod 4 = 0 /\ bytes_to_words [255; 0; 0; 1; 0; 0; 0; 7] = [4278190081; 7].
Proof. split; [repeat constructor; vm_compute; congruence|]. split; vm_compute; reflexivity. Qed.
Lemma E_C53_leftover : zlen [1; 2; 3; 4] mod 4 = 0 /\ bytes_to_words [1; 2; 3; 4; 5; 6; 7] = [16909060; 101122048].
Proof. split; vm_compute; reflexivity. Qed.
Lemma E_C44_words : encode_words [PInstr Halt; PRaw (1, 2, 3, 4)] = [4026531840; 16909060].
Proof. vm_compute. reflexivity. Qed.
Lemma E_C45_append : append_all [PInstr Halt] [PRaw (1, 2, 3, 4); PInstr (Cpy R_a0 (Lit2 5))] = [PInstr Halt; PRaw (1, 2, 3, 4); PInstr (Cpy R_a0 (Lit2 5))] /\
  prepend [PInstr Halt] (PRaw (1, 2, 3, 4)) = [PRaw (1, 2, 3, 4); PInstr Halt].
Proof. split; reflexivity. Qed.
Lemma E_C46_range : 0 <= 31 < 32 /\ reg_code R_smt = 31 /\ reg_code R_pc = 22.
Proof. repeat split; vm_compute; congruence. Qed.
Lemma E_C46_names : reg_name R_rr3 = "rr3"%string /\ reg_from_name "rr3" = Some R_rr3 /\ reg_from_name "rr8" = None.
Proof. repeat split; reflexivity. Qed.
Lemma E_C46_all : length all_regs = 32%nat /\ In R_pc all_regs.
Proof. split; [reflexivity|cbn; tauto]. Qed.
Lemma E_C50_roundtrip : aux_wf (UnknownOperation 171) /\ aux_encode (UnknownOperation 171) = 16 * 256 + 171.
Proof. split; [unfold aux_wf, is_u8; lia|reflexivity]. Qed.
Lemma E_C50_zero : aux_wf UnknownError /\ aux_encode UnknownError = 0 /\ aux_wf MemoryNotWritable /\ aux_encode MemoryNotWritable = 12544.
Proof. repeat split; reflexivity. Qed.
Lemma E_C50_decode : is_u16 12545 /\ aux_decode 12545 = Some MemoryNotWritable /\ is_u16 4267 /\ aux_decode 4267 = Some (UnknownOperation 171) /\ is_u16 768 /\ aux_decode 768 = None.
Proof. repeat split; vm_compute; congruence. Qed.
