(** Properties proved in ProofAsm.v: statements only. Generated by tools/gen_props.py. *)
From Coq Require Import String ZArith List Bool Lia.
From Verif Require Import Base Board Mem Cpu Asm Tools SpecMach SpecAsm BaseFacts RegFacts.
From Verif Require Import ProofAsm.
Import ListNotations.
Open Scope Z_scope.

(** * C41 *)

(** Decoding the encoding of an instruction gives the same instruction, with a0 in place of its 2-byte register operand if it has
    one. The two assertions of [encode] always hold and the result is four bytes. *)
Theorem C41_outcome : forall i, instr_wf i -> decode (encode i) = ROk (with_wide_reg i R_a0).
Proof. exact P_C41_outcome. Qed.
Print Assumptions C41_outcome.

Example C41_outcome_example : instr_wf (Cpy R_a1 (Reg2 R_a2)) /\ with_wide_reg (Cpy R_a1 (Reg2 R_a2)) R_a0 = Cpy R_a1 (Reg2 R_a0) /\ instr_wf (Div R_a1 (Lit1 3) (Reg1 R_a2)).
Proof. exact E_C41_outcome. Qed.

(** So encoding round-trips exactly when the instruction has no 2-byte register operand other than a0. *)
Theorem C41_roundtrip : forall i, instr_wf i -> (decode (encode i) = ROk i <-> wide_reg i = None \/ wide_reg i = Some R_a0).
Proof. exact P_C41_roundtrip. Qed.
Print Assumptions C41_roundtrip.

Example C41_roundtrip_example : instr_wf (Lea (Reg1 R_avr) (Lit1 255) (Lit1 3)) /\ wide_reg (Lea (Reg1 R_avr) (Lit1 255) (Lit1 3)) = None /\
  encode (Lea (Reg1 R_avr) (Lit1 255) (Lit1 3)) = (172, 21, 255, 3) /\
  instr_wf (Cpy R_a1 (Reg2 R_a2)) /\ encode (Cpy R_a1 (Reg2 R_a2)) = (14, 1, 0, 2) /\ decode (14, 1, 0, 2) = ROk (Cpy R_a1 (Reg2 R_a0)).
Proof. exact E_C41_roundtrip. Qed.

(** The full claim 'decoding an encoded instruction gives it back' is false: operands of two bytes given as registers are not encoded as such. *)
Theorem C41_roundtrip_refuted : ~ (forall i, instr_wf i -> decode (encode i) = ROk i).
Proof. exact P_C41_roundtrip_refuted. Qed.
Print Assumptions C41_roundtrip_refuted.

(** Encoding gives four bytes for every instruction, and none of the encoder's own assertions fails. *)
Theorem C41_bytes : forall i, instr_wf i -> bytes_wf (encode i) /\ encode_asserts i = true.
Proof. exact P_C41_bytes. Qed.
Print Assumptions C41_bytes.

Example C41_bytes_example : instr_wf (If2 (Lit1 255) (Reg1 R_smt) (Lit1 3)) /\ encode (If2 (Lit1 255) (Reg1 R_smt) (Lit1 3)) = (154, 255, 31, 3).
Proof. exact E_C41_bytes. Qed.

(** Different instructions (without 2-byte register operands) have different encodings. *)
Theorem C41_injective : forall i j, instr_wf i -> instr_wf j -> wide_reg i = None -> wide_reg j = None -> encode i = encode j -> i = j.
Proof. exact P_C41_injective. Qed.
Print Assumptions C41_injective.

Example C41_injective_example : instr_wf (Add R_a0 (Lit2 1)) /\ instr_wf (Add R_a1 (Lit2 1)) /\ wide_reg (Add R_a0 (Lit2 1)) = None /\ encode (Add R_a0 (Lit2 1)) <> encode (Add R_a1 (Lit2 1)).
Proof. exact E_C41_injective. Qed.

(** * C42 *)

(** Every word decodes, to a well-formed instruction when its opcode is not 0 and it designates no unknown register; otherwise
    the error gives the opcode 0, or the position and code of the first unknown register (the table of operand kinds is [format]). *)
Theorem C42_decode : forall bs, bytes_wf bs ->
  match decode bs with
  | ROk i => opcode_of bs <> 0 /\ instr_wf i /\ forall k, ~ bad_operand bs k
  | RErr (UnknownOpCode o) => o = opcode_of bs /\ o = 0
  | RErr (UnknownRegister k c) => exists n, k = Z.of_nat n /\ bad_operand bs n /\ c = operand_byte bs n /\ forall j, (j < n)%nat -> ~ bad_operand bs j
  | RErr SourceNotMultipleOf4Bytes => False
  end.
Proof. exact P_C42_decode. Qed.
Print Assumptions C42_decode.

Example C42_decode_example : bytes_wf (172, 21, 255, 3) /\ canonical (172, 21, 255, 3) /\ decode (172, 21, 255, 3) = ROk (Lea (Reg1 R_avr) (Lit1 255) (Lit1 3)) /\
  bytes_wf (175, 21, 40, 50) /\ decode (175, 21, 40, 50) = RErr (UnknownRegister 1 40) /\ decode (7, 1, 2, 3) = RErr (UnknownOpCode 0).
Proof. exact E_C42_decode. Qed.

(** Re-encoding what a word decodes to gives a word that decodes to the same instruction, unless it has a 2-byte register operand;
    for a canonical word it gives this very word. *)
Theorem C42_reencode : forall bs i, bytes_wf bs -> decode bs = ROk i -> wide_reg i = None -> decode (encode i) = ROk i.
Proof. exact P_C42_reencode. Qed.
Print Assumptions C42_reencode.

Example C42_reencode_example : bytes_wf (175, 21, 31, 5) /\ exists i, decode (175, 21, 31, 5) = ROk i /\ wide_reg i = None /\ i = Lea (Reg1 R_avr) (Reg1 R_smt) (Reg1 R_a5).
Proof. exact E_C42_reencode. Qed.

(** Decoding loses nothing on canonical bytes: encoding the result gives the same bytes. *)
Theorem C42_canonical : forall bs i, bytes_wf bs -> canonical bs -> decode bs = ROk i -> encode i = bs.
Proof. exact P_C42_canonical. Qed.
Print Assumptions C42_canonical.

Example C42_canonical_example : bytes_wf (172, 21, 255, 3) /\ canonical (172, 21, 255, 3) /\ decode (172, 21, 255, 3) = ROk (Lea (Reg1 R_avr) (Lit1 255) (Lit1 3)).
Proof. exact E_C42_canonical. Qed.

(** The word 0x0A010203 (CPY a1, a2) is re-encoded as CPY a1, a0. *)
Theorem C42_reencode_refuted : ~ (forall bs i, bytes_wf bs -> decode bs = ROk i -> decode (encode i) = ROk i).
Proof. exact P_C42_reencode_refuted. Qed.
Print Assumptions C42_reencode_refuted.

(** * C44 *)

(** A program is encoded as four bytes per word. *)
Theorem C44_size : forall p, zlen (prog_encode p) = 4 * zlen p.
Proof. exact P_C44_size. Qed.
Print Assumptions C44_size.

Example C44_size_example : prog_encode [PInstr Halt; PRaw (1, 2, 3, 4)] = [240; 0; 0; 0; 1; 2; 3; 4].
Proof. exact E_C44_size. Qed.

(** Bytes whose number is no multiple of 4 are rejected. *)
Theorem C44_length_rejected : forall bytes fr, zlen bytes mod 4 <> 0 -> prog_decode bytes fr = RErr (0, SourceNotMultipleOf4Bytes).
Proof. exact P_C44_length_rejected. Qed.
Print Assumptions C44_length_rejected.

Example C44_length_rejected_example : zlen [240; 0; 0; 0; 1] mod 4 <> 0 /\ prog_decode [240; 0; 0; 0; 1] false = RErr (0, SourceNotMultipleOf4Bytes).
Proof. exact E_C44_length_rejected. Qed.

(** With raw words allowed every other byte string decodes, word by word. *)
Theorem C44_raw : forall bytes, zlen bytes mod 4 = 0 ->
  prog_decode bytes false = ROk (map pw_decode (quads bytes)) /\ flat_map list_of_bytes (quads bytes) = bytes.
Proof. exact P_C44_raw. Qed.
Print Assumptions C44_raw.

Example C44_raw_example : zlen [240; 0; 0; 0; 1; 2; 3; 4] mod 4 = 0 /\ prog_decode [240; 0; 0; 0; 1; 2; 3; 4] false = ROk [PInstr Halt; PRaw (1, 2, 3, 4)].
Proof. exact E_C44_raw. Qed.

(** With raw words forbidden, either all words are instructions or the error is that of the first word that is none, with its index. *)
Theorem C44_strict : forall bytes, zlen bytes mod 4 = 0 ->
  match prog_decode bytes true with
  | ROk p => exists is, p = from_instr is /\ map decode (quads bytes) = map ROk is
  | RErr (k, e) => exists pre bs post is, quads bytes = pre ++ bs :: post /\ k = zlen pre /\ decode bs = RErr e /\ map decode pre = map ROk is
  end.
Proof. exact P_C44_strict. Qed.
Print Assumptions C44_strict.

Example C44_strict_example : zlen [240; 0; 0; 0; 1; 2; 3; 4] mod 4 = 0 /\ prog_decode [240; 0; 0; 0; 1; 2; 3; 4] true = RErr (1, UnknownOpCode 0) /\
  prog_decode [240; 0; 0; 0; 12; 0; 0; 5] true = ROk (from_instr [Halt; Cpy R_a0 (Lit2 5)]).
Proof. exact E_C44_strict. Qed.

(** Decoding an encoded program gives it back, if its instructions have no 2-byte register operand (a0 excepted) and its raw
    words are no instructions. *)
Theorem C44_roundtrip : forall p, Forall stable_word p -> prog_decode (prog_encode p) false = ROk p.
Proof. exact P_C44_roundtrip. Qed.
Print Assumptions C44_roundtrip.

Example C44_roundtrip_example : Forall stable_word [PInstr (Cpy R_a0 (Lit2 5)); PRaw (1, 2, 3, 4); PInstr Halt] /\
  prog_encode [PInstr (Cpy R_a0 (Lit2 5)); PRaw (1, 2, 3, 4); PInstr Halt] = [12; 0; 0; 5; 1; 2; 3; 4; 240; 0; 0; 0] /\
  prog_decode [12; 0; 0; 5; 1; 2; 3; 4; 240; 0; 0; 0] true = RErr (1, UnknownOpCode 0).
Proof. exact E_C44_roundtrip. Qed.

(** A program of stable instructions decodes, in strict mode, to itself. *)
Theorem C44_roundtrip_strict : forall is, Forall (fun i => stable_word (PInstr i)) is ->
  prog_decode (prog_encode (from_instr is)) true = ROk (from_instr is).
Proof. exact P_C44_roundtrip_strict. Qed.
Print Assumptions C44_roundtrip_strict.

Example C44_roundtrip_strict_example : Forall (fun i => stable_word (PInstr i)) [Halt; Cpy R_a0 (Lit2 5); Lea (Reg1 R_avr) (Lit1 255) (Lit1 3)].
Proof. exact E_C44_roundtrip_strict. Qed.

(** Re-encoding a decoded program gives the same bytes, if every word is canonical or no instruction. *)
Theorem C44_reencode : forall bytes p, zlen bytes mod 4 = 0 -> Forall is_u8 bytes ->
  Forall (fun bs => canonical bs \/ exists e, decode bs = RErr e) (quads bytes) ->
  prog_decode bytes false = ROk p -> prog_encode p = bytes.
Proof. exact P_C44_reencode. Qed.
Print Assumptions C44_reencode.

Example C44_reencode_example : zlen [172; 21; 255; 3; 7; 1; 2; 3] mod 4 = 0 /\ Forall is_u8 [172; 21; 255; 3; 7; 1; 2; 3] /\
  Forall (fun bs => canonical bs \/ exists e, decode bs = RErr e) (quads [172; 21; 255; 3; 7; 1; 2; 3]) /\
  prog_decode [172; 21; 255; 3; 7; 1; 2; 3] false = ROk [PInstr (Lea (Reg1 R_avr) (Lit1 255) (Lit1 3)); PRaw (7, 1, 2, 3)].
Proof. exact E_C44_reencode. Qed.

(** * C53 *)

(** Complete words: big endian, in order, in both directions. *)
Theorem C53_words : forall bytes, zlen bytes mod 4 = 0 -> bytes_to_words bytes = words_be bytes.
Proof. exact P_C53_words. Qed.
Print Assumptions C53_words.

Example C53_words_example : bytes_to_words [1; 2; 3; 4; 255; 0; 0; 1] = [16909060; 4278190081] /\ zlen [1; 2; 3; 4; 255; 0; 0; 1] mod 4 = 0.
Proof. exact E_C53_words. Qed.

(** Words survive a trip through bytes. *)
Theorem C53_roundtrip : forall ws, Forall is_u32 ws -> bytes_to_words (words_to_bytes ws) = ws.
Proof. exact P_C53_roundtrip. Qed.
Print Assumptions C53_roundtrip.

Example C53_roundtrip_example : Forall is_u32 [4278190081; 7] /\ words_to_bytes [4278190081; 7] = [255; 0; 0; 1; 0; 0; 0; 7].
Proof. exact E_C53_roundtrip. Qed.

(** Bytes survive a trip through words when their number is a multiple of four. *)
Theorem C53_roundtrip_bytes : forall bytes, Forall is_u8 bytes -> zlen bytes mod 4 = 0 -> words_to_bytes (bytes_to_words bytes) = bytes.
Proof. exact P_C53_roundtrip_bytes. Qed.
Print Assumptions C53_roundtrip_bytes.

Example C53_roundtrip_bytes_example : Forall is_u8 [255; 0; 0; 1; 0; 0; 0; 7] /\ zlen [255; 0; 0; 1; 0; 0; 0; 7] mod 4 = 0 /\ bytes_to_words [255; 0; 0; 1; 0; 0; 0; 7] = [4278190081; 7].
Proof. exact E_C53_roundtrip_bytes. Qed.

(** One, two or three bytes left over make one more word: 0 for one or two bytes, and without its first byte for three. *)
Theorem C53_leftover : forall bytes a b c, zlen bytes mod 4 = 0 -> is_u8 a -> is_u8 b -> is_u8 c ->
  bytes_to_words (bytes ++ [a]) = words_be bytes ++ [0] /\ bytes_to_words (bytes ++ [a; b]) = words_be bytes ++ [0] /\
  bytes_to_words (bytes ++ [a; b; c]) = words_be bytes ++ [word_be b c 0 0].
Proof. exact P_C53_leftover. Qed.
Print Assumptions C53_leftover.

Example C53_leftover_example : zlen [1; 2; 3; 4] mod 4 = 0 /\ bytes_to_words [1; 2; 3; 4; 5; 6; 7] = [16909060; 101122048].
Proof. exact E_C53_leftover. Qed.

(** The natural claim that a partial last word is padded with zeroes on the right is false. *)
Theorem C53_padding_refuted : ~ (forall bytes a, zlen bytes mod 4 = 0 -> is_u8 a -> bytes_to_words (bytes ++ [a]) = words_be bytes ++ [word_be a 0 0 0]).
Proof. exact P_C53_padding_refuted. Qed.
Print Assumptions C53_padding_refuted.

(** Program words and bytes agree (C44). *)
Theorem C44_words : forall p, bytes_to_words (prog_encode p) = encode_words p.
Proof. exact P_C44_words. Qed.
Print Assumptions C44_words.

Example C44_words_example : encode_words [PInstr Halt; PRaw (1, 2, 3, 4)] = [4026531840; 16909060].
Proof. exact E_C44_words. Qed.

(** * C45 *)

(** [append], [append_all] and [prepend] put words where their names say. *)
Theorem C45_append : forall p w ws, append p w = p ++ [w] /\ append_all p ws = p ++ ws /\ prepend p w = w :: p.
Proof. exact P_C45_append. Qed.
Print Assumptions C45_append.

Example C45_append_example : append_all [PInstr Halt] [PRaw (1, 2, 3, 4); PInstr (Cpy R_a0 (Lit2 5))] = [PInstr Halt; PRaw (1, 2, 3, 4); PInstr (Cpy R_a0 (Lit2 5))] /\
  prepend [PInstr Halt] (PRaw (1, 2, 3, 4)) = [PRaw (1, 2, 3, 4); PInstr Halt].
Proof. exact E_C45_append. Qed.

(** [prepend_all] inserts the words at index (number of words) instead of 0, and panics when there are more of them than the
    program has words. *)
Theorem C45_prepend_all : forall oc p ws, zlen ws < 2 ^ 64 ->
  prepend_all oc p ws = if zlen ws <=? zlen p then Ret (firstn (length ws) p ++ ws ++ skipn (length ws) p) else Panic.
Proof. exact P_C45_prepend_all. Qed.
Print Assumptions C45_prepend_all.

Example C45_prepend_all_example : prepend_all true [PInstr Halt; PRaw (0, 0, 0, 0)] [PRaw (1, 2, 3, 4)] = Ret [PInstr Halt; PRaw (1, 2, 3, 4); PRaw (0, 0, 0, 0)] /\
  prepend_all false [PInstr Halt] [PRaw (0, 0, 0, 0); PInstr Halt] = Panic.
Proof. exact E_C45_prepend_all. Qed.

(** The natural claim that prepending words puts them before the program, in order, is false even for short lists. *)
Theorem C45_prepend_all_refuted : ~ (forall oc p ws, zlen ws <= zlen p -> prepend_all oc p ws = Ret (ws ++ p)).
Proof. exact P_C45_prepend_all_refuted. Qed.
Print Assumptions C45_prepend_all_refuted.

(** * C46 *)

(** Register codes are exactly 0 to 31, one per register; codes and names are decoded to the register they belong to and nothing
    else is. *)
Theorem C46_codes : forall c r, reg_from_code c = Some r <-> c = reg_code r.
Proof. exact P_C46_codes. Qed.
Print Assumptions C46_codes.

Example C46_codes_example : reg_from_code 22 = Some R_pc /\ reg_from_name "af" = Some R_af /\ reg_from_code 32 = None /\ reg_from_name "A0" = None.
Proof. exact E_C46_codes. Qed.

(** The register codes are exactly 0 to 31. *)
Theorem C46_range : forall c, 0 <= c < 32 <-> exists r, c = reg_code r.
Proof. exact P_C46_range. Qed.
Print Assumptions C46_range.

Example C46_range_example : 0 <= 31 < 32 /\ reg_code R_smt = 31 /\ reg_code R_pc = 22.
Proof. exact E_C46_range. Qed.

(** A name designates a register exactly when it is that register's name. *)
Theorem C46_names : forall s r, reg_from_name s = Some r <-> s = reg_name r.
Proof. exact P_C46_names. Qed.
Print Assumptions C46_names.

Example C46_names_example : reg_name R_rr3 = "rr3"%string /\ reg_from_name "rr3" = Some R_rr3 /\ reg_from_name "rr8" = None.
Proof. exact E_C46_names. Qed.

(** The list of all registers is complete, without repetition, and codes and names are distinct. *)
Theorem C46_all : forall r, In r all_regs /\ NoDup all_regs /\ NoDup (map reg_code all_regs) /\ NoDup (map reg_name all_regs).
Proof. exact P_C46_all. Qed.
Print Assumptions C46_all.

Example C46_all_example : length all_regs = 32%nat /\ In R_pc all_regs.
Proof. exact E_C46_all. Qed.

(** * C49, C50 *)

(** Hardware exceptions: encoding fits 16 bits, decoding gives the exception back; only UnknownError encodes to "no exception". *)
Theorem C50_roundtrip : forall e, aux_wf e -> is_u16 (aux_encode e) /\ aux_decode (aux_encode e) = Some e.
Proof. exact P_C50_roundtrip. Qed.
Print Assumptions C50_roundtrip.

Example C50_roundtrip_example : aux_wf (UnknownOperation 171) /\ aux_encode (UnknownOperation 171) = 16 * 256 + 171.
Proof. exact E_C50_roundtrip. Qed.

(** The only hardware exception encoded as 0, that is, as 'no exception', is UnknownError. *)
Theorem C50_zero : forall e, aux_wf e -> (aux_encode e = 0 <-> e = UnknownError).
Proof. exact P_C50_zero. Qed.
Print Assumptions C50_zero.

Example C50_zero_example : aux_wf UnknownError /\ aux_encode UnknownError = 0 /\ aux_wf MemoryNotWritable /\ aux_encode MemoryNotWritable = 12544.
Proof. exact E_C50_zero. Qed.

(** Decoding yields the exception with that code, and its operation when it has one; the codes that decode are those of the table. *)
Theorem C50_decode : forall x, is_u16 x -> match aux_decode x with
  | Some e => aux_wf e /\ aux_code e = x / 256 /\ (e = UnknownOperation (x mod 256) \/ aux_data e = None)
  | None => ~ In (x / 256) [0; 1; 2; 16; 17; 32; 33; 48; 49] end.
Proof. exact P_C50_decode. Qed.
Print Assumptions C50_decode.

Example C50_decode_example : is_u16 12545 /\ aux_decode 12545 = Some MemoryNotWritable /\ is_u16 4267 /\ aux_decode 4267 = Some (UnknownOperation 171) /\ is_u16 768 /\ aux_decode 768 = None.
Proof. exact E_C50_decode. Qed.
