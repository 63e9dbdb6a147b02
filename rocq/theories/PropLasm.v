(** Properties proved in ProofLasm.v: statements only. Generated by tools/gen_props.py. *)
From Coq Require Import String Ascii ZArith List Bool Lia.
From Verif Require Import Base Mem Asm Tools LasmRules Lasm SpecAsm SpecLasm BaseFacts RegFacts ProofAsm LasmFacts.
From Verif Require Import Cpu Board SpecMach SpecIsa SpecBus SpecObs SpecExt.
From Verif Require Import Devices Demo.
From Verif Require Import ProofLasm.
Import ListNotations.
Open Scope string_scope.
Open Scope Z_scope.

(** The text of an instruction assembles to an instruction the CPU runs as the [reassembled] one, or to nothing. *)
Theorem C69_instr : forall oc i t, instr_wf i -> to_lasm oc i = Ret t ->
  match reassembled i with
  | Some j => exists bs, assemble t = Some (list_of_bytes bs) /\ runs_as bs j
  | None => assemble t = None
  end.
Proof. exact P_C69_instr. Qed.
Print Assumptions C69_instr.

(** ** Witnesses *)
Example C69_instr_example : instr_wf (Lea (Reg1 R_a1) (Lit1 250) (Reg1 R_c0)) /\ to_lasm true (Lea (Reg1 R_a1) (Lit1 250) (Reg1 R_c0)) = Ret "lea a1, 0xFA, c0" /\
  reassembled (Lea (Reg1 R_a1) (Lit1 250) (Reg1 R_c0)) = Some (Lea (Reg1 R_a1) (Lit1 250) (Reg1 R_c0)) /\ assemble "lea a1, 0xFA, c0" = Some [173; 1; 250; 8] /\
  to_lasm false (Jpr (Lit2 32768)) = Ret "jpr -0x8000" /\ assemble "jpr -0x8000" = Some [112; 128; 0; 0] /\
  to_lasm false (If2 (Lit1 1) (Lit1 9) (Lit1 2)) = Ret "ifand CF, 0x09 ; invalid right flag" /\ reassembled (If2 (Lit1 1) (Lit1 9) (Lit1 2)) = None.
Proof. exact E_C69_instr. Qed.

(** Word by word, the text of a program assembles to [word_back]; it is rejected exactly when the text of some instruction is. *)
Theorem C69_program : forall oc p t, Forall word_wf p -> prog_to_lasm oc p false = Ret t ->
  match assemble t with
  | Some code => exists bss, code = flat_map list_of_bytes bss /\ Forall2 word_back p bss
  | None => Exists word_rejected p
  end.
Proof. exact P_C69_program. Qed.
Print Assumptions C69_program.

Example C69_program_example : word_rejected (PInstr (Itr (Lit1 3))) /\ prog_to_lasm true [PInstr Halt; PInstr (Itr (Lit1 3))] false = Ret ("halt" ++ newline ++ "itr 0x3") /\ assemble ("halt" ++ newline ++ "itr 0x3") = None /\
  prog_to_lasm true [PInstr Halt] true = Ret "0x00000000: halt" /\ assemble "0x00000000: halt" = None.
Proof. exact E_C69_program. Qed.

(** The assembler rejects the listing of a program exactly when one of its words is of the kinds it cannot read. *)
Theorem C69_rejected : forall oc p t, Forall word_wf p -> prog_to_lasm oc p false = Ret t -> (assemble t = None <-> Exists word_rejected p).
Proof. exact P_C69_rejected. Qed.
Print Assumptions C69_rejected.

Example C69_rejected_example : let p := [PInstr Halt; PInstr (Itr (Lit1 3))] in Forall word_wf p /\ prog_to_lasm true p false = Ret ("halt" ++ newline ++ "itr 0x3") /\
  Exists word_rejected p /\ assemble ("halt" ++ newline ++ "itr 0x3") = None.
Proof. exact E_C69_rejected. Qed.

(** Printing never fails in release builds, and in debug builds only on JPR -0x8000. *)
Theorem C69_prints : forall oc i, instr_wf i -> (exists t, to_lasm oc i = Ret t) \/ (to_lasm oc i = Panic /\ oc = true /\ i = Jpr (Lit2 32768)).
Proof. exact P_C69_prints. Qed.
Print Assumptions C69_prints.

Example C69_prints_example : instr_wf (Jpr (Lit2 32768)) /\ to_lasm true (Jpr (Lit2 32768)) = Panic /\ to_lasm false (Jpr (Lit2 32768)) = Ret "jpr -0x8000" /\
  instr_wf (Jpr (Lit2 32769)) /\ to_lasm true (Jpr (Lit2 32769)) = Ret "jpr -0x7FFF".
Proof. exact E_C69_prints. Qed.

(** Listing a program succeeds, except in debug builds on a JPR of the literal 32768. *)
Theorem C69_prints_program : forall oc p ann, Forall word_wf p -> (exists t, prog_to_lasm oc p ann = Ret t) \/ (prog_to_lasm oc p ann = Panic /\ oc = true /\ In (PInstr (Jpr (Lit2 32768))) p).
Proof. exact P_C69_prints_program. Qed.
Print Assumptions C69_prints_program.

Example C69_prints_program_example : let p := [PInstr Halt; PInstr (Jpr (Lit2 32768))] in Forall word_wf p /\ prog_to_lasm true p true = Panic /\
  prog_to_lasm false p true = Ret ("0x00000000: halt" ++ newline ++ "0x00000004: jpr -0x8000").
Proof. exact E_C69_prints_program. Qed.

(** Any code whose text is accepted comes back, word by word: other bytes than instructions unchanged, instructions as said by [reassembled]. *)
Theorem C69_disassemble : forall oc code t, Forall is_u8 code -> disassemble oc code false = Ret (ROk t) ->
  match assemble t with
  | Some code' => zlen code' = zlen code /\
      Forall2 (fun bs bs' => match decode bs with ROk i => exists j, reassembled i = Some j /\ runs_as bs' j | RErr _ => bs' = bs end) (quads code) (quads code')
  | None => exists bs i, In bs (quads code) /\ decode bs = ROk i /\ reassembled i = None
  end.
Proof. exact P_C69_disassemble. Qed.
Print Assumptions C69_disassemble.

(** The second word is not an instruction; the third is not the code the assembler produces for its text. *)
Example C69_disassemble_example : let code := [12; 0; 18; 52; 1; 2; 3; 4; 14; 22; 0; 7] in Forall is_u8 code /\ disassemble true code false = Ret (ROk listing) /\
  assemble listing = Some [12; 0; 18; 52; 1; 2; 3; 4; 14; 22; 0; 0].
Proof. exact E_C69_disassemble. Qed.

(** Code all of whose instructions are faithful: the code that comes back decodes to the same program, is disassembled to the same text, and is the
    same if every instruction is in its normal form. *)
Theorem C69_roundtrip : forall oc code p t, Forall is_u8 code -> prog_decode code false = ROk p -> Forall faithful p -> disassemble oc code false = Ret (ROk t) ->
  exists code', assemble t = Some code' /\ prog_decode code' false = ROk p /\ disassemble oc code' false = Ret (ROk t) /\
    (Forall (fun bs => forall i, decode bs = ROk i -> bs = assembled i) (quads code) -> code' = code).
Proof. exact P_C69_roundtrip. Qed.
Print Assumptions C69_roundtrip.

Example C69_roundtrip_example : let code := [12; 0; 18; 52; 1; 2; 3; 4; 14; 22; 0; 0] in let p := [PInstr (Cpy R_a0 (Lit2 4660)); PRaw (1, 2, 3, 4); PInstr (Cpy R_pc (Reg2 R_a0))] in
  Forall is_u8 code /\ prog_decode code false = ROk p /\ Forall faithful p /\ disassemble true code false = Ret (ROk listing) /\ assemble listing = Some code /\
  Forall (fun bs => forall i, decode bs = ROk i -> bs = assembled i) (quads code).
Proof. exact E_C69_roundtrip. Qed.

(** On the CPU. *)
Theorem C69_runs : forall D (ops : bus_ops D) oc m bs j mem1 m', runs_as bs j -> executes_word ops oc m (word_of_bytes bs) mem1 m' -> executes ops oc m j mem1 m'.
Proof. exact P_C69_runs. Qed.
Print Assumptions C69_runs.

Example C69_runs_example : exists m mem1 m', demo_run false (asm [Cpy R_a1 (Lit2 4); Cpy R_c0 (Lit2 0); Lea (Reg1 R_a1) (Lit1 250) (Reg1 R_c0)]) 2 = Ret m /\
  runs_as (173, 1, 250, 8) (Lea (Reg1 R_a1) (Lit1 250) (Reg1 R_c0)) /\ executes_word (dev_ops false) false m (word_of_bytes (173, 1, 250, 8)) mem1 m' /\ R m' R_avr <> R m R_avr.
Proof. exact E_C69_runs. Qed.

(** The instructions printed as ZRO: MUL and AND by 0 do the same as what comes back ... *)
Theorem C69_zro : forall B (bs : @bus B) a s, step bs (Mul a (Lit2 0)) s = step bs (Xor a (Reg2 a)) s /\ step bs (And a (Lit2 0)) s = step bs (Xor a (Reg2 a)) s.
Proof. exact P_C69_zro. Qed.
Print Assumptions C69_zro.

Example C69_zro_example : match step zro_bus (Mul R_a0 (Lit2 0)) zro_state with Ret s' => @s_reg unit s' = (0 :: repeat 0 21 ++ [4; 140] ++ repeat 0 7 ++ [1])%list | Panic => False end.
Proof. exact E_C69_zro. Qed.

(** ... but a copy of 0 comes back as an instruction that changes the flags, *)
Theorem C69_zro_copy : forall B (bs : @bus B) a s s', length (s_reg s) = 32%nat -> can_read (sup s) a = true -> can_write (sup s) a = true -> a <> R_pc -> a <> R_af -> step bs (Cpy a (Lit2 0)) s = Ret s' ->
  step bs (Xor a (Reg2 a)) s = Ret (put s' R_af 140).
Proof. exact P_C69_zro_copy. Qed.
Print Assumptions C69_zro_copy.

Example C69_zro_copy_example : length (@s_reg unit zro_state) = 32%nat /\ can_read (sup zro_state) R_a0 = true /\ can_write (sup zro_state) R_a0 = true /\
  match step zro_bus (Cpy R_a0 (Lit2 0)) zro_state with Ret s' => get s' R_a0 = 0 /\ get s' R_af = 0 | Panic => False end.
Proof. exact E_C69_zro_copy. Qed.

(** No instruction matches two rules, whatever the labels, if no label is the name of a register, a flag, a mode... *)
Theorem C69_unambiguous : forall syms m os, (forall s n, In (s, n) syms -> reserved s = false) ->
  (length (all_matches syms m os) <= 1)%nat.
Proof. exact P_C69_unambiguous. Qed.
Print Assumptions C69_unambiguous.

Example C69_unambiguous_example : (forall s n, In (s, n) [("loop", 64)] -> reserved s = false) /\ all_matches [("loop", 64)] "jp" [OName "loop"] = [[12; 22; 0; 64]] /\
  reserved "a0" = true /\ all_matches [("a0", 64)] "jp" [OName "a0"] = [[14; 22; 0; 0]; [12; 22; 0; 64]].
Proof. exact E_C69_unambiguous. Qed.

(** What the assembler makes of an instruction is four bytes that decode. *)
Theorem C69_valid : forall syms m os bs, assemble_instr syms m os = Some bs -> exists a b c d i, bs = [a; b; c; d] /\ bytes_wf (a, b, c, d) /\ decode (a, b, c, d) = ROk i.
Proof. exact P_C69_valid. Qed.
Print Assumptions C69_valid.

Example C69_valid_example : assemble_instr [("loop", 64)] "jp" [OName "loop"] = Some [12; 22; 0; 64] /\ reserved "loop" = false /\ all_matches [("a0", 64)] "jp" [OName "a0"] = [[14; 22; 0; 0]; [12; 22; 0; 64]] /\ reserved "a0" = true.
Proof. exact E_C69_valid. Qed.

(** Text written by hand is assembled to the instruction it names. *)
Theorem C69_written : forall i t, instr_wf i -> plain i = Some t -> exists bs, assemble t = Some (list_of_bytes bs) /\ runs_as bs i.
Proof. exact P_C69_written. Qed.
Print Assumptions C69_written.

Example C69_written_example : plain (If2 (Lit1 0) (Reg1 R_a0) (Lit1 4)) = Some "if2 ZF, a0, CMP_NOR" /\ instr_wf (If2 (Lit1 0) (Reg1 R_a0) (Lit1 4)) /\ assemble "if2 ZF, a0, CMP_NOR" = Some [154; 0; 0; 4] /\
  plain (Xor R_a1 (Reg2 R_a2)) = Some "xor a1, a2" /\ assemble "xor a1, a2" = Some [86; 1; 2; 0].
Proof. exact E_C69_written. Qed.

(** An annotated listing is not accepted by the assembler (programs of less than 2^60 words). *)
Theorem C69_annotated : forall oc p t, Forall word_wf p -> p <> [] -> zlen p < 2 ^ 60 -> prog_to_lasm oc p true = Ret t -> assemble t = None.
Proof. exact P_C69_annotated. Qed.
Print Assumptions C69_annotated.

Example C69_annotated_example : let p := [PInstr Halt; PRaw (1, 2, 3, 4)] in Forall word_wf p /\ p <> [] /\ zlen p < 2 ^ 60 /\
  prog_to_lasm true p true = Ret ("0x00000000: halt" ++ newline ++ "0x00000004: #d32 0x01_02_03_04").
Proof. exact E_C69_annotated. Qed.

(** Disassembling and assembling again does not give the program back, even when it is accepted: XOR a1, a2 comes back as XOR a2, a2, *)
Theorem C69_roundtrip_refuted : ~ (forall oc code p t code', Forall is_u8 code -> prog_decode code false = ROk p -> disassemble oc code false = Ret (ROk t) -> assemble t = Some code' -> prog_decode code' false = ROk p).
Proof. exact P_C69_roundtrip_refuted. Qed.
Print Assumptions C69_roundtrip_refuted.

(** it is not always accepted: the default division mode is not, *)
Theorem C69_accepted_refuted : ~ (forall oc code t, Forall is_u8 code -> disassemble oc code false = Ret (ROk t) -> exists code', assemble t = Some code').
Proof. exact P_C69_accepted_refuted. Qed.
Print Assumptions C69_accepted_refuted.

(** and what comes back does not always have the same effect. *)
Theorem C69_effect_refuted : ~ (forall B (bs : @bus B) i j s, instr_wf i -> reassembled i = Some j -> step bs j s = step bs i s).
Proof. exact P_C69_effect_refuted. Qed.
Print Assumptions C69_effect_refuted.

(** In a debug build printing may panic. *)
Theorem C69_prints_refuted : ~ (forall oc i, instr_wf i -> exists t, to_lasm oc i = Ret t).
Proof. exact P_C69_prints_refuted. Qed.
Print Assumptions C69_prints_refuted.

(** The names the assembler gives to flags and conditions, written in a source, stand for the codes of these flags and of this condition. *)
Theorem C52_condition_names : forall f g c,
  assemble ("if2 " ++ ar_flag_short_name f ++ ", " ++ ar_flag_short_name g ++ ", " ++ if2_cond_to_lasm c)%string =
    Some (list_of_bytes (encode (If2 (Lit1 (ar_flag_code f)) (Lit1 (ar_flag_code g)) (Lit1 (if2_cond_code c))))).
Proof. exact P_C52_condition_names. Qed.
Print Assumptions C52_condition_names.

Example C52_condition_names_example : assemble "if2 ZF, CF, CMP_NAND" = Some [152; 0; 1; 5].
Proof. exact E_C52_condition_names. Qed.
