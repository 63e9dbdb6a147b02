(** Properties proved in ProofReasm.v: statements only. Generated by tools/gen_props.py. *)
From Coq Require Import String Ascii ZArith List Bool Lia.
From Verif Require Import Base Mem Asm Tools LasmRules Lasm Sources Examples SpecAsm SpecLasm SpecShort SpecLabel SpecReasm BaseFacts RegFacts ProofAsm LasmFacts ProofLasm ProofShort LabelFacts ProofLabel.
From Verif Require Import ProofReasm.
Import ListNotations.
Open Scope string_scope.
Open Scope list_scope.
Open Scope Z_scope.

(** What the assembler gives is a string of bytes. *)
Theorem C80_bytes : forall s code, assemble s = Some code -> Forall is_u8 code.
Proof. exact P_C80_bytes. Qed.
Print Assumptions C80_bytes.

(** ** Witnesses *)
Example C80_bytes_example : exists code, assemble disassemble_source = Some code /\ zlen code = 100.
Proof. exact E_C80_bytes. Qed.

(** Assembling to a program: an error message when the source is wrong or its size is not a multiple of four bytes; otherwise every word of the
    code is there, as the instruction it decodes to, or raw. *)
Theorem C80_prog : forall s,
  match assemble s with
  | None => assemble_prog s = None
  | Some code =>
      if zlen code mod 4 =? 0
      then exists bss p, flat_map list_of_bytes bss = code /\ assemble_prog s = Some (ROk p) /\ Forall2 read_word bss p
      else assemble_prog s = Some (RErr (0, SourceNotMultipleOf4Bytes))
  end.
Proof. exact P_C80_prog. Qed.
Print Assumptions C80_prog.

Example C80_prog_example : assemble_prog ("halt" ++ newline ++ "#d32 0x12345678") = Some (ROk [PInstr Halt; PRaw (18, 52, 86, 120)]) /\ assemble_prog ("halt" ++ newline ++ "#d ""Hi""") = Some (RErr (0, SourceNotMultipleOf4Bytes)).
Proof. exact E_C80_prog. Qed.

(** The example panics exactly when the source does not assemble, when its code is not made of whole valid instructions, or, with overflow checks,
    when one of these is JPR -0x8000. *)
Theorem C80_panics : forall oc s, re_assemble oc s = Panic <->
  match assemble s with
  | None => True
  | Some code => zlen code mod 4 <> 0 \/ (exists bs e, In bs (quads code) /\ decode bs = RErr e) \/ (oc = true /\ exists bs, In bs (quads code) /\ decode bs = ROk (Jpr (Lit2 32768)) /\ ~ exists bs e, In bs (quads code) /\ decode bs = RErr e)
  end.
Proof. exact P_C80_panics. Qed.
Print Assumptions C80_panics.

Example C80_panics_example : re_assemble true "jpr -0x8000" = Panic /\ re_assemble false "jpr -0x8000" <> Panic /\ re_assemble false "#d32 0xFFFFFFFF" = Panic.
Proof. exact E_C80_panics. Qed.

(** The text: one line for each instruction of the code, its own; assembled again it gives, instruction by instruction, what [reassembled] says. *)
Theorem C80_text : forall oc s t, re_assemble oc s = Ret t ->
  exists bss is lines, assemble s = Some (flat_map list_of_bytes bss) /\ Forall2 (fun bs i => decode bs = ROk i) bss is /\ Forall2 (fun i l => to_lasm oc i = Ret l) is lines /\ t = String.concat newline lines /\
    match assemble t with
    | Some code' => exists bss', code' = flat_map list_of_bytes bss' /\ Forall2 (fun i bs => exists j, reassembled i = Some j /\ runs_as bs j) is bss'
    | None => exists i, In i is /\ reassembled i = None
    end.
Proof. exact P_C80_text. Qed.
Print Assumptions C80_text.

Example C80_text_example : re_assemble true ("start:" ++ newline ++ " xor a0, a1" ++ newline ++ " jp start") = Ret ("zro a1" ++ newline ++ "jp 0x0")%string.
Proof. exact E_C80_text. Qed.

(** Printing back settles: the text, when it is accepted again, is printed back as a text that stays the same from then on, and its code too; unless
    there is an SRM, it is the first text already. *)
Theorem C80_settles : forall oc s t code', re_assemble oc s = Ret t -> assemble t = Some code' ->
  exists t', re_assemble oc t = Ret t' /\ re_assemble oc t' = Ret t' /\ assemble t' = Some code' /\
    ((forall code bs a b c, assemble s = Some code -> In bs (quads code) -> decode bs <> ROk (Srm a b c)) -> t' = t).
Proof. exact P_C80_settles. Qed.
Print Assumptions C80_settles.

Example C80_settles_example : re_assemble true "#d32 0xC7000102" = Ret "srm a0, a1, a2" /\ assemble "srm a0, a1, a2" = Some [191; 0; 1; 2] /\ re_assemble true "srm a0, a1, a2" = Ret "wea a0, a1, a2".
Proof. exact E_C80_settles. Qed.

(** A source of labels and instructions that assembles is printed back, in a release build. *)
Theorem C80_instructions : forall ls code, Forall line_ok ls -> code_size ls < 2 ^ 60 -> Forall only_code (bodies ls) -> assemble (source ls) = Some code -> exists t, re_assemble false (source ls) = Ret t.
Proof. exact P_C80_instructions. Qed.
Print Assumptions C80_instructions.

Example C80_instructions_example : Forall only_code (bodies (firstn 6 a_source ++ [Line 0 (BLabel "msg") None; Line 0 (BLabel "go") None])).
Proof. exact E_C80_instructions. Qed.

(** The example prints what its test expects. *)
Theorem C80_example : forall oc, re_assemble oc disassemble_source = Ret (String.concat newline expected_lasm) /\ disassemble_main oc = Ret (newline ++ String.concat newline expected_lasm)%string.
Proof. exact P_C80_example. Qed.
Print Assumptions C80_example.

Example C80_example_example : hd "" expected_lasm = "zro a0".
Proof. exact E_C80_example. Qed.
