(** Properties proved in ProofVals.v: statements only. Generated by tools/gen_props.py. *)
From Coq Require Import String ZArith List Bool Lia.
From Verif Require Import Base Board Mem Cpu Asm Tools LasmRules Lasm LasmFacts Vals Devices DevTyped Runner Console SpecMach SpecIsa SpecBus SpecObs SpecAsm SpecTools SpecMap SpecRun SpecConsole SpecVals SpecExt BaseFacts RegFacts MemFacts
  AluFacts IsaFacts IsaStep MonoFacts CycleFacts UndFacts HoareFacts CyclePost InvFacts MapFacts ReachFacts ExecFacts StepCases ConsoleFacts ProofAlu ProofState ProofReg Demo ProofAsm ProofExt.
From Verif Require Import ProofVals.
Import ListNotations.
Open Scope Z_scope.

(** A JPR built from a signed number, encoded by the assembler and run by the CPU, moves pc by exactly that many bytes, back or forth ... *)
Theorem C89_jump : forall D (ops : bus_ops D) oc m n mem1 m', typed ops -> wf m -> is_i16 n -> executes_word ops oc m (encode_word (Jpr (rl2_from_i16 n))) mem1 m' ->
  after m m' mem1 [(R_pc, (R m R_pc + n) mod 2 ^ 32)].
Proof. exact P_C89_jump. Qed.
Print Assumptions C89_jump.

Example C89_jump_example : demo_raw (asm [Cpy R_a0 (Lit2 7); Jpr (rl2_from_i16 (-4))]) 1 (encode_word (Jpr (rl2_from_i16 (-4)))) (fun m mem1 m' => is_i16 (-4) /\ R m R_pc = 4 /\ R m' R_pc = 0).
Proof. exact E_C89_jump. Qed.

(** ... and so does one built from a signed byte. *)
Theorem C89_jump_byte : forall D (ops : bus_ops D) oc m n mem1 m', typed ops -> wf m -> is_i8 n -> executes_word ops oc m (encode_word (Jpr (rl2_from_i8 n))) mem1 m' ->
  after m m' mem1 [(R_pc, (R m R_pc + n) mod 2 ^ 32)].
Proof. exact P_C89_jump_byte. Qed.
Print Assumptions C89_jump_byte.

Example C89_jump_byte_example : demo_raw (asm [Cpy R_a0 (Lit2 7); Jpr (rl2_from_i8 (-4))]) 1 (encode_word (Jpr (rl2_from_i8 (-4)))) (fun m mem1 m' => is_i8 (-4) /\ R m R_pc = 4 /\ R m' R_pc = 0).
Proof. exact E_C89_jump_byte. Qed.

(** Elsewhere a negative literal is the number plus 2^16: an ADD adds that. *)
Theorem C89_add : forall D (ops : bus_ops D) oc m d n mem1 m' x, typed ops -> wf m -> is_i16 n -> executes_word ops oc m (encode_word (Add d (rl2_from_i16 n))) mem1 m' ->
  reg_value m d = Some x -> can_write (sup_mode m) d = true ->
  computes m m' mem1 d ((x + (if n <? 0 then n + 65536 else n)) mod 2 ^ 32) (2 ^ 32 <= x + (if n <? 0 then n + 65536 else n)) (~ (- 2 ^ 31 <= signed x + (if n <? 0 then n + 65536 else n) < 2 ^ 31)).
Proof. exact P_C89_add. Qed.
Print Assumptions C89_add.

Example C89_add_example : demo_raw (asm [Cpy R_a0 (Lit2 7); Add R_a0 (rl2_from_i16 (-4))]) 1 (encode_word (Add R_a0 (rl2_from_i16 (-4)))) (fun m mem1 m' =>
  is_i16 (-4) /\ reg_value m R_a0 = Some 7 /\ can_write (sup_mode m) R_a0 = true /\ R m' R_a0 = 7 + 65536 - 4).
Proof. exact E_C89_add. Qed.

(** So adding a negative literal does not subtract. *)
Theorem C89_add_refuted : ~ (forall D (ops : bus_ops D) oc m d n mem1 m' x, typed ops -> wf m -> is_i16 n -> executes_word ops oc m (encode_word (Add d (rl2_from_i16 n))) mem1 m' ->
  reg_value m d = Some x -> can_write (sup_mode m) d = true -> R m' d = (x + n) mod 2 ^ 32).
Proof. exact P_C89_add_refuted. Qed.
Print Assumptions C89_add_refuted.

(** A literal built from a signed number and one built from an unsigned one are the same exactly when the numbers agree modulo 2^16; different signed numbers give different operands. *)
Theorem C89_same : forall n k, is_i16 n -> is_u16 k -> (rl2_from_i16 n = rl2_from_u16 k <-> n = k \/ n = k - 2 ^ 16) /\ (forall n', is_i16 n' -> rl2_from_i16 n = rl2_from_i16 n' -> n = n').
Proof. exact P_C89_same. Qed.
Print Assumptions C89_same.

Example C89_same_example : is_i16 (-1) /\ is_u16 65535 /\ rl2_from_i16 (-1) = rl2_from_u16 65535 /\ rl2_from_i8 (-1) <> rl2_from_u8 255.
Proof. exact E_C89_same. Qed.

(** Operands built from unsigned numbers and registers: a literal is told from a register, a byte gives the same operand as the same 16-bit number, different numbers or
    registers give different operands, and a number converted back is itself, a register its code. *)
Theorem C89_unsigned : forall n n' b r r', is_u16 n -> is_u16 n' -> is_u8 b ->
  (is_lit2 (rl2_from_u16 n) = true /\ is_lit2 (rl2_from_reg r) = false /\ is_lit1 (rl1_from_u8 b) = true /\ is_lit1 (rl1_from_reg r) = false) /\
  rl2_from_u8 b = rl2_from_u16 b /\
  ((rl2_from_u16 n = rl2_from_u16 n' -> n = n') /\ (rl2_from_reg r = rl2_from_reg r' -> r = r') /\ (rl1_from_reg r = rl1_from_reg r' -> r = r')) /\
  (u16_from_rl2 (rl2_from_u16 n) = n /\ u8_from_rl1 (rl1_from_u8 b) = b /\ u16_from_rl2 (rl2_from_reg r) = reg_code r /\ u8_from_rl1 (rl1_from_reg r) = reg_code r).
Proof. exact P_C89_unsigned. Qed.
Print Assumptions C89_unsigned.

Example C89_unsigned_example : is_u16 65535 /\ is_u8 255 /\ rl2_from_u8 255 <> rl2_from_i8 (-1) /\ u16_from_rl2 (rl2_from_reg R_pc) = 22.
Proof. exact E_C89_unsigned. Qed.

(** A CPY built from an unsigned number or byte, encoded by the assembler and run by the CPU, puts exactly that number in the register and changes no other one but pc. *)
Theorem C89_copy : forall D (ops : bus_ops D) oc m d n o mem1 m', typed ops -> wf m -> (is_u16 n /\ o = rl2_from_u16 n \/ is_u8 n /\ o = rl2_from_u8 n) ->
  executes_word ops oc m (encode_word (Cpy d o)) mem1 m' -> can_write (sup_mode m) d = true ->
  after m m' mem1 [(d, n); (R_pc, (R m R_pc + 4) mod 2 ^ 32)].
Proof. exact P_C89_copy. Qed.
Print Assumptions C89_copy.

Example C89_copy_example : demo_raw (asm [Cpy R_a0 (Lit2 7); Cpy R_a1 (rl2_from_u8 255)]) 1 (encode_word (Cpy R_a1 (rl2_from_u8 255))) (fun m mem1 m' =>
  is_u8 255 /\ can_write (sup_mode m) R_a1 = true /\ R m' R_a1 = 255 /\ R m' R_a0 = 7).
Proof. exact E_C89_copy. Qed.

(** The signed text of an operand built from a signed number is that number; printing panics only for the least one, with overflow checks. *)
Theorem C89_text : forall oc n, is_i16 n -> match lasm2_signed oc (rl2_from_i16 n) with Ret t => signed_text t n | Panic => oc = true /\ n = - 32768 end.
Proof. exact P_C89_text. Qed.
Print Assumptions C89_text.

Example C89_text_example : is_i16 (-255) /\ lasm2_signed true (rl2_from_i16 (-255)) = Ret "-0xFF"%string /\ lasm2_signed true (rl2_from_i16 (-32768)) = Panic.
Proof. exact E_C89_text. Qed.

(** A signed byte as an operand prints as itself, except that -128 panics in debug builds. *)
Theorem C89_text_byte : forall oc n, is_i8 n -> match lasm1_signed oc (rl1_from_i8 n) with Ret t => signed_text t n | Panic => oc = true /\ n = - 128 end.
Proof. exact P_C89_text_byte. Qed.
Print Assumptions C89_text_byte.

Example C89_text_byte_example : is_i8 (-16) /\ lasm1_signed true (rl1_from_i8 (-16)) = Ret "-0x10"%string /\ lasm1_signed true (rl1_from_i8 (-128)) = Panic.
Proof. exact E_C89_text_byte. Qed.
