(** Specifications about the assembler: instruction format, programs. *)
From Coq Require Import String ZArith List Bool Lia.
From Verif Require Import Base Mem Asm.
Import ListNotations.
Open Scope Z_scope.

(** Operands are machine integers of the width their Rust type says. *)
Definition rl1_wf (v : rl1) : Prop := match v with Reg1 _ => True | Lit1 n => is_u8 n end.
Definition rl2_wf (v : rl2) : Prop := match v with Reg2 _ => True | Lit2 n => is_u16 n end.
Definition instr_wf (i : instr) : Prop :=
  match i with
  | Cpy _ v | Add _ v | Sub _ v | Mul _ v | And _ v | Bor _ v | Xor _ v | Cmp _ v | Jpr v | Lsm v | Push v | Call v => rl2_wf v
  | Shl _ v | Shr _ v | Itr v | If v | IfN v | Reset v => rl1_wf v
  | Div _ v w | Mod _ v w | Lsa _ v w | Hwd _ v w | Srm v w _ => rl1_wf v /\ rl1_wf w
  | If2 u v w | Lea u v w | Wsa u v w | Wea u v w => rl1_wf u /\ rl1_wf v /\ rl1_wf w
  | Ex _ _ | Pop _ | Cycles _ | Halt => True
  end.
Definition bytes_wf (bs : bytes4) : Prop := let '(a, b, c, d) := bs in is_u8 a /\ is_u8 b /\ is_u8 c /\ is_u8 d.

(** The register an instruction has as 2-byte operand, if any. *)
Definition wide_reg (i : instr) : option reg :=
  match i with
  | Cpy _ v | Add _ v | Sub _ v | Mul _ v | And _ v | Bor _ v | Xor _ v | Cmp _ v | Jpr v | Lsm v | Push v | Call v =>
      match v with Reg2 r => Some r | Lit2 _ => None end
  | _ => None
  end.
(** The same instruction with [r] there. *)
Definition with_wide_reg (i : instr) (r : reg) : instr :=
  let f v := match v with Reg2 _ => Reg2 r | Lit2 n => Lit2 n end in
  match i with
  | Cpy d v => Cpy d (f v) | Add d v => Add d (f v) | Sub d v => Sub d (f v) | Mul d v => Mul d (f v)
  | And d v => And d (f v) | Bor d v => Bor d (f v) | Xor d v => Xor d (f v) | Cmp d v => Cmp d (f v)
  | Jpr v => Jpr (f v) | Lsm v => Lsm (f v) | Push v => Push (f v) | Call v => Call (f v)
  | _ => i
  end.

(** The documented operand kinds of each opcode (ISA.md): register, register or one-byte literal, register or two-byte literal. *)
Inductive kind : Type := KReg | KReg1 | KReg2.
Definition format (opcode : Z) : option (list kind) :=
  match opcode with
  | 1 | 3 | 4 | 5 | 8 | 9 | 10 | 13 => Some [KReg; KReg2]
  | 2 => Some [KReg; KReg]
  | 6 | 7 | 20 | 28 => Some [KReg; KReg1; KReg1]
  | 11 | 12 => Some [KReg; KReg1]
  | 14 | 15 | 25 | 27 => Some [KReg2]
  | 16 | 17 | 18 | 31 => Some [KReg1]
  | 19 | 21 | 22 | 23 => Some [KReg1; KReg1; KReg1]
  | 24 => Some [KReg1; KReg1; KReg]
  | 26 | 29 => Some [KReg]
  | 30 => Some []
  | _ => None
  end.
(** Bytes of an instruction word: opcode (upper five bits of the first byte), register flags (its lower three bits, the first
    operand's is the strongest), operand bytes. *)
Definition opcode_of (bs : bytes4) : Z := byte_at bs 0 / 8.
Definition reg_flag (bs : bytes4) (operand : nat) : bool := Z.testbit (byte_at bs 0) (2 - Z.of_nat operand).
Definition operand_byte (bs : bytes4) (operand : nat) : Z := byte_at bs (Z.of_nat operand + 1).
(** Operand number [k] of the word (from 0) designates a register, by its first byte. *)
Definition reg_operand (bs : bytes4) (k : nat) : Prop :=
  exists ks, format (opcode_of bs) = Some ks /\
    match nth_error ks k with Some KReg => True | Some _ => reg_flag bs k = true | None => False end.
(** Operand [k] designates a register that does not exist. *)
Definition bad_operand (bs : bytes4) (k : nat) : Prop := reg_operand bs k /\ 32 <= operand_byte bs k.

(** A canonical word: flags are set for register-only operands, bits and bytes of no operand are zero, and no register is a
    2-byte operand. *)
Definition canonical (bs : bytes4) : Prop :=
  exists ks, format (opcode_of bs) = Some ks /\
  (forall k, (k < 3)%nat ->
    match nth_error ks k with
    | Some KReg => reg_flag bs k = true
    | Some KReg1 => True
    | Some KReg2 => reg_flag bs k = false
    | None => reg_flag bs k = false /\ (operand_byte bs k = 0 \/ (exists j, k = S j /\ nth_error ks j = Some KReg2))
    end).

(** A program word that decoding can give back: an instruction without 2-byte register operand (a0 excepted), or raw bytes that
    are no instruction. *)
Definition stable_word (p : prog_word) : Prop :=
  match p with
  | PInstr i => instr_wf i /\ (wide_reg i = None \/ wide_reg i = Some R_a0)
  | PRaw bs => bytes_wf bs /\ exists e, decode bs = RErr e
  end.
(** Groups of four bytes. *)
Fixpoint quads (l : list Z) : list bytes4 :=
  match l with a :: b :: c :: d :: t => (a, b, c, d) :: quads t | _ => [] end.

(** Data of a native exception fit in the byte or half-word its Rust type has. *)
From Verif Require Import Board Tools.
Definition aux_wf (e : aux_exception) : Prop := match e with UnknownOperation op => is_u8 op | _ => True end.
Definition native_wf (e : native_exception) : Prop :=
  match e with
  | NUnknownOpCode c | NUnknownRegister c | NReadProtectedRegister c | NWriteProtectedRegister c | NUnalignedMemoryAddress c
  | NSupervisorReservedInstruction c | NInvalidCondFlag c | NInvalidCondMode c | NUnknownHardwareInformationCode c | NInterruption c => is_u8 c
  | NMmuRefusedRead a | NMmuRefusedWrite a | NMmuRefusedExec a | NUnknownComponentId a | NComponentNotMapped a => is_u16 a
  | NHardwareException e => aux_wf e
  | NDivisionOrModByZero | NOverflowingDivOrMod => True
  end.
Definition category_wf (c : category) : Prop := match c with CatPlatform n => is_u32 n | _ => True end.
Definition opt_wf (P : Z -> Prop) (o : option Z) : Prop := match o with Some v => P v | None => True end.
Definition is_u64 (x : Z) : Prop := 0 <= x < 18446744073709551616.
Definition metadata_wf (md : metadata) : Prop :=
  is_u64 (md_hw_id md) /\ is_u32 (md_size md) /\ category_wf (md_category md) /\ opt_wf is_u32 (md_model md) /\ opt_wf is_u64 (md_data md).
(** A big-endian word. *)
Definition word_be (a b c d : Z) : Z := a * 2 ^ 24 + b * 2 ^ 16 + c * 2 ^ 8 + d.
(** The words of complete groups of four bytes. *)
Fixpoint words_be (l : list Z) : list Z := match l with a :: b :: c :: d :: t => word_be a b c d :: words_be t | _ => [] end.
(** The documented exception codes (native exceptions, hardware exceptions) and the width of the data of each native exception. *)
Definition native_codes : list Z := [1; 2; 3; 4; 5; 6; 7; 8; 9; 10; 11; 12; 13; 16; 17; 18; 160; 240].
Definition aux_codes : list Z := [0; 1; 2; 16; 17; 32; 33; 48; 49].
Definition data_bits (code : Z) : Z :=
  match code with 6 | 7 | 8 | 16 | 18 | 160 => 16 | 10 | 11 => 0 | _ => 8 end.
(** The modes of a division, and the bits of the mode byte: sign 0b10000, by-zero 0b01100, overflow 0b00011. *)
Definition no_zero_max (m : div_mode) : Prop := dm_zero m <> ZEqToMax.
(** The eight metadata words documented for components. *)
Definition metadata_words (md : metadata) : words8 :=
  W8 (md_hw_id md / 2 ^ 32) (md_hw_id md mod 2 ^ 32) (md_size md) (category_code (md_category md)) (type_code (md_category md))
     (match md_model md with Some v => v | None => 0 end)
     (match md_data md with Some v => v / 2 ^ 32 | None => 0 end) (match md_data md with Some v => v mod 2 ^ 32 | None => 0 end).
