(** Specification of disassembling and assembling again. *)
From Coq Require Import String Ascii ZArith List Bool Lia.
From Verif Require Import Base Mem Asm Tools LasmRules Lasm SpecAsm.
Import ListNotations.
Open Scope Z_scope.

(** The literal division mode that comes back for mode byte [m] (sign: bit 4; division by zero: bits 3-2; overflow: bits 1-0; other
    bits ignored): only a single sub-mode other than the default ones is accepted, and "maximum" on division by zero comes back as "minimum". *)
Definition mode_back (m : Z) : option Z :=
  match Z.testbit m 4, m / 4 mod 4, m mod 4 with
  | true, 0, 0 => Some 16
  | false, 1, 0 => Some 4
  | false, 2, 0 => Some 8
  | false, 3, 0 => Some 4
  | false, 0, 1 => Some 1
  | false, 0, 2 => Some 2
  | false, 0, 3 => Some 3
  | _, _, _ => None
  end.
(** A register, or the code of a flag (0 to 6) / condition (1 to 7) / hardware information. *)
Definition is_flag (v : rl1) : bool := match v with Reg1 _ => true | Lit1 n => n <=? 6 end.
Definition is_cond (v : rl1) : bool := match v with Reg1 _ => true | Lit1 n => (1 <=? n) && (n <=? 7) end.
Definition is_info (v : rl1) : bool :=
  match v with
  | Reg1 _ => true
  | Lit1 n => (n <=? 2) || ((16 <=? n) && (n <=? 24)) || ((32 <=? n) && (n <=? 37)) || ((160 <=? n) && (n <=? 162))
  end.
(** What comes back when the text of an instruction is assembled: an instruction, or nothing when the text is rejected. *)
Definition reassembled (i : instr) : option instr :=
  match i with
  | Cpy R_pc v => Some (Cpy R_pc v)
  | Cpy a (Lit2 0) | Mul a (Lit2 0) | And a (Lit2 0) => Some (Xor a (Reg2 a))
  | Xor _ (Reg2 b) => Some (Xor b (Reg2 b))
  | Srm a b c => Some (Wea a b (Reg1 c))
  | Itr _ => None
  | Div a b (Lit1 m) => option_map (fun k => Div a b (Lit1 k)) (mode_back m)
  | Mod a b (Lit1 m) => option_map (fun k => Mod a b (Lit1 k)) (mode_back m)
  | If v | IfN v => if is_flag v then Some i else None
  | If2 a b c => if is_flag a && is_flag b && is_cond c then Some i else None
  | Hwd _ _ c => if is_info c then Some i else None
  | _ => Some i
  end.
(** The bytes of an instruction as the CPU wants them: those of [Instr::encode], with the register of a 2-byte operand moved to the first
    byte of this operand, where the CPU reads it. *)
Definition assembled (j : instr) : bytes4 :=
  let '(a, b, c, d) := encode j in
  match j with
  | Cpy _ (Reg2 _) | Add _ (Reg2 _) | Sub _ (Reg2 _) | Mul _ (Reg2 _) | And _ (Reg2 _) | Bor _ (Reg2 _) | Xor _ (Reg2 _) | Cmp _ (Reg2 _) => (a, b, d, c)
  | Jpr (Reg2 _) | Lsm (Reg2 _) | Push (Reg2 _) | Call (Reg2 _) => (a, c, b, d)
  | _ => (a, b, c, d)
  end.
(** Four bytes the CPU runs as instruction [j]: the normal ones. *)
Definition runs_as (bs : bytes4) (j : instr) : Prop := bytes_wf bs /\ decode bs = ROk j /\ bs = assembled j.

(** Names with a meaning in the rules. *)
Definition reserved (s : string) : bool :=
  existsb (fun t => match lookup t s with Some _ => true | None => false end)
    [table_reg; table_arflag; table_div_mode; table_hw_info; table_if2_mode].

(** Word by word. *)
Definition word_back (w : prog_word) (bs : bytes4) : Prop :=
  match w with
  | PRaw r => bs = r
  | PInstr i => exists j, reassembled i = Some j /\ runs_as bs j
  end.
Definition word_wf (w : prog_word) : Prop := match w with PInstr i => instr_wf i | PRaw bs => bytes_wf bs end.
Definition word_rejected (w : prog_word) : Prop := match w with PInstr i => reassembled i = None | PRaw _ => False end.
(** A word that comes back unchanged. *)
Definition faithful (w : prog_word) : Prop := match w with PInstr i => reassembled i = Some i | PRaw _ => True end.

(** The plain way to write an instruction: its documented mnemonic and its operands, without aliases; [None] when the assembler has no text for it
    (SRM, ITR, a division mode with two sub-modes or none, an unknown flag, condition or hardware information). *)
Definition flag_text (v : rl1) : option string :=
  match v with
  | Reg1 r => Some (reg_name r)
  | Lit1 n => nth_error ["ZF"; "CF"; "OF"; "SF"; "EF"; "ZUF"; "ZLF"]%string (Z.to_nat n)
  end.
Definition cond_text (v : rl1) : option string :=
  match v with
  | Reg1 r => Some (reg_name r)
  | Lit1 n => if n =? 0 then None else nth_error ["CMP_OR"; "CMP_AND"; "CMP_XOR"; "CMP_NOR"; "CMP_NAND"; "CMP_LEFT"; "CMP_RIGHT"]%string (Z.to_nat (n - 1))
  end.
Definition mode_text (v : rl1) : option string :=
  match v with
  | Reg1 r => Some (reg_name r)
  | Lit1 n =>
      if n =? 0 then Some "DIV_USG"%string else if n =? 16 then Some "DIV_SIG"%string
      else if n =? 4 then Some "DIV_ZRO_MIN"%string else if n =? 8 then Some "DIV_ZRO_ZRO"%string else if n =? 12 then Some "DIV_ZRO_MAX"%string
      else if n =? 1 then Some "DIV_OFW_MIN"%string else if n =? 2 then Some "DIV_OFW_ZRO"%string else if n =? 3 then Some "DIV_OFW_MAX"%string
      else None
  end.
Definition info_text (v : rl1) : option string :=
  match v with
  | Reg1 r => Some (reg_name r)
  | Lit1 n => option_map hw_info_to_lasm (hw_info_decode n)
  end.
Definition text1 (v : rl1) : option string := Some (lasm1 v).
Definition text2 (v : rl2) : option string := Some (lasm2 v).
Definition textr (r : reg) : option string := Some (reg_name r).
Definition plain (i : instr) : option string :=
  let one m a := option_map (fun a => m ++ " " ++ a)%string a in
  let two m a b := match a, b with Some a, Some b => Some (m ++ " " ++ a ++ ", " ++ b)%string | _, _ => None end in
  let three m a b c := match a, b, c with Some a, Some b, Some c => Some (m ++ " " ++ a ++ ", " ++ b ++ ", " ++ c)%string | _, _, _ => None end in
  match i with
  | Cpy a b => two "cpy" (textr a) (text2 b)
  | Ex a b => two "ex" (textr a) (textr b)
  | Add a b => two "add" (textr a) (text2 b)
  | Sub a b => two "sub" (textr a) (text2 b)
  | Mul a b => two "mul" (textr a) (text2 b)
  | Div a b c => three "div" (textr a) (text1 b) (mode_text c)
  | Mod a b c => three "mod" (textr a) (text1 b) (mode_text c)
  | And a b => two "and" (textr a) (text2 b)
  | Bor a b => two "bor" (textr a) (text2 b)
  | Xor a b => two "xor" (textr a) (text2 b)
  | Shl a b => two "shl" (textr a) (text1 b)
  | Shr a b => two "shr" (textr a) (text1 b)
  | Cmp a b => two "cmp" (textr a) (text2 b)
  | Jpr a => one "jpr" (text2 a)
  | Lsm a => one "lsm" (text2 a)
  | Itr _ => None
  | If a => one "if" (flag_text a)
  | IfN a => one "ifn" (flag_text a)
  | If2 a b c => three "if2" (flag_text a) (flag_text b) (cond_text c)
  | Lsa a b c => three "lsa" (textr a) (text1 b) (text1 c)
  | Lea a b c => three "lea" (text1 a) (text1 b) (text1 c)
  | Wsa a b c => three "wsa" (text1 a) (text1 b) (text1 c)
  | Wea a b c => three "wea" (text1 a) (text1 b) (text1 c)
  | Srm _ _ _ => None
  | Push a => one "push" (text2 a)
  | Pop a => one "pop" (textr a)
  | Call a => one "call" (text2 a)
  | Hwd a b c => three "hwd" (textr a) (text1 b) (info_text c)
  | Cycles a => one "cycles" (textr a)
  | Halt => Some "halt"%string
  | Reset a => one "reset" (text1 a)
  end.
