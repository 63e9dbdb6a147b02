(** Specification of the aliases and short forms of the assembly language (docs/Architecture.md:597-666 for the aliases, 400-426 and 507-540
    for the default operands; customasm.def:128-129, 135-136, 184-185, 195-200, 210-213, 223-228, 256-300 for the rules). *)
From Coq Require Import String Ascii ZArith List Bool Lia.
From Verif Require Import Base Mem Asm Tools LasmRules Lasm SpecAsm SpecLasm SpecExt.
Import ListNotations.
Open Scope Z_scope.

Inductive short : Type :=
| SZro (r : reg) | SNot (r : reg) | SInc (r : reg) | SDec (r : reg)
| SIfeq | SIfnq | SIfgt | SIfge | SIfls | SIfle
| SIf (c : if2_cond) (a b : rl1)            (* IFOR, IFAND, ... a, b *)
| SJp (v : rl2) | SRet
| SDiv (d : reg) (v : rl1) | SMod (d : reg) (v : rl1)     (* no mode *)
| SLsa (d : reg) (v : rl1)                                (* no offset *)
| SLea (v : rl1) | SLeaAdd (v add : rl1)                  (* neither offset nor factor; no factor *)
| SWea (v : rl1) | SWeaAdd (v add : rl1)
| SWsa (v val : rl1).                                     (* no offset *)

(** Its operands fit their places. *)
Definition short_wf (s : short) : Prop :=
  match s with
  | SIf _ a b | SLeaAdd a b | SWeaAdd a b | SWsa a b => rl1_wf a /\ rl1_wf b
  | SJp v => rl2_wf v
  | SDiv _ v | SMod _ v | SLsa _ v | SLea v | SWea v => rl1_wf v
  | _ => True
  end.
Definition if_name (c : if2_cond) : string :=
  match c with
  | COr => "ifor" | CAnd => "ifand" | CXor => "ifxor" | CNor => "ifnor" | CNand => "ifnand" | CLeft => "ifleft" | CRight => "ifright"
  end%string.
(** How it is written; [None] when an operand has no name (an unknown flag). *)
Definition short_text (s : short) : option string :=
  let one m a := option_map (fun a => m ++ " " ++ a)%string a in
  let two m a b := match a, b with Some a, Some b => Some (m ++ " " ++ a ++ ", " ++ b)%string | _, _ => None end in
  match s with
  | SZro r => one "zro" (textr r) | SNot r => one "not" (textr r) | SInc r => one "inc" (textr r) | SDec r => one "dec" (textr r)
  | SIfeq => Some "ifeq" | SIfnq => Some "ifnq" | SIfgt => Some "ifgt" | SIfge => Some "ifge" | SIfls => Some "ifls" | SIfle => Some "ifle"
  | SIf c a b => two (if_name c) (flag_text a) (flag_text b)
  | SJp v => one "jp" (text2 v) | SRet => Some "ret"
  | SDiv d v => two "div" (textr d) (text1 v) | SMod d v => two "mod" (textr d) (text1 v)
  | SLsa d v => two "lsa" (textr d) (text1 v)
  | SLea v => one "lea" (text1 v) | SLeaAdd v a => two "lea" (text1 v) (text1 a)
  | SWea v => one "wea" (text1 v) | SWeaAdd v a => two "wea" (text1 v) (text1 a)
  | SWsa v w => two "wsa" (text1 v) (text1 w)
  end%string.
(** What the documentation says it stands for; [None]: NOT is not documented. *)
Definition documented (s : short) : option instr :=
  match s with
  | SZro r => Some (Xor r (Reg2 r))
  | SNot _ => None
  | SInc r => Some (Add r (Lit2 1))
  | SDec r => Some (Sub r (Lit2 1))
  | SIfeq => Some (If (Lit1 0)) | SIfnq => Some (IfN (Lit1 0))
  | SIfgt => Some (If2 (Lit1 0) (Lit1 1) (Lit1 4)) | SIfge => Some (IfN (Lit1 1))
  | SIfls => Some (If (Lit1 1)) | SIfle => Some (If2 (Lit1 0) (Lit1 1) (Lit1 1))
  | SIf c a b => Some (If2 a b (Lit1 (match c with COr => 1 | CAnd => 2 | CXor => 3 | CNor => 4 | CNand => 5 | CLeft => 6 | CRight => 7 end)))
  | SJp v => Some (Cpy R_pc v)
  | SRet => Some (Pop R_pc)
  | SDiv d v => Some (Div d v (Lit1 0))
  | SMod d v => Some (Mod d v (Lit1 0))
  | SLsa d v => Some (Lsa d v (Lit1 0))
  | SLea v => Some (Lea v (Lit1 0) (Lit1 1))
  | SLeaAdd v a => Some (Lea v a (Lit1 1))
  | SWea v => Some (Wea v (Lit1 0) (Lit1 1))
  | SWeaAdd v a => Some (Wea v a (Lit1 1))
  | SWsa v w => Some (Wsa v (Lit1 0) w)
  end.
(** What it really becomes: NOT is ZRO; the missing mode of a division is taken from register a0; the missing factor is 0. *)
Definition becomes (s : short) : instr :=
  match s with
  | SNot r => Xor r (Reg2 r)
  | SDiv d v => Div d v (Reg1 R_a0)
  | SMod d v => Mod d v (Reg1 R_a0)
  | SLea v => Lea v (Reg1 R_a0) (Lit1 0)
  | SLeaAdd v a => Lea v a (Lit1 0)
  | SWea v => Wea v (Reg1 R_a0) (Lit1 0)
  | SWeaAdd v a => Wea v a (Lit1 0)
  | _ => match documented s with Some i => i | None => Halt end
  end.
(** The short forms that become what the documentation says. *)
Definition sound_short (s : short) : bool :=
  match s with SNot _ | SDiv _ _ | SMod _ _ | SLea _ | SLeaAdd _ _ | SWea _ | SWeaAdd _ _ => false | _ => true end.
