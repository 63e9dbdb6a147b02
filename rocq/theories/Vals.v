(** The constructors of operands and their text (/repo/lrvm_tools/src/asm/val.rs), used by Rust programs that build instructions. *)
From Coq Require Import String ZArith List Bool Lia.
From Verif Require Import Base Mem Asm Tools Lasm.
Import ListNotations.
Open Scope string_scope.
Open Scope Z_scope.

(** reg (val.rs:14-16), lit (val.rs:19-21), signed_lit (val.rs:24-26: the cast keeps the low bits), for RegOrLit1 (u8, i8) and RegOrLit2 (u16, i16). *)
Definition reg1 (r : reg) : rl1 := Reg1 r.
Definition lit1 (n : Z) : rl1 := Lit1 n.
Definition signed_lit1 (n : Z) : rl1 := Lit1 (n mod 2 ^ 8).
Definition reg2 (r : reg) : rl2 := Reg2 r.
Definition lit2 (n : Z) : rl2 := Lit2 n.
Definition signed_lit2 (n : Z) : rl2 := Lit2 (n mod 2 ^ 16).
(** is_lit (val.rs:37-42). *)
Definition is_lit1 (v : rl1) : bool := match v with Reg1 _ => false | Lit1 _ => true end.
Definition is_lit2 (v : rl2) : bool := match v with Reg2 _ => false | Lit2 _ => true end.
(** From<Reg>, From<u8>, From<i8> for RegOrLit1, From<RegOrLit1> for u8 (val.rs:81-103). *)
Definition rl1_from_reg := reg1.
Definition rl1_from_u8 := lit1.
Definition rl1_from_i8 := signed_lit1.
Definition u8_from_rl1 := value1.
(** From<Reg>, From<u16>, From<i16> for RegOrLit2, From<RegOrLit2> for u16 (val.rs:81-103), From<u8> and From<i8> (val.rs:110-120: [lit.into()] keeps the number). *)
Definition rl2_from_reg := reg2.
Definition rl2_from_u16 := lit2.
Definition rl2_from_i16 := signed_lit2.
Definition u16_from_rl2 := value2.
Definition rl2_from_u8 (n : Z) : rl2 := lit2 n.
Definition rl2_from_i8 (n : Z) : rl2 := signed_lit2 n.
(** RegOrLit1::to_lasm_signed (val.rs:62-70): as [lasm2_signed], on 8 bits. *)
Definition lasm1_signed (oc : bool) (v : rl1) : outcome string :=
  match v with
  | Reg1 r => Ret (reg_name r)
  | Lit1 n => if n <? 128 then Ret (fmt_hex n)
              else if n =? 128 then if oc then Panic else Ret ("-" ++ fmt_hex 128)
              else Ret ("-" ++ fmt_hex (256 - n))
  end.
