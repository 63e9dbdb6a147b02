(** Specification of assembling and printing back. *)
From Coq Require Import String Ascii ZArith List Bool.
From Verif Require Import Base Mem Asm Tools LasmRules Lasm SpecAsm SpecLasm SpecLabel.
Import ListNotations.
Open Scope string_scope.
Open Scope Z_scope.

(** A source of labels and instructions. *)
Definition only_code (b : body) : Prop := match b with BWord _ | BText _ => False | _ => True end.
(** The four bytes of a word as a word of program. *)
Definition read_word (bs : bytes4) (w : prog_word) : Prop := match decode bs with ROk i => w = PInstr i | RErr _ => w = PRaw bs end.
(** The text of the example's test (examples/disassemble/src/tests.rs:3-31), without its empty first and last lines. *)
Definition expected_lasm : list string :=
  ["zro a0"; "add a0, 0x10"; "shl a0, 0x4"; "shr a0, 0x4"; "sub a0, 0x10"; "div a1, a0, DIV_ZRO_MIN"; "sub a2, ac2"; "cmp a1, 0x0"; "ifeq"; "call 0x44"; "ifle"; "call 0x48";
   "ifleft ZF, EF"; "call 0x50"; "ifxor EF, ZF"; "call 0x58"; "halt"; "ret"; "add a0, a1"; "ret"; "inc a0"; "ret"; "dec a0"; "jp 0x10"; "ret"].
