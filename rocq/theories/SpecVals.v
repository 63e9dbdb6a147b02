(** Specification vocabulary for operand constructors: signed numbers, and the text of an operand. *)
From Coq Require Import String ZArith List Bool Lia.
From Verif Require Import Base Mem Asm Tools Lasm SpecConsole.
Import ListNotations.
Open Scope Z_scope.

(** Rust's i8 and i16. *)
Definition is_i8 (n : Z) : Prop := - 128 <= n <= 127.
Definition is_i16 (n : Z) : Prop := - 32768 <= n <= 32767.
(** [t] is [n], with a minus sign if it is negative, in hexadecimal without leading zeros. *)
Definition shortest (t : string) (n : Z) : Prop :=
  exists d, t = ("0x" ++ d)%string /\ reads 16 d n /\ forall d', reads 16 d' n -> (String.length d <= String.length d')%nat.
Definition signed_text (t : string) (n : Z) : Prop := signed_of shortest t n.
