(** UTF-8 (Unicode standard, table 3-6), as a decoder: how a program reading a component's name finds its characters. *)
From Coq Require Import ZArith List Bool Lia.
From Verif Require Import Base Board Mem Cpu Asm SpecMach SpecIsa SpecBus.
Import ListNotations.
Open Scope Z_scope.

(** A continuation byte, 10xxxxxx. *)
Definition continues (b : Z) : bool := (128 <=? b) && (b <=? 191).
(** The characters of a string of bytes: 0xxxxxxx; 110xxxxx 10xxxxxx; 1110xxxx and two; 11110xxx and three. *)
Fixpoint characters (l : list Z) : option (list Z) :=
  match l with
  | [] => Some []
  | a :: t =>
      if (0 <=? a) && (a <=? 127) then option_map (cons a) (characters t)
      else if (192 <=? a) && (a <=? 223) then
        match t with
        | b :: t => if continues b then option_map (cons ((a - 192) * 64 + (b - 128))) (characters t) else None
        | _ => None
        end
      else if (224 <=? a) && (a <=? 239) then
        match t with
        | b :: c :: t => if continues b && continues c then option_map (cons ((a - 224) * 4096 + (b - 128) * 64 + (c - 128))) (characters t) else None
        | _ => None
        end
      else if (240 <=? a) && (a <=? 247) then
        match t with
        | b :: c :: d :: t =>
            if continues b && continues c && continues d
            then option_map (cons ((a - 240) * 262144 + (b - 128) * 4096 + (c - 128) * 64 + (d - 128))) (characters t) else None
        | _ => None
        end
      else None
  end.
(** The four bytes of a word, from the strongest. *)
Definition bytes_in (w : Z) : list Z := [w / 16777216 mod 256; w / 65536 mod 256; w / 256 mod 256; w mod 256].
