(** SipHash-1-3 with null keys, as defined by its authors (Aumasson and Bernstein, "SipHash: a fast short-input PRF"): specification vocabulary. *)
From Coq Require Import ZArith List.
Import ListNotations.
Open Scope Z_scope.

(** 64-bit words: addition, exclusive or, rotation to the left. *)
Definition add (a b : Z) : Z := (a + b) mod 2 ^ 64.
Definition rot (n x : Z) : Z := x * 2 ^ n mod 2 ^ 64 + x / 2 ^ (64 - n).
(** A round on the state (v0, v1, v2, v3), in the order of figure 2.1. *)
Definition round (s : Z * Z * Z * Z) : Z * Z * Z * Z :=
  let '(v0, v1, v2, v3) := s in
  let v0 := add v0 v1 in let v1 := rot 13 v1 in let v1 := Z.lxor v1 v0 in let v0 := rot 32 v0 in
  let v2 := add v2 v3 in let v3 := rot 16 v3 in let v3 := Z.lxor v3 v2 in
  let v0 := add v0 v3 in let v3 := rot 21 v3 in let v3 := Z.lxor v3 v0 in
  let v2 := add v2 v1 in let v1 := rot 17 v1 in let v1 := Z.lxor v1 v2 in let v2 := rot 32 v2 in
  (v0, v1, v2, v3).
(** The message as words: its bytes, zeros, and its length modulo 256 as last byte; the least significant byte first. *)
Definition padded (l : list Z) : list Z := l ++ repeat 0 (7 - length l mod 8) ++ [Z.of_nat (length l) mod 256].
Definition word_le (l : list Z) (i : nat) : Z :=
  let b k := nth (8 * i + k) l 0 in
  b 0%nat + b 1%nat * 2 ^ 8 + b 2%nat * 2 ^ 16 + b 3%nat * 2 ^ 24 + b 4%nat * 2 ^ 32 + b 5%nat * 2 ^ 40 + b 6%nat * 2 ^ 48 + b 7%nat * 2 ^ 56.
Definition message_words (l : list Z) : list Z := map (word_le (padded l)) (seq 0 (length l / 8 + 1)).
(** A word of the message: one round between two exclusive ors. *)
Definition absorb (s : Z * Z * Z * Z) (m : Z) : Z * Z * Z * Z :=
  let '(v0, v1, v2, v3) := s in let '(v0, v1, v2, v3) := round (v0, v1, v2, Z.lxor v3 m) in (Z.lxor v0 m, v1, v2, v3).
(** "somepseudorandomlygeneratedbytes", and three rounds at the end. *)
Definition initial : Z * Z * Z * Z := (0x736f6d6570736575, 0x646f72616e646f6d, 0x6c7967656e657261, 0x7465646279746573).
Definition siphash13 (l : list Z) : Z :=
  let '(v0, v1, v2, v3) := fold_left absorb (message_words l) initial in
  let '(v0, v1, v2, v3) := round (round (round (v0, v1, Z.lxor v2 255, v3))) in
  Z.lxor (Z.lxor v0 v1) (Z.lxor v2 v3).
