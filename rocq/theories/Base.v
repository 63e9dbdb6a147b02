(** Base definitions: outcomes, machine arithmetic, bytes, list helpers.
    These model the Rust primitives the code base relies on. *)
From Coq Require Import ZArith List Bool Lia.
Import ListNotations.
Open Scope Z_scope.

(** A Rust computation either returns or panics. *)
Inductive outcome (A : Type) : Type :=
| Ret (a : A)
| Panic.
Arguments Ret {A} a.
Arguments Panic {A}.

Definition obind {A B : Type} (x : outcome A) (f : A -> outcome B) : outcome B :=
  match x with Ret a => f a | Panic => Panic end.

Notation "'do!' p <- e ; k" := (obind e (fun p => k))
  (at level 200, p pattern, e at level 100, k at level 200).

(** Option unwrapping: [Option::unwrap] / [expect]. *)
Definition unwrap {A : Type} (x : option A) : outcome A :=
  match x with Some a => Ret a | None => Panic end.

(** 2^n constants, written as literals so that [lia] sees them. *)
Definition two8  : Z := 256.
Definition two16 : Z := 65536.
Definition two31 : Z := 2147483648.
Definition two32 : Z := 4294967296.
Definition two64 : Z := 18446744073709551616.
Definition two128 : Z := 340282366920938463463374607431768211456.

Definition is_u8  (x : Z) : Prop := 0 <= x < 256.
Definition is_u16 (x : Z) : Prop := 0 <= x < 65536.
Definition is_u32 (x : Z) : Prop := 0 <= x < 4294967296.

(** [as u8], [as u16], [as u32] truncations, [wrapping_*]. *)
Definition u8  (x : Z) : Z := x mod 256.
Definition u16 (x : Z) : Z := x mod 65536.
Definition u32 (x : Z) : Z := x mod 4294967296.

(** Two's complement readings: [as i8], [as i16], [as i32]. *)
Definition i8  (x : Z) : Z := if u8 x <? 128 then u8 x else u8 x - 256.
Definition i16 (x : Z) : Z := if u16 x <? 32768 then u16 x else u16 x - 65536.
Definition i32 (x : Z) : Z := if u32 x <? 2147483648 then u32 x else u32 x - 4294967296.

Definition wrapping_add (a b : Z) : Z := u32 (a + b).
Definition wrapping_sub (a b : Z) : Z := u32 (a - b).
Definition wrapping_mul (a b : Z) : Z := u32 (a * b).

(** Plain [+], [-], [*] on [u32]: they panic on overflow when overflow checks are enabled
    ([oc = true], the default of debug builds) and wrap otherwise (default of release builds).
    /repo/Cargo.toml sets no [overflow-checks], so both profiles exist. *)
Definition add_u32 (oc : bool) (a b : Z) : outcome Z :=
  if a + b <? 4294967296 then Ret (a + b) else if oc then Panic else Ret (u32 (a + b)).
Definition sub_u32 (oc : bool) (a b : Z) : outcome Z :=
  if b <=? a then Ret (a - b) else if oc then Panic else Ret (u32 (a - b)).
Definition mul_u32 (oc : bool) (a b : Z) : outcome Z :=
  if a * b <? 4294967296 then Ret (a * b) else if oc then Panic else Ret (u32 (a * b)).

(** [1 << n] on [u32]: panics when [n >= 32] with overflow checks, else the shift count is
    taken modulo 32. *)
Definition shl1_u32 (oc : bool) (n : Z) : outcome Z :=
  if n <? 32 then Ret (2 ^ n) else if oc then Panic else Ret (2 ^ (n mod 32)).

(** [u32::trailing_zeros]. *)
Fixpoint ctz_fuel (fuel : nat) (x : Z) : Z :=
  match fuel with
  | O => 0
  | S f => if Z.odd x then 0 else 1 + ctz_fuel f (x / 2)
  end.
Definition trailing_zeros (x : Z) : Z := ctz_fuel 32 x.

(** [u32::to_be_bytes], [u32::from_be_bytes], [u16::from_be_bytes], [u64::to_be_bytes],
    [u16::to_be_bytes], [u8::to_be_bytes]. *)
Definition be_bytes32 (w : Z) : list Z :=
  [u8 (w / 16777216); u8 (w / 65536); u8 (w / 256); u8 w].
Definition be_bytes16 (w : Z) : list Z := [u8 (w / 256); u8 w].
Definition be_bytes8 (w : Z) : list Z := [u8 w].
Definition be_bytes64 (w : Z) : list Z :=
  be_bytes32 (w / 4294967296) ++ be_bytes32 (w mod 4294967296).
Definition of_be4 (a b c d : Z) : Z := a * 16777216 + b * 65536 + c * 256 + d.
Definition of_be2 (a b : Z) : Z := a * 256 + b.

(** Indexing of a Rust [Vec]/slice by a machine integer; [None] is out of bounds. *)
Fixpoint znth {A : Type} (l : list A) (i : Z) : option A :=
  match l with
  | [] => None
  | x :: t => if i =? 0 then Some x else znth t (i - 1)
  end.

(** [v[i] = x]; [None] is out of bounds. *)
Fixpoint zset {A : Type} (l : list A) (i : Z) (v : A) : option (list A) :=
  match l with
  | [] => None
  | x :: t => if i =? 0 then Some (v :: t)
              else match zset t (i - 1) v with Some t' => Some (x :: t') | None => None end
  end.

(** [Vec::len] as a machine integer. *)
Definition zlen {A : Type} (l : list A) : Z := Z.of_nat (length l).

(** [0..n] as a list. *)
Definition zrange (n : nat) : list Z := map Z.of_nat (seq 0 n).
