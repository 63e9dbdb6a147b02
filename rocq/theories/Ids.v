(** Hardware identifiers from names: /repo/lrvm_tools/src/ids/mod.rs, with the standard library's hasher that it uses: DefaultHasher::new is
    SipHash-1-3 with two null keys (library/core/src/hash/sip.rs). *)
From Coq Require Import ZArith List Bool.
From Verif Require Import Base Board.
Import ListNotations.
Open Scope Z_scope.

(** u64: wrapping addition, rotate_left. *)
Definition wadd64 (a b : Z) : Z := (a + b) mod two64.
Definition rotl64 (x n : Z) : Z := Z.lor (Z.shiftl x n mod two64) (Z.shiftr x (64 - n)).

(** core::hash::sip::State. *)
Record sip_state : Type := SipState { sv0 : Z; sv1 : Z; sv2 : Z; sv3 : Z }.
(** The macro [compress!]. *)
Definition sip_compress (s : sip_state) : sip_state :=
  let '(SipState v0 v1 v2 v3) := s in
  let v0 := wadd64 v0 v1 in let v2 := wadd64 v2 v3 in
  let v1 := Z.lxor (rotl64 v1 13) v0 in
  let v3 := Z.lxor (rotl64 v3 16) v2 in
  let v0 := rotl64 v0 32 in
  let v2 := wadd64 v2 v1 in let v0 := wadd64 v0 v3 in
  let v1 := Z.lxor (rotl64 v1 17) v2 in
  let v3 := Z.lxor (rotl64 v3 21) v0 in
  let v2 := rotl64 v2 32 in
  SipState v0 v1 v2 v3.
(** One block: [v3 ^= m; c_rounds; v0 ^= m] (Sip13Rounds::c_rounds is one round). *)
Definition sip_block (s : sip_state) (m : Z) : sip_state :=
  let s := sip_compress (SipState (sv0 s) (sv1 s) (sv2 s) (Z.lxor (sv3 s) m)) in
  SipState (Z.lxor (sv0 s) m) (sv1 s) (sv2 s) (sv3 s).
(** [u8to64_le] and [load_int_le!]: the least significant byte first. *)
Fixpoint le64 (l : list Z) : Z := match l with [] => 0 | b :: t => Z.lor b (Z.shiftl (le64 t) 8) end.

(** core::hash::sip::Hasher (without the keys, which are null). *)
Record sip : Type := Sip { sip_v : sip_state; sip_length : Z; sip_tail : Z; sip_ntail : Z }.
(** Hasher::new_with_keys(0, 0) and reset. *)
Definition sip_new : sip := Sip (SipState 8317987319222330741 7237128888997146477 7816392313619706465 8387220255154660723) 0 0 0.
(** The loop of Hasher::write over whole blocks; what remains is shorter than a block. *)
Fixpoint sip_blocks (v : sip_state) (msg : list Z) : sip_state * list Z :=
  match msg with
  | b0 :: b1 :: b2 :: b3 :: b4 :: b5 :: b6 :: b7 :: t => sip_blocks (sip_block v (le64 [b0; b1; b2; b3; b4; b5; b6; b7])) t
  | _ => (v, msg)
  end.
Definition sip_rest (len : Z) (v : sip_state) (msg : list Z) : sip :=
  let '(v, tail) := sip_blocks v msg in Sip v len (le64 tail) (zlen tail).
(** Hasher::write. *)
Definition sip_write (h : sip) (msg : list Z) : sip :=
  let len := (sip_length h + zlen msg) mod two64 in
  if sip_ntail h =? 0 then sip_rest len (sip_v h) msg
  else
    let needed := 8 - sip_ntail h in
    let tail := Z.lor (sip_tail h) (Z.shiftl (le64 (firstn (Z.to_nat needed) msg)) (8 * sip_ntail h) mod two64) in
    if zlen msg <? needed then Sip (sip_v h) len tail (sip_ntail h + zlen msg)
    else sip_rest len (sip_block (sip_v h) tail) (skipn (Z.to_nat needed) msg).
(** Hasher::finish (Sip13Rounds::d_rounds is three rounds). *)
Definition sip_finish (h : sip) : Z :=
  let b := Z.lor (Z.shiftl (Z.land (sip_length h) 255) 56) (sip_tail h) in
  let s := sip_block (sip_v h) b in
  let s := sip_compress (sip_compress (sip_compress (SipState (sv0 s) (sv1 s) (Z.lxor (sv2 s) 255) (sv3 s)))) in
  Z.lxor (Z.lxor (Z.lxor (sv0 s) (sv1 s)) (sv2 s)) (sv3 s).

(** gen_aux_id (ids/mod.rs:3-7): [Hash for str] writes the bytes of the text, then 0xFF. *)
Definition gen_aux_id (name : list Z) : Z := sip_finish (sip_write (sip_write sip_new (utf8 name)) [255]).
