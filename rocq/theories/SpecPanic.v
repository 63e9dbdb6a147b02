(** Specification of the states in which the next cycle crashes the host: written on the raw instruction word. *)
From Coq Require Import ZArith List Bool.
From Verif Require Import Base Board Mem Cpu Asm SpecMach SpecIsa SpecBus SpecObs.
Import ListNotations.
Open Scope Z_scope.

(** The fields of an instruction word: operation, "operand [k] is a register" bits, operand bytes. *)
Definition word_op (w : Z) : Z := w / 2 ^ 27 mod 32.
Definition word_isreg (w k : Z) : bool := Z.testbit w (26 - k).
Definition word_byte (w k : Z) : Z := w / 2 ^ (8 * (2 - k)) mod 256.

(** The value of operand [k], when it can be read: a register code below 32 that this mode may read, or the literal byte. *)
Definition word_arg {D} (m : cpu D) (w k : Z) : option Z :=
  if word_isreg w k
  then match reg_from_code (word_byte w k) with Some r => reg_value m r | None => None end
  else Some (word_byte w k).

(** The page-table entry looked up for address [a] lies beyond the 32-bit address space. *)
Definition entry_overflows {D} (m : cpu D) (a : Z) : Prop :=
  R m R_mtt <> 0 /\ 2 ^ 32 <= R m R_pda + 4 * (a mod 1024).

(** The address of the memory access made by instruction word [w] (after its fetch), if it makes one. *)
Definition word_address {D} (m : cpu D) (w : Z) : option Z :=
  match word_op w with
  | 20 (* LSA *) =>
      match word_arg m w 1, word_arg m w 2 with Some x, Some y => Some ((x + y) mod 2 ^ 32) | _, _ => None end
  | 24 (* SRM *) =>
      match word_arg m w 0, word_arg m w 1 with Some x, Some y => Some ((x + y) mod 2 ^ 32) | _, _ => None end
  | 22 (* WSA *) =>
      match word_arg m w 0, word_arg m w 1, word_arg m w 2 with
      | Some x, Some y, Some _ => Some ((x + y) mod 2 ^ 32) | _, _, _ => None end
  | 21 (* LEA *) | 23 (* WEA *) =>
      match word_arg m w 0, word_arg m w 1, word_arg m w 2 with
      | Some x, Some y, Some z => Some ((x + y * z) mod 2 ^ 32) | _, _, _ => None end
  | 25 (* PUSH *) | 27 (* CALL *) =>
      match word_arg m w 0 with Some _ => Some ((R m (sp_of m) - 4) mod 2 ^ 32) | None => None end
  | 26 (* POP *) => Some (R m (sp_of m))
  | _ => None
  end.

(** Instruction word [w], executed by [m], makes an unchecked operation overflow: IF2 with a flag number above 7, SRM at an
    address beyond 2^32, or a page-table entry beyond 2^32. (CALL computes [pc + 4] unchecked too, but no component can be
    mapped at the last word of the address space in a debug build.) *)
Definition word_overflows {D} (m : cpu D) (w : Z) : Prop :=
  (word_op w = 19 /\ exists f g c, word_arg m w 0 = Some f /\ word_arg m w 1 = Some g /\ word_arg m w 2 = Some c /\ (7 < f \/ 7 < g)) \/
  (word_op w = 24 /\ exists x y, word_arg m w 0 = Some x /\ word_arg m w 1 = Some y /\ 2 ^ 32 <= x + y) \/
  (exists a, word_address m w = Some a /\ a mod 4 = 0 /\ entry_overflows m a).

(** The next cycle of [m] meets such an overflow, in the fetch or in the fetched instruction. *)
Definition overflows {D} (ops : bus_ops D) (m : cpu D) : Prop :=
  c_halted m = false /\ R m R_pc mod 4 = 0 /\
  (entry_overflows m (R m R_pc) \/
   exists w mem1, loads ops m (c_mem m) (R m R_pc) w mem1 /\ word_overflows m w).

(** The next cycle of [m] looks up a page table at an address that is not a multiple of 4. *)
Definition misaligned_table {D} (m : cpu D) : Prop :=
  c_halted m = false /\ R m R_pc mod 4 = 0 /\ R m R_mtt <> 0 /\ R m R_pda mod 4 <> 0.

(** Every mapping ends below 2^32 (what [map] and [map_contiguous] establish in a debug build). *)
Definition ends_below {D} (m : memory D) : Prop :=
  forall mp, In mp (mm_maps m) -> mp_addr mp + mp_size mp < 2 ^ 32.
