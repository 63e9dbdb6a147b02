(** Properties proved in ProofAlu.v: statements only. Generated by tools/gen_props.py. *)
From Coq Require Import ZArith List Bool Lia.
From Verif Require Import Base Board Mem Cpu Asm Tools Devices DevTyped SpecMach SpecIsa SpecBus SpecObs SpecMap BaseFacts RegFacts MemFacts
  AluFacts IsaFacts IsaStep MonoFacts CycleFacts UndFacts HoareFacts CyclePost InvFacts ReachFacts ExecFacts Demo.
From Verif Require Import ProofAlu.
Import ListNotations.
Open Scope Z_scope.

(** ADD leaves the sum modulo 2^32, CF iff the unsigned sum and OF iff the signed sum does not fit. *)
Theorem C07_add : forall D (ops : bus_ops D) oc m d v mem1 m' x y,
  typed ops -> wf m -> executes ops oc m (Add d v) mem1 m' ->
  reg_value m d = Some x -> operand2 m v = Some y -> can_write (sup_mode m) d = true ->
  computes m m' mem1 d ((x + y) mod 2 ^ 32) (2 ^ 32 <= x + y) (~ (- 2 ^ 31 <= signed x + signed y < 2 ^ 31)).
Proof. exact P_C07_add. Qed.
Print Assumptions C07_add.

Example C07_add_example : demo_case (asm [Sub R_a0 (Lit2 1); Add R_a0 (Lit2 7)]) 1 (fun m i mem1 m' =>
  i = Add R_a0 (Lit2 7) /\ reg_value m R_a0 = Some 4294967295 /\ operand2 m (Lit2 7) = Some 7 /\
  can_write (sup_mode m) R_a0 = true /\ R m' R_a0 = 6 /\ flag m' 6 = true /\ flag m' 5 = false).
Proof. exact E_C07_add. Qed.

(** SUB leaves the difference modulo 2^32, CF iff a borrow is needed, OF iff the signed difference does not fit. *)
Theorem C07_sub : forall D (ops : bus_ops D) oc m d v mem1 m' x y,
  typed ops -> wf m -> executes ops oc m (Sub d v) mem1 m' ->
  reg_value m d = Some x -> operand2 m v = Some y -> can_write (sup_mode m) d = true ->
  computes m m' mem1 d ((x - y) mod 2 ^ 32) (x - y < 0) (~ (- 2 ^ 31 <= signed x - signed y < 2 ^ 31)).
Proof. exact P_C07_sub. Qed.
Print Assumptions C07_sub.

Example C07_sub_example : demo_case (asm [Cpy R_a0 (Lit2 5); Sub R_a0 (Lit2 7)]) 1 (fun m i mem1 m' =>
  i = Sub R_a0 (Lit2 7) /\ reg_value m R_a0 = Some 5 /\ operand2 m (Lit2 7) = Some 7 /\
  can_write (sup_mode m) R_a0 = true /\ R m' R_a0 = 4294967294 /\ flag m' 6 = true).
Proof. exact E_C07_sub. Qed.

(** MUL leaves the product modulo 2^32; CF and OF iff the signed product does not fit. *)
Theorem C07_mul : forall D (ops : bus_ops D) oc m d v mem1 m' x y,
  typed ops -> wf m -> executes ops oc m (Mul d v) mem1 m' ->
  reg_value m d = Some x -> operand2 m v = Some y -> can_write (sup_mode m) d = true ->
  computes m m' mem1 d ((x * y) mod 2 ^ 32) (~ (- 2 ^ 31 <= signed x * signed y < 2 ^ 31))
    (~ (- 2 ^ 31 <= signed x * signed y < 2 ^ 31)).
Proof. exact P_C07_mul. Qed.
Print Assumptions C07_mul.

Example C07_mul_example : demo_case (asm [Cpy R_a0 (Lit2 65535); Mul R_a0 (Lit2 65535)]) 1 (fun m i mem1 m' =>
  i = Mul R_a0 (Lit2 65535) /\ reg_value m R_a0 = Some 65535 /\ operand2 m (Lit2 65535) = Some 65535 /\
  can_write (sup_mode m) R_a0 = true /\ R m' R_a0 = 4294836225 /\ flag m' 6 = true /\ flag m' 5 = true).
Proof. exact E_C07_mul. Qed.

(** AND, BOR and XOR compute each bit of the result from the bits of the operands; CF and OF are cleared. *)
Theorem C08_bitwise : forall D (ops : bus_ops D) oc m i d v mem1 m' x y,
  typed ops -> wf m -> executes ops oc m i mem1 m' -> In i [And d v; Bor d v; Xor d v] ->
  reg_value m d = Some x -> operand2 m v = Some y -> can_write (sup_mode m) d = true ->
  exists r, computes m m' mem1 d r False False /\
    forall n, Z.testbit r n = match i with
                              | And _ _ => Z.testbit x n && Z.testbit y n
                              | Bor _ _ => Z.testbit x n || Z.testbit y n
                              | _ => xorb (Z.testbit x n) (Z.testbit y n)
                              end.
Proof. exact P_C08_bitwise. Qed.
Print Assumptions C08_bitwise.

Example C08_bitwise_example : demo_case (asm [Cpy R_a0 (Lit2 12); Xor R_a0 (Lit2 10)]) 1 (fun m i mem1 m' =>
  i = Xor R_a0 (Lit2 10) /\ reg_value m R_a0 = Some 12 /\ operand2 m (Lit2 10) = Some 10 /\
  can_write (sup_mode m) R_a0 = true /\ R m' R_a0 = 6).
Proof. exact E_C08_bitwise. Qed.

(** SHL and SHR shift by the count modulo 32; CF and OF tell that the count is 32 or more. The literal count is
    the single byte of the instruction. *)
Theorem C08_shl : forall D (ops : bus_ops D) oc m d v mem1 m' x y,
  typed ops -> wf m -> executes ops oc m (Shl d v) mem1 m' ->
  reg_value m d = Some x -> operand1 m v = Some y -> can_write (sup_mode m) d = true ->
  computes m m' mem1 d ((x * 2 ^ (y mod 32)) mod 2 ^ 32) (32 <= y) (32 <= y).
Proof. exact P_C08_shl. Qed.
Print Assumptions C08_shl.

Example C08_shl_example : demo_case (asm [Cpy R_a0 (Lit2 12); Shl R_a0 (Lit1 34)]) 1 (fun m i mem1 m' =>
  i = Shl R_a0 (Lit1 34) /\ reg_value m R_a0 = Some 12 /\ operand1 m (Lit1 34) = Some 34 /\
  can_write (sup_mode m) R_a0 = true /\ R m' R_a0 = 48 /\ flag m' 6 = true).
Proof. exact E_C08_shl. Qed.

(** SHR: the register shifted right, the amount taken modulo 32; an amount of 32 or more sets both the carry and the overflow flags. *)
Theorem C08_shr : forall D (ops : bus_ops D) oc m d v mem1 m' x y,
  typed ops -> wf m -> executes ops oc m (Shr d v) mem1 m' ->
  reg_value m d = Some x -> operand1 m v = Some y -> can_write (sup_mode m) d = true ->
  computes m m' mem1 d (x / 2 ^ (y mod 32)) (32 <= y) (32 <= y).
Proof. exact P_C08_shr. Qed.
Print Assumptions C08_shr.

Example C08_shr_example : demo_case (asm [Cpy R_a0 (Lit2 12); Shr R_a0 (Lit1 3)]) 1 (fun m i mem1 m' =>
  i = Shr R_a0 (Lit1 3) /\ reg_value m R_a0 = Some 12 /\ operand1 m (Lit1 3) = Some 3 /\
  can_write (sup_mode m) R_a0 = true /\ R m' R_a0 = 1 /\ flag m' 6 = false).
Proof. exact E_C08_shr. Qed.

(** Unsigned division and modulus by a non-zero value. *)
Theorem C09_unsigned : forall D (ops : bus_ops D) oc m i d v md is_div mem1 m' x y mode,
  typed ops -> wf m -> div_or_mod i d v md is_div -> executes ops oc m i mem1 m' ->
  reg_value m d = Some x -> operand1 m v = Some y -> operand1 m md = Some mode -> can_write (sup_mode m) d = true ->
  Z.testbit mode 4 = false -> y <> 0 ->
  computes m m' mem1 d (if is_div then x / y else x mod y) False False.
Proof. exact P_C09_unsigned. Qed.
Print Assumptions C09_unsigned.

Example C09_unsigned_example : demo_case (asm [Cpy R_a0 (Lit2 17); Mod R_a0 (Lit1 5) (Lit1 0)]) 1 (fun m i mem1 m' =>
  div_or_mod i R_a0 (Lit1 5) (Lit1 0) false /\ reg_value m R_a0 = Some 17 /\
  can_write (sup_mode m) R_a0 = true /\ R m' R_a0 = 2).
Proof. exact E_C09_unsigned. Qed.

(** Signed division and modulus truncate towards zero (the remainder has the sign of the dividend). *)
Theorem C09_signed : forall D (ops : bus_ops D) oc m i d v md is_div mem1 m' x y mode,
  typed ops -> wf m -> div_or_mod i d v md is_div -> executes ops oc m i mem1 m' ->
  reg_value m d = Some x -> operand1 m v = Some y -> operand1 m md = Some mode -> can_write (sup_mode m) d = true ->
  Z.testbit mode 4 = true -> y <> 0 -> ~ (signed x = - 2 ^ 31 /\ signed y = -1) ->
  exists q r, computes m m' mem1 d ((if is_div then q else r) mod 2 ^ 32) False False /\
    signed x = signed y * q + r /\ Z.abs r < Z.abs (signed y) /\ 0 <= r * signed x.
Proof. exact P_C09_signed. Qed.
Print Assumptions C09_signed.

Example C09_signed_example : demo_case (asm [Sub R_a0 (Lit2 17); Div R_a0 (Lit1 5) (Lit1 16)]) 1 (fun m i mem1 m' =>
  div_or_mod i R_a0 (Lit1 5) (Lit1 16) true /\ reg_value m R_a0 = Some 4294967279 /\ Z.testbit 16 4 = true /\
  can_write (sup_mode m) R_a0 = true /\ signed (R m' R_a0) = -3).
Proof. exact E_C09_signed. Qed.

(** Division by zero: bits 3 and 2 of the mode select exception 0x0A, minimum, zero or maximum. *)
Theorem C09_zero_forbidden : forall D (ops : bus_ops D) oc m i d v md is_div mem1 m' x mode,
  typed ops -> wf m -> div_or_mod i d v md is_div -> executes ops oc m i mem1 m' ->
  reg_value m d = Some x -> operand1 m v = Some 0 -> operand1 m md = Some mode ->
  (mode / 4) mod 4 = 0 -> raised m m' mem1 10 0.
Proof. exact P_C09_zero_forbidden. Qed.
Print Assumptions C09_zero_forbidden.

Example C09_zero_forbidden_example : demo_case (asm [Cpy R_a0 (Lit2 17); Div R_a0 (Lit1 0) (Lit1 0)]) 1 (fun m i mem1 m' =>
  div_or_mod i R_a0 (Lit1 0) (Lit1 0) true /\ reg_value m R_a0 = Some 17 /\ R m' R_a0 = 17 /\ R m' R_et = 16777216 + 655360).
Proof. exact E_C09_zero_forbidden. Qed.

(** Division or remainder by zero, mode not 'forbidden': the result is the value the mode asks for (least, zero or greatest signed number), with the carry and overflow flags set. *)
Theorem C09_zero_value : forall D (ops : bus_ops D) oc m i d v md is_div mem1 m' x mode,
  typed ops -> wf m -> div_or_mod i d v md is_div -> executes ops oc m i mem1 m' ->
  reg_value m d = Some x -> operand1 m v = Some 0 -> operand1 m md = Some mode -> can_write (sup_mode m) d = true ->
  (mode / 4) mod 4 <> 0 ->
  computes m m' mem1 d (if (mode / 4) mod 4 =? 1 then 2 ^ 31 (* minimum *)
                        else if (mode / 4) mod 4 =? 2 then 0
                        else 2 ^ 31 - 1 (* maximum *)) True True.
Proof. exact P_C09_zero_value. Qed.
Print Assumptions C09_zero_value.

Example C09_zero_value_example : demo_case (asm [Cpy R_a0 (Lit2 17); Div R_a0 (Lit1 0) (Lit1 4)]) 1 (fun m i mem1 m' =>
  div_or_mod i R_a0 (Lit1 0) (Lit1 4) true /\ reg_value m R_a0 = Some 17 /\ R m' R_a0 = 2 ^ 31).
Proof. exact E_C09_zero_value. Qed.

(** The overflowing division raises 0x0B whatever the mode says. *)
Theorem C10_always_faults : forall D (ops : bus_ops D) oc m i d v md is_div mem1 m' x y mode,
  typed ops -> wf m -> div_or_mod i d v md is_div -> executes ops oc m i mem1 m' ->
  reg_value m d = Some x -> operand1 m v = Some y -> operand1 m md = Some mode ->
  Z.testbit mode 4 = true -> signed x = - 2 ^ 31 -> signed y = -1 -> raised m m' mem1 11 0.
Proof. exact P_C10_always_faults. Qed.
Print Assumptions C10_always_faults.

Example C10_always_faults_example : demo_case p_min 3 (fun m i mem1 m' =>
  div_or_mod i R_a0 (Reg1 R_a1) (Lit1 17) true /\ reg_value m R_a0 = Some (2 ^ 31) /\
  operand1 m (Reg1 R_a1) = Some 4294967295 /\ signed (2 ^ 31) = - 2 ^ 31 /\ signed 4294967295 = -1 /\
  can_write (sup_mode m) R_a0 = true /\ R m' R_pc = 0 /\ R m R_pc = 12).
Proof. exact E_C10_always_faults. Qed.

(** Every arithmetic instruction on accessible operands either raises 0x0A or 0x0B, or writes a result described by
    ZF, SF, EF and ZUF; ZLF is bit 16 of the result (not: the low half is zero). *)
Theorem C11_flags : forall D (ops : bus_ops D) oc m i d x mem1 m',
  typed ops -> wf m -> executes ops oc m i mem1 m' -> arith_dest i = Some d -> sources_readable m i ->
  reg_value m d = Some x -> can_write (sup_mode m) d = true ->
  raised m m' mem1 10 0 \/ raised m m' mem1 11 0 \/
  (R m' R_pc = (R m R_pc + 4) mod 2 ^ 32 \/ d = R_pc) /\ flags_describe m' (R m' d) /\ flag m' 1 = Z.testbit (R m' d) 16.
Proof. exact P_C11_flags. Qed.
Print Assumptions C11_flags.

Example C11_flags_example : demo_case (asm [Cpy R_a0 (Lit2 32768); Shl R_a0 (Lit1 17)]) 1 (fun m i mem1 m' =>
  arith_dest i = Some R_a0 /\ sources_readable m i /\ reg_value m R_a0 = Some 32768 /\ can_write (sup_mode m) R_a0 = true /\
  R m' R_a0 = 0 /\ flag m' 7 = true).
Proof. exact E_C11_flags. Qed.

(** CMP sets the flags as SUB does and writes nothing. *)
Theorem C11_cmp : forall D (ops : bus_ops D) oc m d v mem1 m' x y,
  typed ops -> wf m -> executes ops oc m (Cmp d v) mem1 m' ->
  reg_value m d = Some x -> operand2 m v = Some y ->
  after m m' mem1 [(R_pc, (R m R_pc + 4) mod 2 ^ 32); (R_af, R m' R_af)] /\
  (flag m' 6 = true <-> x < y) /\ (flag m' 5 = true <-> ~ (- 2 ^ 31 <= signed x - signed y < 2 ^ 31)) /\
  flags_describe m' ((x - y) mod 2 ^ 32).
Proof. exact P_C11_cmp. Qed.
Print Assumptions C11_cmp.

Example C11_cmp_example : demo_case (asm [Cpy R_a0 (Lit2 5); Cmp R_a0 (Lit2 9)]) 1 (fun m i mem1 m' =>
  i = Cmp R_a0 (Lit2 9) /\ reg_value m R_a0 = Some 5 /\ operand2 m (Lit2 9) = Some 9 /\ flag m' 6 = true /\ R m' R_a0 = 5).
Proof. exact E_C11_cmp. Qed.

(** * Witnesses *)

(** The documented behaviour of the overflowing division does not hold of the code. *)
Theorem C10_overflow_mode_refuted : ~ (forall D (ops : bus_ops D) oc m i d v md is_div mem1 m' x y mode,
  typed ops -> wf m -> div_or_mod i d v md is_div -> executes ops oc m i mem1 m' ->
  reg_value m d = Some x -> operand1 m v = Some y -> operand1 m md = Some mode -> can_write (sup_mode m) d = true ->
  Z.testbit mode 4 = true -> signed x = - 2 ^ 31 -> signed y = -1 -> mode mod 4 <> 0 ->
  computes m m' mem1 d (if mode mod 4 =? 1 then 2 ^ 31 else if mode mod 4 =? 2 then 0 else 2 ^ 31 - 1) True True).
Proof. exact P_C10_overflow_mode_refuted. Qed.
Print Assumptions C10_overflow_mode_refuted.

(** ZLF is documented as "the lower 16 bits of the result are zero". *)
Theorem C11_zlf_refuted : ~ (forall D (ops : bus_ops D) oc m i d x mem1 m',
  typed ops -> wf m -> executes ops oc m i mem1 m' -> arith_dest i = Some d -> sources_readable m i ->
  reg_value m d = Some x -> can_write (sup_mode m) d = true -> R m' R_pc = R m R_pc + 4 ->
  (flag m' 1 = true <-> R m' d mod 2 ^ 16 = 0)).
Proof. exact P_C11_zlf_refuted. Qed.
Print Assumptions C11_zlf_refuted.
