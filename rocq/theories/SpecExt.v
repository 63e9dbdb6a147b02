(** Specifications about assembled programs run by the processor. *)
From Coq Require Import ZArith List Bool Lia.
From Verif Require Import Base Board Mem Cpu Asm Tools SpecMach SpecIsa SpecBus SpecObs SpecAsm.
Import ListNotations.
Open Scope Z_scope.

(** A cycle of [m], not halted, fetches the word [w] ([mem1] is the memory after the fetch) and ends in [m']. *)
Definition executes_word {D} (ops : bus_ops D) (oc : bool) (m : cpu D) (w : Z) (mem1 : memory D) (m' : cpu D) : Prop :=
  c_halted m = false /\ loads ops m (c_mem m) (R m R_pc) w mem1 /\ next ops oc m = Ret m'.
(** The cycles from [m] to [m'] fetch exactly the words [ws], wherever pc goes. *)
Fixpoint runs_words {D} (ops : bus_ops D) (oc : bool) (m : cpu D) (ws : list Z) (m' : cpu D) : Prop :=
  match ws with
  | [] => m' = m
  | w :: t => exists mem1 m1, executes_word ops oc m w mem1 m1 /\ runs_words ops oc m1 t m'
  end.
(** The same, the memory being accessed by instruction fetches only. *)
Fixpoint runs_quietly {D} (ops : bus_ops D) (oc : bool) (m : cpu D) (ws : list Z) (m' : cpu D) : Prop :=
  match ws with
  | [] => m' = m
  | w :: t => exists mem1 m1, executes_word ops oc m w mem1 m1 /\ c_mem m1 = mem1 /\ runs_quietly ops oc m1 t m'
  end.
(** [m'] differs from [m], in [n] cycles that went straight ahead, by the registers listed (with their values), pc and af only. *)
Definition straight {D} (m m' : cpu D) (n : Z) (l : list (reg * Z)) : Prop :=
  (forall r v, In (r, v) l -> R m' r = v) /\
  (forall r, ~ In r (map fst l) -> r <> R_pc -> r <> R_af -> R m' r = R m r) /\
  R m' R_pc = (R m R_pc + 4 * n) mod 2 ^ 32 /\ c_halted m' = false /\ c_cycles m' = (c_cycles m + n) mod 2 ^ 128.

(** The comparison aliases of the assembly language: the instruction, and when the next instruction is to run after CMP x, y
    (unsigned). *)
Definition aliases : list (instr * (Z -> Z -> bool)) :=
  [ (If (Lit1 0), fun x y => x =? y);                                 (* IFEQ *)
    (IfN (Lit1 0), fun x y => negb (x =? y));                         (* IFNQ *)
    (If (Lit1 1), fun x y => x <? y);                                 (* IFLS *)
    (IfN (Lit1 1), fun x y => y <=? x);                               (* IFGE *)
    (If2 (Lit1 0) (Lit1 1) (Lit1 4), fun x y => y <? x);              (* IFGT *)
    (If2 (Lit1 0) (Lit1 1) (Lit1 1), fun x y => x <=? y) ].           (* IFLE *)

(** What the flag names say of a result [r] and the carry and overflow of its computation. *)
Definition flag_means (f : ar_flag) (r : Z) (carry overflow : Prop) : Prop :=
  match f with
  | FZero => r = 0 | FCarry => carry | FOverflow => overflow | FSign => 2 ^ 31 <= r | FEven => r mod 2 = 0
  | FZeroUpper => r / 2 ^ 16 = 0 | FZeroLower => r mod 2 ^ 16 = 0
  end.
(** The constant of the crate named after each flag, and after each way to divide. *)
Definition flag_constant (f : ar_flag) : Z :=
  match f with
  | FZero => cst_ZF | FCarry => cst_CF | FOverflow => cst_OF | FSign => cst_SF | FEven => cst_EF | FZeroUpper => cst_ZUF | FZeroLower => cst_ZLF
  end.
Definition sign_constant (s : div_sign) : Z := match s with DUnsigned => cst_DIV_USG | DSigned => cst_DIV_SIG end.
Definition zero_constant (z : div_zero) : Z :=
  match z with ZForbid => cst_DIV_ZRO_FRB | ZEqToMin => cst_DIV_ZRO_MIN | ZEqToZero => cst_DIV_ZRO_ZRO | ZEqToMax => cst_DIV_ZRO_MAX end.
Definition overflow_constant (o : div_ovf) : Z :=
  match o with OForbid => cst_DIV_OFW_FRB | OEqToMin => cst_DIV_OFW_MIN | OEqToZero => cst_DIV_OFW_ZRO | OEqToMax => cst_DIV_OFW_MAX end.
(** What the names of the conditions of IF2 say. *)
Definition cond_means (c : if2_cond) (a b : bool) : bool :=
  match c with
  | COr => a || b | CAnd => a && b | CXor => xorb a b | CNor => negb (a || b) | CNand => negb (a && b)
  | CLeft => a && negb b | CRight => negb a && b
  end.
(** What the names of the hardware information say about a component with metadata [md] and name [name], mapped at [mapped]. *)
Definition info_means (md : metadata) (name : list Z) (mapped : option mapping) (h : hw_info_code) : option Z :=
  let byte k := nth (Z.to_nat k) (utf8 name) 0 in
  let word k := word_be (byte (4 * k)) (byte (4 * k + 1)) (byte (4 * k + 2)) (byte (4 * k + 3)) in
  match h with
  | HCount => None
  | HUidUpper => Some (md_hw_id md / 2 ^ 32) | HUidLower => Some (md_hw_id md mod 2 ^ 32)
  | HNameLength => Some (zlen (utf8 name))
  | HNameW1 => Some (word 0) | HNameW2 => Some (word 1) | HNameW3 => Some (word 2) | HNameW4 => Some (word 3)
  | HNameW5 => Some (word 4) | HNameW6 => Some (word 5) | HNameW7 => Some (word 6) | HNameW8 => Some (word 7)
  | HDevSize => Some (md_size md) | HCategory => Some (category_code (md_category md)) | HType => Some (type_code (md_category md))
  | HModel => Some (opt_or0 (md_model md))
  | HDataUpper => Some (opt_or0 (md_data md) / 2 ^ 32) | HDataLower => Some (opt_or0 (md_data md) mod 2 ^ 32)
  | HIsMapped => Some (match mapped with Some _ => 1 | None => 0 end)
  | HMapStart => option_map mp_addr mapped
  | HMapEnd => option_map (fun mp => (mp_addr mp + mp_size mp - 1) mod 2 ^ 32) mapped
  end.
