(** Properties proved in ProofMem.v: statements only. Generated by tools/gen_props.py. *)
From Coq Require Import ZArith List Bool Lia.
From Verif Require Import Base Board Mem Cpu Asm Tools Devices DevTyped SpecMach SpecIsa SpecBus SpecObs SpecTools SpecMap BaseFacts RegFacts MemFacts
  AluFacts IsaFacts IsaStep MonoFacts CycleFacts UndFacts HoareFacts CyclePost InvFacts MapFacts ReachFacts ExecFacts StepCases ProofAlu ProofState ProofReg Demo.
From Verif Require Import ProofMem.
Import ListNotations.
Open Scope Z_scope.

(** * C21 *)

(** LSA reads the word at [v + add] into its destination (0x04 if that may not be written). *)
Theorem C21_lsa : forall D (ops : bus_ops D) oc m d v add x y mem1 m', typed ops -> wf m ->
  executes ops oc m (Lsa d v add) mem1 m' -> operand1 m v = Some x -> operand1 m add = Some y ->
  loads_or_faults ops m m' mem1 ((x + y) mod 2 ^ 32) (fun w mem2 =>
    if can_write (sup_mode m) d then after m m' mem2 [(d, w); (R_pc, (R m R_pc + 4) mod 2 ^ 32)]
    else raised m m' mem2 4 (reg_code d)).
Proof. exact P_C21_lsa. Qed.
Print Assumptions C21_lsa.

Example C21_lsa_example : demo_case (asm [Cpy R_a0 (Lit2 260); Wsa (Reg1 R_a0) (Lit1 4) (Lit1 9); Lsa R_a1 (Reg1 R_a0) (Lit1 4)]) 2 (fun m i mem1 m' =>
  i = Lsa R_a1 (Reg1 R_a0) (Lit1 4) /\ operand1 m (Reg1 R_a0) = Some 260 /\ operand1 m (Lit1 4) = Some 4 /\ R m' R_a1 = 9).
Proof. exact E_C21_lsa. Qed.

(** LEA reads the word at [v + add * mul] into avr. *)
Theorem C21_lea : forall D (ops : bus_ops D) oc m v add mul x y z mem1 m', typed ops -> wf m ->
  executes ops oc m (Lea v add mul) mem1 m' -> operand1 m v = Some x -> operand1 m add = Some y -> operand1 m mul = Some z ->
  loads_or_faults ops m m' mem1 ((x + y * z) mod 2 ^ 32) (fun w mem2 =>
    after m m' mem2 [(R_avr, w); (R_pc, (R m R_pc + 4) mod 2 ^ 32)]).
Proof. exact P_C21_lea. Qed.
Print Assumptions C21_lea.

Example C21_lea_example : demo_case (asm [Cpy R_a0 (Lit2 260); Wsa (Reg1 R_a0) (Lit1 16) (Lit1 9); Lea (Reg1 R_a0) (Lit1 4) (Lit1 4)]) 2 (fun m i mem1 m' =>
  load_address m i = Some 276 /\ R m' R_avr = 9).
Proof. exact E_C21_lea. Qed.

(** WSA writes its third operand at [v + add]. *)
Theorem C21_wsa : forall D (ops : bus_ops D) oc m v add val x y z mem1 m', typed ops -> wf m ->
  executes ops oc m (Wsa v add val) mem1 m' -> operand1 m v = Some x -> operand1 m add = Some y -> operand1 m val = Some z ->
  stores_or_faults ops m m' mem1 ((x + y) mod 2 ^ 32) z (fun mem2 => after m m' mem2 [(R_pc, (R m R_pc + 4) mod 2 ^ 32)]).
Proof. exact P_C21_wsa. Qed.
Print Assumptions C21_wsa.

Example C21_wsa_example : demo_case (asm [Cpy R_a0 (Lit2 260); Wsa (Reg1 R_a0) (Lit1 16) (Lit1 9)]) 1 (fun m i mem1 m' =>
  store_access m i = Some (276, 9) /\ c_mem m' <> mem1).
Proof. exact E_C21_wsa. Qed.

(** WEA writes avr at [v + add * mul]. *)
Theorem C21_wea : forall D (ops : bus_ops D) oc m v add mul x y z mem1 m', typed ops -> wf m ->
  executes ops oc m (Wea v add mul) mem1 m' -> operand1 m v = Some x -> operand1 m add = Some y -> operand1 m mul = Some z ->
  stores_or_faults ops m m' mem1 ((x + y * z) mod 2 ^ 32) (R m R_avr) (fun mem2 => after m m' mem2 [(R_pc, (R m R_pc + 4) mod 2 ^ 32)]).
Proof. exact P_C21_wea. Qed.
Print Assumptions C21_wea.

Example C21_wea_example : demo_case (asm [Cpy R_avr (Lit2 7); Cpy R_a0 (Lit2 260); Wea (Reg1 R_a0) (Lit1 4) (Lit1 2)]) 2 (fun m i mem1 m' =>
  store_access m i = Some (268, 7) /\ c_mem m' <> mem1).
Proof. exact E_C21_wea. Qed.

(** An unaligned effective address raises 0x05 with the address modulo 4, without any access. *)
Theorem C21_unaligned : forall D (ops : bus_ops D) oc m i a mem1 m', typed ops -> wf m -> executes ops oc m i mem1 m' ->
  load_address m i = Some a \/ (exists w, store_access m i = Some (a, w)) -> a mod 4 <> 0 -> raised m m' mem1 5 (a mod 4).
Proof. exact P_C21_unaligned. Qed.
Print Assumptions C21_unaligned.

Example C21_unaligned_example : demo_case (asm [Cpy R_a0 (Lit2 260); Lsa R_a1 (Reg1 R_a0) (Lit1 3)]) 1 (fun m i mem1 m' =>
  load_address m i = Some 263 /\ R m' R_et = et_value true 5 3).
Proof. exact E_C21_unaligned. Qed.

(** The documented signed displacement: false for literals, which are zero-extended. *)
Theorem C21_signed_refuted : ~ (forall D (ops : bus_ops D) oc m d v n x w mem1 mem2 m', typed ops -> wf m ->
  executes ops oc m (Lsa d v (Lit1 n)) mem1 m' -> operand1 m v = Some x -> can_write (sup_mode m) d = true -> d <> R_pc ->
  loads ops m mem1 ((x + (if n <? 128 then n else n - 256)) mod 2 ^ 32) w mem2 -> R m' d = w).
Proof. exact P_C21_signed_refuted. Qed.
Print Assumptions C21_signed_refuted.

(** * C22 *)

(** When the access of a loading instruction faults, the exception is all that happens. *)
Theorem C22_load : forall D (ops : bus_ops D) oc m i a mem1 mem2 code data m', typed ops -> wf m -> executes ops oc m i mem1 m' ->
  load_address m i = Some a -> load_faults ops m mem1 a mem2 code data -> raised m m' mem2 code data.
Proof. exact P_C22_load. Qed.
Print Assumptions C22_load.

Example C22_load_example : demo_case (asm [Cpy R_ssp (Lit2 262); Pop R_a0]) 1 (fun m i mem1 m' =>
  load_address m i = Some 262 /\ R m' R_et = et_value true 5 2 /\ R m' R_ssp = 262).
Proof. exact E_C22_load. Qed.

(** The same for storing instructions. *)
Theorem C22_store : forall D (ops : bus_ops D) oc m i a w mem1 mem2 code data m', typed ops -> wf m -> executes ops oc m i mem1 m' ->
  store_access m i = Some (a, w) -> store_faults ops m mem1 a w mem2 code data -> raised m m' mem2 code data.
Proof. exact P_C22_store. Qed.
Print Assumptions C22_store.

(** Writing to the ROM. *)
Example C22_store_example : demo_case (asm [Cpy R_ssp (Lit2 8); Push (Lit2 5)]) 1 (fun m i mem1 m' =>
  store_access m i = Some (4, 5) /\ R m' R_et = et_value true 160 (49 * 256) /\ R m' R_ssp = 8).
Proof. exact E_C22_store. Qed.

(** and for the second access of SRM. *)
Theorem C22_srm : forall D (ops : bus_ops D) oc m v add r a w z mem1 mem2 mem3 code data m', typed ops -> wf m ->
  executes ops oc m (Srm v add r) mem1 m' -> load_address m (Srm v add r) = Some a -> loads ops m mem1 a w mem2 ->
  reg_value m r = Some z -> store_faults ops m mem2 a z mem3 code data -> raised m m' mem3 code data.
Proof. exact P_C22_srm. Qed.
Print Assumptions C22_srm.

Example C22_srm_example : demo_case (asm [Srm (Lit1 8) (Lit1 4) R_a0]) 0 (fun m i mem1 m' =>
  load_address m i = Some 12 /\ R m' R_et = et_value true 160 (49 * 256) /\ R m' R_a0 = 0).
Proof. exact E_C22_srm. Qed.

(** The instruction fetch: when it faults, the exception is all that happens. *)
Theorem C22_fetch : forall D (ops : bus_ops D) oc m mem2 code data m', typed ops -> wf m -> c_halted m = false ->
  load_faults ops m (c_mem m) (R m R_pc) mem2 code data -> next ops oc m = Ret m' -> raised m m' mem2 code data.
Proof. exact P_C22_fetch. Qed.
Print Assumptions C22_fetch.

Example C22_fetch_example : exists m m', reachable (dev_ops false) false m /\ c_halted m = false /\ next (dev_ops false) false m = Ret m' /\
  R m R_pc = 6 /\ load_faults (dev_ops false) m (c_mem m) (R m R_pc) (c_mem m) 5 2 /\ R m' R_et = et_value true 5 2 /\ R m' R_pc = 0.
Proof. exact E_C22_fetch. Qed.

(** * C23 *)

(** One PUSH. *)
Theorem C23_push : forall D (ops : bus_ops D) oc m v x mem1 m', typed ops -> wf m -> executes ops oc m (Push v) mem1 m' ->
  operand2 m v = Some x ->
  let top := (R m (sp_of m) - 4) mod 2 ^ 32 in
  stores_or_faults ops m m' mem1 top x (fun mem2 => after m m' mem2 [(sp_of m, top); (R_pc, (R m R_pc + 4) mod 2 ^ 32)]).
Proof. exact P_C23_push. Qed.
Print Assumptions C23_push.

Example C23_push_example : demo_case (asm [Cpy R_ssp (Lit2 272); Push (Lit2 5)]) 1 (fun m i mem1 m' =>
  store_access m i = Some (268, 5) /\ R m' R_ssp = 268).
Proof. exact E_C23_push. Qed.

(** One POP. If the destination may not be written the stack pointer has moved nevertheless. *)
Theorem C23_pop : forall D (ops : bus_ops D) oc m d mem1 m', typed ops -> wf m -> executes ops oc m (Pop d) mem1 m' ->
  let sp := sp_of m in
  loads_or_faults ops m m' mem1 (R m sp) (fun w mem2 =>
    if can_write (sup_mode m) d
    then after m m' mem2 [(d, w); (sp, (R m sp + 4) mod 2 ^ 32); (R_pc, (R m R_pc + 4) mod 2 ^ 32)]
    else after m m' mem2 [(R_smt, 1); (R_pc, R m R_ev); (R_et, et_value (sup_mode m) 4 (reg_code d)); (sp, (R m sp + 4) mod 2 ^ 32)]).
Proof. exact P_C23_pop. Qed.
Print Assumptions C23_pop.

Example C23_pop_example : demo_case (asm [Cpy R_ssp (Lit2 272); Push (Lit2 5); Pop R_a0]) 2 (fun m i mem1 m' =>
  load_address m i = Some 268 /\ R m' R_ssp = 272 /\ R m' R_a0 = 5).
Proof. exact E_C23_pop. Qed.

(** * C24 *)

(** CALL saves the address of the next instruction and jumps. *)
Theorem C24_call : forall D (ops : bus_ops D) oc m v x mem1 m', typed ops -> wf m -> executes ops oc m (Call v) mem1 m' ->
  operand2 m v = Some x ->
  let top := (R m (sp_of m) - 4) mod 2 ^ 32 in
  stores_or_faults ops m m' mem1 top ((R m R_pc + 4) mod 2 ^ 32) (fun mem2 => after m m' mem2 [(R_pc, x); (sp_of m, top)]).
Proof. exact P_C24_call. Qed.
Print Assumptions C24_call.

Example C24_call_example : demo_case (asm [Cpy R_ssp (Lit2 512); Call (Lit2 32)]) 1 (fun m i mem1 m' =>
  i = Call (Lit2 32) /\ operand2 m (Lit2 32) = Some 32 /\ R m' R_pc = 32 /\ R m' R_ssp = 508).
Proof. exact E_C24_call. Qed.

(** RET (POP pc) later, with the stack pointer and the saved word as the CALL left them, resumes after the CALL. *)
Theorem C24_return : forall D (ops : bus_ops D) oc m v x mem1 memc m1 m2 mem2 mem3 m3, typed ops -> wf m -> wf m2 ->
  executes ops oc m (Call v) mem1 m1 -> operand2 m v = Some x ->
  stores ops m mem1 ((R m (sp_of m) - 4) mod 2 ^ 32) ((R m R_pc + 4) mod 2 ^ 32) memc ->
  sp_of m2 = sp_of m -> R m2 (sp_of m) = R m1 (sp_of m) ->
  executes ops oc m2 (Pop R_pc) mem2 m3 -> loads ops m2 mem2 (R m1 (sp_of m)) ((R m R_pc + 4) mod 2 ^ 32) mem3 ->
  after m2 m3 mem3 [(R_pc, (R m R_pc + 4) mod 2 ^ 32); (sp_of m, R m (sp_of m))].
Proof. exact P_C24_return. Qed.
Print Assumptions C24_return.

(** CALL 8 at address 4, with RET at address 8. *)
Example C24_return_example : demo_case (asm [Cpy R_ssp (Lit2 272); Call (Lit2 8); Pop R_pc]) 1 (fun m i mem1 m' =>
  i = Call (Lit2 8) /\ store_access m i = Some (268, 8) /\ R m' R_pc = 8 /\ R m' R_ssp = 268 /\
  match next (dev_ops false) false m' with Ret m2 => R m2 R_pc = 8 /\ R m2 R_ssp = 272 | Panic => False end).
Proof. exact E_C24_return. Qed.

(** * C25 *)

(** EX swaps two registers (smt apart, which changes what may be written next). *)
Theorem C25_ex : forall D (ops : bus_ops D) oc m a b mem1 m', typed ops -> wf m -> executes ops oc m (Ex a b) mem1 m' ->
  can_read (sup_mode m) a = true -> can_read (sup_mode m) b = true -> can_write (sup_mode m) a = true -> can_write (sup_mode m) b = true ->
  a <> R_smt ->
  after m m' mem1 [(b, R m a); (a, R m b); (R_pc, (R m R_pc + 4) mod 2 ^ 32)].
Proof. exact P_C25_ex. Qed.
Print Assumptions C25_ex.

Example C25_ex_example : demo_case (asm [Cpy R_a0 (Lit2 260); Cpy R_a1 (Lit2 4); Ex R_a0 R_a1; Ex R_a0 R_a1]) 2 (fun m i mem1 m' =>
  i = Ex R_a0 R_a1 /\ sup_mode m = true /\ R m' R_a0 = 4 /\ R m' R_a1 = 260).
Proof. exact E_C25_ex. Qed.

(** Twice EX on the same two registers: all registers but pc are as before. *)
Theorem C25_ex_twice : forall D (ops : bus_ops D) oc m a b mem1 m1 mem2 m2, typed ops -> wf m ->
  executes ops oc m (Ex a b) mem1 m1 -> executes ops oc m1 (Ex a b) mem2 m2 ->
  can_read (sup_mode m) a = true -> can_read (sup_mode m) b = true -> can_write (sup_mode m) a = true -> can_write (sup_mode m) b = true ->
  a <> R_smt -> b <> R_smt -> a <> R_pc -> b <> R_pc ->
  after m1 m2 mem2 [(a, R m a); (b, R m b); (R_pc, (R m R_pc + 8) mod 2 ^ 32)] /\
  forall r, r <> R_pc -> R m2 r = R m r.
Proof. exact P_C25_ex_twice. Qed.
Print Assumptions C25_ex_twice.

Example C25_ex_twice_example : demo_case (asm [Cpy R_a0 (Lit2 7); Cpy R_rr0 (Lit2 9); Ex R_a0 R_rr0; Ex R_a0 R_rr0]) 2 (fun m i mem1 m1 =>
  i = Ex R_a0 R_rr0 /\ match exec_check m1 with Some (i2, mem2, m2) => i2 = Ex R_a0 R_rr0 /\ R m1 R_a0 = 9 /\ R m2 R_a0 = 7 /\ R m2 R_rr0 = 9 | None => False end).
Proof. exact E_C25_ex_twice. Qed.

(** SRM: the register gets the word at the address, the address the register. *)
Theorem C25_srm : forall D (ops : bus_ops D) oc m v add r a w z mem1 mem2 mem3 m', typed ops -> wf m ->
  executes ops oc m (Srm v add r) mem1 m' -> load_address m (Srm v add r) = Some a ->
  loads ops m mem1 a w mem2 -> reg_value m r = Some z -> stores ops m mem2 a z mem3 ->
  if can_write (sup_mode m) r then after m m' mem3 [(r, w); (R_pc, (R m R_pc + 4) mod 2 ^ 32)] else raised m m' mem3 4 (reg_code r).
Proof. exact P_C25_srm. Qed.
Print Assumptions C25_srm.

Example C25_srm_example : demo_case (asm [Cpy R_a0 (Lit2 260); Wsa (Reg1 R_a0) (Lit1 4) (Lit1 9); Srm (Reg1 R_a0) (Lit1 4) R_a0]) 2 (fun m i mem1 m' =>
  i = Srm (Reg1 R_a0) (Lit1 4) R_a0 /\ load_address m i = Some 264 /\ R m' R_a0 = 9 /\
  match mem_read (dev_ops false) false (c_mem m') 264 with Ret (_, ex, w) => ex = 0 /\ w = 260 | Panic => False end).
Proof. exact E_C25_srm. Qed.

(** * C26 *)

(** HWD writes the documented information ([info_spec], SpecBus) or raises the documented exception. *)
Theorem C26_hwd : forall D (ops : bus_ops D) oc m d id info x y mem1 m', typed ops -> wf m -> executes ops oc m (Hwd d id info) mem1 m' ->
  operand1 m id = Some x -> operand1 m info = Some y ->
  match (if (x =? 0) && (y =? 0) then inr (Z.of_nat (length (mm_hwb mem1))) else info_spec mem1 x y) with
  | inl (code, data) => raised m m' mem1 code data
  | inr v =>
      if can_write (sup_mode m) d then after m m' mem1 [(d, v); (R_pc, (R m R_pc + 4) mod 2 ^ 32)]
      else raised m m' mem1 4 (reg_code d)
  end.
Proof. exact P_C26_hwd. Qed.
Print Assumptions C26_hwd.

Example C26_hwd_example : demo_case (asm [Hwd R_a0 (Lit1 1) (Lit1 161)]) 0 (fun m i mem1 m' =>
  operand1 m (Lit1 1) = Some 1 /\ info_spec mem1 1 161 = inr 256 /\ R m' R_a0 = 256).
Proof. exact E_C26_hwd. Qed.

(** * C27 *)

(** RESET resets exactly the selected components; the CPU is reset afterwards iff the high half of the mode byte is 0,
    otherwise execution goes on. *)
Theorem C27_reset : forall D (ops : bus_ops D) oc m v mode mem1 m', typed ops -> wf m -> executes ops oc m (Reset v) mem1 m' ->
  operand1 m v = Some mode -> (mode mod 16 = 1 -> R m R_avr < Z.of_nat (length (mm_hwb mem1))) ->
  mm_maps (c_mem m') = mm_maps mem1 /\ resets_exactly ops (reset_picks mode (R m R_avr)) (mm_hwb mem1) (c_hwb m') /\
  (if (mode / 16) mod 16 =? 0
   then (forall r, R m' r = if reg_eq_dec r R_smt then 1 else 0) /\ c_cycles m' = 0 /\ c_halted m' = false
   else after m m' (c_mem m') [(R_pc, (R m R_pc + 4) mod 2 ^ 32)]).
Proof. exact P_C27_reset. Qed.
Print Assumptions C27_reset.

(** Writing to RAM, then RESET mode 0x11 with avr = 1: the RAM is zero again, the CPU goes on. *)
Example C27_reset_example : demo_case (asm [Cpy R_a0 (Lit2 256); Wsa (Reg1 R_a0) (Lit1 4) (Lit1 9); Cpy R_avr (Lit2 1); Reset (Lit1 17)]) 3 (fun m i mem1 m' =>
  i = Reset (Lit1 17) /\ operand1 m (Lit1 17) = Some 17 /\ R m R_avr = 1 /\ (length (mm_hwb mem1) = 2)%nat /\
  match mem_read (dev_ops false) false mem1 260, mem_read (dev_ops false) false (c_mem m') 260 with
  | Ret (_, _, x), Ret (_, _, y) => x = 9 /\ y = 0 | _, _ => False end /\ R m' R_pc = 16).
Proof. exact E_C27_reset. Qed.

(** An unknown component in avr (mode 1) raises 0x10. *)
Theorem C27_unknown : forall D (ops : bus_ops D) oc m v mode mem1 m', typed ops -> wf m -> executes ops oc m (Reset v) mem1 m' ->
  operand1 m v = Some mode -> mode mod 16 = 1 -> Z.of_nat (length (mm_hwb mem1)) <= R m R_avr -> raised m m' mem1 16 (R m R_avr mod 2 ^ 16).
Proof. exact P_C27_unknown. Qed.
Print Assumptions C27_unknown.

Example C27_unknown_example : demo_case (asm [Cpy R_avr (Lit2 2); Reset (Lit1 1)]) 1 (fun m i mem1 m' =>
  i = Reset (Lit1 1) /\ R m R_avr = 2 /\ (length (mm_hwb mem1) = 2)%nat /\ R m' R_et = et_value true 16 2).
Proof. exact E_C27_unknown. Qed.

(** The documented selections `smaller than or equal' and `greater than or equal' do not include the component in avr. *)
Theorem C27_inclusive_refuted : ~ (forall D (ops : bus_ops D) oc m v mode mem1 m', typed ops -> wf m -> executes ops oc m (Reset v) mem1 m' ->
  operand1 m v = Some mode -> mode mod 16 = 3 ->
  resets_exactly ops (fun id => id <= R m R_avr) (mm_hwb mem1) (c_hwb m')).
Proof. exact P_C27_inclusive_refuted. Qed.
Print Assumptions C27_inclusive_refuted.
