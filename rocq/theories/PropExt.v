(** Properties proved in ProofExt.v: statements only. Generated by tools/gen_props.py. *)
From Coq Require Import String ZArith List Bool Lia.
From Verif Require Import Base Board Mem Cpu Asm Tools Runner Devices SpecMach SpecIsa SpecBus SpecObs SpecTools SpecAsm SpecExt
  BaseFacts RegFacts MemFacts AluFacts IsaFacts IsaStep MonoFacts CycleFacts UndFacts HoareFacts CyclePost InvFacts MapFacts ReachFacts DevTyped ExecFacts
  StepCases Demo ProofAlu ProofState ProofPanic ProofReg ProofMem ProofAsm ProofTools.
From Verif Require Import ProofExt.
Import ListNotations.
Open Scope Z_scope.

(** * C43 *)

(** On an encoded instruction without 2-byte register operand, the CPU does what the instruction-set specification says of it. *)
Theorem C43_executes : forall D (ops : bus_ops D) oc m i mem1 m', typed ops -> wf m -> instr_wf i -> wide_reg i = None ->
  executes_word ops oc m (encode_word i) mem1 m' ->
  executes ops oc m i mem1 m' /\
  step (board_bus ops false) i (St (file (c_regs m)) mem1 ((c_cycles m + 1) mod 2 ^ 128) false) = Ret (abs m').
Proof. exact P_C43_executes. Qed.
Print Assumptions C43_executes.

Example C43_executes_example : demo_raw (asm [Wsa (Lit1 0) (Lit1 0) (Lit1 1)]) 0 (encode_word (Wsa (Lit1 0) (Lit1 0) (Lit1 1)))
  (fun m mem1 m' => R m' R_et = et_value true 160 (49 * 256)).
Proof. exact E_C43_executes. Qed.

(** A word and the re-encoding of what it decodes to (no 2-byte register operand) are executed identically: the cycle that fetches the word
    has the effect specified for the instruction in the re-encoding, from the state after the fetch. *)
Theorem C42_executes : forall D (ops : bus_ops D) oc m w i mem1 m', typed ops -> wf m ->
  decode (bytes_of_word w) = ROk i -> wide_reg i = None -> executes_word ops oc m w mem1 m' ->
  exists j, decode (bytes_of_word (encode_word i)) = ROk j /\
    step (board_bus ops false) j (St (file (c_regs m)) mem1 ((c_cycles m + 1) mod 2 ^ 128) false) = Ret (abs m').
Proof. exact P_C42_executes. Qed.
Print Assumptions C42_executes.

Example C42_executes_example : demo_raw (asm [Cpy R_a0 (Lit2 5)] ++ [encode_word (Shl R_a0 (Lit1 2)) + 77]) 1 (encode_word (Shl R_a0 (Lit1 2)) + 77)
  (fun m mem1 m' => decode (bytes_of_word (encode_word (Shl R_a0 (Lit1 2)) + 77)) = ROk (Shl R_a0 (Lit1 2)) /\ R m R_a0 = 5 /\ R m' R_a0 = 20).
Proof. exact E_C42_executes. Qed.

(** With a 2-byte register operand it does the same with register a0 instead, *)
Theorem C43_wide : forall D (ops : bus_ops D) oc m i mem1 m', typed ops -> wf m -> instr_wf i -> wide_reg i <> None ->
  executes_word ops oc m (encode_word i) mem1 m' -> executes ops oc m (with_wide_reg i R_a0) mem1 m'.
Proof. exact P_C43_wide. Qed.
Print Assumptions C43_wide.

Example C43_wide_example : demo_raw (asm [Cpy R_a1 (Lit2 7); Cpy R_a2 (Reg2 R_a1)]) 1 (encode_word (Cpy R_a2 (Reg2 R_a1)))
  (fun m mem1 m' => R m R_a1 = 7 /\ R m R_a0 = 0 /\ R m' R_a2 = 0).
Proof. exact E_C43_wide. Qed.

(** so the claim that every encoded instruction is executed as written is false. *)
Theorem C43_executes_refuted : ~ (forall D (ops : bus_ops D) oc m i mem1 m', typed ops -> wf m -> instr_wf i ->
  executes_word ops oc m (encode_word i) mem1 m' ->
  step (board_bus ops false) i (St (file (c_regs m)) mem1 ((c_cycles m + 1) mod 2 ^ 128) false) = Ret (abs m')).
Proof. exact P_C43_executes_refuted. Qed.
Print Assumptions C43_executes_refuted.

(** * C12 *)

(** CMP then a comparison alias: the next instruction runs iff the comparison holds, otherwise exactly one instruction is skipped. *)
Theorem C12_aliases : forall D (ops : bus_ops D) oc m d v x y mem1 m1 i holds mem2 m2, typed ops -> wf m ->
  executes ops oc m (Cmp d v) mem1 m1 -> reg_value m d = Some x -> operand2 m v = Some y ->
  In (i, holds) aliases -> executes ops oc m1 i mem2 m2 ->
  after m1 m2 mem2 [(R_pc, (R m R_pc + 4 + (if holds x y then 4 else 8)) mod 2 ^ 32)].
Proof. exact P_C12_aliases. Qed.
Print Assumptions C12_aliases.

Example C12_aliases_example : demo_case (asm [Cpy R_a0 (Lit2 3); Cmp R_a0 (Lit2 5); If2 (Lit1 0) (Lit1 1) (Lit1 1)]) 2 (fun m1 i mem1 m' =>
  In (i, fun x y => x <=? y) aliases /\ R m1 R_pc = 8 /\ R m' R_pc = 12).
Proof. exact E_C12_aliases. Qed.

(** * C47 *)

(** The three words of SetReg set the register to the value, touch nothing else, and raise nothing; pc and smt excepted. *)
Theorem C47_set_reg : forall D (ops : bus_ops D) oc m r v m', typed ops -> wf m -> is_u32 v -> can_write (sup_mode m) r = true ->
  r <> R_pc -> r <> R_smt -> runs_words ops oc m (ext_encode_words (SetReg r v)) m' ->
  straight m m' 3 [(r, v)] /\ runs_quietly ops oc m (ext_encode_words (SetReg r v)) m'.
Proof. exact P_C47_set_reg. Qed.
Print Assumptions C47_set_reg.

Example C47_set_reg_example : demo_words (ext_encode_words (SetReg R_ev 4022250974)) 0 (ext_encode_words (SetReg R_ev 4022250974)) (fun m m' =>
  is_u32 4022250974 /\ can_write (sup_mode m) R_ev = true /\ R m R_ev = 0 /\ R m' R_ev = 4022250974 /\ R m' R_pc = 12).
Proof. exact E_C47_set_reg. Qed.

(** The same for smt is false: writing its first half may leave supervisor mode before the second half. *)
Theorem C47_smt_refuted : ~ (forall D (ops : bus_ops D) oc m v m', typed ops -> wf m -> is_u32 v -> can_write (sup_mode m) R_smt = true ->
  runs_words ops oc m (ext_encode_words (SetReg R_smt v)) m' -> R m' R_smt = v).
Proof. exact P_C47_smt_refuted. Qed.
Print Assumptions C47_smt_refuted.

(** For smt the claim is false: the first of the three instructions may leave supervisor mode. *)
Example C47_smt_refuted_example : demo_words (asm [Cpy R_ev (Lit2 12)] ++ ext_encode_words (SetReg R_smt 5)) 1 (ext_encode_words (SetReg R_smt 5)) (fun m m' =>
  can_write (sup_mode m) R_smt = true /\ R m' R_smt = 6 /\ R m' R_et = et_value false 3 (reg_code R_smt)).
Proof. exact E_C47_smt_refuted. Qed.

(** * C48 *)

(** ReadAddr(a): after setting avr to [a], the word at address [a] is loaded into avr as the machine [m] can load it, or the access raises its exception. *)
Theorem C48_read_addr : forall D (ops : bus_ops D) oc m a m', typed ops -> wf m -> is_u32 a ->
  runs_words ops oc m (ext_encode_words (ReadAddr a)) m' ->
  exists m3 mem1, straight m m3 3 [(R_avr, a)] /\ runs_quietly ops oc m (ext_encode_words (SetReg R_avr a)) m3 /\
    executes ops oc m3 (Lea (Reg1 R_avr) (Lit1 0) (Lit1 0)) mem1 m' /\
    ((exists w mem2, loads ops m mem1 a w mem2 /\ c_mem m' = mem2 /\ straight m m' 4 [(R_avr, w)]) \/
     (exists mem2 code data, load_faults ops m mem1 a mem2 code data /\ raised m3 m' mem2 code data)).
Proof. exact P_C48_read_addr. Qed.
Print Assumptions C48_read_addr.

Example C48_read_addr_example : demo_words (ext_encode_words (ReadAddr 8)) 0 (ext_encode_words (ReadAddr 8)) (fun m m' =>
  R m' R_avr = encode_word (Add R_avr (Lit2 8)) /\ R m' R_pc = 16).
Proof. exact E_C48_read_addr. Qed.

(** WriteAddrLit(a, v) stores [v] at address [a] as the machine [m] can store it, or the access raises its exception; rr0 and avr are used. *)
Theorem C48_write_addr_lit : forall D (ops : bus_ops D) oc m a v m', typed ops -> wf m -> is_u32 a -> is_u32 v ->
  runs_words ops oc m (ext_encode_words (WriteAddrLit a v)) m' ->
  exists m6 mem1, straight m m6 6 [(R_rr0, a); (R_avr, v)] /\ executes ops oc m6 (Wea (Reg1 R_rr0) (Lit1 0) (Lit1 0)) mem1 m' /\
    runs_quietly ops oc m (ext_encode_words (SetReg R_rr0 a) ++ ext_encode_words (SetReg R_avr v)) m6 /\
    ((exists mem2, stores ops m mem1 a v mem2 /\ c_mem m' = mem2 /\ straight m m' 7 [(R_rr0, a); (R_avr, v)]) \/
     (exists mem2 code data, store_faults ops m mem1 a v mem2 code data /\ raised m6 m' mem2 code data)).
Proof. exact P_C48_write_addr_lit. Qed.
Print Assumptions C48_write_addr_lit.

Example C48_write_addr_lit_example : demo_words (ext_encode_words (WriteAddrLit 260 3735928559)) 0 (ext_encode_words (WriteAddrLit 260 3735928559)) (fun m m' =>
  mem_read (dev_ops false) false (c_mem m') 260 = Ret (c_mem m', 0, 3735928559) /\ R m' R_pc = 28).
Proof. exact E_C48_write_addr_lit. Qed.

(** The full claim 'ReadAddrTo loads the word at the address into the register' is false: the register gets what a0 holds. *)
Theorem C48_read_addr_to_refuted : ~ (forall D (ops : bus_ops D) oc m r a w m', typed ops -> wf m -> is_u32 a -> can_write (sup_mode m) r = true ->
  R m R_mtt = 0 -> mem_read ops false (c_mem m) a = Ret (c_mem m, 0, w) -> runs_words ops oc m (ext_encode_words (ReadAddrTo r a)) m' -> R m' r = w).
Proof. exact P_C48_read_addr_to_refuted. Qed.
Print Assumptions C48_read_addr_to_refuted.

(** ReadAddrTo(r, a) leaves in [r] what a0 holds, instead of the word loaded; WriteAddr(a, r) stores a0. *)
Example C48_read_addr_to_refuted_example : demo_words (asm [Cpy R_a0 (Lit2 77)] ++ ext_encode_words (ReadAddrTo R_a1 8)) 1 (ext_encode_words (ReadAddrTo R_a1 8)) (fun m m' =>
  mem_read (dev_ops false) false (c_mem m) 8 = Ret (c_mem m, 0, encode_word (Shl R_avr (Lit1 16))) /\ R m' R_a1 = 77 /\ 77 <> encode_word (Shl R_avr (Lit1 16)) /\ R m R_mtt = 0).
Proof. exact E_C48_read_addr_to_refuted. Qed.

(** The full claim 'WriteAddr stores the register at the address' is false. *)
Theorem C48_write_addr_refuted : ~ (forall D (ops : bus_ops D) oc m r a w mem2 m', typed ops -> wf m -> is_u32 a -> can_read (sup_mode m) r = true ->
  R m R_mtt = 0 -> runs_words ops oc m (ext_encode_words (WriteAddr a r)) m' -> mem_read ops false (c_mem m') a = Ret (mem2, 0, w) -> w = R m r).
Proof. exact P_C48_write_addr_refuted. Qed.
Print Assumptions C48_write_addr_refuted.

Example C48_write_addr_refuted_example : demo_words (asm [Cpy R_a0 (Lit2 77); Cpy R_a1 (Lit2 5)] ++ ext_encode_words (WriteAddr 260 R_a1)) 2 (ext_encode_words (WriteAddr 260 R_a1)) (fun m m' =>
  R m R_a1 = 5 /\ mem_read (dev_ops false) false (c_mem m') 260 = Ret (c_mem m', 0, 77) /\ R m R_mtt = 0).
Proof. exact E_C48_write_addr_refuted. Qed.

(** * C50 *)

(** An exception other than UnknownError that a component raises on the load, store or fetch of a cycle is raised by the processor with code
    0xA0, and decoding et gives it back. *)
Theorem C50_visible_load : forall D (ops : bus_ops D) oc m i a mem1 mem2 mem3 e w m', typed ops -> wf m -> executes ops oc m i mem1 m' ->
  load_address m i = Some a -> a mod 4 = 0 -> passes ops m a mem1 mem2 -> mem_read ops false mem2 a = Ret (mem3, aux_encode e, w) ->
  aux_wf e -> e <> UnknownError ->
  raised m m' mem3 160 (aux_encode e) /\ native_decode_with_mode (R m' R_et) = Some (NHardwareException e, sup_mode m).
Proof. exact P_C50_visible_load. Qed.
Print Assumptions C50_visible_load.

Example C50_visible_load_example : exists m mem1 mem3 w m', reachable (dev_ops false) false m /\ executes (dev_ops false) false m (Lsa R_a1 (Reg1 R_a0) (Lit1 0)) mem1 m' /\
  load_address m (Lsa R_a1 (Reg1 R_a0) (Lit1 0)) = Some 256 /\ passes (dev_ops false) m 256 mem1 mem1 /\
  mem_read (dev_ops false) false mem1 256 = Ret (mem3, aux_encode MemoryNotReadable, w) /\ aux_wf MemoryNotReadable /\ MemoryNotReadable <> UnknownError /\
  native_decode_with_mode (R m' R_et) = Some (NHardwareException MemoryNotReadable, true).
Proof. exact E_C50_visible_load. Qed.

(** A store refused by a component with a hardware exception raises exception 0xA0 with that exception's code, and et decodes to it. *)
Theorem C50_visible_store : forall D (ops : bus_ops D) oc m i a v mem1 mem2 mem3 e m', typed ops -> wf m -> executes ops oc m i mem1 m' ->
  store_access m i = Some (a, v) -> a mod 4 = 0 -> passes ops m a mem1 mem2 -> mem_write ops false mem2 a v = Ret (mem3, aux_encode e) ->
  aux_wf e -> e <> UnknownError ->
  raised m m' mem3 160 (aux_encode e) /\ native_decode_with_mode (R m' R_et) = Some (NHardwareException e, sup_mode m).
Proof. exact P_C50_visible_store. Qed.
Print Assumptions C50_visible_store.

Example C50_visible_store_example : demo_case (asm [Wsa (Lit1 4) (Lit1 0) (Lit1 1)]) 0 (fun m i mem1 m' =>
  store_access m i = Some (4, 1) /\ mem_write (dev_ops false) false mem1 4 1 = Ret (mem1, aux_encode MemoryNotWritable) /\ aux_encode MemoryNotWritable <> 0 /\
  native_decode_with_mode (R m' R_et) = Some (NHardwareException MemoryNotWritable, true)).
Proof. exact E_C50_visible_store. Qed.

(** The same for the fetch of an instruction. *)
Theorem C50_visible_fetch : forall D (ops : bus_ops D) oc m mem2 mem3 e w m', typed ops -> wf m -> c_halted m = false -> next ops oc m = Ret m' ->
  R m R_pc mod 4 = 0 -> passes ops m (R m R_pc) (c_mem m) mem2 -> mem_read ops false mem2 (R m R_pc) = Ret (mem3, aux_encode e, w) ->
  aux_wf e -> e <> UnknownError ->
  raised m m' mem3 160 (aux_encode e) /\ native_decode_with_mode (R m' R_et) = Some (NHardwareException e, sup_mode m).
Proof. exact P_C50_visible_fetch. Qed.
Print Assumptions C50_visible_fetch.

(** The program jumps to the display. *)
Example C50_visible_fetch_example : exists m mem3 w m', reachable (dev_ops false) false m /\ c_halted m = false /\ next (dev_ops false) false m = Ret m' /\ R m R_pc = 256 /\
  passes (dev_ops false) m 256 (c_mem m) (c_mem m) /\
  mem_read (dev_ops false) false (c_mem m) 256 = Ret (mem3, aux_encode MemoryNotReadable, w) /\ aux_wf MemoryNotReadable /\ MemoryNotReadable <> UnknownError /\
  native_decode_with_mode (R m' R_et) = Some (NHardwareException MemoryNotReadable, true).
Proof. exact E_C50_visible_fetch. Qed.

(** With UnknownError included the claim is false: its code is 0, so the access passes for a success. *)
Theorem C50_unknown_error_refuted : ~ (forall D (ops : bus_ops D) oc m i a mem1 mem2 mem3 e w m', typed ops -> wf m -> executes ops oc m i mem1 m' ->
  load_address m i = Some a -> a mod 4 = 0 -> passes ops m a mem1 mem2 -> mem_read ops false mem2 a = Ret (mem3, aux_encode e, w) -> aux_wf e ->
  raised m m' mem3 160 (aux_encode e)).
Proof. exact P_C50_unknown_error_refuted. Qed.
Print Assumptions C50_unknown_error_refuted.

(** UnknownError is never visible: it is encoded as 0, which means no exception. *)
Example C50_unknown_error_refuted_example : demo_case (asm [Lsa R_a0 (Lit1 4) (Lit1 0)]) 0 (fun m i mem1 m' =>
  load_address m i = Some 4 /\ R m R_mtt = 0 /\ mem_read (dev_ops false) false mem1 4 = Ret (mem1, aux_encode UnknownError, 0) /\ R m' R_et = 0 /\ R m' R_pc = 4).
Proof. exact E_C50_unknown_error_refuted. Qed.

(** * C52 *)

(** The assembler's flag codes select, in IF and IFN, the flag with their name (ZLF excepted). *)
Theorem C52_flags : forall D (ops : bus_ops D) oc m m1 mem d r carry overflow f neg mem2 m2, typed ops -> wf m1 -> is_u32 r ->
  computes m m1 mem d r carry overflow -> f <> FZeroLower ->
  executes ops oc m1 (if neg : bool then IfN (Lit1 (ar_flag_code f)) else If (Lit1 (ar_flag_code f))) mem2 m2 ->
  exists b, after m1 m2 mem2 [(R_pc, (R m1 R_pc + (if xorb neg b then 4 else 8)) mod 2 ^ 32)] /\ (b = true <-> flag_means f r carry overflow).
Proof. exact P_C52_flags. Qed.
Print Assumptions C52_flags.

Example C52_flags_example : demo_case (asm [Cpy R_a0 (Lit2 3); Sub R_a0 (Lit2 5); If (Lit1 (ar_flag_code FCarry)); Halt]) 2 (fun m i mem1 m' =>
  i = If (Lit1 (ar_flag_code FCarry)) /\ R m R_a0 = 4294967294 /\ flag m 6 = true /\ R m' R_pc = 12).
Proof. exact E_C52_flags. Qed.

(** So do the constants of the crate named after the flags. *)
Theorem C52_flag_constants : forall D (ops : bus_ops D) oc m m1 mem d r carry overflow f neg mem2 m2, typed ops -> wf m1 -> is_u32 r ->
  computes m m1 mem d r carry overflow -> f <> FZeroLower ->
  executes ops oc m1 (if neg : bool then IfN (Lit1 (flag_constant f)) else If (Lit1 (flag_constant f))) mem2 m2 ->
  exists b, after m1 m2 mem2 [(R_pc, (R m1 R_pc + (if xorb neg b then 4 else 8)) mod 2 ^ 32)] /\ (b = true <-> flag_means f r carry overflow).
Proof. exact P_C52_flag_constants. Qed.
Print Assumptions C52_flag_constants.

Example C52_flag_constants_example : exists m m1 m2 mem mem2, reachable (dev_ops false) false m /\ wf m1 /\ is_u32 ((3 - 5) mod 2 ^ 32) /\
  computes m m1 mem R_a0 ((3 - 5) mod 2 ^ 32) (3 - 5 < 0) (~ (- 2 ^ 31 <= signed 3 - signed 5 < 2 ^ 31)) /\ FCarry <> FZeroLower /\
  executes (dev_ops false) false m1 (If (Lit1 (flag_constant FCarry))) mem2 m2 /\ R m2 R_pc = 12.
Proof. exact E_C52_flag_constants. Qed.

(** [ZLF] also selects the flag its name says, bit 6 from the top of the flag register's byte, whatever that flag means (see C11_zlf_refuted). *)
Theorem C52_zlf_constant : forall D (ops : bus_ops D) oc m neg mem1 m', typed ops -> wf m ->
  executes ops oc m (if neg : bool then IfN (Lit1 (flag_constant FZeroLower)) else If (Lit1 (flag_constant FZeroLower))) mem1 m' ->
  after m m' mem1 [(R_pc, (R m R_pc + (if xorb neg (flag m 1) then 4 else 8)) mod 2 ^ 32)].
Proof. exact P_C52_zlf_constant. Qed.
Print Assumptions C52_zlf_constant.

Example C52_zlf_constant_example : demo_case (asm [Cpy R_a0 (Lit2 3); Cmp R_a0 (Lit2 5); If (Lit1 (flag_constant FZeroLower)); Halt]) 2 (fun m i mem1 m' =>
  i = If (Lit1 (flag_constant FZeroLower)) /\ flag m 1 = true /\ R m' R_pc = 12).
Proof. exact E_C52_zlf_constant. Qed.

(** The constants of the crate for division modes, combined with a bitwise or, are the modes of the assembler with these names; the masks
    isolate each of the three. *)
Theorem C52_mode_constants : forall dm,
  let mode := Z.lor (Z.lor (sign_constant (dm_sign dm)) (zero_constant (dm_zero dm))) (overflow_constant (dm_ovf dm)) in
  mode = div_mode_encode dm /\ Z.land mode cst_DIV_SIGN_MODE_MASK = sign_constant (dm_sign dm) /\
  Z.land mode cst_DIV_ZERO_MODE_MASK = zero_constant (dm_zero dm) /\ Z.land mode cst_DIV_OVFW_MODE_MASK = overflow_constant (dm_ovf dm).
Proof. exact P_C52_mode_constants. Qed.
Print Assumptions C52_mode_constants.

Example C52_mode_constants_example : let dm := DivMode DSigned ZEqToMax OEqToZero in
  Z.lor (Z.lor (sign_constant (dm_sign dm)) (zero_constant (dm_zero dm))) (overflow_constant (dm_ovf dm)) = 30 /\ div_mode_encode dm = 30 /\ sign_constant (dm_sign dm) = 16.
Proof. exact E_C52_mode_constants. Qed.

(** Flag, condition and information codes are in bijection with the names. *)
Theorem C52_flag_codes : forall c f, ar_flag_decode c = Some f <-> c = ar_flag_code f.
Proof. exact P_C52_flag_codes. Qed.
Print Assumptions C52_flag_codes.

Example C52_flag_codes_example : ar_flag_decode (ar_flag_code FOverflow) = Some FOverflow /\ ar_flag_code FOverflow <> 0 /\ ar_flag_decode 7 = None.
Proof. exact E_C52_flag_codes. Qed.

(** The codes of the IF2 conditions and their decoding are inverse of each other. *)
Theorem C52_cond_codes : forall c f, if2_cond_decode c = Some f <-> c = if2_cond_code f.
Proof. exact P_C52_cond_codes. Qed.
Print Assumptions C52_cond_codes.

Example C52_cond_codes_example : if2_cond_decode (if2_cond_code CRight) = Some CRight /\ if2_cond_decode 0 = None /\ if2_cond_decode 8 = None.
Proof. exact E_C52_cond_codes. Qed.

(** The codes of the HWD pieces of information and their decoding are inverse of each other. *)
Theorem C52_info_codes : forall c f, hw_info_decode c = Some f <-> c = hw_info_to_code f.
Proof. exact P_C52_info_codes. Qed.
Print Assumptions C52_info_codes.

Example C52_info_codes_example : hw_info_decode (hw_info_to_code HMapStart) = Some HMapStart /\ hw_info_to_code HMapStart <> 0 /\ hw_info_decode 3 = None.
Proof. exact E_C52_info_codes. Qed.

(** The assembler's condition codes combine the flags, in IF2, as their names say. *)
Theorem C52_conditions : forall D (ops : bus_ops D) oc m a b fa fb c mem1 m', typed ops -> wf m ->
  executes ops oc m (If2 a b (Lit1 (if2_cond_code c))) mem1 m' -> operand1 m a = Some (ar_flag_code fa) -> operand1 m b = Some (ar_flag_code fb) ->
  after m m' mem1 [(R_pc, (R m R_pc + (if cond_means c (flag m (7 - ar_flag_code fa)) (flag m (7 - ar_flag_code fb)) then 4 else 8)) mod 2 ^ 32)].
Proof. exact P_C52_conditions. Qed.
Print Assumptions C52_conditions.

Example C52_conditions_example : demo_case (asm [Cpy R_a0 (Lit2 3); Sub R_a0 (Lit2 5); If2 (Lit1 0) (Lit1 1) (Lit1 (if2_cond_code CRight))]) 2 (fun m i mem1 m' =>
  flag m 7 = false /\ flag m 6 = true /\ R m' R_pc = 12).
Proof. exact E_C52_conditions. Qed.

(** The assembler's information codes give, in HWD, what their names say of the component. *)
Theorem C52_hardware_info : forall D (ops : bus_ops D) oc m d id x h e md mem1 m', typed ops -> wf m ->
  executes ops oc m (Hwd d id (Lit1 (hw_info_to_code h))) mem1 m' -> operand1 m id = Some x -> can_write (sup_mode m) d = true ->
  h <> HCount -> znth (mm_hwb mem1) x = Some e -> ac_metadata (ae_cache e) = metadata_words md ->
  match info_means md (ac_name (ae_cache e)) (find (fun mp => mp_aux_id mp =? x) (mm_maps mem1)) h with
  | Some v => after m m' mem1 [(d, v); (R_pc, (R m R_pc + 4) mod 2 ^ 32)]
  | None => raised m m' mem1 18 (x mod 2 ^ 16)   (* not mapped *)
  end.
Proof. exact P_C52_hardware_info. Qed.
Print Assumptions C52_hardware_info.

Example C52_hardware_info_example : demo_case (asm [Hwd R_a0 (Lit1 1) (Lit1 (hw_info_to_code HMapStart))]) 0 (fun m i mem1 m' => R m' R_a0 = 256).
Proof. exact E_C52_hardware_info. Qed.

(** The assembler's division modes: what division by zero gives, and whether operands are signed, as their names say. *)
Theorem C52_division_by_zero : forall D (ops : bus_ops D) oc m i d v is_div dm mem1 m' x, typed ops -> wf m ->
  div_or_mod i d v (Lit1 (div_mode_encode dm)) is_div -> executes ops oc m i mem1 m' -> reg_value m d = Some x -> operand1 m v = Some 0 ->
  can_write (sup_mode m) d = true ->
  match dm_zero dm with
  | ZForbid => raised m m' mem1 10 0
  | ZEqToMin => computes m m' mem1 d ((- 2 ^ 31) mod 2 ^ 32) True True
  | ZEqToZero => computes m m' mem1 d 0 True True
  | ZEqToMax => computes m m' mem1 d (2 ^ 31 - 1) True True
  end.
Proof. exact P_C52_division_by_zero. Qed.
Print Assumptions C52_division_by_zero.

Example C52_division_by_zero_example : demo_case (asm [Div R_a0 (Lit1 0) (Lit1 (div_mode_encode (DivMode DSigned ZEqToMax OForbid)))]) 0 (fun m i mem1 m' =>
  div_or_mod i R_a0 (Lit1 0) (Lit1 28) true /\ R m' R_a0 = 2 ^ 31 - 1).
Proof. exact E_C52_division_by_zero. Qed.

(** The sign constant of a division mode does select unsigned or signed division and remainder. *)
Theorem C52_division_sign : forall D (ops : bus_ops D) oc m i d v is_div dm mem1 m' x y, typed ops -> wf m ->
  div_or_mod i d v (Lit1 (div_mode_encode dm)) is_div -> executes ops oc m i mem1 m' -> reg_value m d = Some x -> operand1 m v = Some y ->
  can_write (sup_mode m) d = true -> y <> 0 ->
  match dm_sign dm with
  | DUnsigned => computes m m' mem1 d (if is_div then x / y else x mod y) False False
  | DSigned => ~ (signed x = - 2 ^ 31 /\ signed y = -1) ->
      computes m m' mem1 d ((if is_div then Z.quot (signed x) (signed y) else Z.rem (signed x) (signed y)) mod 2 ^ 32) False False
  end.
Proof. exact P_C52_division_sign. Qed.
Print Assumptions C52_division_sign.

Example C52_division_sign_example : demo_case (asm [Cpy R_a0 (Lit2 7); Mod R_a0 (Lit1 5) (Lit1 (div_mode_encode (DivMode DUnsigned ZForbid OForbid)))]) 1 (fun m i mem1 m' =>
  div_or_mod i R_a0 (Lit1 5) (Lit1 0) false /\ R m' R_a0 = 2).
Proof. exact E_C52_division_sign. Qed.

(** What [DivByZeroMode::result] says is what the CPU writes on a division by zero, when the mode does not forbid it. *)
Theorem C51_zero_result : forall D (ops : bus_ops D) oc m i d v is_div dm mem1 m' x, typed ops -> wf m ->
  div_or_mod i d v (div_mode_to_val dm) is_div -> executes ops oc m i mem1 m' -> reg_value m d = Some x -> operand1 m v = Some 0 ->
  can_write (sup_mode m) d = true -> dm_zero dm <> ZForbid -> computes m m' mem1 d (div_zero_result (dm_zero dm)) True True.
Proof. exact P_C51_zero_result. Qed.
Print Assumptions C51_zero_result.

Example C51_zero_result_example : demo_case (asm [Div R_a0 (Lit1 0) (div_mode_to_val (div_mode_with_zero div_mode_new ZEqToMin))]) 0 (fun m i mem1 m' =>
  div_or_mod i R_a0 (Lit1 0) (Lit1 4) true /\ R m' R_a0 = div_zero_result ZEqToMin).
Proof. exact E_C51_zero_result. Qed.

(** The default mode: unsigned, and division by zero is refused. *)
Theorem C51_default : forall D (ops : bus_ops D) oc m i d v is_div mem1 m' x y, typed ops -> wf m ->
  div_or_mod i d v (div_mode_to_val div_mode_new) is_div -> executes ops oc m i mem1 m' -> reg_value m d = Some x -> operand1 m v = Some y ->
  can_write (sup_mode m) d = true ->
  if y =? 0 then raised m m' mem1 10 0 else computes m m' mem1 d (if is_div then x / y else x mod y) False False.
Proof. exact P_C51_default. Qed.
Print Assumptions C51_default.

Example C51_default_example : demo_case (asm [Cpy R_a0 (Lit2 7); Mod R_a0 (Lit1 5) (div_mode_to_val div_mode_new)]) 1 (fun m i mem1 m' =>
  div_or_mod i R_a0 (Lit1 5) (Lit1 0) false /\ R m' R_a0 = 2).
Proof. exact E_C51_default. Qed.

(** What the modes say their results are: the least signed number, zero, the greatest signed number. *)
Theorem C51_results : forall z o,
  signed (div_zero_result z) = (match z with ZEqToMin => - 2 ^ 31 | ZForbid | ZEqToZero => 0 | ZEqToMax => 2 ^ 31 - 1 end) /\ is_u32 (div_zero_result z) /\
  signed (div_ovf_result o) = (match o with OEqToMin => - 2 ^ 31 | OForbid | OEqToZero => 0 | OEqToMax => 2 ^ 31 - 1 end) /\ is_u32 (div_ovf_result o).
Proof. exact P_C51_results. Qed.
Print Assumptions C51_results.

Example C51_results_example : div_zero_result ZEqToMax = 2147483647 /\ div_ovf_result OEqToMin = 2147483648.
Proof. exact E_C51_results. Qed.

(** What [DivOverflowMode::result] says is not what the CPU writes when the division overflows. *)
Theorem C51_overflow_result_refuted : ~ (forall D (ops : bus_ops D) oc m i d v is_div dm mem1 m' x y, typed ops -> wf m ->
  div_or_mod i d v (div_mode_to_val dm) is_div -> executes ops oc m i mem1 m' -> reg_value m d = Some x -> operand1 m v = Some y ->
  can_write (sup_mode m) d = true -> dm_sign dm = DSigned -> signed x = - 2 ^ 31 -> signed y = -1 -> dm_ovf dm <> OForbid ->
  R m' d = div_ovf_result (dm_ovf dm)).
Proof. exact P_C51_overflow_result_refuted. Qed.
Print Assumptions C51_overflow_result_refuted.
