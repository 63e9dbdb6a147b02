(** Registers, exceptions, MMU, instructions, CPU cycle and motherboard.
    Models /repo/lrvm/src/cpu/regs.rs, /repo/lrvm/src/cpu/cpu.rs, /repo/lrvm/src/mmu/mmu.rs and
    /repo/lrvm/src/board/board.rs. *)
From Coq Require Import ZArith List Bool Lia.
From Verif Require Import Base Board Mem.
Import ListNotations.
Open Scope Z_scope.

(** Registers (regs.rs:5-50). Arrays are lists (of the lengths in the comment). *)
Record regs : Type := Regs {
  r_a : list Z; (* 8 *) r_c : list Z; (* 2 *) r_ac : list Z; (* 3 *) r_rr : list Z; (* 8 *)
  r_avr : Z; r_af : Z; r_pc : Z; r_ssp : Z; r_usp : Z; r_et : Z; r_era : Z; r_ev : Z;
  r_mtt : Z; r_pda : Z; r_smt : Z }.

(** Registers::new = Default (regs.rs:4, 54-56). *)
Definition regs_new : regs :=
  Regs (repeat 0 8) (repeat 0 2) (repeat 0 3) (repeat 0 8) 0 0 0 0 0 0 0 0 0 0 0.
(** Registers::reset (regs.rs:59-61): [mem::take] leaves the default. *)
Definition regs_reset (r : regs) : regs := regs_new.

(** Field assignments [self.regs.x = v]. *)
Definition set_a (v : list Z) (r : regs) : regs := Regs v (r_c r) (r_ac r) (r_rr r) (r_avr r) (r_af r) (r_pc r) (r_ssp r) (r_usp r) (r_et r) (r_era r) (r_ev r) (r_mtt r) (r_pda r) (r_smt r).
Definition set_c (v : list Z) (r : regs) : regs := Regs (r_a r) v (r_ac r) (r_rr r) (r_avr r) (r_af r) (r_pc r) (r_ssp r) (r_usp r) (r_et r) (r_era r) (r_ev r) (r_mtt r) (r_pda r) (r_smt r).
Definition set_ac (v : list Z) (r : regs) : regs := Regs (r_a r) (r_c r) v (r_rr r) (r_avr r) (r_af r) (r_pc r) (r_ssp r) (r_usp r) (r_et r) (r_era r) (r_ev r) (r_mtt r) (r_pda r) (r_smt r).
Definition set_rr (v : list Z) (r : regs) : regs := Regs (r_a r) (r_c r) (r_ac r) v (r_avr r) (r_af r) (r_pc r) (r_ssp r) (r_usp r) (r_et r) (r_era r) (r_ev r) (r_mtt r) (r_pda r) (r_smt r).
Definition set_avr (v : Z) (r : regs) : regs := Regs (r_a r) (r_c r) (r_ac r) (r_rr r) v (r_af r) (r_pc r) (r_ssp r) (r_usp r) (r_et r) (r_era r) (r_ev r) (r_mtt r) (r_pda r) (r_smt r).
Definition set_af (v : Z) (r : regs) : regs := Regs (r_a r) (r_c r) (r_ac r) (r_rr r) (r_avr r) v (r_pc r) (r_ssp r) (r_usp r) (r_et r) (r_era r) (r_ev r) (r_mtt r) (r_pda r) (r_smt r).
Definition set_pc (v : Z) (r : regs) : regs := Regs (r_a r) (r_c r) (r_ac r) (r_rr r) (r_avr r) (r_af r) v (r_ssp r) (r_usp r) (r_et r) (r_era r) (r_ev r) (r_mtt r) (r_pda r) (r_smt r).
Definition set_ssp (v : Z) (r : regs) : regs := Regs (r_a r) (r_c r) (r_ac r) (r_rr r) (r_avr r) (r_af r) (r_pc r) v (r_usp r) (r_et r) (r_era r) (r_ev r) (r_mtt r) (r_pda r) (r_smt r).
Definition set_usp (v : Z) (r : regs) : regs := Regs (r_a r) (r_c r) (r_ac r) (r_rr r) (r_avr r) (r_af r) (r_pc r) (r_ssp r) v (r_et r) (r_era r) (r_ev r) (r_mtt r) (r_pda r) (r_smt r).
Definition set_et (v : Z) (r : regs) : regs := Regs (r_a r) (r_c r) (r_ac r) (r_rr r) (r_avr r) (r_af r) (r_pc r) (r_ssp r) (r_usp r) v (r_era r) (r_ev r) (r_mtt r) (r_pda r) (r_smt r).
Definition set_era (v : Z) (r : regs) : regs := Regs (r_a r) (r_c r) (r_ac r) (r_rr r) (r_avr r) (r_af r) (r_pc r) (r_ssp r) (r_usp r) (r_et r) v (r_ev r) (r_mtt r) (r_pda r) (r_smt r).
Definition set_ev (v : Z) (r : regs) : regs := Regs (r_a r) (r_c r) (r_ac r) (r_rr r) (r_avr r) (r_af r) (r_pc r) (r_ssp r) (r_usp r) (r_et r) (r_era r) v (r_mtt r) (r_pda r) (r_smt r).
Definition set_mtt (v : Z) (r : regs) : regs := Regs (r_a r) (r_c r) (r_ac r) (r_rr r) (r_avr r) (r_af r) (r_pc r) (r_ssp r) (r_usp r) (r_et r) (r_era r) (r_ev r) v (r_pda r) (r_smt r).
Definition set_pda (v : Z) (r : regs) : regs := Regs (r_a r) (r_c r) (r_ac r) (r_rr r) (r_avr r) (r_af r) (r_pc r) (r_ssp r) (r_usp r) (r_et r) (r_era r) (r_ev r) (r_mtt r) v (r_smt r).
Definition set_smt (v : Z) (r : regs) : regs := Regs (r_a r) (r_c r) (r_ac r) (r_rr r) (r_avr r) (r_af r) (r_pc r) (r_ssp r) (r_usp r) (r_et r) (r_era r) (r_ev r) (r_mtt r) (r_pda r) v.

(** Op (cpu.rs:948-959). *)
Inductive op : Type :=
| OpAdd | OpSub | OpMul | OpDiv (mode : Z) | OpMod (mode : Z) | OpAnd | OpBor | OpXor | OpShl | OpShr.

(** MemAction (mmu.rs:109-113). *)
Inductive mem_action : Type := ActRead | ActWrite | ActExec.

(** EntryDecodingResult (mmu.rs:7-12). *)
Inductive entry_res : Type := EDecoded (v : Z) | EPassThrough | EPermNotSet | EHwException (ex : Z).

(** Cpu (cpu.rs:10-25). The stateless [mmu] field is dropped; [hwb] is the bridge of [mem]
    (board.rs:34-37: both are built over the same shared components). *)
Record cpu (D : Type) : Type := Cpu {
  c_regs : regs; c_mem : memory D; c_cycles : Z; c_halted : bool; c_chg : bool }.
Arguments Cpu {D}. Arguments c_regs {D}. Arguments c_mem {D}. Arguments c_cycles {D}.
Arguments c_halted {D}. Arguments c_chg {D}.

Definition with_regs {D} (f : regs -> regs) (m : cpu D) : cpu D :=
  Cpu (f (c_regs m)) (c_mem m) (c_cycles m) (c_halted m) (c_chg m).
Definition with_mem {D} (x : memory D) (m : cpu D) : cpu D :=
  Cpu (c_regs m) x (c_cycles m) (c_halted m) (c_chg m).
Definition with_cycles {D} (n : Z) (m : cpu D) : cpu D :=
  Cpu (c_regs m) (c_mem m) n (c_halted m) (c_chg m).
Definition with_halted {D} (b : bool) (m : cpu D) : cpu D :=
  Cpu (c_regs m) (c_mem m) (c_cycles m) b (c_chg m).
Definition with_chg {D} (b : bool) (m : cpu D) : cpu D :=
  Cpu (c_regs m) (c_mem m) (c_cycles m) (c_halted m) b.
Definition c_hwb {D} (m : cpu D) : hwb D := mm_hwb (c_mem m).

(** Result of a CPU method returning [Result<T, ()>] on [&mut self]: value and new state,
    [Err(())] and new state, or a panic. *)
Inductive cres (D A : Type) : Type :=
| COk (a : A) (m : cpu D)
| CErr (m : cpu D)
| CPanic.
Arguments COk {D A}. Arguments CErr {D A}. Arguments CPanic {D A}.

Definition cbind {D A B : Type} (x : cres D A) (f : A -> cpu D -> cres D B) : cres D B :=
  match x with COk a m => f a m | CErr m => CErr m | CPanic => CPanic end.

(** Sequencing with [?]: [doc v, m <- e ; k]. *)
Notation "'doc' p , m <- e ; k" := (cbind e (fun p m => k))
  (at level 200, p pattern, m name, e at level 100, k at level 200).

(** Inside a CPU method, a sub-computation that may only panic. *)
Definition cpure {D A B : Type} (x : outcome A) (f : A -> cres D B) : cres D B :=
  match x with Ret a => f a | Panic => CPanic end.
Notation "'dop' p <- e ; k" := (cpure e (fun p => k))
  (at level 200, p pattern, e at level 100, k at level 200).

(** Rust [i32::overflowing_*] overflow tests: the exact signed result leaves [i32]. *)
Definition i32_fits (x : Z) : bool := (-2147483648 <=? x) && (x <=? 2147483647).

(** Arithmetic flags loop (cpu.rs:744-767): flag number [bit] contributes [1 << (7 - bit)]. *)
Fixpoint flags_sum (bit : Z) (flags : list bool) : Z :=
  match flags with
  | [] => 0
  | f :: t => (if f then 2 ^ (7 - bit) else 0) + flags_sum (bit + 1) t
  end.

Definition flags_of (result : Z) (has_carry has_overflow : bool) : Z :=
  flags_sum 0
    [ result =? 0;                                  (* zero *)
      has_carry; has_overflow;
      Z.land (Z.shiftr result 31) 1 =? 1;           (* sign *)
      Z.land result 1 =? 0;                         (* even *)
      result <=? 65535;                             (* zero-upper *)
      trailing_zeros (Z.shiftr result 16) =? 0 ].   (* zero-lower, cpu.rs:760 *)

(** The match of [compute] (cpu.rs:654-740): result, carry, overflow, or the exception code to raise.
    [overflowing_shl/shr] shift by the count modulo 32 and report a count >= 32.
    [i32] division truncates: [Z.quot], [Z.rem]. *)
Definition compute_core (op1 op2 : Z) (o : op) : Z * bool * bool + Z :=
  let iop1 := i32 op1 in
  let iop2 := i32 op2 in
  let divmod (is_div : bool) (mode : Z) : Z * bool * bool + Z :=
    let signed := negb (Z.land mode 16 =? 0) in
    if iop2 =? 0 then
      match Z.shiftr (Z.land mode 12) 2 with
      | 0 => inr 10
      | 1 => inl (2147483648, true, true)
      | 2 => inl (0, true, true)
      | _ => inl (2147483647, true, true)
      end
    else if signed && (iop1 =? -2147483648) && (iop2 =? -1) then
      match Z.shiftr (Z.land mode 3) 2 with
      | 0 => inr 11
      | 1 => inl (2147483648, true, true)
      | 2 => inl (0, true, true)
      | _ => inl (2147483647, true, true)
      end
    else
      match is_div, signed with
      | true, true => inl (u32 (Z.quot iop1 iop2), false, false)
      | false, true => inl (u32 (Z.rem iop1 iop2), false, false)
      | true, false => inl (op1 / op2, false, false)
      | false, false => inl (op1 mod op2, false, false)
      end in
  match o with
  | OpAdd => inl (u32 (op1 + op2), 4294967296 <=? op1 + op2, negb (i32_fits (iop1 + iop2)))
  | OpSub => inl (u32 (op1 - op2), op1 <? op2, negb (i32_fits (iop1 - iop2)))
  | OpMul => let c := negb (i32_fits (iop1 * iop2)) in inl (u32 (iop1 * iop2), c, c)
  | OpDiv mode => divmod true mode
  | OpMod mode => divmod false mode
  | OpAnd => inl (Z.land op1 op2, false, false)
  | OpBor => inl (Z.lor op1 op2, false, false)
  | OpXor => inl (Z.lxor op1 op2, false, false)
  | OpShl => let c := 32 <=? op2 in inl (u32 (Z.shiftl op1 (op2 mod 32)), c, c)
  | OpShr => let c := 32 <=? op2 in inl (Z.shiftr op1 (op2 mod 32), c, c)
  end.

Section CpuModel.
Context {D : Type} (ops : bus_ops D) (oc : bool).

(** Cpu::new (cpu.rs:29-44). *)
Definition cpu_new (mem : memory D) : cpu D :=
  Cpu (set_smt 1 regs_new) mem 0 true false.

(** Cpu::reset (cpu.rs:47-53). *)
Definition cpu_reset (m : cpu D) : cpu D :=
  Cpu (set_smt 1 (regs_reset (c_regs m))) (c_mem m) 0 false true.

(** Cpu::sv_mode (cpu.rs:773-775). *)
Definition sv_mode (m : cpu D) : bool := negb (r_smt (c_regs m) =? 0).

(** Cpu::exception (cpu.rs:779-793); [associated] is the [u16] payload (0 for [None]).
    The sum of disjoint bit fields cannot overflow. *)
Definition exception (code associated : Z) (m : cpu D) : cpu D :=
  let et := (if sv_mode m then 16777216 else 0) + code * 65536 + associated in
  let r1 := set_et et (c_regs m) in
  let r2 := set_pc (r_ev r1) r1 in
  let r3 := set_smt 1 r2 in
  Cpu r3 (c_mem m) (c_cycles m) (c_halted m) true.

(** Cpu::read_reg (cpu.rs:561-595). *)
Definition read_reg (code : Z) (m : cpu D) : cres D Z :=
  let r := c_regs m in
  if (24 <=? code) && negb (sv_mode m) then CErr (exception 3 code m)
  else if code <=? 7 then dop v <- unwrap (znth (r_a r) code); COk v m
  else if code <=? 9 then dop v <- unwrap (znth (r_c r) (code - 8)); COk v m
  else if code <=? 12 then dop v <- unwrap (znth (r_ac r) (code - 10)); COk v m
  else if code <=? 20 then dop v <- unwrap (znth (r_rr r) (code - 13)); COk v m
  else match code with
       | 21 => COk (r_avr r) m
       | 22 => COk (r_pc r) m
       | 23 => COk (r_af r) m
       | 24 => COk (r_ssp r) m
       | 25 => COk (r_usp r) m
       | 26 => COk (r_et r) m
       | 27 => COk (r_era r) m
       | 28 => COk (r_ev r) m
       | 29 => COk (r_mtt r) m
       | 30 => COk (r_pda r) m
       | 31 => COk (r_smt r) m
       | _ => CErr (exception 2 code m)
       end.

(** Cpu::write_reg (cpu.rs:600-649). *)
Definition write_reg (code word : Z) (m : cpu D) : cres D unit :=
  let r := c_regs m in
  if (23 <=? code) && negb (sv_mode m) then CErr (exception 4 code m)
  else if (code =? 23) || (code =? 26) || (code =? 27) then CErr (exception 4 code m)
  else
    let m := if code =? 22 then with_chg true m else m in
    let upd f := COk tt (with_regs f m) in
    if code <=? 7 then dop v <- unwrap (zset (r_a r) code word); upd (set_a v)
    else if code <=? 9 then dop v <- unwrap (zset (r_c r) (code - 8) word); upd (set_c v)
    else if code <=? 12 then dop v <- unwrap (zset (r_ac r) (code - 10) word); upd (set_ac v)
    else if code <=? 20 then dop v <- unwrap (zset (r_rr r) (code - 13) word); upd (set_rr v)
    else match code with
         | 21 => upd (set_avr word)
         | 22 => upd (set_pc word)
         | 23 => upd (set_af word)
         | 24 => upd (set_ssp word)
         | 25 => upd (set_usp word)
         | 26 => upd (set_et word)
         | 27 => upd (set_era word)
         | 28 => upd (set_ev word)
         | 29 => upd (set_mtt word)
         | 30 => upd (set_pda word)
         | 31 => upd (set_smt word)
         | _ => CErr (exception 2 code m)
         end.

(** Cpu::compute (cpu.rs:653-770). *)
Definition compute (op1 op2 : Z) (o : op) (m : cpu D) : cres D Z :=
  match compute_core op1 op2 o with
  | inr code => CErr (exception code 0 m)
  | inl (result, carry, ovf) => COk result (with_regs (set_af (flags_of result carry ovf)) m)
  end.

(** Mmu::decode_entry (mmu.rs:19-60). *)
Definition decode_entry (mem : memory D) (r : regs) (entry_addr : Z) (act : mem_action)
  : outcome (memory D * entry_res) :=
  do! (mem', ex, v) <- mem_read ops oc mem entry_addr;
  if negb (ex =? 0) then Ret (mem', EHwException ex)
  else if Z.land v (Z.shiftl 1 (if negb (r_smt r =? 0) then 31 else 30)) =? 0
  then Ret (mem', EPassThrough)
  else
    let mode_shift := if negb (r_smt r =? 0) then 3 else 0 in
    let action_shift := match act with ActRead => 2 | ActWrite => 1 | ActExec => 0 end in
    if Z.land v (Z.shiftl 1 (24 + action_shift + mode_shift)) =? 1
    then Ret (mem', EDecoded (Z.land v 16777215))
    else Ret (mem', EPermNotSet).

(** Result<u32, Option<u16>> of Mmu::translate. *)
Inductive trans_res : Type := TOk (p_addr : Z) | TRefused | THw (ex : Z).

(** Mmu::translate (mmu.rs:62-104). [wrapping_shl(10) >> 22] keeps bits 12..21. *)
Definition translate (mem : memory D) (r : regs) (v_addr : Z) (act : mem_action)
  : outcome (memory D * trans_res) :=
  if r_mtt r =? 0 then Ret (mem, TOk v_addr)
  else
    let vpi_entry_number := Z.land v_addr 1023 in
    do! off <- mul_u32 oc vpi_entry_number 4;
    do! vpi_entry_addr <- add_u32 oc (r_pda r) off;
    do! (mem1, e1) <- decode_entry mem r vpi_entry_addr act;
    match e1 with
    | EPassThrough => Ret (mem1, TOk v_addr)
    | EPermNotSet => Ret (mem1, TRefused)
    | EHwException ex => Ret (mem1, THw ex)
    | EDecoded v_page_number =>
        do! v_page_addr <- mul_u32 oc v_page_number 16384;
        do! off2 <- mul_u32 oc (Z.shiftr (u32 (Z.shiftl v_addr 10)) 22) 4;
        do! v_page_entry_addr <- add_u32 oc v_page_addr off2;
        do! (mem2, e2) <- decode_entry mem1 r v_page_entry_addr act;
        match e2 with
        | EPassThrough => Ret (mem2, TOk v_addr)
        | EPermNotSet => Ret (mem2, TRefused)
        | EHwException ex => Ret (mem2, THw ex)
        | EDecoded p_page_number =>
            do! pp <- mul_u32 oc p_page_number 1024;
            do! p <- add_u32 oc pp (Z.land v_addr 1023);
            Ret (mem2, TOk p)
        end
    end.

(** Cpu::ensure_aligned (cpu.rs:796-803). *)
Definition ensure_aligned (v_addr : Z) (m : cpu D) : cres D Z :=
  if v_addr mod 4 =? 0 then COk v_addr m else CErr (exception 5 (v_addr mod 4) m).

(** Cpu::mem_do (cpu.rs:813-847); the handler works on the mapped memory. *)
Definition mem_do {A : Type} (act : mem_action) (v_addr : Z)
    (handler : memory D -> Z -> outcome (memory D * Z * A)) (m : cpu D) : cres D A :=
  doc v_addr, m <- ensure_aligned v_addr m;
  dop (mem', t) <- translate (c_mem m) (c_regs m) v_addr act;
  let m := with_mem mem' m in
  match t with
  | TOk p_addr =>
      dop (mem'', ex, ret) <- handler (c_mem m) p_addr;
      let m := with_mem mem'' m in
      if negb (ex =? 0) then CErr (exception 160 ex m) else COk ret m
  | TRefused => CErr (exception 6 (u16 v_addr) m)
  | THw ex => CErr (exception 160 ex m)
  end.

(** Cpu::mem_read, mem_write, mem_exec (cpu.rs:851-871). *)
Definition cpu_mem_read (v_addr : Z) (m : cpu D) : cres D Z :=
  mem_do ActRead v_addr (mem_read ops oc) m.
Definition cpu_mem_write (v_addr word : Z) (m : cpu D) : cres D unit :=
  mem_do ActWrite v_addr
    (fun mem p => do! (mem', ex) <- mem_write ops oc mem p word; Ret (mem', ex, tt)) m.
Definition cpu_mem_exec (v_addr : Z) (m : cpu D) : cres D Z :=
  mem_do ActExec v_addr (mem_read ops oc) m.

(** [name_bytes.next().unwrap_or(0)] four times after [skip(n)] (cpu.rs:899-905). *)
Definition name_word (name : list Z) (k : Z) : Z :=
  let l := skipn (Z.to_nat (k * 4)) (utf8 name) in
  of_be4 (nth 0 l 0) (nth 1 l 0) (nth 2 l 0) (nth 3 l 0).

(** Cpu::get_hw_info (cpu.rs:874-943). *)
Definition get_hw_info (hw_info aux_id : Z) (m : cpu D) : cres D Z :=
  match cache_of (c_hwb m) aux_id with
  | None => CErr (exception 16 (u16 aux_id) m)
  | Some cache =>
      let mapping_opt := get_mapping (mm_maps (c_mem m)) aux_id in
      let md := ac_metadata cache in
      if (17 <=? hw_info) && (hw_info <=? 24)
      then COk (name_word (ac_name cache) (hw_info - 17)) m
      else match hw_info with
      | 1 => COk (w0 md) m
      | 2 => COk (w1 md) m
      | 16 => COk (str_len (ac_name cache)) m
      | 32 => COk (w2 md) m
      | 33 => COk (w3 md) m
      | 34 => COk (w4 md) m
      | 35 => COk (w5 md) m
      | 36 => COk (w6 md) m
      | 37 => COk (w7 md) m
      | 160 => COk (match mapping_opt with Some _ => 1 | None => 0 end) m
      | 161 => match mapping_opt with
               | Some mp => COk (mp_addr mp) m
               | None => CErr (exception 18 (u16 aux_id) m)
               end
      | 162 => match mapping_opt with
               | Some mp => dop e <- end_addr oc mp; COk e m
               | None => CErr (exception 18 (u16 aux_id) m)
               end
      | _ => CErr (exception 17 (u16 hw_info) m)
      end
  end.

(** [for id in 0..count { if test(id) { hwb.reset(id).unwrap() } }] (cpu.rs:507-509, 536-540);
    also the loop of MotherBoard::reset (board.rs:64-66). *)
Fixpoint reset_loop (test : Z -> bool) (ids : list Z) (h : hwb D) : outcome (hwb D) :=
  match ids with
  | [] => Ret h
  | id :: t =>
      if test id then
        do! r <- hwb_reset ops h id;
        do! h' <- unwrap r;
        reset_loop test t h'
      else reset_loop test t h
  end.
Definition reset_where (test : Z -> bool) (h : hwb D) : outcome (hwb D) :=
  reset_loop test (zrange (length h)) h.

(** [__reg_or_lit] (cpu.rs:198-220) for a 1-byte operand and a 2-byte operand. *)
Definition reg_or_lit1 (is_reg : bool) (p : Z) (m : cpu D) : cres D Z :=
  if is_reg then read_reg p m else COk p m.
Definition reg_or_lit2 (is_reg : bool) (p q : Z) (m : cpu D) : cres D Z :=
  if is_reg then read_reg p m else COk (of_be2 p q) m.

(** Binary operation selected by an opcode (cpu.rs:257-267); [unreachable!] is a panic. *)
Definition op_of_opcode (opcode : Z) : option op :=
  match opcode with
  | 3 => Some OpAdd | 4 => Some OpSub | 5 => Some OpMul
  | 8 => Some OpAnd | 9 => Some OpBor | 10 => Some OpXor | 11 => Some OpShl | 12 => Some OpShr
  | _ => None
  end.

(** Stack pointer of the current mode and its update (cpu.rs:418-426, 452-460). *)
Definition sp (m : cpu D) : Z := if sv_mode m then r_ssp (c_regs m) else r_usp (c_regs m).
Definition set_sp (v : Z) (m : cpu D) : cpu D :=
  if sv_mode m then with_regs (set_ssp v) m else with_regs (set_usp v) m.

(** [self.regs.af & (1 << (7 - flag)) != 0] with an unchecked flag (cpu.rs:350). *)
Definition af_test (flag : Z) (m : cpu D) : outcome bool :=
  do! n <- sub_u32 oc 7 flag;
  do! b <- shl1_u32 oc n;
  Ret (negb (Z.land (r_af (c_regs m)) b =? 0)).

(** Cpu::run_instr (cpu.rs:117-557). [b0 b1 b2] are [opregs], [p0 p1 p2] are [params]. *)
Definition run_instr (opcode : Z) (b0 b1 b2 : bool) (p0 p1 p2 : Z) (m : cpu D) : cres D unit :=
  match opcode with
  | 0 => CErr (exception 1 opcode m)
  | 1 => (* CPY *)
      doc value, m <- reg_or_lit2 b1 p1 p2 m;
      write_reg p0 value m
  | 2 => (* EX *)
      doc pivot_a, m <- read_reg p0 m;
      doc vb, m <- read_reg p1 m;
      doc _, m <- write_reg p0 vb m;
      write_reg p1 pivot_a m
  | 3 | 4 | 5 | 8 | 9 | 10 | 11 | 12 => (* ADD SUB MUL AND BOR XOR SHL SHR *)
      doc value, m <- reg_or_lit2 b1 p1 p2 m;
      let value := if ((opcode =? 11) || (opcode =? 12)) && negb b1
                   then Z.shiftr value 8 else value in
      doc reg_value, m <- read_reg p0 m;
      dop o <- unwrap (op_of_opcode opcode);
      doc res, m <- compute reg_value value o m;
      write_reg p0 res m
  | 6 => (* DIV *)
      doc value, m <- reg_or_lit1 b1 p1 m;
      doc mode, m <- reg_or_lit1 b2 p2 m;
      doc reg_value, m <- read_reg p0 m;
      doc res, m <- compute reg_value value (OpDiv (u8 (Z.land mode 255))) m;
      write_reg p0 res m
  | 7 => (* MOD *)
      doc value, m <- reg_or_lit1 b1 p1 m;
      doc mode, m <- reg_or_lit1 b2 p2 m;
      doc reg_value, m <- read_reg p0 m;
      doc res, m <- compute reg_value value (OpMod (u8 (Z.land mode 255))) m;
      write_reg p0 res m
  | 13 => (* CMP *)
      doc value, m <- reg_or_lit2 b1 p1 p2 m;
      doc reg_value, m <- read_reg p0 m;
      doc _, m <- compute reg_value value OpSub m;
      COk tt m
  | 14 => (* JPR *)
      doc v, m <- reg_or_lit2 b0 p0 p1 m;
      let bytes := i16 v in
      COk tt (with_chg true (with_regs (set_pc (wrapping_add (r_pc (c_regs m)) (u32 bytes))) m))
  | 15 => (* LSM *)
      if sv_mode m then
        doc v, m <- reg_or_lit2 b0 p0 p1 m;
        COk tt (with_regs (set_smt 0) (with_regs (set_pc v) m))
      else CErr (exception 9 opcode m)
  | 16 => (* ITR *)
      doc itr_code, m <- reg_or_lit1 b0 p0 m;
      COk tt (exception 240 (u16 itr_code) m)
  | 17 | 18 => (* IF, IFN *)
      doc flag, m <- reg_or_lit1 b0 p0 m;
      if 7 <? flag then CErr (exception 12 (u16 (u8 flag)) m)
      else
        let is_flag_set := negb (Z.land (r_af (c_regs m)) (2 ^ (7 - flag)) =? 0) in
        if negb (Bool.eqb is_flag_set (opcode =? 17))
        then COk tt (with_regs (set_pc (wrapping_add (r_pc (c_regs m)) 4)) m)
        else COk tt m
  | 19 => (* IF2 *)
      doc fa, m <- reg_or_lit1 b0 p0 m;
      doc fb, m <- reg_or_lit1 b1 p1 m;
      doc cond, m <- reg_or_lit1 b2 p2 m;
      dop a <- af_test fa m;
      dop b <- af_test fb m;
      let result :=
        match cond with
        | 1 => Some (a || b)
        | 2 => Some (a && b)
        | 3 => Some (xorb a b)
        | 4 => Some (negb a && negb b)
        | 5 => Some (negb (a && b))
        | 6 => Some (a && negb b)
        | 7 => Some (b && negb a)
        | _ => None
        end in
      match result with
      | None => CErr (exception 13 (u16 (u8 cond)) m)
      | Some true => COk tt m
      | Some false => COk tt (with_regs (set_pc (wrapping_add (r_pc (c_regs m)) 4)) m)
      end
  | 20 => (* LSA *)
      doc v_addr, m <- reg_or_lit1 b1 p1 m;
      doc add, m <- reg_or_lit1 b2 p2 m;
      doc word, m <- cpu_mem_read (wrapping_add v_addr add) m;
      write_reg p0 word m
  | 21 => (* LEA *)
      doc v_addr, m <- reg_or_lit1 b0 p0 m;
      doc add, m <- reg_or_lit1 b1 p1 m;
      doc mul, m <- reg_or_lit1 b2 p2 m;
      doc word, m <- cpu_mem_read (wrapping_add v_addr (wrapping_mul add mul)) m;
      COk tt (with_regs (set_avr word) m)
  | 22 => (* WSA *)
      doc v_addr, m <- reg_or_lit1 b0 p0 m;
      doc add, m <- reg_or_lit1 b1 p1 m;
      doc val, m <- reg_or_lit1 b2 p2 m;
      cpu_mem_write (wrapping_add v_addr add) val m
  | 23 => (* WEA *)
      doc v_addr, m <- reg_or_lit1 b0 p0 m;
      doc add, m <- reg_or_lit1 b1 p1 m;
      doc mul, m <- reg_or_lit1 b2 p2 m;
      cpu_mem_write (wrapping_add v_addr (wrapping_mul add mul)) (r_avr (c_regs m)) m
  | 24 => (* SRM *)
      doc v_addr, m <- reg_or_lit1 b0 p0 m;
      doc add, m <- reg_or_lit1 b1 p1 m;
      dop addr <- add_u32 oc v_addr add;
      doc old_word, m <- cpu_mem_read addr m;
      doc to_write, m <- read_reg p2 m;
      doc _, m <- cpu_mem_write addr to_write m;
      write_reg p2 old_word m
  | 25 => (* PUSH *)
      doc word, m <- reg_or_lit2 b0 p0 p1 m;
      let stack_v_addr := wrapping_sub (sp m) 4 in
      doc _, m <- cpu_mem_write stack_v_addr word m;
      COk tt (set_sp stack_v_addr m)
  | 26 => (* POP *)
      doc word, m <- (doc word, m <- cpu_mem_read (sp m) m;
                      COk word (set_sp (wrapping_add (sp m) 4) m));
      write_reg p0 word m
  | 27 => (* CALL *)
      doc jmp, m <- reg_or_lit2 b0 p0 p1 m;
      let stack_v_addr := wrapping_sub (sp m) 4 in
      dop ret <- add_u32 oc (r_pc (c_regs m)) 4;
      doc _, m <- cpu_mem_write stack_v_addr ret m;
      let m := set_sp stack_v_addr m in
      COk tt (with_chg true (with_regs (set_pc jmp) m))
  | 28 => (* HWD *)
      doc aux_id, m <- reg_or_lit1 b1 p1 m;
      doc hw_info, m <- reg_or_lit1 b2 p2 m;
      if (aux_id =? 0) && (hw_info =? 0) then write_reg p0 (u32 (hwb_count (c_hwb m))) m
      else
        doc data, m <- get_hw_info hw_info aux_id m;
        write_reg p0 data m
  | 29 => (* CYCLES *) write_reg p0 (u32 (c_cycles m)) m
  | 30 => (* HALT *) COk tt (with_halted true m)
  | 31 => (* RESET *)
      doc mode, m <- reg_or_lit1 b0 p0 m;
      let cpu_mode := u8 (Z.land mode 240) in
      let aux_mode := u8 (Z.land mode 15) in
      let avr := r_avr (c_regs m) in
      let upd (h : hwb D) (m : cpu D) := with_mem (Memory h (mm_maps (c_mem m))) m in
      doc _, m <-
        match aux_mode with
        | 0 => dop h <- reset_where (fun _ => true) (c_hwb m); COk tt (upd h m)
        | 1 => dop r <- hwb_reset ops (c_hwb m) avr;
               match r with
               | Some h => COk tt (upd h m)
               | None => CErr (exception 16 (u16 avr) m)
               end
        | 2 => dop h <- reset_where (fun id => negb (id =? avr)) (c_hwb m); COk tt (upd h m)
        | 3 => dop h <- reset_where (fun id => id <? avr) (c_hwb m); COk tt (upd h m)
        | 4 => dop h <- reset_where (fun id => avr <? id) (c_hwb m); COk tt (upd h m)
        | _ => COk tt m
        end;
      if cpu_mode =? 0 then COk tt (cpu_reset m) else COk tt m
  | _ => CPanic
  end.

(** Cpu::next (cpu.rs:60-101). Cycles are a [u128]. *)
Definition next (m : cpu D) : outcome (cpu D) :=
  if c_halted m then Ret m
  else
    let m := with_cycles ((c_cycles m + 1) mod two128) m in
    match cpu_mem_exec (r_pc (c_regs m)) m with
    | CPanic => Panic
    | CErr m => Ret m
    | COk w m =>
        let i0 := u8 (Z.shiftr w 24) in
        let i1 := u8 (Z.shiftr w 16) in
        let i2 := u8 (Z.shiftr w 8) in
        let i3 := u8 w in
        let opcode := Z.shiftr i0 3 in
        let m := with_chg false m in
        match run_instr opcode (negb (Z.land i0 4 =? 0)) (negb (Z.land i0 2 =? 0))
                        (negb (Z.land i0 1 =? 0)) i1 i2 i3 m with
        | CPanic => Panic
        | CErr m => Ret m
        | COk _ m =>
            if c_chg m then Ret m
            else Ret (with_regs (set_pc (wrapping_add (r_pc (c_regs m)) 4)) m)
        end
    end.

(** Repeated [cpu.next()]. *)
Fixpoint run (n : nat) (m : cpu D) : outcome (cpu D) :=
  match n with
  | O => Ret m
  | S k => do! m' <- next m; run k m'
  end.

(** MotherBoard::new (board.rs:22-40). A motherboard is its CPU: the component list [aux] is the
    component list of the bridge. *)
Definition board_new (ds : list D) : outcome (cpu D) :=
  do! h <- hwb_new ops ds;
  Ret (cpu_new (Memory h [])).

(** MotherBoard::map (board.rs:49-51), for a mapper working on the memory. *)
Definition board_map {A : Type} (f : memory D -> outcome (memory D * A)) (m : cpu D)
  : outcome (cpu D * A) :=
  do! (mem, a) <- f (c_mem m); Ret (with_mem mem m, a).

(** MotherBoard::reset (board.rs:61-67): components never fail to be found. *)
Definition board_reset (m : cpu D) : outcome (cpu D) :=
  let m := cpu_reset m in
  do! h <- reset_where (fun _ => true) (c_hwb m);
  Ret (with_mem (Memory h (mm_maps (c_mem m))) m).

(** MotherBoard::count (board.rs:70-72). *)
Definition board_count (m : cpu D) : Z := zlen (c_hwb m).

End CpuModel.
