(** Specification of the instruction set, written from the documentation of the architecture, over the
    assembler's instruction syntax, a 32-entry register file and an abstract bus.
    It describes the wrapping (release) semantics. Deviations of the code from the documentation that
    the specification follows are marked "as implemented"; they are the subject of the [_refuted]
    theorems. *)
From Coq Require Import ZArith List Bool Lia.
From Verif Require Import Base Board Mem Cpu Asm SpecMach.
Import ListNotations.
Open Scope Z_scope.

(** Signed reading of a 32-bit word. *)
Definition signed (x : Z) : Z := if x <? 2147483648 then x else x - 4294967296.
Definition fits_signed (x : Z) : bool := (-2147483648 <=? x) && (x <? 2147483648).
Definition m32 (x : Z) : Z := x mod 4294967296.

(** The exceptions a cycle can raise: code, and 16-bit data (smaller for most codes). *)
Definition ex_code (c : Z) : Prop := 1 <= c <= 6 \/ 9 <= c <= 13 \/ 16 <= c <= 18 \/ c = 160 \/ c = 240.
Definition ex_data (c d : Z) : Prop :=
  0 <= d < 65536 /\ (c <= 4 \/ c = 12 \/ c = 13 -> d < 256) /\ (c = 5 -> d < 4) /\ (c = 9 -> d = 15) /\
  (c = 10 \/ c = 11 -> d = 0).

(** Register access rights. *)
Definition user_reg (r : reg) : bool :=
  match r with
  | R_ssp | R_usp | R_et | R_era | R_ev | R_mtt | R_pda | R_smt => false
  | _ => true
  end.
Definition read_only (r : reg) : bool :=
  match r with R_af | R_et | R_era => true | _ => false end.
Definition can_read (sup : bool) (r : reg) : bool := sup || user_reg r.
Definition can_write (sup : bool) (r : reg) : bool := negb (read_only r) && (sup || user_reg r).

(** ALU: result, carry, overflow; [None] cases are exceptions (with their code). *)
Inductive alu : Type :=
| AAdd | ASub | AMul | AAnd | ABor | AXor | AShl | AShr | ADiv (mode : Z) | AMod (mode : Z).

(** Bits 3..2 of a division mode select what a division by zero gives. *)
Definition by_zero (mode : Z) : option Z :=
  if Z.testbit mode 3 then
    if Z.testbit mode 2 then Some 2147483647 (* max *) else Some 0
  else
    if Z.testbit mode 2 then Some 2147483648 (* min *) else None.

Inductive alu_res : Type := AluOk (result : Z) (carry overflow : bool) | AluFault (code : Z).

Definition divide (is_div : bool) (mode x y : Z) : alu_res :=
  if y =? 0 then
    match by_zero mode with
    | Some r => AluOk r true true
    | None => AluFault 10 (* 0x0A *)
    end
  else if Z.testbit mode 4 then
    if (signed x =? -2147483648) && (signed y =? -1)
    then AluFault 11 (* 0x0B whatever bits 1..0 say: as implemented, see C10 *)
    else AluOk (m32 (if is_div then Z.quot (signed x) (signed y) else Z.rem (signed x) (signed y)))
               false false
  else AluOk (if is_div then x / y else x mod y) false false.

Definition alu_spec (a : alu) (x y : Z) : alu_res :=
  match a with
  | AAdd => AluOk (m32 (x + y)) (4294967296 <=? x + y) (negb (fits_signed (signed x + signed y)))
  | ASub => AluOk (m32 (x - y)) (x <? y) (negb (fits_signed (signed x - signed y)))
  | AMul => let ovf := negb (fits_signed (signed x * signed y)) in AluOk (m32 (x * y)) ovf ovf
  | AAnd => AluOk (Z.land x y) false false
  | ABor => AluOk (Z.lor x y) false false
  | AXor => AluOk (Z.lxor x y) false false
  | AShl => let big := 32 <=? y in AluOk (m32 (x * 2 ^ (y mod 32))) big big
  | AShr => let big := 32 <=? y in AluOk (x / 2 ^ (y mod 32)) big big
  | ADiv mode => divide true mode x y
  | AMod mode => divide false mode x y
  end.

(** Flags register after an operation: ZF, CF, OF, SF, EF, ZUF, ZLF from bit 7 down to bit 1.
    ZLF tests bit 16 of the result: as implemented, see C11. *)
Definition flag_bit (b : bool) (n : Z) : Z := if b then 2 ^ n else 0.
Definition flags_spec (r : Z) (carry overflow : bool) : Z :=
  flag_bit (r =? 0) 7 + flag_bit carry 6 + flag_bit overflow 5 + flag_bit (2147483648 <=? r) 4
  + flag_bit (Z.even r) 3 + flag_bit (r <? 65536) 2 + flag_bit (Z.testbit r 16) 1.

(** IF2 conditions. *)
Definition cond_spec (c : Z) (a b : bool) : option bool :=
  if c =? 1 then Some (a || b)
  else if c =? 2 then Some (a && b)
  else if c =? 3 then Some (xorb a b)
  else if c =? 4 then Some (negb (a || b))
  else if c =? 5 then Some (negb (a && b))
  else if c =? 6 then Some (a && negb b)
  else if c =? 7 then Some (negb a && b)
  else None.

Section Isa.
(** The bus: states [B], loads, stores and component resets, each of which may crash ([Panic]).
    Loads and stores report a 16-bit hardware exception, 0 meaning none. *)
Context {B : Type}.
Record bus : Type := Bus {
  bus_load : B -> Z -> outcome (B * Z * Z);
  bus_store : B -> Z -> Z -> outcome (B * Z);
  bus_count : B -> Z;
  (** documented hardware information of component [id]; [inl (code, data)] is an exception *)
  bus_info : B -> Z -> Z -> Z * Z + Z;
  (** reset the components selected by the predicate, in increasing order *)
  bus_reset : B -> (Z -> bool) -> outcome B
}.
Context (bs : bus).

(** Architectural state. *)
Record st : Type := St { s_reg : list Z; s_bus : B; s_cyc : Z; s_halt : bool }.

Definition get (s : st) (r : reg) : Z := rg (s_reg s) r.
Definition put (s : st) (r : reg) (v : Z) : st := St (rs (s_reg s) r v) (s_bus s) (s_cyc s) (s_halt s).
Definition sup (s : st) : bool := negb (get s R_smt =? 0).
Definition with_bus (s : st) (b : B) : st := St (s_reg s) b (s_cyc s) (s_halt s).

Definition raise (code data : Z) (s : st) : outcome st :=
  Ret (put (put (put s R_et ((if sup s then 16777216 else 0) + code * 65536 + data))
                R_pc (get s R_ev))
           R_smt 1).

(** Go on with the instruction [n] bytes further. *)
Definition advance (n : Z) (s : st) : outcome st := Ret (put s R_pc (m32 (get s R_pc + n))).

(** Operand reads, in continuation style: refused reads raise 0x03. *)
Definition read (r : reg) (s : st) (k : Z -> outcome st) : outcome st :=
  if can_read (sup s) r then k (get s r) else raise 3 (reg_code r) s.
Definition read1 (v : rl1) (s : st) (k : Z -> outcome st) : outcome st :=
  match v with Reg1 r => read r s k | Lit1 n => k n end.
Definition read2 (v : rl2) (s : st) (k : Z -> outcome st) : outcome st :=
  match v with Reg2 r => read r s k | Lit2 n => k n end.

(** Register write; refused writes raise 0x04. *)
Definition write (r : reg) (v : Z) (s : st) (k : st -> outcome st) : outcome st :=
  if can_write (sup s) r then k (put s r v) else raise 4 (reg_code r) s.
(** Final register write of an instruction: then pc moves on, unless it is the register written. *)
Definition write_end (r : reg) (v : Z) (s : st) : outcome st :=
  write r v s (fun s => match r with R_pc => Ret s | _ => advance 4 s end).

(** Memory accesses. With translation enabled ([mtt] non-zero) the page entry of the address is read
    first; pass-through when its bit 31 (supervisor) / 30 (userland) is clear, refusal otherwise
    (as implemented, see C29 and C30). *)
Definition access (a : Z) (s : st) (k : st -> outcome st) : outcome st :=
  if negb (a mod 4 =? 0) then raise 5 (a mod 4) s
  else if get s R_mtt =? 0 then k s
  else
    match bus_load bs (s_bus s) (m32 (get s R_pda + 4 * (a mod 1024))) with
    | Panic => Panic
    | Ret (b, ex, e) =>
        let s := with_bus s b in
        if negb (ex =? 0) then raise 160 ex s
        else if Z.testbit e (if sup s then 31 else 30) then raise 6 (a mod 65536) s
        else k s
    end.
Definition load (a : Z) (s : st) (k : Z -> st -> outcome st) : outcome st :=
  access a s (fun s =>
    match bus_load bs (s_bus s) a with
    | Panic => Panic
    | Ret (b, ex, v) => if negb (ex =? 0) then raise 160 ex (with_bus s b) else k v (with_bus s b)
    end).
Definition store (a v : Z) (s : st) (k : st -> outcome st) : outcome st :=
  access a s (fun s =>
    match bus_store bs (s_bus s) a v with
    | Panic => Panic
    | Ret (b, ex) => if negb (ex =? 0) then raise 160 ex (with_bus s b) else k (with_bus s b)
    end).

(** Stack pointer of the current mode. *)
Definition sp_reg (s : st) : reg := if sup s then R_ssp else R_usp.

(** Arithmetic instruction: [keep] says whether the result is written back (CMP does not). *)
Definition arith (a : alu) (d : reg) (y : Z) (s : st) (keep : bool) : outcome st :=
  read d s (fun x =>
    match alu_spec a x y with
    | AluFault code => raise code 0 s
    | AluOk r c o =>
        let s := put s R_af (flags_spec r c o) in
        if keep then write_end d r s else advance 4 s
    end).

(** Flag [n] (0 = ZF ... 6 = ZLF) of the flags register. *)
Definition flag_of (s : st) (n : Z) : bool := Z.testbit (get s R_af) (7 - n).
(** IF2 does not validate its flags: flag [n] selects bit [(7 - n) mod 32] (as implemented, C13). *)
Definition flag_of_unchecked (s : st) (n : Z) : bool := Z.testbit (get s R_af) ((7 - n) mod 32).

(** Components selected by the low half of the RESET mode and avr (3 and 4 are strict: as implemented,
    see C27); [None]: unknown component. *)
Definition reset_selected (aux_mode avr count : Z) : option (Z -> bool) :=
  if aux_mode =? 0 then Some (fun _ => true)
  else if aux_mode =? 1 then if avr <? count then Some (fun id => id =? avr) else None
  else if aux_mode =? 2 then Some (fun id => negb (id =? avr))
  else if aux_mode =? 3 then Some (fun id => id <? avr)
  else if aux_mode =? 4 then Some (fun id => avr <? id)
  else Some (fun _ => false).

Definition reset_file : list Z := repeat 0 31 ++ [1].

(** One instruction. *)
Definition step (i : instr) (s : st) : outcome st :=
  match i with
  | Cpy d v => read2 v s (fun x => write_end d x s)
  | Ex a b =>
      read a s (fun x => read b s (fun y =>
        write a y s (fun s =>
          write b x s (fun s =>
            match a, b with
            | R_pc, _ | _, R_pc => Ret s
            | _, _ => advance 4 s
            end))))
  | Add d v => read2 v s (fun y => arith AAdd d y s true)
  | Sub d v => read2 v s (fun y => arith ASub d y s true)
  | Mul d v => read2 v s (fun y => arith AMul d y s true)
  | And d v => read2 v s (fun y => arith AAnd d y s true)
  | Bor d v => read2 v s (fun y => arith ABor d y s true)
  | Xor d v => read2 v s (fun y => arith AXor d y s true)
  | Shl d v => read1 v s (fun y => arith AShl d y s true)
  | Shr d v => read1 v s (fun y => arith AShr d y s true)
  | Div d v mode => read1 v s (fun y => read1 mode s (fun md => arith (ADiv md) d y s true))
  | Mod d v mode => read1 v s (fun y => read1 mode s (fun md => arith (AMod md) d y s true))
  | Cmp d v => read2 v s (fun y => arith ASub d y s false)
  | Jpr v =>
      (* a signed 16-bit displacement; a register operand is truncated: as implemented *)
      read2 v s (fun x =>
        let off := let y := x mod 65536 in if y <? 32768 then y else y - 65536 in
        advance off s)
  | Lsm v =>
      if sup s then read2 v s (fun x => advance 4 (put (put s R_pc x) R_smt 0)) (* +4: as implemented, C19 *)
      else raise 9 15 s
  | Itr v => read1 v s (fun x => raise 240 (x mod 65536) s)
  | If v => read1 v s (fun f =>
      if 7 <? f then raise 12 (f mod 256) s
      else if flag_of s f then advance 4 s else advance 8 s)
  | IfN v => read1 v s (fun f =>
      if 7 <? f then raise 12 (f mod 256) s
      else if flag_of s f then advance 8 s else advance 4 s)
  | If2 a b c => read1 a s (fun fa => read1 b s (fun fb => read1 c s (fun cc =>
      match cond_spec cc (flag_of_unchecked s fa) (flag_of_unchecked s fb) with
      | None => raise 13 (cc mod 256) s
      | Some true => advance 4 s
      | Some false => advance 8 s
      end)))
  | Lsa d v add => read1 v s (fun x => read1 add s (fun y =>
      load (m32 (x + y)) s (fun w s => write_end d w s)))
  | Lea v add mul => read1 v s (fun x => read1 add s (fun y => read1 mul s (fun z =>
      load (m32 (x + y * z)) s (fun w s => advance 4 (put s R_avr w)))))
  | Wsa v add val => read1 v s (fun x => read1 add s (fun y => read1 val s (fun z =>
      store (m32 (x + y)) z s (advance 4))))
  | Wea v add mul => read1 v s (fun x => read1 add s (fun y => read1 mul s (fun z =>
      store (m32 (x + y * z)) (get s R_avr) s (advance 4))))
  | Srm v add r => read1 v s (fun x => read1 add s (fun y =>
      load (m32 (x + y)) s (fun w s => read r s (fun z =>
        store (m32 (x + y)) z s (fun s => write_end r w s)))))
  | Push v => read2 v s (fun x =>
      let top := m32 (get s (sp_reg s) - 4) in
      store top x s (fun s => advance 4 (put s (sp_reg s) top)))
  | Pop d =>
      load (get s (sp_reg s)) s (fun w s =>
        write_end d w (put s (sp_reg s) (m32 (get s (sp_reg s) + 4))))
  | Call v => read2 v s (fun x =>
      let top := m32 (get s (sp_reg s) - 4) in
      store top (m32 (get s R_pc + 4)) s (fun s => Ret (put (put s (sp_reg s) top) R_pc x)))
  | Hwd d id info => read1 id s (fun x => read1 info s (fun y =>
      if (x =? 0) && (y =? 0) then write_end d (bus_count bs (s_bus s)) s
      else match bus_info bs (s_bus s) x y with
           | inl (code, data) => raise code data s
           | inr v => write_end d v s
           end))
  | Cycles d => write_end d (m32 (s_cyc s)) s
  | Halt => advance 4 (St (s_reg s) (s_bus s) (s_cyc s) true)
  | Reset v => read1 v s (fun mode =>
      match reset_selected (mode mod 16) (get s R_avr) (bus_count bs (s_bus s)) with
      | None => raise 16 (get s R_avr mod 65536) s
      | Some sel =>
          match bus_reset bs (s_bus s) sel with
          | Panic => Panic
          | Ret b =>
              let s := with_bus s b in
              if (mode / 16) mod 16 =? 0 then Ret (St reset_file (s_bus s) 0 false)
              else advance 4 s
          end
      end)
  end.

(** Instruction fetch: the word at pc. *)
Definition fetch (s : st) (k : Z -> st -> outcome st) : outcome st := load (get s R_pc) s k.

End Isa.
Arguments bus B : clear implicits.
Arguments st B : clear implicits.
