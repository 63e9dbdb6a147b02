(** Vocabulary for statements about single cycles. *)
From Coq Require Import ZArith List Bool Lia.
From Verif Require Import Base Board Mem Cpu Asm SpecMach SpecIsa.
Import ListNotations.
Open Scope Z_scope.

(** In which mode a machine is. *)
Definition sup_mode {D} (m : cpu D) : bool := negb (R m R_smt =? 0).

(** The memory management unit lets machine [m] access address [a], taking the memory from [mem] to
    [mem1] (equal when translation is off). *)
Definition passes {D} (ops : bus_ops D) (m : cpu D) (a : Z) (mem mem1 : memory D) : Prop :=
  if R m R_mtt =? 0 then mem1 = mem
  else exists e,
    mem_read ops false mem ((R m R_pda + 4 * (a mod 1024)) mod 2 ^ 32) = Ret (mem1, 0, e) /\
    Z.testbit e (if sup_mode m then 31 else 30) = false.

(** Machine [m] can load the word [w] at address [a] without exception, memory going from [mem] to [mem2]
    (components may change when they are read). *)
Definition loads {D} (ops : bus_ops D) (m : cpu D) (mem : memory D) (a w : Z) (mem2 : memory D) : Prop :=
  a mod 4 = 0 /\ exists mem1, passes ops m a mem mem1 /\ mem_read ops false mem1 a = Ret (mem2, 0, w).
(** Machine [m] can store the word [w] at address [a] without exception. *)
Definition stores {D} (ops : bus_ops D) (m : cpu D) (mem : memory D) (a w : Z) (mem2 : memory D) : Prop :=
  a mod 4 = 0 /\ exists mem1, passes ops m a mem mem1 /\ mem_write ops false mem1 a w = Ret (mem2, 0).

(** The next cycle of [m] fetches instruction [i]; [mem1] is the memory after the fetch. *)
Definition fetches {D} (ops : bus_ops D) (m : cpu D) (i : instr) (mem1 : memory D) : Prop :=
  exists w, loads ops m (c_mem m) (R m R_pc) w mem1 /\ decode (bytes_of_word w) = ROk i.

(** One cycle of [m], not halted, fetches [i] and ends in [m'] (in a debug or release build [oc]). *)
Definition executes {D} (ops : bus_ops D) (oc : bool) (m : cpu D) (i : instr) (mem1 : memory D)
    (m' : cpu D) : Prop :=
  c_halted m = false /\ fetches ops m i mem1 /\ next ops oc m = Ret m'.

(** Value of an operand; [None] when it is a register that may not be read in this mode. *)
Definition reg_value {D} (m : cpu D) (r : reg) : option Z :=
  if can_read (sup_mode m) r then Some (R m r) else None.
Definition operand1 {D} (m : cpu D) (v : rl1) : option Z :=
  match v with Reg1 r => reg_value m r | Lit1 n => Some n end.
Definition operand2 {D} (m : cpu D) (v : rl2) : option Z :=
  match v with Reg2 r => reg_value m r | Lit2 n => Some n end.

(** The registers of [m'] are those of [m], except the listed ones (the first entry of a register
    counts). *)
Fixpoint assoc (l : list (reg * Z)) (r : reg) : option Z :=
  match l with
  | [] => None
  | (r', v) :: t => if reg_code r =? reg_code r' then Some v else assoc t r
  end.
Definition regs_after {D} (m m' : cpu D) (l : list (reg * Z)) : Prop :=
  forall r, R m' r = match assoc l r with Some v => v | None => R m r end.

(** [m'] is [m] after one counted cycle: the memory is [mem], still running, registers as listed. *)
Definition after {D} (m m' : cpu D) (mem : memory D) (l : list (reg * Z)) : Prop :=
  regs_after m m' l /\ c_mem m' = mem /\ c_halted m' = c_halted m /\
  c_cycles m' = (c_cycles m + 1) mod 2 ^ 128.

(** The value of [et] for an exception raised in a mode. *)
Definition et_value (sup : bool) (code data : Z) : Z :=
  (if sup then 16777216 else 0) + code * 65536 + data.
(** [m'] is [m] after a cycle that only raised an exception. *)
Definition raised {D} (m m' : cpu D) (mem : memory D) (code data : Z) : Prop :=
  after m m' mem [(R_smt, 1); (R_pc, R m R_ev); (R_et, et_value (sup_mode m) code data)].

(** Machine [m] attempts to load the word at address [a] but gets the exception [code] with [data];
    [mem2] is the memory afterwards. *)
Inductive access_faults {D} (ops : bus_ops D) (m : cpu D) (mem : memory D) (a : Z)
  : memory D -> Z -> Z -> Prop :=
| fault_align : a mod 4 <> 0 -> access_faults ops m mem a mem 5 (a mod 4)
| fault_page mem2 ex e : a mod 4 = 0 -> R m R_mtt <> 0 -> ex <> 0 ->
    mem_read ops false mem ((R m R_pda + 4 * (a mod 1024)) mod 2 ^ 32) = Ret (mem2, ex, e) ->
    access_faults ops m mem a mem2 160 ex
| fault_refused mem2 e : a mod 4 = 0 -> R m R_mtt <> 0 ->
    mem_read ops false mem ((R m R_pda + 4 * (a mod 1024)) mod 2 ^ 32) = Ret (mem2, 0, e) ->
    Z.testbit e (if sup_mode m then 31 else 30) = true ->
    access_faults ops m mem a mem2 6 (a mod 2 ^ 16).
Inductive load_faults {D} (ops : bus_ops D) (m : cpu D) (mem : memory D) (a : Z)
  : memory D -> Z -> Z -> Prop :=
| load_fault_access mem2 code data : access_faults ops m mem a mem2 code data ->
    load_faults ops m mem a mem2 code data
| load_fault_component mem1 mem2 ex w : a mod 4 = 0 -> passes ops m a mem mem1 ->
    mem_read ops false mem1 a = Ret (mem2, ex, w) -> ex <> 0 -> load_faults ops m mem a mem2 160 ex.
Inductive store_faults {D} (ops : bus_ops D) (m : cpu D) (mem : memory D) (a w : Z)
  : memory D -> Z -> Z -> Prop :=
| store_fault_access mem2 code data : access_faults ops m mem a mem2 code data ->
    store_faults ops m mem a w mem2 code data
| store_fault_component mem1 mem2 ex : a mod 4 = 0 -> passes ops m a mem mem1 ->
    mem_write ops false mem1 a w = Ret (mem2, ex) -> ex <> 0 -> store_faults ops m mem a w mem2 160 ex.

(** Flags of the flags register: ZF 7, CF 6, OF 5, SF 4, EF 3, ZUF 2, ZLF 1. *)
Definition flag {D} (m : cpu D) (n : Z) : bool := Z.testbit (R m R_af) n.
(** ZF, SF, EF and ZUF describe the result [r]; the bits that are no flag are clear. *)
Definition flags_describe {D} (m : cpu D) (r : Z) : Prop :=
  (flag m 7 = true <-> r = 0) /\ (flag m 4 = true <-> 2 ^ 31 <= r) /\
  (flag m 3 = true <-> r mod 2 = 0) /\ (flag m 2 = true <-> r < 2 ^ 16) /\
  (forall n, n = 0 \/ 8 <= n -> flag m n = false).
(** The cycle computed [r] into register [d] with the given carry and overflow, and changed nothing else. *)
Definition computes {D} (m m' : cpu D) (mem : memory D) (d : reg) (r : Z) (carry overflow : Prop) : Prop :=
  after m m' mem [(d, r); (R_pc, (R m R_pc + 4) mod 2 ^ 32); (R_af, R m' R_af)] /\
  (flag m' 6 = true <-> carry) /\ (flag m' 5 = true <-> overflow) /\ flags_describe m' r.
(** The arithmetic instructions that write a result, with their destination and other operands. *)
Definition arith_dest (i : instr) : option reg :=
  match i with
  | Add d _ | Sub d _ | Mul d _ | And d _ | Bor d _ | Xor d _ | Shl d _ | Shr d _ | Div d _ _ | Mod d _ _ => Some d
  | _ => None
  end.
(** All operands of an arithmetic instruction other than its destination can be read in the current mode. *)
Definition sources_readable {D} (m : cpu D) (i : instr) : Prop :=
  match i with
  | Add _ v | Sub _ v | Mul _ v | And _ v | Bor _ v | Xor _ v => operand2 m v <> None
  | Shl _ v | Shr _ v => operand1 m v <> None
  | Div _ v md | Mod _ v md => operand1 m v <> None /\ operand1 m md <> None
  | _ => True
  end.
(** [i] is DIV or MOD with these operands. *)
Definition div_or_mod (i : instr) (d : reg) (v md : rl1) (is_div : bool) : Prop :=
  i = if is_div then Div d v md else Mod d v md.

(** Stack pointer of the current mode. *)
Definition sp_of {D} (m : cpu D) : reg := if sup_mode m then R_ssp else R_usp.
(** The registers, besides pc, an instruction is meant to change. *)
Definition targets {D} (m : cpu D) (i : instr) : list reg :=
  match i with
  | Cpy d _ | Lsa d _ _ | Srm _ _ d | Hwd d _ _ | Cycles d => [d]
  | Ex a b => [a; b]
  | Add d _ | Sub d _ | Mul d _ | And d _ | Bor d _ | Xor d _ | Shl d _ | Shr d _ | Div d _ _ | Mod d _ _ => [d; R_af]
  | Cmp _ _ => [R_af]
  | Lea _ _ _ => [R_avr]
  | Push _ | Call _ => [sp_of m]
  | Pop d => [sp_of m; d]
  | Lsm _ => [R_smt]
  | _ => []
  end.
(** The registers an instruction may have changed already when it raises an exception. *)
Definition partial_targets {D} (m : cpu D) (i : instr) : list reg :=
  match i with
  | Ex a _ => [a]
  | Add _ _ | Sub _ _ | Mul _ _ | And _ _ | Bor _ _ | Xor _ _ | Shl _ _ | Shr _ _ | Div _ _ _ | Mod _ _ _ => [R_af]
  | Pop _ => [sp_of m]
  | _ => []
  end.
(** Instructions that jump. *)
Definition jumps (i : instr) : Prop :=
  match i with Jpr _ | Call _ | Lsm _ | Reset _ => True | _ => False end.
Definition conditional (i : instr) : Prop :=
  match i with If _ | IfN _ | If2 _ _ _ => True | _ => False end.
(** A CPU-resetting RESET. *)
Definition resets_cpu {D} (m : cpu D) (i : instr) : Prop :=
  exists v mode, i = Reset v /\ operand1 m v = Some mode /\ (mode / 16) mod 16 = 0.

(** The next cycle of [m] fetches a word that is no instruction. *)
Definition fetches_garbage {D} (ops : bus_ops D) (m : cpu D) : Prop :=
  exists w mem1 e, loads ops m (c_mem m) (R m R_pc) w mem1 /\ decode (bytes_of_word w) = RErr e.
(** The registers that may have changed, besides pc, smt and et, in a cycle of [m] that raises an exception:
    none when the fetch fails; those of [partial_targets] when an instruction was fetched; the stack pointer
    when a POP into an unknown register was fetched. *)
Definition maybe_changed {D} (ops : bus_ops D) (m : cpu D) (r : reg) : Prop :=
  (exists i mem1, fetches ops m i mem1 /\ In r (partial_targets m i)) \/
  (fetches_garbage ops m /\ r = sp_of m).
(** The next cycle of [m] fetches a POP (maybe into an unknown register). *)
Definition pops {D} (ops : bus_ops D) (m : cpu D) : Prop :=
  (exists d mem1, fetches ops m (Pop d) mem1) \/ fetches_garbage ops m.

(** [d'] is component state [d] after [n] resets. *)
Fixpoint after_resets {D} (ops : bus_ops D) (n : nat) (d d' : D) : Prop :=
  match n with
  | O => d' = d
  | S k => exists d1, bo_reset ops d = Ret d1 /\ after_resets ops k d1 d'
  end.
(** The longest prefix of whole characters of [name] that takes at most 32 bytes. *)
Definition longest_prefix32 (name cut : list Z) : Prop :=
  (exists rest, name = cut ++ rest) /\ zlen (utf8 cut) <= 32 /\
  forall p rest, name = p ++ rest -> zlen (utf8 p) <= 32 -> (length p <= length cut)%nat.

(** The outcome of a load: the word [w] at the given address is loaded, or the exception of that access is raised and nothing else happens. *)
Definition loads_or_faults {D} (ops : bus_ops D) (m m' : cpu D) (mem1 : memory D) (a : Z) (ok : Z -> memory D -> Prop) : Prop :=
  (exists w mem2, loads ops m mem1 a w mem2 /\ ok w mem2) \/
  (exists mem2 code data, load_faults ops m mem1 a mem2 code data /\ raised m m' mem2 code data).
Definition stores_or_faults {D} (ops : bus_ops D) (m m' : cpu D) (mem1 : memory D) (a w : Z) (ok : memory D -> Prop) : Prop :=
  (exists mem2, stores ops m mem1 a w mem2 /\ ok mem2) \/
  (exists mem2 code data, store_faults ops m mem1 a w mem2 code data /\ raised m m' mem2 code data).

(** The address an instruction loads from, when its operands can be read. *)
Definition load_address {D} (m : cpu D) (i : instr) : option Z :=
  match i with
  | Lsa _ v add | Srm v add _ =>
      match operand1 m v, operand1 m add with Some x, Some y => Some ((x + y) mod 2 ^ 32) | _, _ => None end
  | Lea v add mul =>
      match operand1 m v, operand1 m add, operand1 m mul with
      | Some x, Some y, Some z => Some ((x + y * z) mod 2 ^ 32) | _, _, _ => None end
  | Pop _ => Some (R m (sp_of m))
  | _ => None
  end.
(** The address an instruction stores to, and the word it stores there. *)
Definition store_access {D} (m : cpu D) (i : instr) : option (Z * Z) :=
  let top := (R m (sp_of m) - 4) mod 2 ^ 32 in
  match i with
  | Wsa v add val =>
      match operand1 m v, operand1 m add, operand1 m val with
      | Some x, Some y, Some z => Some ((x + y) mod 2 ^ 32, z) | _, _, _ => None end
  | Wea v add mul =>
      match operand1 m v, operand1 m add, operand1 m mul with
      | Some x, Some y, Some z => Some ((x + y * z) mod 2 ^ 32, R m R_avr) | _, _, _ => None end
  | Push v => match operand2 m v with Some x => Some (top, x) | None => None end
  | Call v => match operand2 m v with Some _ => Some (top, (R m R_pc + 4) mod 2 ^ 32) | None => None end
  | _ => None
  end.

(** Component [id] is selected by a RESET with this mode byte and avr. *)
Definition reset_picks (mode avr id : Z) : Prop :=
  match mode mod 16 with
  | 0 => True | 1 => id = avr | 2 => id <> avr | 3 => id < avr | 4 => avr < id | _ => False
  end.
(** From [h] to [h']: the components selected by [sel] were reset once, the others are as before. *)
Definition resets_exactly {D} (ops : bus_ops D) (sel : Z -> Prop) (h h' : hwb D) : Prop :=
  length h' = length h /\
  forall k e, znth h k = Some e ->
    (sel k -> exists d, bo_reset ops (ae_dev e) = Ret d /\ znth h' k = Some (AuxEntry d (ae_cache e))) /\
    (~ sel k -> znth h' k = Some e).
