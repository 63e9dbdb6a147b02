(** Specification vocabulary for console text: how a reader understands the numbers and the lines of the console. *)
From Coq Require Import String Ascii ZArith List Bool Lia.
From Verif Require Import Base Board Mem Cpu Asm Tools Devices Runner Console SpecMach SpecIsa SpecBus SpecRun.
Import ListNotations.
Open Scope string_scope.
Open Scope Z_scope.

(** ** Numbers as one reads them *)

(** The value of one digit. *)
Definition digit_value (c : ascii) : option Z :=
  let n := Z.of_N (N_of_ascii c) in
  if (48 <=? n) && (n <=? 57) then Some (n - 48) else if (65 <=? n) && (n <=? 70) then Some (n - 55) else None.
(** The value of a string of digits that follows digits worth [acc]. *)
Fixpoint digits_value (base : Z) (s : string) (acc : Z) : option Z :=
  match s with
  | "" => Some acc
  | String c s =>
      match digit_value c with
      | Some d => if d <? base then digits_value base s (acc * base + d) else None
      | None => None
      end
  end.
(** [s] is a number written in that base. *)
Definition reads (base : Z) (s : string) (n : Z) : Prop := s <> "" /\ digits_value base s 0 = Some n.
(** [s] is, after 0x, [n] in hexadecimal on at least [w] digits; on exactly [w] digits if [n] fits. *)
Definition hex_of (w : nat) (s : string) (n : Z) : Prop :=
  exists d, s = "0x" ++ d /\ reads 16 d n /\ (w <= String.length d)%nat /\ (n < 16 ^ Z.of_nat w -> String.length d = w).
(** [s] is [n] in decimal, without sign. *)
Definition dec_of (s : string) (n : Z) : Prop := reads 10 s n.
(** [s] is [n] in decimal on exactly [w] digits. *)
Definition dec_wide (w : nat) (s : string) (n : Z) : Prop := reads 10 s n /\ String.length s = w.
(** [s] is [n], with a minus sign if it is negative. *)
Definition signed_of (number : string -> Z -> Prop) (s : string) (n : Z) : Prop :=
  if n <? 0 then exists t, s = "-" ++ t /\ number t (- n) else number s n.

(** A text on one line. *)
Fixpoint one_line (s : string) : Prop := match s with "" => True | String c s => N_of_ascii c <> 10%N /\ one_line s end.

(** The data of a decoding error: a parameter number and bytes. *)
Definition decode_error_wf (e : decode_error) : Prop :=
  match e with SourceNotMultipleOf4Bytes => True | UnknownOpCode c => is_u8 c | UnknownRegister p c => 0 <= p < 3 /\ is_u8 c end.

(** What the message of an exception says: its kind in words, and its data as numbers or as the name of the register. *)
Definition aux_says (e : aux_exception) (t : string) : Prop :=
  match e with
  | UnknownError => t = "Unknown error"
  | UnspecifiedSyncError => t = "Unspecified synchronization error"
  | TimeSynchronizationError => t = "Time synchronization error"
  | UnknownOperation op => exists h, t = "Unknown operation " ++ h /\ hex_of 2 h op
  | UnsupportedOperation => t = "Unsupported operation"
  | GenericPhysicalReadError => t = "Generic physical read error"
  | MemoryNotReadable => t = "This memory address is not readable"
  | GenericPhysicalWriteError => t = "Generic physical write error"
  | MemoryNotWritable => t = "This memory address is not writable"
  end.
Definition native_says (e : native_exception) (t : string) : Prop :=
  match e with
  | NUnknownOpCode c => exists h, t = "Unknown opcode " ++ h /\ hex_of 2 h c
  | NUnknownRegister c => exists h, t = "Unknown register code " ++ h /\ hex_of 2 h c
  | NReadProtectedRegister c => exists r, reg_code r = c /\ t = "Register " ++ reg_name r ++ " cannot be read in this mode"
  | NWriteProtectedRegister c => exists r, reg_code r = c /\ t = "Register " ++ reg_name r ++ " cannot be written in this mode"
  | NUnalignedMemoryAddress u => exists n, t = "Unaligned memory address (unalignment is " ++ n ++ ")" /\ dec_of n u
  | NMmuRefusedRead a => exists h, t = "Address cannot be read in this mode (address' weakest bits are " ++ h ++ ")" /\ hex_of 4 h a
  | NMmuRefusedWrite a => exists h, t = "Address cannot be written in this mode (address' weakest bits are " ++ h ++ ")" /\ hex_of 4 h a
  | NMmuRefusedExec a => exists h, t = "Address cannot be executed in this mode (address' weakest bits are " ++ h ++ ")" /\ hex_of 4 h a
  | NSupervisorReservedInstruction c => exists h, t = "Instruction with opcode " ++ h ++ " cannot be run in userland mode" /\ hex_of 2 h c
  | NDivisionOrModByZero => t = "Cannot perform a division or modulus by zero"
  | NOverflowingDivOrMod => t = "Cannot perform an overflowing division or modulus"
  | NInvalidCondFlag c => exists h, t = "Invalid IF/IF2 flag provided: " ++ h /\ hex_of 2 h c
  | NInvalidCondMode c => exists h, t = "Invalid IF2 condition mode provided: " ++ h /\ hex_of 2 h c
  | NUnknownComponentId a => exists h, t = "Unknown component ID (weakest bits are " ++ h ++ ")" /\ hex_of 4 h a
  | NUnknownHardwareInformationCode c => exists h, t = "Unknown hardware information code " ++ h /\ hex_of 2 h c
  | NComponentNotMapped a => exists h, t = "Component with ID " ++ h ++ " is not mapped" /\ hex_of 2 h a
  | NHardwareException e => exists u, t = "Hardware exception: " ++ u /\ aux_says e u
  | NInterruption c => exists h, t = "Interruption (code " ++ h ++ ")" /\ hex_of 2 h c
  end.
(** What the text of a category says: its class and its type in words. *)
Definition category_says (c : category) (t : string) : Prop :=
  match c with
  | CatDebug TBasic => t = "Debug:Basic"
  | CatClock TRealtime => t = "Clock:Realtime"
  | CatDisplay TNumber => t = "Display:Number"
  | CatDisplay TCharacter => t = "Display:Character"
  | CatDisplay TBuffered => t = "Display:Buffered"
  | CatKeyboard TReadChar => t = "Keyboard:ReadCharSynchronous"
  | CatKeyboard TReadLine => t = "Keyboard:ReadLineSynchronous"
  | CatMemory TRam => t = "Memory:Ram"
  | CatStorage TReadonly => t = "Storage:Readonly"
  | CatStorage TFlash => t = "Storage:Flash"
  | CatStorage TPersistent => t = "Storage:Persistent"
  | CatPlatform code => exists h, t = "PlatformSpecific:(Code=" ++ h ++ ")" /\ hex_of 8 h code
  | CatUncategorized => t = "Uncategorized"
  end.
(** What the text of a decoding error says; parameters are counted from 1. *)
Definition decode_error_says (e : decode_error) (t : string) : Prop :=
  match e with
  | SourceNotMultipleOf4Bytes => t = "The provided program's length is not a multiple of 4 bytes (unaligned instructions)"
  | UnknownOpCode c => exists h, t = "Unknown opcode: " ++ h /\ hex_of 2 h c
  | UnknownRegister p c => exists n h, t = "Parameter " ++ n ++ " uses unknown register: " ++ h /\ dec_of n (p + 1) /\ hex_of 2 h c
  end.

(** The fields of a stop have the types of the code. *)
Definition stopped_wf (s : stopped) : Prop :=
  0 <= sp_cycles s < 2 ^ 128 /\ is_u32 (sp_addr s) /\ match sp_ex s with None => True | Some x => is_u8 (xm_code x) /\ is_u16 (xm_data x) end.

(** ** Lines of the runner *)

(** The message shown for a value of the exception register. *)
Definition message (et : Z) (t : string) : Prop :=
  match native_decode et with
  | Some e => native_says e t
  | None => t = "<invalid exception code or data>"
  end.
(** The line that announces the cycle about to be executed in state [m]. *)
Definition cycle_line {D} (m : cpu D) (s : string) : Prop :=
  exists c a, s = "[lrvm] Running cycle " ++ c ++ " at address " ++ a /\ hex_of 8 c (c_cycles m) /\ hex_of 8 a (R m R_pc).
(** The line about exception [et], raised by the instruction at [addr]. *)
Definition exception_line (addr et : Z) (s : string) : Prop :=
  exists a t, s = "[lrvm] At address " ++ a ++ " - Exception occurred: " ++ t /\ hex_of 8 a addr /\ message et t.
(** The final line. *)
Definition final_line (st : stopped) (s : string) : Prop :=
  exists c a tail, s = "[lrvm] Cycle " ++ c ++ ": CPU halted at address " ++ a ++ tail /\ hex_of 8 c (sp_cycles st) /\ hex_of 8 a (sp_addr st) /\
  match sp_ex st with
  | None => tail = ""
  | Some x => exists t, message (xm_raw x) t /\
      tail = " because of exception in " ++ (if xm_raw x <? 2 ^ 24 then "userland" else "supervisor") ++ " mode: " ++ t
  end.

(** The settings of a configuration: limit of cycles, stop at exceptions, lines for cycles, for exceptions, at the end, newline before the end. *)
Definition settings (c : run_config) : option Z * bool * bool * bool * bool * bool :=
  (cf_limit c, cf_halt_on_ex c, cf_print_cycles c, cf_print_ex c, cf_print_finish c, cf_newline c).
(** Exceptions are told one by one, unless the final line tells the only one. *)
Definition tells_exceptions (cfg : run_config) : bool := cf_print_ex cfg && negb (cf_halt_on_ex cfg && cf_print_finish cfg).
(** What is printed for the cycle from [m] to [m']. *)
Definition cycle_said {D} (cfg : run_config) (m m' : cpu D) (l : list string) : Prop :=
  exists l1 l2, l = (l1 ++ l2)%list /\
  (if cf_print_cycles cfg then exists s, l1 = [s] /\ cycle_line m s else l1 = []) /\
  (if tells_exceptions cfg && negb (R m' R_et =? 0) then exists s, l2 = [s] /\ exception_line (R m R_pc) (R m' R_et) s else l2 = []).
(** What is printed at the end. *)
Definition finally_said (cfg : run_config) (st : stopped) (l : list string) : Prop :=
  if cf_print_finish cfg then exists s, l = ((if cf_newline cfg then [""] else []) ++ [s])%list /\ final_line st s else l = [].
(** What is printed by the [n] first cycles from [m]: one piece per cycle. *)
Definition cycles_said {D} (ops : bus_ops D) (oc : bool) (cfg : run_config) (m : cpu D) (n : nat) (lines : list string) : Prop :=
  exists pieces, lines = concat pieces /\ List.length pieces = n /\
  forall k mk mk1, (k < n)%nat -> run ops oc k m = Ret mk -> run ops oc (S k) m = Ret mk1 ->
    exists l, nth_error pieces k = Some l /\ cycle_said cfg mk mk1 l.

(** ** Lines of the preparation *)

(** The address where component [i] is mapped when components of sizes [szs] are mapped one after the other from 0. *)
Definition placed_at (szs : list Z) (i : nat) : Z := sum (firstn i szs).
(** The line of component [i], mapped: its number, its name on 32 columns, its first and last word, the bytes of its hardware identifier. *)
Definition mapped_line (i : Z) (name : list Z) (first last hw_id : Z) (s : string) : Prop :=
  exists n a b h, s = "=> Component " ++ n ++ " '" ++ text_of_bytes (utf8 name) ++ spaces (32 - List.length name) ++ "': ✓ " ++ a ++ " -> " ++ b ++
    " (HW ID: 0x" ++ String.concat " " h ++ ")" /\
  reads 10 n i /\ (4 <= String.length n)%nat /\ hex_of 8 a first /\ hex_of 8 b last /\
  Forall (fun x => String.length x = 2%nat) h /\ List.length h = 8%nat /\ reads 16 (String.concat "" h) hw_id.

(** How the reason of a refusal is written. *)
Definition reason_said (e : mapping_error) (t : string) : Prop :=
  match e with
  | UnknownComponent => t = "UnknownComponent" | UnalignedStartAddress => t = "UnalignedStartAddress"
  | UnalignedBusSize => t = "UnalignedBusSize" | UnalignedEndAddress => t = "UnalignedEndAddress"
  | NullOrNegAddressRange => t = "NullOrNegAddressRange" | AlreadyMapped => t = "AlreadyMapped" | NullBusSize => t = "NullBusSize"
  | AddressOverlaps m => exists i h a z, t = "AddressOverlaps(Mapping { aux_id: " ++ i ++ ", aux_hw_id: " ++ h ++ ", addr: " ++ a ++ ", size: " ++ z ++ " })" /\
      dec_of i (mp_aux_id m) /\ dec_of h (mp_hw_id m) /\ dec_of a (mp_addr m) /\ dec_of z (mp_size m)
  | MappingTooLarge s => exists z, t = "MappingTooLarge { aux_size: " ++ z ++ " }" /\ dec_of z s
  end.
(** The data of a mapping error have the types of the code. *)
Definition mapping_error_wf (e : mapping_error) : Prop :=
  match e with
  | AddressOverlaps m => 0 <= mp_aux_id m < 2 ^ 64 /\ 0 <= mp_hw_id m < 2 ^ 64 /\ is_u32 (mp_addr m) /\ is_u32 (mp_size m)
  | MappingTooLarge s => is_u32 s
  | _ => True
  end.
(** Why component [k] of components of sizes [szs], mapped one after the other from 0, is refused: it declares no word, or a size that is no multiple of 4,
    or the components up to it need more than the address space; then the error is either that it would go past the end, or that it overlaps the mapping of
    an earlier component. *)
Definition refused_because (szs : list Z) (k : nat) (e : mapping_error) : Prop :=
  match e with
  | NullBusSize => nth_error szs k = Some 0
  | UnalignedBusSize => exists sz, nth_error szs k = Some sz /\ sz mod 4 <> 0
  | NullOrNegAddressRange => 2 ^ 32 < sum (firstn (S k) szs)
  | AddressOverlaps mp => 2 ^ 32 < sum (firstn (S k) szs) /\ exists j, (j < k)%nat /\ mp_aux_id mp = Z.of_nat j /\ nth_error szs j = Some (mp_size mp)
  | _ => False
  end.
(** The line of component [i], refused: the reason instead of the addresses. *)
Definition refused_line (i : Z) (name : list Z) (hw_id : Z) (e : mapping_error) (s : string) : Prop :=
  exists n t h, s = "=> Component " ++ n ++ " '" ++ text_of_bytes (utf8 name) ++ spaces (32 - List.length name) ++ "': ✗ " ++ t ++
    " (HW ID: 0x" ++ String.concat " " h ++ ")" /\
  reason_said e t /\ reads 10 n i /\ (4 <= String.length n)%nat /\
  Forall (fun x => String.length x = 2%nat) h /\ List.length h = 8%nat /\ reads 16 (String.concat "" h) hw_id.

(** ** The printing components *)

(** How the number display writes [n] when the write is at [addr]. *)
Definition number_shown (addr n : Z) (t : string) : Prop :=
  match addr mod 16 with
  | 0 => hex_of 1 t n
  | 4 => hex_of 8 t n /\ String.length t = 10%nat
  | 8 => dec_of t n
  | 12 => dec_wide 10 t n
  | _ => False
  end.
(** Successive writes to the number display. *)
Fixpoint nd_writes (d : num_display) (l : list (Z * Z)) : outcome num_display :=
  match l with
  | [] => Ret d
  | (a, w) :: l => do! (d', _) <- nd_write d a w; nd_writes d' l
  end.
(** The low [bits] bits of [w], as a signed number. *)
Definition signed_bits (bits w : Z) : Z := let n := w mod 2 ^ bits in if n <? 2 ^ (bits - 1) then n else n - 2 ^ bits.
(** What the debug interface shows for [w] written to its word [k]. *)
Definition debug_shown (k w : Z) (t : string) : Prop :=
  match k with
  | 0 => hex_of 2 t (w mod 2 ^ 8)
  | 1 => hex_of 4 t (w mod 2 ^ 16)
  | 2 => hex_of 8 t w
  | 3 => signed_of (hex_of 2) t (signed_bits 8 w)
  | 4 => signed_of (hex_of 4) t (signed_bits 16 w)
  | 5 => signed_of (hex_of 8) t (signed_bits 32 w)
  | 6 => dec_of t (w mod 2 ^ 8)
  | 7 => dec_of t (w mod 2 ^ 16)
  | 8 => dec_of t w
  | 9 => signed_of dec_of t (signed_bits 8 w)
  | 10 => signed_of dec_of t (signed_bits 16 w)
  | 11 => signed_of dec_of t (signed_bits 32 w)
  | 12 => t = (if w =? 0 then "false" else "true")
  | 13 => (scalar w -> t = text_of_bytes (utf8 [w])) /\ (~ scalar w -> exists h, t = "<Invalid UTF-8 character: " ++ h ++ ">" /\ hex_of 8 h w)
  | 14 => exists h, t = "<Encoding-agnostic character: " ++ h ++ ">" /\ hex_of 8 h w
  | 15 => t = "debug point"
  | _ => False
  end.
(** The least signed number, which has no opposite, written to a word that shows signed numbers in hexadecimal. *)
Definition no_opposite (k w : Z) : Prop :=
  k = 3 /\ w mod 2 ^ 8 = 2 ^ 7 \/ k = 4 /\ w mod 2 ^ 16 = 2 ^ 15 \/ k = 5 /\ w = 2 ^ 31.
