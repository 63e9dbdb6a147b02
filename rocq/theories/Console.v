(** Text written by the library: messages of exceptions, categories and errors, the lines printed by the runner and by the print-based
    components. Models the [Display] implementations of /repo/lrvm_tools/src/exceptions/{native,auxhw}.rs, metadata/{category,types}.rs,
    asm/instr.rs and debug/run.rs, the [println!] calls of debug/{run,prepare}.rs, and the handlers of
    /repo/lrvm_aux/src/display/{number,character}.rs and debug/basic.rs. A text is the string of its UTF-8 bytes. *)
From Coq Require Import String Ascii ZArith List Bool Lia.
From Verif Require Import Base Board Mem Cpu Asm Tools Devices Runner LasmRules Lasm.
Import ListNotations.
Open Scope string_scope.
Open Scope Z_scope.

(** Rust formats [{}] and [{:010}] of unsigned numbers, [{:#006X}] (the width counts the prefix), [{:04}]. [{:#010}] of number.rs:55 is
    [{:010}]: the alternate form does not exist in decimal. *)
Definition fmt_dec (n : Z) : string := number 10 1 n.
Definition fmt_dec10 (n : Z) : string := number 10 10 n.
Definition fmt_dec4 (n : Z) : string := number 10 4 n.
Definition fmt_hex6 (n : Z) : string := "0x" ++ number 16 4 n.
(** [{}] of a signed number. *)
Definition fmt_signed (n : Z) : string := if n <? 0 then "-" ++ fmt_dec (- n) else fmt_dec n.

(** The string of a list of bytes. *)
Definition text_of_bytes (l : list Z) : string := string_of_list_ascii (map (fun b => ascii_of_N (Z.to_N b)) l).

(** <AuxHwException as Display>::fmt (auxhw.rs:116-138). *)
Definition aux_text (e : aux_exception) : string :=
  match e with
  | UnknownError => "Unknown error"
  | UnspecifiedSyncError => "Unspecified synchronization error"
  | TimeSynchronizationError => "Time synchronization error"
  | UnknownOperation op => "Unknown operation " ++ fmt_hex4 op
  | UnsupportedOperation => "Unsupported operation"
  | GenericPhysicalReadError => "Generic physical read error"
  | MemoryNotReadable => "This memory address is not readable"
  | GenericPhysicalWriteError => "Generic physical write error"
  | MemoryNotWritable => "This memory address is not writable"
  end.

(** <NativeException as Display>::fmt (native.rs:137-189); [Reg::from_code(..).unwrap()] at lines 147 and 151. *)
Definition native_text (e : native_exception) : outcome string :=
  match e with
  | NUnknownOpCode c => Ret ("Unknown opcode " ++ fmt_hex4 c)
  | NUnknownRegister c => Ret ("Unknown register code " ++ fmt_hex4 c)
  | NReadProtectedRegister c => do! r <- unwrap (reg_from_code c); Ret ("Register " ++ reg_name r ++ " cannot be read in this mode")
  | NWriteProtectedRegister c => do! r <- unwrap (reg_from_code c); Ret ("Register " ++ reg_name r ++ " cannot be written in this mode")
  | NUnalignedMemoryAddress u => Ret ("Unaligned memory address (unalignment is " ++ fmt_dec u ++ ")")
  | NMmuRefusedRead a => Ret ("Address cannot be read in this mode (address' weakest bits are " ++ fmt_hex6 a ++ ")")
  | NMmuRefusedWrite a => Ret ("Address cannot be written in this mode (address' weakest bits are " ++ fmt_hex6 a ++ ")")
  | NMmuRefusedExec a => Ret ("Address cannot be executed in this mode (address' weakest bits are " ++ fmt_hex6 a ++ ")")
  | NSupervisorReservedInstruction c => Ret ("Instruction with opcode " ++ fmt_hex4 c ++ " cannot be run in userland mode")
  | NDivisionOrModByZero => Ret "Cannot perform a division or modulus by zero"
  | NOverflowingDivOrMod => Ret "Cannot perform an overflowing division or modulus"
  | NInvalidCondFlag c => Ret ("Invalid IF/IF2 flag provided: " ++ fmt_hex4 c)
  | NInvalidCondMode c => Ret ("Invalid IF2 condition mode provided: " ++ fmt_hex4 c)
  | NUnknownComponentId a => Ret ("Unknown component ID (weakest bits are " ++ fmt_hex6 a ++ ")")
  | NUnknownHardwareInformationCode c => Ret ("Unknown hardware information code " ++ fmt_hex4 c)
  | NComponentNotMapped a => Ret ("Component with ID " ++ fmt_hex4 a ++ " is not mapped")
  | NHardwareException e => Ret ("Hardware exception: " ++ aux_text e)
  | NInterruption c => Ret ("Interruption (code " ++ fmt_hex4 c ++ ")")
  end.

(** The names of the device types (types.rs:42-54, [stringify!] of the names of lines 58-88). *)
Definition debug_name (t : debug_type) : string := match t with TBasic => "Basic" end.
Definition clock_name (t : clock_type) : string := match t with TRealtime => "Realtime" end.
Definition display_name (t : display_type) : string :=
  match t with TNumber => "Number" | TCharacter => "Character" | TBuffered => "Buffered" end.
Definition keyboard_name (t : keyboard_type) : string :=
  match t with TReadChar => "ReadCharSynchronous" | TReadLine => "ReadLineSynchronous" end.
Definition memory_name (t : memory_type) : string := match t with TRam => "Ram" end.
Definition storage_name (t : storage_type) : string :=
  match t with TReadonly => "Readonly" | TFlash => "Flash" | TPersistent => "Persistent" end.
(** <DeviceCategory as Display>::fmt (category.rs:71-88). *)
Definition category_text (c : category) : string :=
  match c with
  | CatDebug t => "Debug:" ++ debug_name t
  | CatClock t => "Clock:" ++ clock_name t
  | CatDisplay t => "Display:" ++ display_name t
  | CatKeyboard t => "Keyboard:" ++ keyboard_name t
  | CatMemory t => "Memory:" ++ memory_name t
  | CatStorage t => "Storage:" ++ storage_name t
  | CatPlatform code => "PlatformSpecific:(Code=" ++ fmt_hex10 code ++ ")"
  | CatUncategorized => "Uncategorized"
  end.

(** <InstrDecodingError as Display>::fmt (instr.rs:624-632). *)
Definition decode_error_text (e : decode_error) : string :=
  match e with
  | SourceNotMultipleOf4Bytes => "The provided program's length is not a multiple of 4 bytes (unaligned instructions)"
  | UnknownOpCode c => "Unknown opcode: " ++ fmt_hex4 c
  | UnknownRegister p c => "Parameter " ++ fmt_dec (p + 1) ++ " uses unknown register: " ++ fmt_hex4 c
  end.

(** prettify_ex_with_mode (run.rs:110-115), also <ExWithMode as Display>::fmt (run.rs:135-139). *)
Definition ex_text (x : ex_with_mode) : outcome string :=
  match native_decode_parts (xm_code x) (Some (xm_data x)) with
  | Some e => native_text e
  | None => Ret "<invalid exception code or data>"
  end.
(** prettify_stop (run.rs:118-133), also <StoppedState as Display>::fmt (run.rs:141-145). *)
Definition stop_text (s : stopped) : outcome string :=
  let output := "Cycle " ++ fmt_hex10 (sp_cycles s) ++ ": CPU halted at address " ++ fmt_hex10 (sp_addr s) in
  match sp_ex s with
  | None => Ret output
  | Some x =>
      do! t <- ex_text x;
      Ret (output ++ " because of exception in " ++ (if xm_sv x then "supervisor" else "userland") ++ " mode: " ++ t)
  end.

(** ** The runner, with what it prints

    A run with output: the lines printed, in order, and how it ended. What was printed before a panic is kept. *)
Definition said (A : Type) : Type := (list string * outcome A)%type.
Definition silent {A} (x : outcome A) : said A := ([], x).
(** [println!] of a text whose formatting may panic. *)
Definition say (t : outcome string) : said unit := match t with Ret s => ([s], Ret tt) | Panic => ([], Panic) end.
Definition sbind {A B} (x : said A) (k : A -> said B) : said B :=
  match x with
  | (l, Ret a) => let (l', r) := k a in ((l ++ l')%list, r)
  | (l, Panic) => (l, Panic)
  end.
Notation "'says' p <- e ; k" := (sbind e (fun p => k)) (at level 200, p pattern, e at level 100, k at level 200).

Section RunnerText.
Context {D : Type} (ops : bus_ops D) (oc : bool).

(** The loop of run_vm (run.rs:43-90), on explicit fuel, with its [println!] calls (lines 54-60 and 77-83). *)
Fixpoint run_loop_said (fuel : nat) (cfg : run_config) (was_at : Z) (m : cpu D) : said (option (cpu D * Z * option ex_with_mode)) :=
  match fuel with
  | O => silent (Ret None)
  | S f =>
      if c_halted m then silent (Ret (Some (m, was_at, None)))
      else if match cf_limit cfg with Some l => l <? c_cycles m | None => false end then silent (Ret (Some (m, was_at, None)))
      else
        let was_at := r_pc (c_regs m) in
        says _ <- (if cf_print_cycles cfg
                   then say (Ret ("[lrvm] Running cycle " ++ fmt_hex10 (c_cycles m) ++ " at address " ++ fmt_hex10 (r_pc (c_regs m))))
                   else silent (Ret tt));
        says m <- silent (next ops oc m);
        if negb (r_et (c_regs m) =? 0) then
          let ex := ex_of_et (r_et (c_regs m)) in
          says _ <- (if cf_print_ex cfg && negb (cf_halt_on_ex cfg && cf_print_finish cfg)
                     then say (do! t <- ex_text ex; Ret ("[lrvm] At address " ++ fmt_hex10 was_at ++ " - Exception occurred: " ++ t))
                     else silent (Ret tt));
          if cf_halt_on_ex cfg then silent (Ret (Some (m, was_at, Some ex))) else run_loop_said f cfg was_at m
        else run_loop_said f cfg was_at m
  end.

(** run_vm (run.rs:35-107), with the [println!] calls of lines 99-104. *)
Definition run_vm_said (fuel : nat) (cfg : run_config) (m : cpu D) : said (option (cpu D * stopped)) :=
  says r <- run_loop_said fuel cfg (r_pc (c_regs m)) m;
  match r with
  | None => silent (Ret None)
  | Some (m, was_at, ex) =>
      let state := Stopped (c_cycles m) was_at ex in
      says _ <- (if cf_print_finish cfg
                 then says _ <- (if cf_newline cfg then say (Ret "") else silent (Ret tt));
                      say (do! t <- stop_text state; Ret ("[lrvm] " ++ t))
                 else silent (Ret tt));
      silent (Ret (Some (m, state)))
  end.

(** [{:?}] of a mapping error (derived, mappings.rs:22-33; Mapping: lines 2-13). *)
Definition mapping_error_text (e : mapping_error) : string :=
  match e with
  | UnknownComponent => "UnknownComponent" | UnalignedStartAddress => "UnalignedStartAddress"
  | UnalignedBusSize => "UnalignedBusSize" | UnalignedEndAddress => "UnalignedEndAddress"
  | NullOrNegAddressRange => "NullOrNegAddressRange" | AlreadyMapped => "AlreadyMapped" | NullBusSize => "NullBusSize"
  | AddressOverlaps m => "AddressOverlaps(Mapping { aux_id: " ++ fmt_dec (mp_aux_id m) ++ ", aux_hw_id: " ++ fmt_dec (mp_hw_id m) ++
                         ", addr: " ++ fmt_dec (mp_addr m) ++ ", size: " ++ fmt_dec (mp_size m) ++ " })"
  | MappingTooLarge s => "MappingTooLarge { aux_size: " ++ fmt_dec s ++ " }"
  end.
(** [{:32}] of a name: spaces up to 32 characters (not bytes). *)
Fixpoint spaces (k : nat) : string := match k with O => "" | S k => String " " (spaces k) end.
Definition fmt_name32 (name : list Z) : string := text_of_bytes (utf8 name) ++ spaces (32 - List.length name).
(** The line of one component (prepare.rs:22-46). *)
Definition component_line (s : aux_mapping_status) : string :=
  "=> Component " ++ fmt_dec4 (as_id s) ++ " '" ++ fmt_name32 (as_name s) ++ "': " ++
  (match as_result s with ROk _ => "✓" | RErr _ => "✗" end) ++ " " ++
  (match as_result s with
   | ROk r => fmt_hex10 (mr_start r) ++ " -> " ++ fmt_hex10 (mr_end r)
   | RErr e => mapping_error_text e
   end) ++ " (HW ID: 0x" ++ String.concat " " (map fmt_byte (be_bytes64 (as_hw_id s))) ++ ")".

(** prepare_vm (prepare.rs:11-60), with the [println!] of lines 22-46. *)
Definition prepare_vm_said (ds : list D) : said (cpu D) :=
  says m <- silent (board_new ops ds);
  says (mem, res, st) <- silent (map_contiguous oc (c_mem m) 0 (zrange (List.length ds)));
  says _ <- (map component_line st, Ret tt);
  match res with
  | ROk _ => silent (board_reset ops (with_mem mem m))
  | RErr _ => silent Panic
  end.

(** exec_vm (exec.rs:6-10). *)
Definition exec_vm_said (fuel : nat) (cfg : run_config) (ds : list D) : said (option (cpu D * stopped)) :=
  says m <- prepare_vm_said ds; run_vm_said fuel cfg m.
End RunnerText.

(** ** The print-based components *)

(** The end of a line. *)
Definition newline : string := String (ascii_of_N 10) "".

(** The handler of NumberDisplay::new_print (number.rs:50-63). *)
Definition number_print (num : Z) (format : num_format) (nl : bool) : string :=
  (match format with
   | NHex => fmt_hex num | NHexLong => fmt_hex10 num | NDec => fmt_dec num | NDecLong => fmt_dec10 num
   end) ++ (if nl then newline else "").
(** What such a display has printed so far: its handler is called once per recorded call. *)
Definition num_display_printed (d : num_display) : string :=
  String.concat "" (map (fun c => let '(n, f, nl) := c in number_print n f nl) (nd_calls d)).

(** The handler of CharDisplay::new_print_lossy (character.rs:26-35): the replacement character is U+FFFD. *)
Definition char_print (r : result Z Z) : string :=
  text_of_bytes (utf8_char (match r with ROk c => c | RErr _ => 65533 end)).
Definition char_display_printed (d : char_display) : string := String.concat "" (map char_print (cd_calls d)).

(** The handler of BasicDebug::new_println (basic.rs:60-108), without the end of line. [-n] overflows for the least number of the type
    ([least]): panic with overflow checks, else its bits are printed ([{:X}] of a signed number prints its two's complement bits). *)
Definition neg_hex (oc : bool) (fmt : Z -> string) (least : Z) (n : Z) : outcome string :=
  if n <? 0 then if n =? - least then if oc then Panic else Ret ("-" ++ fmt least) else Ret ("-" ++ fmt (- n))
  else Ret (fmt n).
Definition debug_text (oc : bool) (i : debug_info) : outcome string :=
  match i with
  | UnsignedByteHex n => Ret (fmt_hex4 n)
  | UnsignedHalfWordHex n => Ret (fmt_hex6 n)
  | UnsignedWordHex n => Ret (fmt_hex10 n)
  | SignedByteHex n => neg_hex oc fmt_hex4 128 n
  | SignedHalfWordHex n => neg_hex oc fmt_hex6 32768 n
  | SignedWordHex n => neg_hex oc fmt_hex10 2147483648 n
  | UnsignedByteDec n | UnsignedHalfWordDec n | UnsignedWordDec n => Ret (fmt_dec n)
  | SignedByteDec n | SignedHalfWordDec n | SignedWordDec n => Ret (fmt_signed n)
  | DbgBoolean b => Ret (if b then "true" else "false")
  | DbgUtf8Char (ROk c) => Ret (text_of_bytes (utf8_char c))
  | DbgUtf8Char (RErr c) => Ret ("<Invalid UTF-8 character: " ++ fmt_hex10 c ++ ">")
  | DbgAgnosticChar c => Ret ("<Encoding-agnostic character: " ++ fmt_hex10 c ++ ">")
  | DbgMessage => Ret "debug point"
  end.
Definition debug_println (oc : bool) (i : debug_info) : outcome string :=
  do! t <- debug_text oc i; Ret ("[debug:basic] " ++ t ++ newline).
(** BasicDebug::write (basic.rs:134-155) of a component built by new_println: new state, exception, and what is printed. *)
Definition dbg_write_println (oc : bool) (d : basic_debug) (addr word : Z) : outcome (basic_debug * Z * string) :=
  do! (d', ex) <- dbg_write d addr word;
  do! i <- unwrap (dbg_info (addr / 4) word);
  do! t <- debug_println oc i;
  Ret (d', ex, t).
