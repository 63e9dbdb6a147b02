(** The example programs: the [main] functions of /repo/examples. Printing is not modelled, except through the display components;
    random hardware identifiers are parameters; [fuel] bounds the number of cycles, [None] means "still running". *)
From Coq Require Import String Ascii ZArith List Bool Lia.
From Verif Require Import Base Board Mem Cpu Asm Tools Devices Runner LasmRules Lasm Sources.
Import ListNotations.
Open Scope Z_scope.

(** A run: still running when the fuel is exhausted, or finished. *)
Definition running (A : Type) : Type := outcome (option A).

Section Examples.
Context (oc : bool).
Notation ops := (dev_ops oc).

(** examples/minimal/src/main.rs:5-12. *)
Definition minimal_main (fuel : nat) : running (cpu device * stopped) :=
  do! program <- unwrap (assemble_words "halt");
  do! rom <- unwrap (br_new program 0);
  exec_vm ops oc fuel config_default [DRom rom].

(** examples/benchmark/src/main.rs:7-30: [None] for the error message, or the number of cycles displayed. *)
Definition benchmark_main (fuel : nat) : running (option Z) :=
  do! program <- unwrap (assemble_words benchmark_source);
  do! rom <- unwrap (br_new program 0);
  do! r <- exec_vm ops oc fuel (with_halt_on_exception true config_quiet) [DRom rom];
  match r with
  | None => Ret None
  | Some (m, st) => Ret (Some (match sp_ex st with Some _ => None | None => Some (c_cycles m) end))
  end.

(** The loop of examples/hello_world/src/main.rs:44-54. *)
Fixpoint hello_loop (fuel : nat) (m : cpu device) : running (cpu device) :=
  match fuel with
  | O => Ret None
  | S f =>
      if c_halted m then Ret (Some m)
      else do! m <- next ops oc m;
           if negb (r_et (c_regs m) =? 0) then Panic else hello_loop f m
  end.
(** examples/hello_world/src/main.rs:8-57, for any program in place of [display.lasm]; the result is the board at the end, and what
    its display was given is [hello_shown]. *)
Definition hello_run (fuel : nat) (program : list Z) (id0 id1 id2 : Z) : running (cpu device) :=
  do! rom <- unwrap (br_with_size program 4096 id0);
  do! ram <- unwrap (sm_new 4096 id1);
  do! disp <- unwrap (bd_new 256 id2);
  do! m <- board_new ops [DRom rom; DRam ram; DBuf disp];
  do! (mem, res, _) <- map_contiguous oc (c_mem m) 0 [0; 1; 2];
  match res with
  | RErr _ => Panic
  | ROk _ => do! m <- board_reset ops (with_mem mem m); hello_loop fuel m
  end.
Definition hello_main (fuel : nat) (id0 id1 id2 : Z) : running (cpu device) :=
  do! program <- unwrap (assemble_words hello_source); hello_run fuel program id0 id1 id2.
(** examples/disassemble/src/main.rs:9-28. *)
Definition re_assemble (source : string) : outcome string :=
  do! assembled <- unwrap (assemble source);
  match prog_decode assembled true with
  | RErr _ => Panic
  | ROk decoded => prog_to_lasm oc decoded false
  end.
(** examples/disassemble/src/main.rs:30-32: what is printed (after the progress messages). *)
Definition disassemble_main : outcome string := do! t <- re_assemble disassemble_source; Ret (newline ++ t)%string.
(** The calls of the handler of a buffered display. *)
Definition hello_shown (m : cpu device) : option (list (bool * list Z)) :=
  match znth (c_hwb m) 2 with Some (AuxEntry (DBuf d) _) => Some (bd_calls d) | _ => None end.

(** examples/hw_detect/src/main.rs:11-19; [name] is the byte string given to from_utf8_lossy, the category is an error ([inr]) when its code is unknown. *)
Record component : Type := Component {
  cp_uid : Z; cp_name : list Z; cp_size : Z; cp_category : category + Z; cp_model : Z; cp_data : Z; cp_mapping : option (Z * Z) }.
(** The closure [read] of decode_component (main.rs:26-43): [None] is its error (its text is not modelled). *)
Definition detect_read (mem : memory device) (addr : Z) : outcome (memory device * option Z) :=
  do! (mem, ex, word) <- mem_read ops oc mem addr;
  Ret (mem, if ex =? 0 then Some word else None).
(** The reads of decode_component, in order, at the given offsets, stopping at the first error (the operator [?]). *)
Fixpoint detect_reads (mem : memory device) (aux_addr : Z) (offs : list Z) : outcome (memory device * option (list Z)) :=
  match offs with
  | [] => Ret (mem, Some [])
  | off :: t =>
      do! a <- add_u32 oc aux_addr off;
      do! (mem, r) <- detect_read mem a;
      match r with
      | None => Ret (mem, None)
      | Some w => do! (mem, rs) <- detect_reads mem aux_addr t; Ret (mem, option_map (cons w) rs)
      end
  end.
(** decode_component (main.rs:23-97): the words are read in the order of their addresses; the last two only when the component is mapped.
    The first read is at [aux_addr] itself: adding 0 to it changes nothing. *)
Definition decode_component (mem : memory device) (aux_addr : Z) : outcome (memory device * option component) :=
  do! (mem, r) <- detect_reads mem aux_addr [0; 4; 8; 12; 16; 20; 24; 28; 32; 36; 40; 44; 48; 52; 56; 60; 64];
  match r with
  | Some [u1; u2; n1; n2; n3; n4; n5; n6; n7; n8; size; cat; typ; model; d1; d2; mapped] =>
      let code := cat * 4294967296 + typ in
      let result mp := Component (u1 * 4294967296 + u2) (words_to_bytes [n1; n2; n3; n4; n5; n6; n7; n8]) size
        (match category_decode code with Some c => inl c | None => inr code end) model (d1 * 4294967296 + d2) mp in
      if mapped =? 0 then Ret (mem, Some (result None))
      else do! (mem, r2) <- detect_reads mem aux_addr [68; 72];
           match r2 with Some [a; b] => Ret (mem, Some (result (Some (a, b)))) | _ => Ret (mem, None) end
  | _ => Ret (mem, None)
  end.
(** The loop of main.rs:145-177, over the components numbered in [ids]: unwrap_or_else panics on an error. *)
Fixpoint detect_all (mem : memory device) (ids : list Z) : outcome (list component) :=
  match ids with
  | [] => Ret []
  | k :: t =>
      do! x <- mul_u32 oc k 76;
      do! a <- add_u32 oc (4096 + 4) x;
      do! (mem, r) <- decode_component mem a;
      do! c <- unwrap r;
      do! cs <- detect_all mem t;
      Ret (c :: cs)
  end.
(** hw_detect's main (main.rs:99-179), with further components [rest] (the example has none); the components displayed. *)
Definition hw_detect_run (fuel : nat) (program : list Z) (id0 id1 id2 : Z) (rest : list device) : running (list component) :=
  do! rom <- unwrap (br_with_size program 4096 id0);
  do! ram <- unwrap (sm_new 4096 id1);
  do! stack <- unwrap (sm_new 32 id2);
  do! r <- exec_vm ops oc fuel config_halt_on_ex (DRom rom :: DRam ram :: DRam stack :: rest);
  match r with
  | None => Ret None
  | Some (m, _) =>
      do! (mem, ex, n) <- mem_read ops oc (c_mem m) 4096;
      if negb (ex =? 0) then Panic
      else do! cs <- detect_all mem (zrange (Z.to_nat n)); Ret (Some cs)
  end.
Definition hw_detect_main (fuel : nat) (id0 id1 id2 : Z) : running (list component) :=
  do! program <- unwrap (assemble_words hw_detect_source); hw_detect_run fuel program id0 id1 id2 [].

(** examples/elapsed_time/src/main.rs:24-43. The clock of the host is [system] and [instant], the successive readings of the system and of the
    monotonic clock (as in Devices.v); RealtimeClock::new (realtime.rs:25-30) makes the first reading. The handler prints its first argument. *)
Definition elapsed_devices (program : list Z) (system : nat -> option Z) (instant : nat -> Z) : outcome (list device) :=
  do! rom <- unwrap (br_with_size program 4096 1);
  Ret [DRom rom; DClock (Clock 2 (instant 0%nat) system instant 1); DNum (NumDisplay 3 [])].
Definition elapsed_main (fuel : nat) (system : nat -> option Z) (instant : nat -> Z) : running (cpu device * stopped) :=
  do! program <- unwrap (assemble_words elapsed_source);
  do! ds <- elapsed_devices program system instant;
  exec_vm ops oc fuel config_halt_on_ex ds.

(** RunConfig::with_print_finish (run_config.rs:65-68). *)
Definition with_print_finish (b : bool) (c : run_config) : run_config :=
  RunConfig (cf_limit c) (cf_halt_on_ex c) (cf_print_cycles c) (cf_print_ex c) b (cf_newline c).
(** examples/brainfuck/src/main.rs:11-87. [lines] and [keys] are the successive answers of the host to the two keyboards (the bytes of a line, the
    code point of a key); the terminal itself is not modelled. CharDisplay::new, NumberDisplay::new and SyncCharKeyboard::new start with no call. *)
Definition brainfuck_main (fuel : nat) (lines : nat -> list Z) (keys : nat -> Z) (id0 id1 id2 id3 id4 id5 id6 id7 : Z) : running (cpu device * stopped) :=
  do! program <- unwrap (assemble_words brainfuck_source);
  do! rom <- unwrap (br_with_size program 4096 id0);
  do! stack <- unwrap (sm_new 4096 id1);
  do! memory <- unwrap (sm_new 4096 id2);
  do! display <- unwrap (bd_new 4096 id3);
  do! line_keyboard <- unwrap (lk_new 4096 id4 lines);
  exec_vm ops oc fuel (with_print_finish false config_halt_on_ex)
    [DRom rom; DRam stack; DRam memory; DBuf display; DKeyLine line_keyboard; DKeyChar (CharKeyboard 0 id5 keys 0); DChar (CharDisplay id6 []); DNum (NumDisplay id7 [])].
End Examples.
(** The numbers given to the handler of a number display, component [k] of the board. *)
Definition displayed (k : Z) (m : cpu device) : option (list Z) :=
  match znth (c_hwb m) k with Some (AuxEntry (DNum d) _) => Some (map (fun c => fst (fst c)) (nd_calls d)) | _ => None end.
(** The calls of the handlers of a buffered display, of a character display and of a number display, component [k] of the board. *)
Definition texts_shown (k : Z) (m : cpu device) : option (list (bool * list Z)) :=
  match znth (c_hwb m) k with Some (AuxEntry (DBuf d) _) => Some (bd_calls d) | _ => None end.
Definition chars_shown (k : Z) (m : cpu device) : option (list (result Z Z)) :=
  match znth (c_hwb m) k with Some (AuxEntry (DChar d) _) => Some (cd_calls d) | _ => None end.
Definition numbers_shown (k : Z) (m : cpu device) : option (list (Z * num_format * bool)) :=
  match znth (c_hwb m) k with Some (AuxEntry (DNum d) _) => Some (nd_calls d) | _ => None end.
