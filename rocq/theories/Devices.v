(** Components of the lrvm_aux crate. Models /repo/lrvm_aux/src/volatile_mem/ram.rs,
    storage/{bootrom,persistent,file_backed}.rs, display/{number,character,buffered}.rs,
    keyboard/{sync_char,sync_line}.rs, time/realtime.rs, debug/basic.rs.

    Host callbacks: an output handler is modelled by the list of its calls, in order; an input handler by a
    stream of answers and the number of answers consumed; the system clocks by a stream of readings.
    Callbacks that panic are not modelled. [oc] is the overflow-check setting ([self.size * 4]). *)
From Coq Require Import String Ascii ZArith List Bool Lia.
From Verif Require Import Base Board Mem Asm Tools.
Import ListNotations.
Open Scope Z_scope.

(** Names are ASCII literals. *)
Definition chars (s : string) : list Z := map (fun c => Z.of_N (N_of_ascii c)) (list_ascii_of_string s).

(** [vec![0; n]] *)
Definition zeros (n : Z) : list Z := repeat 0 (Z.to_nat n).
(** [Vec::resize(n, 0)] *)
Definition resize (l : list Z) (n : Z) : list Z := firstn (Z.to_nat n) l ++ zeros (n - zlen l).
(** [v[i]] and [v[i] = w] panic out of bounds. *)
Definition vget (l : list Z) (i : Z) : outcome Z := unwrap (znth l i).
Definition vset (l : list Z) (i w : Z) : outcome (list Z) := unwrap (zset l i w).

(** Constructor results: [Result<Self, &'static str>]; the messages are in Makers.v. Conversions to
    [usize] never fail on the modelled (at least 32-bit) hosts. *)

(** Ram (ram.rs:9-13) and PersistentMem (persistent.rs:9-13) have the same fields and code. *)
Record store_mem : Type := StoreMem { sm_storage : list Z; sm_size : Z; sm_hw_id : Z }.
(** Ram::new (ram.rs:18-35), PersistentMem::new (persistent.rs:18-35). *)
Definition sm_new (size hw_id : Z) : option store_mem :=
  if size =? 0 then None
  else if negb (size mod 4 =? 0) then None
  else Some (StoreMem (zeros size) (size / 4) hw_id).
(** Ram::from (ram.rs:39-50), PersistentMem::from (persistent.rs:39-50). *)
Definition sm_from (storage : list Z) (hw_id : Z) : option store_mem :=
  if zlen storage <? 4294967296 then Some (StoreMem storage (zlen storage / 4) hw_id) else None.
(** Ram::from_with_size (ram.rs:54-88), PersistentMem::from_with_size (persistent.rs:54-88). *)
Definition sm_from_with_size (storage : list Z) (size hw_id : Z) : option store_mem :=
  if negb (zlen storage <? 4294967296) then None
  else if size <? zlen storage then None
  else if size =? 0 then None
  else if negb (size mod 4 =? 0) then None
  else Some (StoreMem (resize storage (size / 4)) (size / 4) hw_id).
(** read, write, reset (ram.rs:112-122, persistent.rs:112-122), metadata (ram.rs:101-110, persistent.rs:101-110). *)
Definition sm_read (d : store_mem) (addr : Z) : outcome (store_mem * Z * Z) :=
  do! v <- vget (sm_storage d) (addr / 4); Ret (d, 0, v).
Definition sm_write (d : store_mem) (addr word : Z) : outcome (store_mem * Z) :=
  do! l <- vset (sm_storage d) (addr / 4) word; Ret (StoreMem l (sm_size d) (sm_hw_id d), 0).
Definition sm_reset (d : store_mem) : outcome store_mem :=
  Ret (StoreMem (zeros (zlen (sm_storage d))) (sm_size d) (sm_hw_id d)).
Definition sm_metadata (oc : bool) (c : category) (d : store_mem) : outcome words8 :=
  do! sz <- mul_u32 oc (sm_size d) 4;
  do! md <- metadata_new (sm_hw_id d) sz c None None;
  metadata_encode md.

(** BootRom (bootrom.rs:15-20), new (25-37), with_size (41-65), metadata (83-92), read (94-102), write (104-106);
    reset (108) does nothing. *)
Record boot_rom : Type := BootRom { br_storage : list Z; br_len : Z; br_size : Z; br_hw_id : Z }.
Definition br_new (storage : list Z) (hw_id : Z) : option boot_rom :=
  if zlen storage <? 4294967296
  then Some (BootRom storage (zlen storage) (zlen storage) hw_id) else None.
Definition br_with_size (storage : list Z) (size hw_id : Z) : option boot_rom :=
  if negb (zlen storage <? 4294967296) then None
  else if size <? zlen storage then None
  else if size =? 0 then None
  else if negb (size mod 4 =? 0) then None
  else Some (BootRom storage (zlen storage) (size / 4) hw_id).
Definition br_read (d : boot_rom) (addr : Z) : outcome (boot_rom * Z * Z) :=
  if addr / 4 <? br_len d then do! v <- vget (br_storage d) (addr / 4); Ret (d, 0, v)
  else Ret (d, 0, 0).
Definition br_write (d : boot_rom) (addr word : Z) : outcome (boot_rom * Z) :=
  Ret (d, aux_encode MemoryNotWritable).
Definition br_metadata (oc : bool) (d : boot_rom) : outcome words8 :=
  do! sz <- mul_u32 oc (br_size d) 4;
  do! md <- metadata_new (br_hw_id d) sz (CatStorage TReadonly) None None;
  metadata_encode md.

(** FileBackedMem (file_backed.rs:20-26). The file is its list of bytes. I/O errors other than reading
    beyond the end of the file are not modelled, nor is concurrent modification of the file by the host. *)
Record file_mem : Type := FileMem {
  fm_file : list Z; fm_size : Z; fm_real_size : Z; fm_writable : bool; fm_hw_id : Z }.
(** open (file_backed.rs:30-56): panics on files of 4 GB or more. *)
Definition fm_open (file : list Z) (writable : bool) (hw_id : Z) : outcome file_mem :=
  if zlen file <? 4294967296
  then let rs := zlen file / 4 * 4 in Ret (FileMem file rs rs writable hw_id)
  else Panic.
(** set_len: truncates or extends with zeros. *)
Definition set_len (file : list Z) (n : Z) : list Z := resize file n.
(** writable, writable_with_size, readonly, readonly_with_size (file_backed.rs:59-86). *)
Definition fm_writable_new (file : list Z) (hw_id : Z) : outcome file_mem := fm_open file true hw_id.
Definition fm_writable_with_size (file : list Z) (size hw_id : Z) : outcome file_mem :=
  do! m <- fm_open file true hw_id;
  Ret (if size <? fm_real_size m then FileMem (fm_file m) size (fm_real_size m) true hw_id
       else if fm_real_size m <? size
       then FileMem (set_len (fm_file m) size) (fm_size m) (fm_real_size m) true hw_id
       else m).
Definition fm_readonly (file : list Z) (hw_id : Z) : outcome file_mem := fm_open file false hw_id.
Definition fm_readonly_with_size (file : list Z) (size hw_id : Z) : outcome file_mem :=
  do! m <- fm_open file false hw_id;
  Ret (FileMem (fm_file m) size (fm_real_size m) false hw_id).
(** Overwrite the bytes at [pos] ([seek] then [write_all]); the file grows when needed. *)
Definition write_at (file : list Z) (pos : Z) (bytes : list Z) : list Z :=
  let file := if zlen file <? pos + zlen bytes then set_len file (pos + zlen bytes) else file in
  firstn (Z.to_nat pos) file ++ bytes ++ skipn (Z.to_nat (pos + zlen bytes)) file.
(** read, write (file_backed.rs:105-132), metadata (94-103); reset (134) does nothing. *)
Definition fm_read (d : file_mem) (addr : Z) : outcome (file_mem * Z * Z) :=
  if fm_real_size d <=? addr then Ret (d, 0, 0)
  else match skipn (Z.to_nat addr) (fm_file d) with
       | a :: b :: c :: e :: _ => Ret (d, 0, of_be4 a b c e)
       | _ => Ret (d, aux_encode GenericPhysicalReadError, 0)
       end.
Definition fm_write (d : file_mem) (addr word : Z) : outcome (file_mem * Z) :=
  if negb (fm_writable d) then Ret (d, aux_encode MemoryNotWritable)
  else if addr <? fm_real_size d
  then Ret (FileMem (write_at (fm_file d) addr (be_bytes32 word)) (fm_size d) (fm_real_size d)
                    (fm_writable d) (fm_hw_id d), 0)
  else Ret (d, 0).
Definition fm_metadata (oc : bool) (d : file_mem) : outcome words8 :=
  do! sz <- mul_u32 oc (fm_size d) 4;
  do! md <- metadata_new (fm_hw_id d) sz (CatStorage TPersistent) None None;
  metadata_encode md.

(** NumberDisplay (number.rs:14-36, 63-97). [nd_calls]: calls of the handler, oldest first. *)
Inductive num_format : Type := NHex | NHexLong | NDec | NDecLong.
Record num_display : Type := NumDisplay { nd_hw_id : Z; nd_calls : list (Z * num_format * bool) }.
Definition nd_write (d : num_display) (addr word : Z) : outcome (num_display * Z) :=
  do! f <- match addr mod 16 with
           | 0 => Ret NHex | 4 => Ret NHexLong | 8 => Ret NDec | 12 => Ret NDecLong
           | _ => Panic
           end;
  Ret (NumDisplay (nd_hw_id d) (nd_calls d ++ [(word, f, addr <? 16)]), 0).
Definition nd_metadata (d : num_display) : outcome words8 :=
  do! md <- metadata_new (nd_hw_id d) 64 (CatDisplay TNumber) None None; metadata_encode md.

(** CharDisplay (character.rs:14-17, 38-57). [char::from_u32(w).ok_or(w)]. *)
Definition char_from_u32 (w : Z) : result Z Z :=
  if (w <? 55296) || ((57344 <=? w) && (w <? 1114112)) then ROk w else RErr w.
Record char_display : Type := CharDisplay { cd_hw_id : Z; cd_calls : list (result Z Z) }.
Definition cd_write (d : char_display) (addr word : Z) : outcome (char_display * Z) :=
  Ret (CharDisplay (cd_hw_id d) (cd_calls d ++ [char_from_u32 word]), 0).
Definition cd_metadata (d : char_display) : outcome words8 :=
  do! md <- metadata_new (cd_hw_id d) 4 (CatDisplay TBuffered) None None; metadata_encode md.

(** BufferedDisplay (buffered.rs:26-31), new (39-64), metadata (84-93), read (95-98), write (100-123), reset (125-127).
    A call of the handler is recorded with the raw bytes and whether the lossy conversion was requested
    ([String::from_utf8_lossy] and [from_utf8], of the standard library, are modelled in Utf8.v). *)
Record buf_display : Type := BufDisplay {
  bd_buffer : list Z; bd_words : Z; bd_hw_id : Z; bd_calls : list (bool * list Z) }.
Definition bd_new (capacity hw_id : Z) : option buf_display :=
  if capacity =? 0 then None
  else if negb (capacity mod 4 =? 0) then None
  else Some (BufDisplay (zeros (capacity / 4 - 1)) (capacity / 4 - 1) hw_id []).
Definition bd_clear (d : buf_display) : buf_display :=
  BufDisplay (zeros (zlen (bd_buffer d))) (bd_words d) (bd_hw_id d) (bd_calls d).
Definition bd_write (d : buf_display) (addr word : Z) : outcome (buf_display * Z) :=
  let call lossy := BufDisplay (bd_buffer d) (bd_words d) (bd_hw_id d)
                               (bd_calls d ++ [(lossy, words_to_bytes (bd_buffer d))]) in
  if addr / 4 <? bd_words d then
    do! l <- vset (bd_buffer d) (addr / 4) word;
    Ret (BufDisplay l (bd_words d) (bd_hw_id d) (bd_calls d), 0)
  else match word with
       | 170 => Ret (call false, 0)
       | 187 => Ret (call true, 0)
       | 255 => Ret (bd_clear d, 0)
       | code => Ret (d, aux_encode (UnknownOperation (u8 code)))
       end.
Definition bd_metadata (oc : bool) (d : buf_display) : outcome words8 :=
  do! s <- mul_u32 oc (bd_words d) 4;
  do! sz <- add_u32 oc s 4;
  do! md <- metadata_new (bd_hw_id d) sz (CatDisplay TBuffered) None None; metadata_encode md.

(** SyncCharKeyboard (sync_char.rs:20-35, 53-80), metadata (42-51): [ck_input n] is the handler's n-th answer,
    [ck_used] the number of answers consumed. *)
Record char_keyboard : Type := CharKeyboard {
  ck_buffer : Z; ck_hw_id : Z; ck_input : nat -> Z; ck_used : nat }.
Definition ck_read (d : char_keyboard) (addr : Z) : outcome (char_keyboard * Z * Z) :=
  if addr =? 0 then Ret (d, 0, ck_buffer d)
  else if addr =? 4 then Ret (d, aux_encode MemoryNotReadable, 0)
  else Panic.
Definition ck_write (d : char_keyboard) (addr word : Z) : outcome (char_keyboard * Z) :=
  if addr =? 0 then Ret (d, Z.shiftl 49 8)
  else if addr =? 4 then
    match word with
    | 1 => Ret (CharKeyboard (ck_input d (ck_used d)) (ck_hw_id d) (ck_input d) (S (ck_used d)), 0)
    | 2 => Ret (CharKeyboard 0 (ck_hw_id d) (ck_input d) (ck_used d), 0)
    | code => Ret (d, aux_encode (UnknownOperation (u8 code)))
    end
  else Panic.
Definition ck_reset (d : char_keyboard) : outcome char_keyboard :=
  Ret (CharKeyboard 0 (ck_hw_id d) (ck_input d) (ck_used d)).
Definition ck_metadata (d : char_keyboard) : outcome words8 :=
  do! md <- metadata_new (ck_hw_id d) 8 (CatKeyboard TReadChar) None None; metadata_encode md.

(** SyncLineKeyboard (sync_line.rs:20-25), new (32-57), metadata (65-74), read (76-84), write (86-129), reset (131-133).
    [lk_input n] is the n-th typed line, as its UTF-8 bytes. *)
Record line_keyboard : Type := LineKeyboard {
  lk_buffer : list Z; lk_capacity : Z; lk_hw_id : Z; lk_input : nat -> list Z; lk_used : nat }.
Definition lk_new (capacity hw_id : Z) (input : nat -> list Z) : option line_keyboard :=
  if negb (capacity mod 4 =? 0) then None
  else if capacity =? 0 then None
  else Some (LineKeyboard (zeros (capacity / 4 - 1)) (capacity / 4 - 1) hw_id input 0).
(** The loop over the typed bytes (sync_line.rs:92-121): [word], [byte_index], [pos]; returns the buffer
    at the end of the loop or at the early [return] of lines 103 and 118. *)
Fixpoint lk_fill (buffer bytes : list Z) (word byte_index pos : Z) : outcome (list Z) :=
  match bytes with
  | [] =>
      if 0 <? byte_index then
        if zlen buffer <=? pos then Ret buffer else vset buffer pos word
      else Ret buffer
  | b :: t =>
      let word := word + Z.shiftl b ((3 - byte_index) * 8) in
      if byte_index =? 3 then
        if zlen buffer <=? pos then Ret buffer
        else do! buffer <- vset buffer pos word; lk_fill buffer t 0 0 (pos + 1)
      else lk_fill buffer t word (byte_index + 1) pos
  end.
Definition lk_read (d : line_keyboard) (addr : Z) : outcome (line_keyboard * Z * Z) :=
  if addr / 4 =? lk_capacity d then Ret (d, 0, 0)
  else do! v <- vget (lk_buffer d) (addr / 4); Ret (d, 0, v).
Definition lk_clear (d : line_keyboard) : line_keyboard :=
  LineKeyboard (zeros (zlen (lk_buffer d))) (lk_capacity d) (lk_hw_id d) (lk_input d) (lk_used d).
Definition lk_write (d : line_keyboard) (addr word : Z) : outcome (line_keyboard * Z) :=
  if negb (addr / 4 =? lk_capacity d) then Ret (d, Z.shiftl 49 8)
  else match word with
       | 170 =>
           do! b <- lk_fill (lk_buffer d) (lk_input d (lk_used d)) 0 0 0;
           Ret (LineKeyboard b (lk_capacity d) (lk_hw_id d) (lk_input d) (S (lk_used d)), 0)
       | 255 => Ret (lk_clear d, 0)
       | code => Ret (d, aux_encode (UnknownOperation (u8 code)))
       end.
Definition lk_metadata (oc : bool) (d : line_keyboard) : outcome words8 :=
  do! s <- mul_u32 oc (lk_capacity d) 4;
  do! sz <- add_u32 oc s 4;
  do! md <- metadata_new (lk_hw_id d) sz (CatKeyboard TReadLine) None None; metadata_encode md.

(** RealtimeClock (realtime.rs:19-74). Times are in nanoseconds. [rc_system n] is the n-th reading of the
    system clock relative to the epoch ([None]: before the epoch), [rc_instant n] the n-th reading of the
    monotonic clock. [elapsed] saturates at zero. Seconds are a [u64], the sub-second part a [u32]. *)
Record clock : Type := Clock {
  rc_hw_id : Z; rc_reset_at : Z; rc_system : nat -> option Z; rc_instant : nat -> Z; rc_used : nat }.
Definition as_secs (t : Z) : Z := t / 1000000000.
Definition subsec_nanos (t : Z) : Z := t mod 1000000000.
Definition subsec_micros (t : Z) : Z := subsec_nanos t / 1000.
Definition subsec_millis (t : Z) : Z := subsec_nanos t / 1000000.
Definition rc_tick (d : clock) : clock :=
  Clock (rc_hw_id d) (rc_reset_at d) (rc_system d) (rc_instant d) (S (rc_used d)).
Definition rc_read (oc : bool) (d : clock) (addr : Z) : outcome (clock * Z * Z) :=
  let time := if addr <? 14 then rc_system d (rc_used d)
              else Some (Z.max 0 (rc_instant d (rc_used d) - rc_reset_at d)) in
  match time with
  | None => Ret (rc_tick d, aux_encode TimeSynchronizationError, 0)
  | Some t =>
      do! v <- match addr mod 3 with
               | 0 => Ret (u32 (Z.shiftr (as_secs t) 32))
               | 1 => Ret (u32 (Z.land (as_secs t) 4294967295))
               | 2 => do! a <- mul_u32 oc (subsec_millis t) 1000000;
                      do! b <- mul_u32 oc (subsec_micros t) 1000;
                      do! s <- add_u32 oc a b;
                      add_u32 oc s (subsec_nanos t)
               | _ => Panic
               end;
      Ret (rc_tick d, 0, v)
  end.
Definition rc_write (d : clock) (addr word : Z) : outcome (clock * Z) :=
  Ret (d, aux_encode MemoryNotWritable).
Definition rc_reset (d : clock) : outcome clock :=
  Ret (Clock (rc_hw_id d) (rc_instant d (rc_used d)) (rc_system d) (rc_instant d) (S (rc_used d))).
Definition rc_metadata (d : clock) : outcome words8 :=
  do! md <- metadata_new (rc_hw_id d) 24 (CatClock TRealtime) None None; metadata_encode md.

(** BasicDebug (basic.rs:27-50, 113-158). *)
Inductive debug_info : Type :=
| UnsignedByteHex (n : Z) | UnsignedHalfWordHex (n : Z) | UnsignedWordHex (n : Z)
| SignedByteHex (n : Z) | SignedHalfWordHex (n : Z) | SignedWordHex (n : Z)
| UnsignedByteDec (n : Z) | UnsignedHalfWordDec (n : Z) | UnsignedWordDec (n : Z)
| SignedByteDec (n : Z) | SignedHalfWordDec (n : Z) | SignedWordDec (n : Z)
| DbgBoolean (b : bool) | DbgUtf8Char (c : result Z Z) | DbgAgnosticChar (n : Z) | DbgMessage.
Record basic_debug : Type := BasicDebug { dbg_hw_id : Z; dbg_calls : list debug_info }.
Definition dbg_info (k word : Z) : option debug_info :=
  match k with
  | 0 => Some (UnsignedByteHex (u8 word))
  | 1 => Some (UnsignedHalfWordHex (u16 word))
  | 2 => Some (UnsignedWordHex word)
  | 3 => Some (SignedByteHex (i8 word))
  | 4 => Some (SignedHalfWordHex (i16 word))
  | 5 => Some (SignedWordHex (i32 word))
  | 6 => Some (UnsignedByteDec (u8 word))
  | 7 => Some (UnsignedHalfWordDec (u16 word))
  | 8 => Some (UnsignedWordDec word)
  | 9 => Some (SignedByteDec (i8 word))
  | 10 => Some (SignedHalfWordDec (i16 word))
  | 11 => Some (SignedWordDec (i32 word))
  | 12 => Some (DbgBoolean (negb (word =? 0)))
  | 13 => Some (DbgUtf8Char (char_from_u32 word))
  | 14 => Some (DbgAgnosticChar word)
  | 15 => Some DbgMessage
  | _ => None
  end.
Definition dbg_write (d : basic_debug) (addr word : Z) : outcome (basic_debug * Z) :=
  do! i <- unwrap (dbg_info (addr / 4) word);
  Ret (BasicDebug (dbg_hw_id d) (dbg_calls d ++ [i]), 0).
Definition dbg_metadata (d : basic_debug) : outcome words8 :=
  do! md <- metadata_new (dbg_hw_id d) 32 (CatDebug TBasic) None None; metadata_encode md.

(** A component that refuses reads (the displays and the debug interface). *)
Definition not_readable {A : Type} (d : A) : outcome (A * Z * Z) := Ret (d, aux_encode MemoryNotReadable, 0).

(** Any component of the crate, with its [Bus] implementation. Names: ram.rs:97-99, persistent.rs:97-99, bootrom.rs:79-81, file_backed.rs:90-92, number.rs:70-72,
    character.rs:39-41, buffered.rs:80-82, sync_char.rs:38-40, sync_line.rs:61-63, realtime.rs:34-36, basic.rs:114-116. *)
Inductive device : Type :=
| DRam (d : store_mem) | DFlash (d : store_mem) | DRom (d : boot_rom) | DFile (d : file_mem)
| DNum (d : num_display) | DChar (d : char_display) | DBuf (d : buf_display)
| DKeyChar (d : char_keyboard) | DKeyLine (d : line_keyboard) | DClock (d : clock) | DDebug (d : basic_debug).

(** The [u16] and [u32] below only record the static types of the exception and of the word: they are
    the identity on the values that well-typed component states produce. *)
Definition wrap_r {A : Type} (f : A -> device) (x : outcome (A * Z * Z)) : outcome (device * Z * Z) :=
  do! (d, ex, v) <- x; Ret (f d, u16 ex, u32 v).
Definition wrap_w {A : Type} (f : A -> device) (x : outcome (A * Z)) : outcome (device * Z) :=
  do! (d, ex) <- x; Ret (f d, u16 ex).
Definition wrap_o {A : Type} (f : A -> device) (x : outcome A) : outcome device := do! d <- x; Ret (f d).

Definition dev_ops (oc : bool) : bus_ops device := {|
  bo_name := fun d => chars (match d with
    | DRam _ => "RAM"
    | DFlash _ => "Flash Memory"
    | DRom _ => "BootROM"
    | DFile _ => "Persistent Memory"
    | DNum _ => "Number Display"
    | DChar _ => "Character Display"
    | DBuf _ => "Buffered Display"
    | DKeyChar _ => "Synchronous Character Keyboard"
    | DKeyLine _ => "Synchronous Line Keyboard"
    | DClock _ => "Realtime Clock"
    | DDebug _ => "Basic Debug Interface"
    end)%string;
  bo_metadata := fun d => match d with
    | DRam d => sm_metadata oc (CatMemory TRam) d
    | DFlash d => sm_metadata oc (CatStorage TFlash) d
    | DRom d => br_metadata oc d
    | DFile d => fm_metadata oc d
    | DNum d => nd_metadata d
    | DChar d => cd_metadata d
    | DBuf d => bd_metadata oc d
    | DKeyChar d => ck_metadata d
    | DKeyLine d => lk_metadata oc d
    | DClock d => rc_metadata d
    | DDebug d => dbg_metadata d
    end;
  bo_read := fun d a => match d with
    | DRam d => wrap_r DRam (sm_read d a)
    | DFlash d => wrap_r DFlash (sm_read d a)
    | DRom d => wrap_r DRom (br_read d a)
    | DFile d => wrap_r DFile (fm_read d a)
    | DNum d => wrap_r DNum (not_readable d)
    | DChar d => wrap_r DChar (not_readable d)
    | DBuf d => wrap_r DBuf (not_readable d)
    | DKeyChar d => wrap_r DKeyChar (ck_read d a)
    | DKeyLine d => wrap_r DKeyLine (lk_read d a)
    | DClock d => wrap_r DClock (rc_read oc d a)
    | DDebug d => wrap_r DDebug (not_readable d)
    end;
  bo_write := fun d a w => match d with
    | DRam d => wrap_w DRam (sm_write d a w)
    | DFlash d => wrap_w DFlash (sm_write d a w)
    | DRom d => wrap_w DRom (br_write d a w)
    | DFile d => wrap_w DFile (fm_write d a w)
    | DNum d => wrap_w DNum (nd_write d a w)
    | DChar d => wrap_w DChar (cd_write d a w)
    | DBuf d => wrap_w DBuf (bd_write d a w)
    | DKeyChar d => wrap_w DKeyChar (ck_write d a w)
    | DKeyLine d => wrap_w DKeyLine (lk_write d a w)
    | DClock d => wrap_w DClock (rc_write d a w)
    | DDebug d => wrap_w DDebug (dbg_write d a w)
    end;
  bo_reset := fun d => match d with
    | DRam d => wrap_o DRam (sm_reset d)
    | DFlash d => wrap_o DFlash (sm_reset d)
    | DBuf d => Ret (DBuf (bd_clear d))
    | DKeyChar d => wrap_o DKeyChar (ck_reset d)
    | DKeyLine d => Ret (DKeyLine (lk_clear d))
    | DClock d => wrap_o DClock (rc_reset d)
    | DRom _ | DFile _ | DNum _ | DChar _ | DDebug _ => Ret d
    end
|}.
