(** Tool crate: bytes, device metadata and categories, exceptions.
    Models /repo/lrvm_tools/src/bytes/mod.rs, metadata/{metadata,category,types}.rs,
    exceptions/{auxhw,native}.rs. *)
From Coq Require Import ZArith List Bool Lia.
From Verif Require Import Base Board Asm.
Import ListNotations.
Open Scope Z_scope.

(** bytes_to_words (bytes/mod.rs:4-25). The loop state is the byte index [i], the current word and
    the words pushed so far (in reverse). [word += byte << ..] cannot overflow: the bytes are disjoint.
    The final [word << ((4 - rem) * 8)] drops the bits shifted out. *)
Fixpoint b2w_loop (i word : Z) (words : list Z) (bytes : list Z) : Z * list Z :=
  match bytes with
  | [] => (word, words)
  | b :: t =>
      let word := word + Z.shiftl b ((3 - i mod 4) * 8) in
      if i mod 4 =? 3 then b2w_loop (i + 1) 0 (word :: words) t
      else b2w_loop (i + 1) word words t
  end.
Definition bytes_to_words (bytes : list Z) : list Z :=
  let rem := zlen bytes mod 4 in
  let '(word, words) := b2w_loop 0 0 [] bytes in
  let words := if negb (rem =? 0) then u32 (Z.shiftl word ((4 - rem) * 8)) :: words else words in
  rev words.

(** words_to_bytes (bytes/mod.rs:28-34). *)
Definition words_to_bytes (ws : list Z) : list Z := flat_map be_bytes32 ws.

(** Device types (types.rs:57-83): code and decode of each enum. *)
Inductive debug_type : Type := TBasic.
Inductive clock_type : Type := TRealtime.
Inductive display_type : Type := TNumber | TCharacter | TBuffered.
Inductive keyboard_type : Type := TReadChar | TReadLine.
Inductive memory_type : Type := TRam.
Inductive storage_type : Type := TReadonly | TFlash | TPersistent.
Definition debug_code (t : debug_type) : Z := match t with TBasic => 256 end.
Definition debug_decode (c : Z) : option debug_type := match c with 256 => Some TBasic | _ => None end.
Definition clock_code (t : clock_type) : Z := match t with TRealtime => 1 end.
Definition clock_decode (c : Z) : option clock_type := match c with 1 => Some TRealtime | _ => None end.
Definition display_code (t : display_type) : Z :=
  match t with TNumber => 1 | TCharacter => 16 | TBuffered => 256 end.
Definition display_decode (c : Z) : option display_type :=
  match c with 1 => Some TNumber | 16 => Some TCharacter | 256 => Some TBuffered | _ => None end.
Definition keyboard_code (t : keyboard_type) : Z := match t with TReadChar => 256 | TReadLine => 4096 end.
Definition keyboard_decode (c : Z) : option keyboard_type :=
  match c with 256 => Some TReadChar | 4096 => Some TReadLine | _ => None end.
Definition memory_code (t : memory_type) : Z := match t with TRam => 256 end.
Definition memory_decode (c : Z) : option memory_type := match c with 256 => Some TRam | _ => None end.
Definition storage_code (t : storage_type) : Z :=
  match t with TReadonly => 256 | TFlash => 17 | TPersistent => 33 end.
Definition storage_decode (c : Z) : option storage_type :=
  match c with 256 => Some TReadonly | 17 => Some TFlash | 33 => Some TPersistent | _ => None end.

(** DeviceCategory (category.rs:6-15), category_code (40-51), type_code (53-64), encode (66-68),
    decode (22-38). *)
Inductive category : Type :=
| CatDebug (t : debug_type) | CatClock (t : clock_type) | CatDisplay (t : display_type)
| CatKeyboard (t : keyboard_type) | CatMemory (t : memory_type) | CatStorage (t : storage_type)
| CatPlatform (code : Z) | CatUncategorized.
Definition category_code (c : category) : Z :=
  match c with
  | CatDebug _ => 256 | CatClock _ => 4096 | CatDisplay _ => 69632 | CatKeyboard _ => 90112
  | CatMemory _ => 135168 | CatStorage _ => 139264 | CatPlatform _ => 4008636142
  | CatUncategorized => 4294967295
  end.
Definition type_code (c : category) : Z :=
  match c with
  | CatDebug t => debug_code t | CatClock t => clock_code t | CatDisplay t => display_code t
  | CatKeyboard t => keyboard_code t | CatMemory t => memory_code t | CatStorage t => storage_code t
  | CatPlatform t => t | CatUncategorized => 0
  end.
Definition category_encode (c : category) : Z := category_code c * 4294967296 + type_code c.
Definition category_decode (code : Z) : option category :=
  let cat := u32 (Z.shiftr code 32) in
  let typ := Z.land code 4294967295 in
  match cat with
  | 256 => option_map CatDebug (debug_decode typ)
  | 4096 => option_map CatClock (clock_decode typ)
  | 69632 => option_map CatDisplay (display_decode typ)
  | 90112 => option_map CatKeyboard (keyboard_decode typ)
  | 135168 => option_map CatMemory (memory_decode typ)
  | 139264 => option_map CatStorage (storage_decode typ)
  | 4008636142 => Some (CatPlatform typ)
  | 4294967295 => Some CatUncategorized
  | _ => None
  end.

(** DeviceMetadata (metadata.rs:5-11), new (14-34, asserts alignment), set_size (36-39),
    to_bytes (41-51), encode (53-57). *)
Record metadata : Type := Metadata {
  md_hw_id : Z; md_size : Z; md_category : category; md_model : option Z; md_data : option Z }.
Definition metadata_new (hw_id size : Z) (c : category) (model data : option Z) : outcome metadata :=
  if size mod 4 =? 0 then Ret (Metadata hw_id size c model data) else Panic.
Definition metadata_set_size (md : metadata) (size : Z) : metadata :=
  Metadata (md_hw_id md) size (md_category md) (md_model md) (md_data md).
Definition opt_or0 (o : option Z) : Z := match o with Some v => v | None => 0 end.
Definition metadata_to_bytes (md : metadata) : list Z :=
  be_bytes64 (md_hw_id md) ++ be_bytes32 (md_size md) ++ be_bytes64 (category_encode (md_category md))
  ++ be_bytes32 (opt_or0 (md_model md)) ++ be_bytes64 (opt_or0 (md_data md)).
(** [copy_from_slice] panics on a length mismatch. *)
Definition words8_of_list (l : list Z) : outcome words8 :=
  match l with
  | [a; b; c; d; e; f; g; h] => Ret (W8 a b c d e f g h)
  | _ => Panic
  end.
Definition metadata_encode (md : metadata) : outcome words8 :=
  words8_of_list (bytes_to_words (metadata_to_bytes md)).

(** AuxHwException (auxhw.rs:5-35), decode/decode_parts (38-66), code (69-84),
    associated_data (87-102), encode (105-107). *)
Inductive aux_exception : Type :=
| UnknownError | UnspecifiedSyncError | TimeSynchronizationError | UnknownOperation (op : Z)
| UnsupportedOperation | GenericPhysicalReadError | MemoryNotReadable | GenericPhysicalWriteError
| MemoryNotWritable.
Definition aux_code (e : aux_exception) : Z :=
  match e with
  | UnknownError => 0 | UnspecifiedSyncError => 1 | TimeSynchronizationError => 2
  | UnknownOperation _ => 16 | UnsupportedOperation => 17
  | GenericPhysicalReadError => 32 | MemoryNotReadable => 33
  | GenericPhysicalWriteError => 48 | MemoryNotWritable => 49
  end.
Definition aux_data (e : aux_exception) : option Z :=
  match e with UnknownOperation op => Some op | _ => None end.
Definition aux_encode (e : aux_exception) : Z := aux_code e * 256 + opt_or0 (aux_data e).
Definition aux_decode_parts (code : Z) (data : option Z) : option aux_exception :=
  match code with
  | 0 => Some UnknownError
  | 1 => Some UnspecifiedSyncError
  | 2 => Some TimeSynchronizationError
  | 16 => option_map UnknownOperation data
  | 17 => Some UnsupportedOperation
  | 32 => Some GenericPhysicalReadError
  | 33 => Some MemoryNotReadable
  | 48 => Some GenericPhysicalWriteError
  | 49 => Some MemoryNotWritable
  | _ => None
  end.
Definition aux_decode (ex : Z) : option aux_exception :=
  aux_decode_parts (u8 (Z.shiftr ex 8)) (Some (u8 ex)).

(** NativeException (native.rs:6-25), decode_with_mode (36-43), decode_parts (46-75), code (78-99),
    associated_data (102-123), encode (126-128), encode_with_mode (132-134). *)
Inductive native_exception : Type :=
| NUnknownOpCode (c : Z) | NUnknownRegister (c : Z) | NReadProtectedRegister (c : Z)
| NWriteProtectedRegister (c : Z) | NUnalignedMemoryAddress (c : Z) | NMmuRefusedRead (a : Z)
| NMmuRefusedWrite (a : Z) | NMmuRefusedExec (a : Z) | NSupervisorReservedInstruction (c : Z)
| NDivisionOrModByZero | NOverflowingDivOrMod | NInvalidCondFlag (c : Z) | NInvalidCondMode (c : Z)
| NUnknownComponentId (a : Z) | NUnknownHardwareInformationCode (c : Z) | NComponentNotMapped (a : Z)
| NHardwareException (e : aux_exception) | NInterruption (c : Z).
Definition native_code (e : native_exception) : Z :=
  match e with
  | NUnknownOpCode _ => 1 | NUnknownRegister _ => 2 | NReadProtectedRegister _ => 3
  | NWriteProtectedRegister _ => 4 | NUnalignedMemoryAddress _ => 5 | NMmuRefusedRead _ => 6
  | NMmuRefusedWrite _ => 7 | NMmuRefusedExec _ => 8 | NSupervisorReservedInstruction _ => 9
  | NDivisionOrModByZero => 10 | NOverflowingDivOrMod => 11 | NInvalidCondFlag _ => 12
  | NInvalidCondMode _ => 13 | NUnknownComponentId _ => 16 | NUnknownHardwareInformationCode _ => 17
  | NComponentNotMapped _ => 18 | NHardwareException _ => 160 | NInterruption _ => 240
  end.
Definition native_data (e : native_exception) : option Z :=
  match e with
  | NUnknownOpCode c | NUnknownRegister c | NReadProtectedRegister c | NWriteProtectedRegister c
  | NUnalignedMemoryAddress c | NMmuRefusedRead c | NMmuRefusedWrite c | NMmuRefusedExec c
  | NSupervisorReservedInstruction c | NInvalidCondFlag c | NInvalidCondMode c
  | NUnknownComponentId c | NUnknownHardwareInformationCode c | NComponentNotMapped c
  | NInterruption c => Some c
  | NHardwareException e => Some (aux_encode e)
  | NDivisionOrModByZero | NOverflowingDivOrMod => None
  end.
Definition native_encode (e : native_exception) : Z := native_code e * 65536 + opt_or0 (native_data e).
Definition native_encode_with_mode (e : native_exception) (was_sv : bool) : Z :=
  native_encode e + (if was_sv then 16777216 else 0).
(** [data] is [None] only when called with no data: [data_or_err?] then fails. *)
Definition native_decode_parts (code : Z) (data : option Z) : option native_exception :=
  let d8 (f : Z -> native_exception) := option_map (fun d => f (u8 d)) data in
  let d16 (f : Z -> native_exception) := option_map f data in
  match code with
  | 1 => d8 NUnknownOpCode
  | 2 => d8 NUnknownRegister
  | 3 => d8 NReadProtectedRegister
  | 4 => d8 NWriteProtectedRegister
  | 5 => d8 NUnalignedMemoryAddress
  | 6 => d16 NMmuRefusedRead
  | 7 => d16 NMmuRefusedWrite
  | 8 => d16 NMmuRefusedExec
  | 9 => d8 NSupervisorReservedInstruction
  | 10 => Some NDivisionOrModByZero
  | 11 => Some NOverflowingDivOrMod
  | 12 => d8 NInvalidCondFlag
  | 13 => d8 NInvalidCondMode
  | 16 => d16 NUnknownComponentId
  | 17 => d8 NUnknownHardwareInformationCode
  | 18 => d16 NComponentNotMapped
  | 160 => match data with
           | None => None
           | Some d => option_map NHardwareException (aux_decode d)
           end
  | 240 => d8 NInterruption
  | _ => None
  end.
Definition native_decode_with_mode (ex : Z) : option (native_exception * bool) :=
  let code := u8 (ex / 65536) in
  let associated := of_be2 (u8 (ex / 256)) (u8 ex) in
  match native_decode_parts code (Some associated) with
  | None => None
  | Some e => Some (e, negb (u8 (ex / 16777216) =? 0))
  end.
(** NativeException::decode (native.rs:29-31). *)
Definition native_decode (ex : Z) : option native_exception :=
  option_map fst (native_decode_with_mode ex).

(** <NativeException as Display>::fmt (native.rs:137-189): only whether
    formatting panics ([Reg::from_code(..).unwrap()] at lines 147 and 151). *)
Definition native_display (e : native_exception) : outcome unit :=
  match e with
  | NReadProtectedRegister c | NWriteProtectedRegister c =>
      match reg_from_code c with Some _ => Ret tt | None => Panic end
  | _ => Ret tt
  end.
