(** The warnings printed by the memory in debug builds, by the file-backed memory and by the line keyboard. Each function gives the lines
    that the call of the same name, modelled in Mem.v and Devices.v, prints. *)
From Coq Require Import String ZArith List Bool.
From Verif Require Import Base Board Mem Asm Tools Devices LasmRules Lasm Console.
Import ListNotations.
Open Scope string_scope.
Open Scope Z_scope.

(** MappedMemory::read (mem.rs:94-118): the warning of lines 109-114. [debug] is [cfg!(debug_assertions)], [oc] the overflow checks. *)
Definition read_warning {D} (debug oc : bool) (m : memory D) (addr : Z) : list string :=
  if addr mod 4 =? 0 then
    match find_o (covers oc addr) (mm_maps m) with
    | Ret None => if debug then ["Warning: tried to read non-mapped memory at address " ++ fmt_hex10 addr] else []
    | _ => []
    end
  else [].
(** MappedMemory::write (mem.rs:124-144): the warning of lines 138-143. *)
Definition write_warning {D} (debug oc : bool) (m : memory D) (addr : Z) : list string :=
  if addr mod 4 =? 0 then
    match find_o (covers oc addr) (mm_maps m) with
    | Ret None => if debug then ["Warning: tried to write non-mapped memory at address " ++ fmt_hex10 addr] else []
    | _ => []
    end
  else [].

(** FileBackedMem::open (file_backed.rs:30-56): the warning of lines 41-43; [None] when it panics before. *)
Definition open_warning (file : list Z) : option (list string) :=
  if zlen file <? 4294967296 then
    let real_size := zlen file / 4 * 4 in
    Some (if real_size =? zlen file then []
          else ["Warning: opened unaligned file as aligned (rounded size to nearest lower multiple of 4 bytes)"])
  else None.

(** SyncLineKeyboard::write (sync_line.rs:86-129): whether the loop over the typed bytes (92-121) prints the warning of lines 101 or 116, given the
    length of the buffer, the bytes left, [byte_index] and [pos]. *)
Fixpoint fill_warns (len : Z) (bytes : list Z) (byte_index pos : Z) : bool :=
  match bytes with
  | [] => if 0 <? byte_index then len <=? pos else false
  | _ :: t => if byte_index =? 3 then if len <=? pos then true else fill_warns len t 0 (pos + 1) else fill_warns len t (byte_index + 1) pos
  end.
Definition line_warning (d : line_keyboard) (addr word : Z) : list string :=
  if negb (addr / 4 =? lk_capacity d) then []
  else if word =? 170 then
    if fill_warns (zlen (lk_buffer d)) (lk_input d (lk_used d)) 0 0
    then ["Warning: input is too long for synchronous keyboard's buffer (max. " ++ fmt_dec (lk_capacity d * 4) ++ " bytes)"] else []
  else [].
