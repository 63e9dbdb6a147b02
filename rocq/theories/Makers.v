(** The error messages of the constructors of the components of lrvm_aux, and the sizes the components tell the host. Each constructor of this file makes what the one of
    the same name in Devices.v makes; only the messages are added. Errors for hosts of less than 32 bits cannot happen on the modelled hosts. *)
From Coq Require Import String ZArith List Bool.
From Verif Require Import Base Mem Asm Tools Devices.
Import ListNotations.
Open Scope string_scope.
Open Scope Z_scope.

(** The two components that share their code and differ in the texts: Ram (volatile_mem/ram.rs) and PersistentMem (storage/persistent.rs). *)
Inductive store_kind : Type := KRam | KFlash.
(** The word their messages start with (ram.rs:20-76, persistent.rs:20-76). *)
Definition kind_text (k : store_kind) : string := match k with KRam => "RAM" | KFlash => "Flash memory" end.
(** Ram::new (ram.rs:18-35), PersistentMem::new (persistent.rs:18-35). *)
Definition store_new (k : store_kind) (size hw_id : Z) : result store_mem string :=
  if size =? 0 then RErr (kind_text k ++ "'s size cannot be 0")
  else if negb (size mod 4 =? 0) then RErr (kind_text k ++ "'s size must be a multiple of 4 bytes")
  else ROk (StoreMem (zeros size) (size / 4) hw_id).
(** Ram::from (ram.rs:39-50), PersistentMem::from (persistent.rs:39-50). *)
Definition store_from (k : store_kind) (storage : list Z) (hw_id : Z) : result store_mem string :=
  if zlen storage <? 4294967296 then ROk (StoreMem storage (zlen storage / 4) hw_id)
  else RErr (kind_text k ++ "'s length cannot be larger than 2^32 words").
(** Ram::from_with_size (ram.rs:54-88), PersistentMem::from_with_size (persistent.rs:54-88). *)
Definition store_from_with_size (k : store_kind) (storage : list Z) (size hw_id : Z) : result store_mem string :=
  if negb (zlen storage <? 4294967296) then RErr (kind_text k ++ "'s length cannot be larger than 2^32 words")
  else if size <? zlen storage then RErr (kind_text k ++ "'s size cannot be lower than its initial storage's size")
  else if size =? 0 then RErr (kind_text k ++ "'s size cannot be 0")
  else if negb (size mod 4 =? 0) then RErr (kind_text k ++ "'s size must be a multiple of 4 bytes")
  else ROk (StoreMem (resize storage (size / 4)) (size / 4) hw_id).
(** Ram::size (ram.rs:91-93), PersistentMem::size (persistent.rs:91-93). *)
Definition store_size (d : store_mem) : Z := sm_size d.

(** BootRom::new (bootrom.rs:25-37). *)
Definition rom_new (storage : list Z) (hw_id : Z) : result boot_rom string :=
  if zlen storage <? 4294967296 then ROk (BootRom storage (zlen storage) (zlen storage) hw_id)
  else RErr "Storage's length cannot be larger than 2^32 words".
(** BootRom::with_size (bootrom.rs:41-65). *)
Definition rom_with_size (storage : list Z) (size hw_id : Z) : result boot_rom string :=
  if negb (zlen storage <? 4294967296) then RErr "Storage's length cannot be larger than 2^32 words"
  else if size <? zlen storage then RErr "Flash memory's size cannot be lower than its initial storage's size"
  else if size =? 0 then RErr "Flash memory's size cannot be 0"
  else if negb (size mod 4 =? 0) then RErr "Flash memory's size must be a multiple of 4 bytes"
  else ROk (BootRom storage (zlen storage) (size / 4) hw_id).
(** BootRom::len (bootrom.rs:68-70), BootRom::size (bootrom.rs:73-75). *)
Definition rom_len (d : boot_rom) : Z := br_len d.
Definition rom_size (d : boot_rom) : Z := br_size d.

(** BufferedDisplay::new and new_print_lossy (buffered.rs:39-64, 67-76): both make the same component but for its handler. *)
Definition buffered_new (capacity hw_id : Z) : result buf_display string :=
  if capacity =? 0 then RErr "Buffered display's capacity cannot be 0"
  else if negb (capacity mod 4 =? 0) then RErr "Buffered display's capacity must be aligned"
  else ROk (BufDisplay (zeros (capacity / 4 - 1)) (capacity / 4 - 1) hw_id []).
(** SyncLineKeyboard::new (sync_line.rs:32-57). *)
Definition line_new (capacity hw_id : Z) (input : nat -> list Z) : result line_keyboard string :=
  if negb (capacity mod 4 =? 0) then RErr "Synchronous keyboard's buffer capacity must be aligned"
  else if capacity =? 0 then RErr "Synchronous keyboard's buffer capacity cannot be 0"
  else ROk (LineKeyboard (zeros (capacity / 4 - 1)) (capacity / 4 - 1) hw_id input 0).
