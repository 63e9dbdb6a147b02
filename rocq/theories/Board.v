(** Components, their cache and the hardware bridge.
    Models /repo/lrvm/src/board/bus.rs and /repo/lrvm/src/board/hwb.rs. *)
From Coq Require Import ZArith List Bool Lia.
From Verif Require Import Base.
Import ListNotations.
Open Scope Z_scope.

(** [[u32; 8]]: component metadata (bus.rs:14). *)
Record words8 : Type := W8 { w0 : Z; w1 : Z; w2 : Z; w3 : Z; w4 : Z; w5 : Z; w6 : Z; w7 : Z }.

(** The [Bus] trait (bus.rs:7-29) of a component whose state has type [D].
    - [bo_name]: the name as the list of its Unicode scalar values;
    - [bo_metadata]: may panic (DeviceMetadata::new asserts);
    - [bo_read d addr] returns new state, exception value ([*ex], 0 = none) and the word;
    - [bo_write d addr word] returns new state and exception value;
    - [bo_reset].
    Simplification: [name] and [metadata] take [&self] and are assumed not to change the state. *)
Record bus_ops (D : Type) : Type := BusOps {
  bo_name : D -> list Z;
  bo_metadata : D -> outcome words8;
  bo_read : D -> Z -> outcome (D * Z * Z);
  bo_write : D -> Z -> Z -> outcome (D * Z);
  bo_reset : D -> outcome D
}.
Arguments bo_name {D}. Arguments bo_metadata {D}. Arguments bo_read {D}.
Arguments bo_write {D}. Arguments bo_reset {D}.

(** The UTF-8 encoding of a scalar value (Rust std). *)
Definition utf8_char (c : Z) : list Z :=
  if c <? 128 then [c]
  else if c <? 2048 then [192 + c / 64; 128 + c mod 64]
  else if c <? 65536 then [224 + c / 4096; 128 + (c / 64) mod 64; 128 + c mod 64]
  else [240 + c / 262144; 128 + (c / 4096) mod 64; 128 + (c / 64) mod 64; 128 + c mod 64].
Definition utf8 (s : list Z) : list Z := flat_map utf8_char s.
(** [String::len]: length in bytes. *)
Definition str_len (s : list Z) : Z := zlen (utf8 s).

(** hwb.rs:33-37: [while name.len() > 32 { name.pop(); }].
    The loop is recursion on the reversed character list, i.e. on the number of characters left. *)
Fixpoint cut_rev (rev_name : list Z) : list Z :=
  match rev_name with
  | [] => []
  | c :: t => if 32 <? str_len (rev (c :: t)) then cut_rev t else rev (c :: t)
  end.
Definition cut_name (name : list Z) : list Z := cut_rev (rev name).

(** AuxCache (hwb.rs:15-26). *)
Record aux_cache : Type := AuxCache {
  ac_id : Z; ac_hw_id : Z; ac_name : list Z; ac_metadata : words8; ac_size : Z }.

(** AuxWithCache (hwb.rs:6-11): the shared component together with its cache. *)
Record aux_entry (D : Type) : Type := AuxEntry { ae_dev : D; ae_cache : aux_cache }.
Arguments AuxEntry {D}. Arguments ae_dev {D}. Arguments ae_cache {D}.

Section Hwb.
Context {D : Type} (ops : bus_ops D).

(** HardwareBridge (hwb.rs:61-63). The motherboard, the CPU and the mapped memory each hold a bridge
    over the same [Rc<RefCell<..>>] components with caches computed at the same time
    (board.rs:34-37): they are one list here. *)
Definition hwb : Type := list (aux_entry D).

(** AuxWithCache::create_from_aux (hwb.rs:30-55).
    [((metadata[0] as u64) << 32) + metadata[1] as u64] cannot overflow. *)
Definition create_from_aux (id : Z) (d : D) : outcome (aux_entry D) :=
  do! md <- bo_metadata ops d;
  Ret (AuxEntry d (AuxCache id (w0 md * 4294967296 + w1 md)
                            (cut_name (bo_name ops d)) md (w2 md))).

(** HardwareBridge::new (hwb.rs:66-81); the assertion on the number of components is modelled. *)
Fixpoint hwb_new_from (id : Z) (ds : list D) : outcome hwb :=
  match ds with
  | [] => Ret []
  | d :: t =>
      if id <? 4294967295 then
        do! e <- create_from_aux id d;
        do! r <- hwb_new_from (id + 1) t;
        Ret (e :: r)
      else Panic
  end.
Definition hwb_new (ds : list D) : outcome hwb := hwb_new_from 0 ds.

(** HardwareBridge::count (hwb.rs:84-86). *)
Definition hwb_count (h : hwb) : Z := zlen h.
(** HardwareBridge::cache_of (hwb.rs:89-91). *)
Definition cache_of (h : hwb) (aux_id : Z) : option aux_cache :=
  option_map ae_cache (znth h aux_id).
(** name_of, hw_id_of, size_of (hwb.rs:94-111). *)
Definition name_of (h : hwb) (aux_id : Z) : option (list Z) := option_map ac_name (cache_of h aux_id).
Definition hw_id_of (h : hwb) (aux_id : Z) : option Z := option_map ac_hw_id (cache_of h aux_id).
Definition size_of (h : hwb) (aux_id : Z) : option Z := option_map ac_size (cache_of h aux_id).

(** Replace the state of component [aux_id] (interior mutation through [RefCell::borrow_mut]). *)
Fixpoint set_dev (h : hwb) (aux_id : Z) (d : D) : hwb :=
  match h with
  | [] => []
  | e :: t => if aux_id =? 0 then AuxEntry d (ae_cache e) :: t else e :: set_dev t (aux_id - 1) d
  end.

(** HardwareBridge::read (hwb.rs:116-125): asserts alignment, [None] for an unknown component. *)
Definition hwb_read (h : hwb) (aux_id addr : Z) : outcome (option (hwb * Z * Z)) :=
  if addr mod 4 =? 0 then
    match znth h aux_id with
    | None => Ret None
    | Some e =>
        do! (d, ex, v) <- bo_read ops (ae_dev e) addr;
        Ret (Some (set_dev h aux_id d, ex, v))
    end
  else Panic.

(** HardwareBridge::write (hwb.rs:130-139). *)
Definition hwb_write (h : hwb) (aux_id addr word : Z) : outcome (option (hwb * Z)) :=
  if addr mod 4 =? 0 then
    match znth h aux_id with
    | None => Ret None
    | Some e =>
        do! (d, ex) <- bo_write ops (ae_dev e) addr word;
        Ret (Some (set_dev h aux_id d, ex))
    end
  else Panic.

(** HardwareBridge::reset (hwb.rs:142-146). *)
Definition hwb_reset (h : hwb) (aux_id : Z) : outcome (option hwb) :=
  match znth h aux_id with
  | None => Ret None
  | Some e => do! d <- bo_reset ops (ae_dev e); Ret (Some (set_dev h aux_id d))
  end.

End Hwb.

Arguments hwb D : clear implicits.
