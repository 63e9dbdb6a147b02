(** Mapped memory. Models /repo/lrvm/src/mem/mem.rs and /repo/lrvm/src/mem/mappings.rs. *)
From Coq Require Import ZArith List Bool Lia.
From Verif Require Import Base Board.
Import ListNotations.
Open Scope Z_scope.

(** Mapping (mappings.rs:3-12). *)
Record mapping : Type := Mapping { mp_aux_id : Z; mp_hw_id : Z; mp_addr : Z; mp_size : Z }.

(** Mapping::end_addr (mappings.rs:16-18): [self.addr + self.size - 1]. *)
Definition end_addr (oc : bool) (m : mapping) : outcome Z :=
  do! s <- add_u32 oc (mp_addr m) (mp_size m);
  sub_u32 oc s 1.

(** MappingError (mappings.rs:23-33). *)
Inductive mapping_error : Type :=
| UnknownComponent | UnalignedStartAddress | UnalignedBusSize | UnalignedEndAddress
| NullOrNegAddressRange | AlreadyMapped | NullBusSize
| AddressOverlaps (m : mapping) | MappingTooLarge (aux_size : Z).

(** MappingRange (mappings.rs:37-42). *)
Record mapping_range : Type := MappingRange { mr_start : Z; mr_end : Z }.

Inductive result (A E : Type) : Type := ROk (a : A) | RErr (e : E).
Arguments ROk {A E}. Arguments RErr {A E}.

(** [iter().find(p)] where evaluating [p] may panic; short-circuits. *)
Fixpoint find_o {A : Type} (p : A -> outcome bool) (l : list A) : outcome (option A) :=
  match l with
  | [] => Ret None
  | x :: t => do! b <- p x; if b then Ret (Some x) else find_o p t
  end.

Section Mem.
Context {D : Type} (ops : bus_ops D) (oc : bool).

(** MappedMemory (mem.rs:6-11). *)
Record memory : Type := Memory { mm_hwb : hwb D; mm_maps : list mapping }.

(** [mapping.addr <= addr && addr <= mapping.end_addr()] (mem.rs:103, 133). *)
Definition covers (addr : Z) (m : mapping) : outcome bool :=
  if mp_addr m <=? addr then do! e <- end_addr oc m; Ret (addr <=? e) else Ret false.

(** MappedMemory::read (mem.rs:94-118); the debug-only warning is in Warn.v.
    [addr - mapping.addr] cannot underflow since [mapping.addr <= addr].
    Result: new memory, [ex], word. *)
Definition mem_read (m : memory) (addr : Z) : outcome (memory * Z * Z) :=
  if addr mod 4 =? 0 then
    do! f <- find_o (covers addr) (mm_maps m);
    match f with
    | Some mp =>
        do! r <- hwb_read ops (mm_hwb m) (mp_aux_id mp) (addr - mp_addr mp);
        do! (h, ex, v) <- unwrap r;
        Ret (Memory h (mm_maps m), ex, v)
    | None => Ret (m, 0, 0)
    end
  else Panic.

(** MappedMemory::write (mem.rs:124-144). *)
Definition mem_write (m : memory) (addr word : Z) : outcome (memory * Z) :=
  if addr mod 4 =? 0 then
    do! f <- find_o (covers addr) (mm_maps m);
    match f with
    | Some mp =>
        do! r <- hwb_write ops (mm_hwb m) (mp_aux_id mp) (addr - mp_addr mp) word;
        do! (h, ex) <- unwrap r;
        Ret (Memory h (mm_maps m), ex)
    | None => Ret (m, 0)
    end
  else Panic.

(** MappedMemory::get_mapping (mem.rs:147-151). *)
Definition get_mapping (maps : list mapping) (aux_id : Z) : option mapping :=
  find (fun mp => mp_aux_id mp =? aux_id) maps.

(** [mapping.addr <= end_addr && start_addr <= mapping.end_addr()] (mem.rs:199). *)
Definition overlaps (s e : Z) (m : mapping) : outcome bool :=
  if mp_addr m <=? e then do! me <- end_addr oc m; Ret (s <=? me) else Ret false.

(** MappedMemory::internal_map (mem.rs:154-219). Note that [unwrap_or]'s argument (mem.rs:165)
    is evaluated even when an end address is given, and [end_addr + 4] (mem.rs:183) is checked. *)
Definition internal_map (m : memory) (start_addr : Z) (end_opt : option Z) (aux_id : Z)
  : outcome (memory * result mapping_range mapping_error) :=
  match size_of (mm_hwb m) aux_id with
  | None => Ret (m, RErr UnknownComponent)
  | Some aux_size =>
      do! s1 <- add_u32 oc start_addr aux_size;
      do! dflt <- sub_u32 oc s1 4;
      let e := match end_opt with Some e => e | None => dflt end in
      if negb (start_addr mod 4 =? 0) then Ret (m, RErr UnalignedStartAddress)
      else if aux_size =? 0 then Ret (m, RErr NullBusSize)
      else if negb (aux_size mod 4 =? 0) then Ret (m, RErr UnalignedBusSize)
      else if negb (e mod 4 =? 0) then Ret (m, RErr UnalignedEndAddress)
      else
        do! e4 <- add_u32 oc e 4;
        if (start_addr =? e4) || (e <? start_addr) then Ret (m, RErr NullOrNegAddressRange)
        else if aux_size <? e - start_addr then Ret (m, RErr (MappingTooLarge aux_size))
        else if existsb (fun mp => mp_aux_id mp =? aux_id) (mm_maps m)
        then Ret (m, RErr AlreadyMapped)
        else
          do! f <- find_o (overlaps start_addr e) (mm_maps m);
          match f with
          | Some mp => Ret (m, RErr (AddressOverlaps mp))
          | None =>
              do! hid <- unwrap (hw_id_of (mm_hwb m) aux_id);
              Ret (Memory (mm_hwb m) (mm_maps m ++ [Mapping aux_id hid start_addr aux_size]),
                   ROk (MappingRange start_addr e))
          end
  end.

(** MappedMemory::map (mem.rs:24-26), map_abs (mem.rs:30-37). *)
Definition mem_map (m : memory) (addr aux_id : Z) := internal_map m addr None aux_id.
Definition mem_map_abs (m : memory) (addr addr_end aux_id : Z) := internal_map m addr (Some addr_end) aux_id.

(** AuxMappingStatus (mappings.rs:55-64). *)
Record aux_mapping_status : Type := AuxStatus {
  as_id : Z; as_hw_id : Z; as_name : list Z; as_result : result mapping_range mapping_error }.

(** The loop of MappedMemory::map_contiguous (mem.rs:50-75); accumulators as in the code:
    [last_addr], [max_addr], [failed], [aux_mapping]. *)
Fixpoint map_contiguous_loop (m : memory) (ids : list Z) (last_addr max_addr : Z)
    (failed : list (Z * mapping_error)) (st : list aux_mapping_status)
  : outcome (memory * Z * list (Z * mapping_error) * list aux_mapping_status) :=
  match ids with
  | [] => Ret (m, max_addr, failed, st)
  | id :: t =>
      do! (m', r) <- mem_map m last_addr id;
      do! (last', max', failed') <-
        match r with
        | ROk rg =>
            let mx := if max_addr <? mr_end rg then mr_end rg else max_addr in
            do! la <- add_u32 oc (mr_end rg) 4;
            Ret (la, mx, failed)
        | RErr e => Ret (last_addr, max_addr, failed ++ [(id, e)])
        end;
      do! hid <- unwrap (hw_id_of (mm_hwb m') id);
      do! nm <- unwrap (name_of (mm_hwb m') id);
      map_contiguous_loop m' t last' max' failed' (st ++ [AuxStatus id hid nm r])
  end.

(** MappedMemory::map_contiguous (mem.rs:40-88): new memory, global result, per-component statuses. *)
Definition map_contiguous (m : memory) (addr : Z) (ids : list Z)
  : outcome (memory * result mapping_range (list (Z * mapping_error)) * list aux_mapping_status) :=
  do! (m', mx, failed, st) <- map_contiguous_loop m ids addr addr [] [];
  Ret (m', match failed with
           | [] => ROk (MappingRange addr mx)
           | _ => RErr failed
           end, st).

End Mem.

Arguments memory D : clear implicits.
Arguments Memory {D}. Arguments mm_hwb {D}. Arguments mm_maps {D}.
