(** Specification of memory mapping, in terms of unbounded intervals of addresses. *)
From Coq Require Import ZArith List Bool Lia.
From Verif Require Import Base Board Mem Cpu SpecMach.
Import ListNotations.
Open Scope Z_scope.

(** The addresses a mapping is about. *)
Definition occupies (mp : mapping) (a : Z) : Prop := mp_addr mp <= a < mp_addr mp + mp_size mp.

(** A mapping stays inside the address space (strictly below its end in a debug build, where mapping
    a component up to the very last word panics). *)
Definition fits (oc : bool) (mp : mapping) : Prop :=
  mp_addr mp + mp_size mp <= 2 ^ 32 /\ (oc = true -> mp_addr mp + mp_size mp < 2 ^ 32).

(** A tidy mapping table: no component mapped twice, everything inside the address space,
    aligned and not empty, and no address that belongs to two mappings. *)
Definition tidy {D} (oc : bool) (m : memory D) : Prop :=
  NoDup (map mp_aux_id (mm_maps m)) /\
  (forall mp, In mp (mm_maps m) ->
     0 <= mp_addr mp /\ mp_addr mp mod 4 = 0 /\ 0 < mp_size mp /\ mp_size mp mod 4 = 0 /\ fits oc mp) /\
  (forall mp mp' a, In mp (mm_maps m) -> In mp' (mm_maps m) -> occupies mp a -> occupies mp' a -> mp = mp').

(** The size of component [id]. *)
Definition comp_size {D} (m : memory D) (id : Z) : option Z :=
  match znth (mm_hwb m) id with Some e => Some (ac_size (ae_cache e)) | None => None end.
Definition mapped {D} (m : memory D) (id : Z) : Prop := exists mp, In mp (mm_maps m) /\ mp_aux_id mp = id.

(** A request to map component [id] at [a] is valid. *)
Definition valid_request {D} (oc : bool) (m : memory D) (a id : Z) (sz : Z) : Prop :=
  comp_size m id = Some sz /\ a mod 4 = 0 /\ 0 < sz /\ sz mod 4 = 0 /\
  a + sz <= 2 ^ 32 /\ (oc = true -> a + sz < 2 ^ 32) /\ ~ mapped m id /\
  forall mp b, In mp (mm_maps m) -> occupies mp b -> ~ (a <= b < a + sz).

(** The reason an error gives for refusing to map component [id] at [a], in full. *)
Definition refusal {D} (m : memory D) (a id : Z) (e : mapping_error) : Prop :=
  match e with
  | UnknownComponent => comp_size m id = None
  | UnalignedStartAddress => a mod 4 <> 0
  | NullBusSize => comp_size m id = Some 0
  | UnalignedBusSize => exists sz, comp_size m id = Some sz /\ sz mod 4 <> 0
  | NullOrNegAddressRange => exists sz, comp_size m id = Some sz /\ 2 ^ 32 < a + sz
  | AlreadyMapped => mapped m id
  | AddressOverlaps mp => exists sz b, comp_size m id = Some sz /\ In mp (mm_maps m) /\ occupies mp b /\ a <= b < a + sz
  | UnalignedEndAddress | MappingTooLarge _ => False
  end.

(** A request to map component [id] from [a] to [e] ([map_abs]) is valid. Only the addresses up to [e] are looked at (the component may extend further), and
    [e] may be up to one word past the last word of the component. Debug builds also refuse (they panic) when start + size or [e] + 4 leave the address space. *)
Definition valid_range {D} (oc : bool) (m : memory D) (a e id : Z) : Prop :=
  exists sz, comp_size m id = Some sz /\ a mod 4 = 0 /\ e mod 4 = 0 /\ 0 < sz /\ sz mod 4 = 0 /\ a <= e <= a + sz /\ ~ (a = 0 /\ e = 2 ^ 32 - 4) /\
  (oc = true -> a + sz < 2 ^ 32 /\ e + 4 < 2 ^ 32) /\ ~ mapped m id /\
  forall mp b, In mp (mm_maps m) -> occupies mp b -> ~ (a <= b <= e).
(** The reason an error gives for refusing a range. *)
Definition range_refusal {D} (m : memory D) (a e id : Z) (err : mapping_error) : Prop :=
  match err with
  | UnknownComponent => comp_size m id = None
  | UnalignedStartAddress => a mod 4 <> 0
  | UnalignedEndAddress => e mod 4 <> 0
  | NullBusSize => comp_size m id = Some 0
  | UnalignedBusSize => exists sz, comp_size m id = Some sz /\ sz mod 4 <> 0
  | NullOrNegAddressRange => e < a \/ a = 0 /\ e = 2 ^ 32 - 4
  | MappingTooLarge sz => comp_size m id = Some sz /\ sz < e - a
  | AlreadyMapped => mapped m id
  | AddressOverlaps mp => exists b, In mp (mm_maps m) /\ occupies mp b /\ a <= b <= e
  end.

(** The mapping of component [id] at [a] (it has the component's size and hardware identifier). *)
Definition mapping_at {D} (m : memory D) (id a : Z) (mp : mapping) : Prop :=
  exists e, znth (mm_hwb m) id = Some e /\
    mp = Mapping id (ac_hw_id (ae_cache e)) a (ac_size (ae_cache e)).

(** [packed m a ids maps]: the mappings of [ids] in this order, the first at [a], each right after the previous one
    (addresses are 32 bits wide). *)
Inductive packed {D} (m : memory D) : Z -> list Z -> list mapping -> Prop :=
| packed_nil a : packed m a [] []
| packed_cons a id ids mp mps : mapping_at m id a mp -> packed m ((a + mp_size mp) mod 2 ^ 32) ids mps ->
    packed m a (id :: ids) (mp :: mps).

(** Sum of the sizes of mappings. *)
Definition total_size (l : list mapping) : Z := fold_right (fun mp s => mp_size mp + s) 0 l.

(** Outcomes listed by [map_contiguous]: identifiers mapped, identifiers refused with their reason. *)
Definition ids_ok (l : list aux_mapping_status) : list Z :=
  flat_map (fun s => match as_result s with ROk _ => [as_id s] | RErr _ => [] end) l.
Definition ids_refused (l : list aux_mapping_status) : list (Z * mapping_error) :=
  flat_map (fun s => match as_result s with ROk _ => [] | RErr e => [(as_id s, e)] end) l.

(** Histories without explicit end addresses ([map_abs]). *)
Definition no_map_abs (c : api) : Prop := match c with AMapAbs _ _ _ => False | _ => True end.
