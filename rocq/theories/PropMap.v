(** Properties proved in ProofMap.v: statements only. Generated by tools/gen_props.py. *)
From Coq Require Import ZArith List Bool Lia.
From Verif Require Import Base Board Mem Cpu Asm SpecMach SpecMap BaseFacts MemFacts MapFacts InvFacts ReachFacts MonoFacts SpecIsa SpecBus SpecObs UndFacts CyclePost StepCases ProofPanic.
From Verif Require Import ProofMap.
Import ListNotations.
Open Scope Z_scope.

(** * C31 *)

(** After any history of API calls without [map_abs] (guest code included, any mixture of successes and failures), in both
    builds: no component is mapped twice, every mapping is aligned, non-empty, inside the address space and as large as its
    component, and no address belongs to two mappings. *)
Theorem C31_tidy : forall D (ops : bus_ops D) oc ds cs m0 m, typed ops -> Forall api_wf cs -> Forall no_map_abs cs ->
  board_new ops ds = Ret m0 -> api_run ops oc cs m0 = Ret m ->
  tidy oc (c_mem m) /\ forall mp, In mp (mm_maps (c_mem m)) -> comp_size (c_mem m) (mp_aux_id mp) = Some (mp_size mp).
Proof. exact P_C31_tidy. Qed.
Print Assumptions C31_tidy.

(** Three 64-byte components; one mapping succeeds, one is refused (overlap), one contiguous mapping succeeds for the two others. *)
Example C31_tidy_example : exists m0 m, board_new words_ops [[]; []; []] = Ret m0 /\
  api_run words_ops false [AMap 64 1; AMap 68 2; AMapContiguous 128 [2; 0]] m0 = Ret m /\
  map (fun mp => (mp_aux_id mp, mp_addr mp, mp_size mp)) (mm_maps (c_mem m)) = [(1, 64, 64); (2, 128, 64); (0, 192, 64)].
Proof. exact E_C31_tidy. Qed.

(** Executing instructions never alters the mapping table. *)
Theorem C31_guest : forall D (ops : bus_ops D) oc m m', typed ops -> wf m -> next ops oc m = Ret m' -> mm_maps (c_mem m') = mm_maps (c_mem m).
Proof. exact P_C31_guest. Qed.
Print Assumptions C31_guest.

Example C31_guest_example : exists m m', words_run false 0 (map encode_word [Cpy R_a0 (Lit2 7); Wsa (Lit1 4) (Lit1 0) (Lit1 1)]) 1 = Ret m /\ wf m /\ next words_ops false m = Ret m' /\ mm_maps (c_mem m) = [Mapping 0 1 0 64].
Proof. exact E_C31_guest. Qed.

(** * C32 *)

(** [map], on a tidy table: success exactly for valid requests (the component is added with its whole size at this address, and
    the range is reported); a refusal names a true reason and changes nothing; the only panic is that of a debug build
    when start + size leaves the 32-bit range or is below 4. *)
Theorem C32_map : forall D (m : memory D) oc a id, mem_wf m -> tidy oc m -> is_u32 a ->
  match mem_map oc m a id with
  | Ret (m', ROk r) => exists sz mp, valid_request oc m a id sz /\ r = MappingRange a (a + sz - 4) /\
      mapping_at m id a mp /\ m' = Memory (mm_hwb m) (mm_maps m ++ [mp])
  | Ret (m', RErr e) => m' = m /\ refusal m a id e /\ forall sz, ~ valid_request oc m a id sz
  | Panic => oc = true /\ exists sz, comp_size m id = Some sz /\ (a + sz < 4 \/ 2 ^ 32 <= a + sz)
  end.
Proof. exact P_C32_map. Qed.
Print Assumptions C32_map.

Example C32_map_example : exists m0 m1 mp, board_new words_ops [[]; []] = Ret m0 /\ mem_wf (c_mem m0) /\ tidy false (c_mem m0) /\
  mem_map false (c_mem m0) 4294967232 0 = Ret (m1, ROk (MappingRange 4294967232 4294967292)) /\
  valid_request false (c_mem m0) 4294967232 0 64 /\
  mem_wf m1 /\ tidy false m1 /\ mem_map false m1 4294967168 1 = Ret (Memory (mm_hwb m1) (mm_maps m1 ++ [mp]), ROk (MappingRange 4294967168 4294967228)) /\
  mem_map false m1 4294967172 1 = Ret (m1, RErr (AddressOverlaps (Mapping 0 1 4294967232 64))) /\
  mem_map false m1 4294967236 1 = Ret (m1, RErr NullOrNegAddressRange) /\ mem_map false m1 0 0 = Ret (m1, RErr AlreadyMapped) /\
  mem_map true (c_mem m0) 4294967232 0 = Panic.
Proof. exact E_C32_map. Qed.

(** A mapping request is accepted exactly when it is valid: known component, aligned address, not mapped yet, and free space that does not pass the end of the address space. *)
Theorem C32_iff : forall D (m : memory D) oc a id, mem_wf m -> tidy oc m -> is_u32 a ->
  ((exists m' r, mem_map oc m a id = Ret (m', ROk r)) <-> exists sz, valid_request oc m a id sz).
Proof. exact P_C32_iff. Qed.
Print Assumptions C32_iff.

Example C32_iff_example : exists m0, board_new words_ops [[]; []] = Ret m0 /\ mem_wf (c_mem m0) /\ tidy false (c_mem m0) /\ valid_request false (c_mem m0) 4294967232 0 64 /\
  (exists m' r, mem_map false (c_mem m0) 4294967232 0 = Ret (m', ROk r)) /\ ~ (exists m' r, mem_map false (c_mem m0) 4294967236 0 = Ret (m', ROk r)).
Proof. exact E_C32_iff. Qed.

(** A debug build panics exactly when start + size is outside 4 .. 2^32 - 1, whatever the rest of the request. *)
Theorem C32_debug_panic : forall D (m : memory D) a id sz, mem_wf m -> tidy true m -> is_u32 a -> comp_size m id = Some sz ->
  (mem_map true m a id = Panic <-> a + sz < 4 \/ 2 ^ 32 <= a + sz).
Proof. exact P_C32_debug_panic. Qed.
Print Assumptions C32_debug_panic.

Example C32_debug_panic_example : exists m0, board_new words_ops [[]; []] = Ret m0 /\ mem_wf (c_mem m0) /\ tidy true (c_mem m0) /\ comp_size (c_mem m0) 0 = Some 64 /\
  mem_map true (c_mem m0) 4294967232 0 = Panic /\ exists m' r, mem_map true (c_mem m0) 4294967228 0 = Ret (m', ROk r).
Proof. exact E_C32_debug_panic. Qed.

(** * C33, C34 *)

(** Every access of any machine, whatever its mapping table, reaches a component at an aligned offset strictly below the
    component's size; nothing else is changed. *)
Theorem C33_in_range : forall D (ops : bus_ops D) oc m a, mem_wf m -> is_u32 a ->
  (forall m' ex v, mem_read ops oc m a = Ret (m', ex, v) -> m' = m \/
     exists id e off d, mapped m id /\ znth (mm_hwb m) id = Some e /\ bo_read ops (ae_dev e) off = Ret (d, ex, v) /\
       off mod 4 = 0 /\ 0 <= off < ac_size (ae_cache e) /\ m' = Memory (set_dev (mm_hwb m) id d) (mm_maps m)) /\
  (forall w m' ex, mem_write ops oc m a w = Ret (m', ex) -> m' = m \/
     exists id e off d, mapped m id /\ znth (mm_hwb m) id = Some e /\ bo_write ops (ae_dev e) off w = Ret (d, ex) /\
       off mod 4 = 0 /\ 0 <= off < ac_size (ae_cache e) /\ m' = Memory (set_dev (mm_hwb m) id d) (mm_maps m)).
Proof. exact P_C33_in_range. Qed.
Print Assumptions C33_in_range.

Example C33_in_range_example : exists m0 m, board_new words_ops [[7; 8; 9]; [5]] = Ret m0 /\ api_run words_ops false [AMapContiguous 128 [1; 0]] m0 = Ret m /\
  mem_wf (c_mem m) /\ mem_read words_ops false (c_mem m) 200 = Ret (c_mem m, 0, 9) /\ exists m', mem_write words_ops false (c_mem m) 200 4 = Ret (m', 0).
Proof. exact E_C33_in_range. Qed.

(** On a tidy table an aligned access of an address occupied by a mapping is exactly the access of the component at offset
    (address - mapping start), which is a multiple of 4 below the component's size; the other components are not touched. *)
Theorem C33_dispatch : forall D (ops : bus_ops D) oc m a mp, mem_wf m -> tidy oc m -> a mod 4 = 0 -> In mp (mm_maps m) -> occupies mp a ->
  exists e, znth (mm_hwb m) (mp_aux_id mp) = Some e /\ (a - mp_addr mp) mod 4 = 0 /\ 0 <= a - mp_addr mp < ac_size (ae_cache e) /\
    mem_read ops oc m a = match bo_read ops (ae_dev e) (a - mp_addr mp) with
      | Ret (d, ex, v) => Ret (Memory (set_dev (mm_hwb m) (mp_aux_id mp) d) (mm_maps m), ex, v) | Panic => Panic end /\
    forall w, mem_write ops oc m a w = match bo_write ops (ae_dev e) (a - mp_addr mp) w with
      | Ret (d, ex) => Ret (Memory (set_dev (mm_hwb m) (mp_aux_id mp) d) (mm_maps m), ex) | Panic => Panic end.
Proof. exact P_C33_dispatch. Qed.
Print Assumptions C33_dispatch.

Example C33_dispatch_example : exists m0 m mp, board_new words_ops [[7; 8; 9]; [5]] = Ret m0 /\ api_run words_ops false [AMapContiguous 128 [1; 0]] m0 = Ret m /\
  mem_wf (c_mem m) /\ tidy false (c_mem m) /\ In mp (mm_maps (c_mem m)) /\ occupies mp 200 /\
  mem_read words_ops false (c_mem m) 200 = Ret (c_mem m, 0, 9) /\ (forall q, In q (mm_maps (c_mem m)) -> ~ occupies q 256).
Proof. exact E_C33_dispatch. Qed.

(** Replacing the state of one component leaves the others, and all descriptions, as they are. *)
Theorem C33_others : forall D (h : hwb D) id d k, znth (set_dev h id d) k =
  match znth h k with Some e => Some (if k =? id then AuxEntry d (ae_cache e) else e) | None => None end.
Proof. exact P_C33_others. Qed.
Print Assumptions C33_others.

Example C33_others_example : let h := [AuxEntry [7] (AuxCache 0 1 [] (W8 0 1 64 0 0 0 0 0) 64); AuxEntry [8] (AuxCache 1 2 [] (W8 0 2 64 0 0 0 0 0) 64)] in
  znth (set_dev h 1 [9]) 1 <> znth h 1 /\ znth (set_dev h 1 [9]) 0 = znth h 0.
Proof. exact E_C33_others. Qed.

(** An aligned address of no mapping reads as zero without exception, and writing it changes nothing, whatever the table (even
    one made by [map_abs]) and the build. *)
Theorem C34_unmapped : forall D (ops : bus_ops D) oc m a, mem_wf m -> is_u32 a -> a mod 4 = 0 ->
  (forall mp, In mp (mm_maps m) -> ~ occupies mp a) ->
  mem_read ops oc m a = Ret (m, 0, 0) /\ forall w, mem_write ops oc m a w = Ret (m, 0).
Proof. exact P_C34_unmapped. Qed.
Print Assumptions C34_unmapped.

Example C34_unmapped_example : exists m0 m, board_new words_ops [[7; 8; 9]; [5]] = Ret m0 /\ api_run words_ops false [AMapContiguous 128 [1; 0]] m0 = Ret m /\
  mem_wf (c_mem m) /\ is_u32 256 /\ 256 mod 4 = 0 /\ (forall q, In q (mm_maps (c_mem m)) -> ~ occupies q 256).
Proof. exact E_C34_unmapped. Qed.

(** The public [read] and [write] of an unaligned address panic (the CPU checks alignment before). *)
Theorem C34_unaligned : forall D (ops : bus_ops D) oc m a w, a mod 4 <> 0 -> mem_read ops oc m a = Panic /\ mem_write ops oc m a w = Panic.
Proof. exact P_C34_unaligned. Qed.
Print Assumptions C34_unaligned.

Example C34_unaligned_example : exists m0 m, board_new words_ops [[7; 8; 9]; [5]] = Ret m0 /\ api_run words_ops false [AMapContiguous 128 [1; 0]] m0 = Ret m /\ 202 mod 4 <> 0 /\
  mem_read words_ops false (c_mem m) 200 <> Panic /\ mem_read words_ops false (c_mem m) 202 = Panic.
Proof. exact E_C34_unaligned. Qed.

(** * C35 *)

(** [map_contiguous] on a tidy table, when it returns: there is one status per identifier, in order; the mapped components
    are added in order, the first at the given address and each right after the previous one (modulo 2^32); the refused
    ones are exactly those listed as failed, each with a reason that is true of the table and address at its turn; nothing
    else changes; the result is a success exactly when nothing was refused; and the same call without the refused
    components maps the same and succeeds. *)
Theorem C35_contiguous : forall D (m : memory D) oc a ids m' r sts, mem_wf m -> tidy oc m -> is_u32 a ->
  map_contiguous oc m a ids = Ret (m', r, sts) ->
  exists l, map as_id sts = ids /\ packed m a (ids_ok sts) l /\ m' = Memory (mm_hwb m) (mm_maps m ++ l) /\
    match r with
    | ROk rg => ids_ok sts = ids /\ mr_start rg = a /\
                (a + total_size l <= 2 ^ 32 -> mr_end rg = match ids with [] => a | _ => a + total_size l - 4 end)
    | RErr failed => failed <> [] /\ failed = ids_refused sts
    end /\
    (forall i e, In (i, e) (ids_refused sts) -> exists l1 l2, l = l1 ++ l2 /\
        refusal (Memory (mm_hwb m) (mm_maps m ++ l1)) ((a + total_size l1) mod 2 ^ 32) i e) /\
    exists rg sts', map_contiguous oc m a (ids_ok sts) = Ret (m', ROk rg, sts').
Proof. exact P_C35_contiguous. Qed.
Print Assumptions C35_contiguous.

(** Three components packed at 64; the middle one is refused because it is mapped already. *)
Example C35_contiguous_example : exists m0 m m' r sts, board_new words_ops [[]; []; []] = Ret m0 /\ api_run words_ops true [AMap 1024 1] m0 = Ret m /\
  mem_wf (c_mem m) /\ tidy true (c_mem m) /\ map_contiguous true (c_mem m) 64 [2; 1; 0] = Ret (m', r, sts) /\
  r = RErr [(1, AlreadyMapped)] /\ ids_ok sts = [2; 0] /\
  map (fun mp => (mp_aux_id mp, mp_addr mp)) (mm_maps m') = [(1, 1024); (2, 64); (0, 128)].
Proof. exact E_C35_contiguous. Qed.

(** An unknown identifier anywhere in the list panics, in any build. *)
Theorem C35_unknown_panics : forall D (m : memory D) oc a i ids, In i ids -> znth (mm_hwb m) i = None ->
  map_contiguous oc m a ids = Panic.
Proof. exact P_C35_unknown_panics. Qed.
Print Assumptions C35_unknown_panics.

Example C35_unknown_panics_example : exists m0, board_new words_ops [[]; []] = Ret m0 /\ In 2 [0; 2] /\ znth (mm_hwb (c_mem m0)) 2 = None /\ exists x, map_contiguous true (c_mem m0) 64 [0; 1] = Ret x.
Proof. exact E_C35_unknown_panics. Qed.

(** The status of each component gives its hardware identifier, its name and, if it was mapped, its mapping. *)
Theorem C35_statuses : forall D (m : memory D) oc a ids m' r sts, mem_wf m -> tidy oc m -> is_u32 a ->
  map_contiguous oc m a ids = Ret (m', r, sts) ->
  Forall (fun s => exists e, znth (mm_hwb m) (as_id s) = Some e /\ as_hw_id s = ac_hw_id (ae_cache e) /\ as_name s = ac_name (ae_cache e) /\
    match as_result s with
    | ROk rg => exists mp, In mp (mm_maps m') /\ mp_aux_id mp = as_id s /\ mr_start rg = mp_addr mp /\ mr_end rg = mp_addr mp + mp_size mp - 4
    | RErr _ => True
    end) sts.
Proof. exact P_C35_statuses. Qed.
Print Assumptions C35_statuses.

(** The same three components: the second status is that of the refused component. *)
Example C35_statuses_example : exists m0 m m' r, board_new words_ops [[]; []; []] = Ret m0 /\ api_run words_ops true [AMap 1024 1] m0 = Ret m /\
  map_contiguous true (c_mem m) 64 [2; 1] = Ret (m', r, [AuxStatus 2 1 [] (ROk (MappingRange 64 124)); AuxStatus 1 1 [] (RErr AlreadyMapped)]).
Proof. exact E_C35_statuses. Qed.

(** In a release build the packing wraps at the end of the address space: the component after one that ends at 2^32 is mapped at
    address 0, and the reported range does not contain it. *)
Theorem C35_range_refuted : ~ (forall D (ops : bus_ops D) m a ids m' rg sts mp, typed ops -> reachable ops false m -> is_u32 a ->
  map_contiguous false (c_mem m) a ids = Ret (m', ROk rg, sts) -> In mp (mm_maps m') -> ~ In mp (mm_maps (c_mem m)) ->
  mr_start rg <= mp_addr mp <= mr_end rg).
Proof. exact P_C35_range_refuted. Qed.
Print Assumptions C35_range_refuted.

(** * C36 *)

(** [map_abs], when it succeeds: whatever the end address, the whole component is mapped at the start address. The end
    address may be anything from the start to start + size, and only the part up to it is checked against other mappings. *)
Theorem C36_outcome : forall D (m : memory D) oc a e id m' r, mem_wf m -> is_u32 a -> is_u32 e -> mem_map_abs oc m a e id = Ret (m', ROk r) ->
  exists sz mp, comp_size m id = Some sz /\ a mod 4 = 0 /\ e mod 4 = 0 /\ 0 < sz /\ sz mod 4 = 0 /\ a <= e <= a + sz /\ ~ mapped m id /\
    r = MappingRange a e /\ mapping_at m id a mp /\ m' = Memory (mm_hwb m) (mm_maps m ++ [mp]) /\
    (tidy oc m -> forall mp' b, In mp' (mm_maps m) -> occupies mp' b -> ~ (a <= b <= e)).
Proof. exact P_C36_outcome. Qed.
Print Assumptions C36_outcome.

Example C36_outcome_example : exists m0 m' r, board_new words_ops [[]; []] = Ret m0 /\ mem_wf (c_mem m0) /\ mem_map_abs true (c_mem m0) 128 140 1 = Ret (m', ROk r) /\
  mm_maps m' = [Mapping 1 1 128 64].
Proof. exact E_C36_outcome. Qed.

(** The whole decision table of [map_abs], on a tidy table: success exactly on valid requests, the reason given for a refusal, no effect when refused, and when a debug build panics. *)
Theorem C36_requests : forall D (m : memory D) oc a e id, mem_wf m -> tidy oc m -> is_u32 a -> is_u32 e ->
  match mem_map_abs oc m a e id with
  | Ret (m', ROk r) => valid_range oc m a e id /\ r = MappingRange a e /\ exists mp, mapping_at m id a mp /\ m' = Memory (mm_hwb m) (mm_maps m ++ [mp])
  | Ret (m', RErr err) => m' = m /\ range_refusal m a e id err /\ ~ valid_range oc m a e id
  | Panic => oc = true /\ ~ valid_range oc m a e id /\ exists sz, comp_size m id = Some sz /\ (a + sz < 4 \/ 2 ^ 32 <= a + sz \/ 2 ^ 32 <= e + 4)
  end.
Proof. exact P_C36_requests. Qed.
Print Assumptions C36_requests.

(** A component of 64 bytes at 128: the range 32 .. 36 is accepted for the other one, 96 .. 128 is not, nor is 32 .. 100. *)
Example C36_requests_example : exists m0 m1 r, board_new words_ops [[]; []] = Ret m0 /\ mem_map false (c_mem m0) 128 0 = Ret (m1, ROk r) /\ mem_wf m1 /\ tidy false m1 /\
  valid_range false m1 32 36 1 /\ (exists m2 r2, mem_map_abs false m1 32 36 1 = Ret (m2, ROk r2)) /\
  mem_map_abs false m1 96 128 1 = Ret (m1, RErr (AddressOverlaps (Mapping 0 1 128 64))) /\ mem_map_abs false m1 32 100 1 = Ret (m1, RErr (MappingTooLarge 64)).
Proof. exact E_C36_requests. Qed.

(** With the component's own last word as end address, [map_abs] is [map]. *)
Theorem C36_exact : forall D (m : memory D) oc a id sz, mem_wf m -> is_u32 a -> comp_size m id = Some sz -> 4 <= a + sz <= 2 ^ 32 ->
  mem_map_abs oc m a (a + sz - 4) id = mem_map oc m a id.
Proof. exact P_C36_exact. Qed.
Print Assumptions C36_exact.

Example C36_exact_example : exists m0, board_new words_ops [[]; []] = Ret m0 /\ mem_wf (c_mem m0) /\ comp_size (c_mem m0) 1 = Some 64 /\ 4 <= 128 + 64 <= 2 ^ 32 /\
  exists m' r, mem_map_abs true (c_mem m0) 128 188 1 = Ret (m', ROk r).
Proof. exact E_C36_exact. Qed.

(** A component mapped with a smaller end address is nevertheless accessible beyond it, two accepted mappings can share
    addresses, and a range one word larger than the component is accepted. *)
Theorem C36_overlap_refuted : ~ (forall D (ops : bus_ops D) oc m mp mp' b, typed ops -> reachable ops oc m ->
  In mp (mm_maps (c_mem m)) -> In mp' (mm_maps (c_mem m)) -> occupies mp b -> occupies mp' b -> mp = mp').
Proof. exact P_C36_overlap_refuted. Qed.
Print Assumptions C36_overlap_refuted.

(** The natural claim that map_abs makes the component answer exactly from the first address to the last is false. *)
Theorem C36_range_refuted : ~ (forall D (ops : bus_ops D) oc m a e id m' r mp, typed ops -> reachable ops oc m -> is_u32 a -> is_u32 e ->
  mem_map_abs oc (c_mem m) a e id = Ret (m', ROk r) -> In mp (mm_maps m') -> mp_aux_id mp = id ->
  forall b, b mod 4 = 0 -> (occupies mp b <-> a <= b <= e)).
Proof. exact P_C36_range_refuted. Qed.
Print Assumptions C36_range_refuted.
