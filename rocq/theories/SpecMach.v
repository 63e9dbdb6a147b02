(** Vocabulary of the specifications: how a machine is observed from outside.
    Nothing here depends on how the model executes anything. *)
From Coq Require Import ZArith List Bool Lia.
From Verif Require Import Base Board Mem Cpu Asm.
Import ListNotations.
Open Scope Z_scope.

(** The register file in the order of the register codes 0x00..0x1F. *)
Definition file (r : regs) : list Z :=
  r_a r ++ r_c r ++ r_ac r ++ r_rr r ++
  [r_avr r; r_pc r; r_af r; r_ssp r; r_usp r; r_et r; r_era r; r_ev r; r_mtt r; r_pda r; r_smt r].

(** Overwrite element [n] of a list. *)
Fixpoint upd (l : list Z) (n : nat) (v : Z) : list Z :=
  match l, n with
  | [], _ => []
  | _ :: t, O => v :: t
  | x :: t, S k => x :: upd t k v
  end.

(** Register [r] of a register file, and its replacement. *)
Definition rg (f : list Z) (r : reg) : Z := nth (Z.to_nat (reg_code r)) f 0.
Definition rs (f : list Z) (r : reg) (v : Z) : list Z := upd f (Z.to_nat (reg_code r)) v.

(** Register [r] of a machine. *)
Definition R {D} (m : cpu D) (r : reg) : Z := rg (file (c_regs m)) r.

(** Well-typed registers: the arrays have their lengths and every register is a [u32].
    (The Rust types guarantee it; here it is an invariant that is proved, C01.) *)
Definition regs_wf (r : regs) : Prop :=
  length (r_a r) = 8%nat /\ length (r_c r) = 2%nat /\ length (r_ac r) = 3%nat /\
  length (r_rr r) = 8%nat /\ Forall is_u32 (file r).

(** Supervisor mode. *)
Definition supervisor {D} (m : cpu D) : Prop := R m R_smt <> 0.

(** Unicode scalar values: the characters of a Rust [String]. *)
Definition scalar (c : Z) : Prop := 0 <= c < 55296 \/ 57344 <= c < 1114112.

(** What the Rust types guarantee about any component: names are strings, reads give a [u32] and a [u16] exception,
    writes a [u16] exception, metadata eight [u32]. *)
Record typed {D} (ops : bus_ops D) : Prop := {
  ty_read : forall d off d' ex v, bo_read ops d off = Ret (d', ex, v) -> is_u16 ex /\ is_u32 v;
  ty_write : forall d off w d' ex, bo_write ops d off w = Ret (d', ex) -> is_u16 ex;
  ty_meta : forall d md, bo_metadata ops d = Ret md ->
      is_u32 (w0 md) /\ is_u32 (w1 md) /\ is_u32 (w2 md) /\ is_u32 (w3 md) /\
      is_u32 (w4 md) /\ is_u32 (w5 md) /\ is_u32 (w6 md) /\ is_u32 (w7 md);
  ty_name : forall d, Forall scalar (bo_name ops d)
}.

(** A component that does not panic: on every aligned access below its size it returns, preserving an
    invariant [inv size state]. *)
Record behaved {D} (ops : bus_ops D) (inv : Z -> D -> Prop) : Prop := {
  bh_read : forall sz d off, inv sz d -> 0 <= off < sz -> off mod 4 = 0 ->
      exists d' ex v, bo_read ops d off = Ret (d', ex, v) /\ inv sz d';
  bh_write : forall sz d off w, inv sz d -> 0 <= off < sz -> off mod 4 = 0 -> is_u32 w ->
      exists d' ex, bo_write ops d off w = Ret (d', ex) /\ inv sz d';
  bh_reset : forall sz d, inv sz d -> exists d', bo_reset ops d = Ret d' /\ inv sz d'
}.

(** Well-formed machine: registers, counter, and a mapping table that refers to existing components
    with their sizes, at aligned 32-bit addresses. *)
Definition cache_wf (c : aux_cache) : Prop :=
  is_u32 (w0 (ac_metadata c)) /\ is_u32 (w1 (ac_metadata c)) /\ is_u32 (w2 (ac_metadata c)) /\
  is_u32 (w3 (ac_metadata c)) /\ is_u32 (w4 (ac_metadata c)) /\ is_u32 (w5 (ac_metadata c)) /\
  is_u32 (w6 (ac_metadata c)) /\ is_u32 (w7 (ac_metadata c)) /\
  ac_size c = w2 (ac_metadata c) /\ ac_hw_id c = w0 (ac_metadata c) * 4294967296 + w1 (ac_metadata c) /\
  str_len (ac_name c) <= 32 /\ Forall scalar (ac_name c).

Definition mapping_wf {D} (h : hwb D) (mp : mapping) : Prop :=
  is_u32 (mp_addr mp) /\ mp_addr mp mod 4 = 0 /\ 0 < mp_size mp /\ mp_size mp mod 4 = 0 /\
  exists e, znth h (mp_aux_id mp) = Some e /\
            mp_size mp = ac_size (ae_cache e) /\ mp_hw_id mp = ac_hw_id (ae_cache e).

Definition mem_wf {D} (m : memory D) : Prop :=
  Forall (fun e => cache_wf (ae_cache e)) (mm_hwb m) /\
  Forall (mapping_wf (mm_hwb m)) (mm_maps m) /\
  zlen (mm_hwb m) <= 4294967295.

Definition wf {D} (m : cpu D) : Prop :=
  regs_wf (c_regs m) /\ mem_wf (c_mem m) /\ 0 <= c_cycles m < two128.

(** The states of the components satisfy their invariant. *)
Definition devs_ok {D} (inv : Z -> D -> Prop) (m : memory D) : Prop :=
  Forall (fun e => inv (ac_size (ae_cache e)) (ae_dev e)) (mm_hwb m).

(** The calls a host program can make through the public API. *)
Inductive api : Type :=
| ANext                                     (* cpu().next() *)
| AReset                                    (* reset() *)
| AMap (addr aux_id : Z)                    (* map(|m| m.map(addr, id)) *)
| AMapAbs (addr addr_end aux_id : Z)        (* map(|m| m.map_abs(addr, end, id)) *)
| AMapContiguous (addr : Z) (ids : list Z)  (* map(|m| m.map_contiguous(addr, ids)) *)
| ARead (addr : Z)                          (* map(|m| m.read(addr, ex)) *)
| AWrite (addr word : Z).                   (* map(|m| m.write(addr, word, ex)) *)

(** Arguments are machine integers. *)
Definition api_wf (c : api) : Prop :=
  match c with
  | ANext | AReset => True
  | AMap a i => is_u32 a /\ 0 <= i
  | AMapAbs a e i => is_u32 a /\ is_u32 e /\ 0 <= i
  | AMapContiguous a ids => is_u32 a /\ Forall (fun i => 0 <= i) ids
  | ARead a => is_u32 a
  | AWrite a w => is_u32 a /\ is_u32 w
  end.

Definition api_call {D} (ops : bus_ops D) (oc : bool) (c : api) (m : cpu D) : outcome (cpu D) :=
  let on_mem {A : Type} (r : outcome (memory D * A)) : outcome (cpu D) :=
    match r with Ret (mem, _) => Ret (with_mem mem m) | Panic => Panic end in
  match c with
  | ANext => next ops oc m
  | AReset => board_reset ops m
  | AMap a i => on_mem (mem_map oc (c_mem m) a i)
  | AMapAbs a e i => on_mem (mem_map_abs oc (c_mem m) a e i)
  | AMapContiguous a ids =>
      match map_contiguous oc (c_mem m) a ids with
      | Ret (mem, _, _) => Ret (with_mem mem m) | Panic => Panic end
  | ARead a => match mem_read ops oc (c_mem m) a with
               | Ret (mem, _, _) => Ret (with_mem mem m) | Panic => Panic end
  | AWrite a w => on_mem (mem_write ops oc (c_mem m) a w)
  end.

Fixpoint api_run {D} (ops : bus_ops D) (oc : bool) (cs : list api) (m : cpu D) : outcome (cpu D) :=
  match cs with
  | [] => Ret m
  | c :: t => match api_call ops oc c m with Ret m' => api_run ops oc t m' | Panic => Panic end
  end.

(** [reachable ops oc m]: some history of API calls on a freshly built board leads to [m]. *)
Definition reachable {D} (ops : bus_ops D) (oc : bool) (m : cpu D) : Prop :=
  exists ds cs m0,
    Forall api_wf cs /\ board_new ops ds = Ret m0 /\ api_run ops oc cs m0 = Ret m.
