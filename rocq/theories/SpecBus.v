(** The bus of the instruction-set specification, for a board with mapped components:
    loads and stores go to the mapped memory (its behaviour is the subject of C31-C37),
    hardware information is the documented table, resets go to the selected components in order. *)
From Coq Require Import ZArith List Bool Lia.
From Verif Require Import Base Board Mem Cpu Asm SpecMach SpecIsa.
Import ListNotations.
Open Scope Z_scope.

(** Word [k] of a component's name: bytes 4k..4k+3 of its UTF-8 form, zero-padded. *)
Definition name_word_spec (name : list Z) (k : Z) : Z :=
  let b j := nth (Z.to_nat (4 * k + j)) (utf8 name) 0 in
  b 0 * 16777216 + b 1 * 65536 + b 2 * 256 + b 3.

(** Documented hardware information (docs: HWD): [inl (code, data)] is an exception. *)
Definition info_spec {D} (mem : memory D) (id info : Z) : Z * Z + Z :=
  match znth (mm_hwb mem) id with
  | None => inl (16, id mod 65536)                          (* 0x10 unknown component *)
  | Some e =>
      let md := ac_metadata (ae_cache e) in
      let name := ac_name (ae_cache e) in
      let mapped := find (fun mp => mp_aux_id mp =? id) (mm_maps mem) in
      if info =? 1 then inr (w0 md)                         (* UID, high *)
      else if info =? 2 then inr (w1 md)                    (* UID, low *)
      else if info =? 16 then inr (zlen (utf8 name))        (* name length *)
      else if (17 <=? info) && (info <=? 24) then inr (name_word_spec name (info - 17))
      else if info =? 32 then inr (w2 md)                   (* size *)
      else if info =? 33 then inr (w3 md)                   (* category *)
      else if info =? 34 then inr (w4 md)                   (* type *)
      else if info =? 35 then inr (w5 md)                   (* model *)
      else if info =? 36 then inr (w6 md)                   (* data, high *)
      else if info =? 37 then inr (w7 md)                   (* data, low *)
      else if info =? 160 then inr (match mapped with Some _ => 1 | None => 0 end)
      else if info =? 161 then
        match mapped with Some mp => inr (mp_addr mp) | None => inl (18, id mod 65536) end
      else if info =? 162 then
        match mapped with
        | Some mp => inr (m32 (mp_addr mp + mp_size mp - 1))
        | None => inl (18, id mod 65536)
        end
      else inl (17, info mod 65536)                         (* 0x11 unknown information *)
  end.

(** Reset the components selected by [sel], the first one having number [k]. *)
Fixpoint reset_sel {D} (ops : bus_ops D) (k : Z) (sel : Z -> bool) (h : hwb D) : outcome (hwb D) :=
  match h with
  | [] => Ret []
  | e :: t =>
      match (if sel k then bo_reset ops (ae_dev e) else Ret (ae_dev e)) with
      | Panic => Panic
      | Ret d =>
          match reset_sel ops (k + 1) sel t with
          | Panic => Panic
          | Ret t' => Ret (AuxEntry d (ae_cache e) :: t')
          end
      end
  end.

Definition board_bus {D} (ops : bus_ops D) (oc : bool) : bus (memory D) :=
  {| bus_load := mem_read ops oc;
     bus_store := mem_write ops oc;
     bus_count := fun m => zlen (mm_hwb m);
     bus_info := info_spec;
     bus_reset := fun m sel =>
       match reset_sel ops 0 sel (mm_hwb m) with
       | Panic => Panic
       | Ret h => Ret (Memory h (mm_maps m))
       end |}.

(** A machine as an architectural state. *)
Definition abs {D} (m : cpu D) : st (memory D) :=
  St (file (c_regs m)) (c_mem m) (c_cycles m) (c_halted m).

(** One cycle: nothing when halted; otherwise count it, fetch the word at pc and execute the
    instruction the assembler's decoder finds in it. [und] says what undecodable words do. *)
Definition cycle_spec {D} (ops : bus_ops D) (und : Z -> st (memory D) -> outcome (st (memory D)))
    (s : st (memory D)) : outcome (st (memory D)) :=
  if s_halt s then Ret s
  else
    let bs := board_bus ops false in
    let s := St (s_reg s) (s_bus s) ((s_cyc s + 1) mod 2 ^ 128) (s_halt s) in
    fetch bs s (fun w s =>
      match decode (bytes_of_word w) with
      | ROk i => step bs i s
      | RErr _ => und w s
      end).

Definition omap {A B} (f : A -> B) (x : outcome A) : outcome B :=
  match x with Ret a => Ret (f a) | Panic => Panic end.
