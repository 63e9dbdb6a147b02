(** Properties proved in ProofRam.v: statements only. Generated by tools/gen_props.py. *)
From Coq Require Import ZArith List Bool Lia.
From Verif Require Import Base Board Mem Cpu Asm Devices SpecMach SpecIsa SpecBus SpecObs SpecMap SpecMemory BaseFacts RegFacts MemFacts
  CycleFacts CyclePost InvFacts DevTyped ExecFacts ProofMap ProofMem ProofRun ProofRom ProofEffect Demo.
From Verif Require Import ProofRam.
Import ListNotations.
Open Scope Z_scope.

(** What one instruction may do to the components, whichever they are: it reads at the address of the instruction, at the address
    it loads from, and at the page entries for these and for the address it stores to when translation is on; then it writes at
    most one word, the one it is to store, where it is to store it; RESET makes no such write, and resets exactly the
    components its mode selects. (Also when it ends in an exception.) *)
Theorem C72_effect : forall D (ops : bus_ops D) oc m i memf m', typed ops -> wf m -> executes ops oc m i memf m' ->
  memory_effect ops m i (c_mem m) (c_mem m').
Proof. exact P_C72_effect. Qed.
Print Assumptions C72_effect.

Example C72_effect_example : demo_case keep_prog 1 (fun m i _ m' => exists add val, i = Wsa (Reg1 R_a0) add val /\ stores_word m i 260 7 /\
  memory_effect (dev_ops false) m i (c_mem m) (c_mem m')).
Proof. exact E_C72_effect. Qed.

(** A cycle that fetches no instruction (the fetch fails, or the word is not an instruction) only reads. *)
Theorem C72_no_fetch : forall D (ops : bus_ops D) oc m m', typed ops -> wf m -> next ops oc m = Ret m' ->
  (forall i memf, ~ fetches ops m i memf) -> reads_at ops (fun _ => True) (c_mem m) (c_mem m').
Proof. exact P_C72_no_fetch. Qed.
Print Assumptions C72_no_fetch.

(** The program counter is not a multiple of four. *)
Example C72_no_fetch_example : exists m m', reachable (dev_ops false) false m /\ c_halted m = false /\ (forall i memf, ~ fetches (dev_ops false) m i memf) /\ next (dev_ops false) false m = Ret m' /\ R m' R_et <> 0.
Proof. exact E_C72_no_fetch. Qed.

(** The words of a RAM or flash memory on the board, over one instruction: they are as before, except the word the instruction
    stores there, or all zero after a RESET that selects this component. *)
Theorem C72_ram : forall oc m i memf m' mp l, wf m -> executes (dev_ops oc) oc m i memf m' -> ram_at (c_mem m) mp l ->
  ram_at (c_mem m') mp l \/
  (exists a w, stores_word m i a w /\ a mod 4 = 0 /\ occupies mp a /\ ram_at (c_mem m') mp (upd l (word_index mp a) w)) \/
  (exists v mode, i = Reset v /\ operand1 m v = Some mode /\ reset_picks mode (R m R_avr) (mp_aux_id mp) /\
     ram_at (c_mem m') mp (repeat 0 (length l))).
Proof. exact P_C72_ram. Qed.
Print Assumptions C72_ram.

Example C72_ram_example : exists m m' i memf l, demo_run false keep_prog 1 = Ret m /\ executes (dev_ops false) false m i memf m' /\
  ram_at (c_mem m) demo_mp l /\ nth 1 l 5 = 0 /\ ram_at (c_mem m') demo_mp (upd l 1 7).
Proof. exact E_C72_ram. Qed.

(** And over a cycle that fetches no instruction, or of a halted processor. *)
Theorem C72_ram_no_fetch : forall oc m m' mp l, wf m -> next (dev_ops oc) oc m = Ret m' ->
  c_halted m = true \/ (forall i memf, ~ fetches (dev_ops oc) m i memf) -> ram_at (c_mem m) mp l -> ram_at (c_mem m') mp l.
Proof. exact P_C72_ram_no_fetch. Qed.
Print Assumptions C72_ram_no_fetch.

Example C72_ram_no_fetch_example : exists m m' l, reachable (dev_ops false) false m /\ c_halted m = false /\ (forall i memf, ~ fetches (dev_ops false) m i memf) /\ next (dev_ops false) false m = Ret m' /\
  ram_at (c_mem m) demo_mp l /\ nth 1 l 0 = 7.
Proof. exact E_C72_ram_no_fetch. Qed.

(** A word of memory keeps its value over any number of cycles, as long as no instruction executed is to store at its address
    or is a RESET. *)
Theorem C72_persist : forall oc n m m' mp a w, wf m -> run (dev_ops oc) oc n m = Ret m' -> a mod 4 = 0 -> occupies mp a ->
  holds (c_mem m) mp a w ->
  (forall k mk, (k < n)%nat -> run (dev_ops oc) oc k m = Ret mk -> ~ may_change (dev_ops oc) mk a) ->
  holds (c_mem m') mp a w.
Proof. exact P_C72_persist. Qed.
Print Assumptions C72_persist.

Example C72_persist_example : exists m m', demo_run false keep_prog 2 = Ret m /\ run (dev_ops false) false 4 m = Ret m' /\ wf m /\
  holds (c_mem m) demo_mp 260 7 /\ (forall k mk, (k < 4)%nat -> run (dev_ops false) false k m = Ret mk -> ~ may_change (dev_ops false) mk 260) /\
  holds (c_mem m') demo_mp 260 7 /\ R m' R_a2 = 7.
Proof. exact E_C72_persist. Qed.

(** Loading from such an address yields the word held there, storing makes it hold the word stored (through the translation
    check when it is on; neither touches any other word of this memory, and neither can raise a hardware exception). *)
Theorem C72_load : forall oc m mp l a w mem2, ram_at (c_mem m) mp l -> occupies mp a ->
  loads (dev_ops oc) m (c_mem m) a w mem2 -> w = nth (word_index mp a) l 0 /\ ram_at mem2 mp l.
Proof. exact P_C72_load. Qed.
Print Assumptions C72_load.

Example C72_load_example : exists m l mem2, reachable (dev_ops false) false m /\ ram_at (c_mem m) demo_mp l /\ occupies demo_mp 260 /\ loads (dev_ops false) m (c_mem m) 260 7 mem2.
Proof. exact E_C72_load. Qed.

(** A store on a RAM changes the word at its address and no other. *)
Theorem C72_store : forall oc m mp l a w mem2, ram_at (c_mem m) mp l -> is_u32 w -> occupies mp a ->
  stores (dev_ops oc) m (c_mem m) a w mem2 ->
  ram_at mem2 mp (upd l (word_index mp a) w) /\ holds mem2 mp a w /\
  forall b, occupies mp b -> b mod 4 = 0 -> b <> a -> holds mem2 mp b (nth (word_index mp b) l 0).
Proof. exact P_C72_store. Qed.
Print Assumptions C72_store.

Example C72_store_example : exists m l mem2, reachable (dev_ops false) false m /\ ram_at (c_mem m) demo_mp l /\ is_u32 9 /\ occupies demo_mp 260 /\ stores (dev_ops false) m (c_mem m) 260 9 mem2 /\ nth 1 l 0 = 7.
Proof. exact E_C72_store. Qed.

(** Mapping a memory component makes its words available at the addresses of the mapping. *)
Theorem C72_mapped : forall m a id mem' r e l, mem_wf m -> tidy false m -> is_u32 a -> mem_map false m a id = Ret (mem', ROk r) ->
  znth (mm_hwb m) id = Some e -> contents (ae_dev e) = Some l -> Forall is_u32 l -> ac_size (ae_cache e) <= 4 * zlen l ->
  ram_at mem' (Mapping id (ac_hw_id (ae_cache e)) a (ac_size (ae_cache e))) l.
Proof. exact P_C72_mapped. Qed.
Print Assumptions C72_mapped.

Example C72_mapped_example : exists m0 mem' r e, board_new (dev_ops false) (demo_devs [1; 2; 3]) = Ret m0 /\ mem_wf (c_mem m0) /\ tidy false (c_mem m0) /\ is_u32 512 /\
  mem_map false (c_mem m0) 512 1 = Ret (mem', ROk r) /\ znth (mm_hwb (c_mem m0)) 1 = Some e /\ contents (ae_dev e) = Some (zeros 256) /\ Forall is_u32 (zeros 256) /\ ac_size (ae_cache e) <= 4 * zlen (zeros 256).
Proof. exact E_C72_mapped. Qed.
