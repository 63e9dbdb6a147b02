(** What a cycle does to the components, and memory components (RAM, flash) on a board. *)
From Coq Require Import ZArith List Bool Lia.
From Verif Require Import Base Board Mem Cpu Asm Devices SpecMach SpecIsa SpecBus SpecObs SpecMap.
Import ListNotations.
Open Scope Z_scope.

(** Some reads of components, at addresses that satisfy [ok]. *)
Inductive reads_at {D} (ops : bus_ops D) (ok : Z -> Prop) : memory D -> memory D -> Prop :=
| reads_none mem : reads_at ops ok mem mem
| reads_more mem mem1 a ex w mem2 : reads_at ops ok mem mem1 -> ok a -> mem_read ops false mem1 a = Ret (mem2, ex, w) ->
    reads_at ops ok mem mem2.

(** Instruction [i], executed by [m], is to store the word [w] at address [a]. *)
Definition stores_word {D} (m : cpu D) (i : instr) (a w : Z) : Prop :=
  store_access m i = Some (a, w) \/
  exists v add r, i = Srm v add r /\ load_address m i = Some a /\ reg_value m r = Some w.

(** The addresses read in a cycle of [m] that fetches [i]: the instruction's, the load address, and, when translation is on,
    the page entries of these and of the address stored to. *)
Definition accesses {D} (m : cpu D) (i : instr) (a : Z) : Prop :=
  a = R m R_pc \/ load_address m i = Some a \/ exists w, stores_word m i a w.
Definition page_entry {D} (m : cpu D) (a : Z) : Z := (R m R_pda + 4 * (a mod 1024)) mod 2 ^ 32.
Definition may_read {D} (m : cpu D) (i : instr) (a : Z) : Prop :=
  a = R m R_pc \/ load_address m i = Some a \/ (R m R_mtt <> 0 /\ exists b, accesses m i b /\ a = page_entry m b).

(** What executing [i] does to the components, from [mem] to [mem']: reads at the addresses above, then at most one of a
    write of a word to be stored by [i], and the resets asked by a RESET. *)
Definition memory_effect {D} (ops : bus_ops D) (m : cpu D) (i : instr) (mem mem' : memory D) : Prop :=
  exists mem1, reads_at ops (may_read m i) mem mem1 /\
   (mem' = mem1 \/
    (exists a w ex, stores_word m i a w /\ mem_write ops false mem1 a w = Ret (mem', ex)) \/
    (exists v mode, i = Reset v /\ operand1 m v = Some mode /\ mm_maps mem' = mm_maps mem1 /\
       resets_exactly ops (reset_picks mode (R m R_avr)) (mm_hwb mem1) (mm_hwb mem'))).

(** The words of a memory component of the crate. *)
Definition contents (d : device) : option (list Z) :=
  match d with DRam s | DFlash s => Some (sm_storage s) | _ => None end.
(** The addresses of mapping [mp] lead to a memory component whose words are [l]. *)
Definition ram_at (mem : memory device) (mp : mapping) (l : list Z) : Prop :=
  tidy false mem /\ In mp (mm_maps mem) /\ Forall is_u32 l /\ mp_size mp <= 4 * zlen l /\
  exists e, znth (mm_hwb mem) (mp_aux_id mp) = Some e /\ contents (ae_dev e) = Some l.
(** Number of the word at address [a] of a mapping. *)
Definition word_index (mp : mapping) (a : Z) : nat := Z.to_nat ((a - mp_addr mp) / 4).
(** The word at address [a] of the memory component mapped by [mp] is [w]. *)
Definition holds (mem : memory device) (mp : mapping) (a w : Z) : Prop :=
  exists l, ram_at mem mp l /\ nth (word_index mp a) l 0 = w.

(** The next cycle of [m] may change the word at address [a]: it fetches an instruction that is to store there, or a RESET. *)
Definition may_change {D} (ops : bus_ops D) (m : cpu D) (a : Z) : Prop :=
  c_halted m = false /\ exists i mem1, fetches ops m i mem1 /\ ((exists w, stores_word m i a w) \/ exists v, i = Reset v).

(** The stack of [m] lives in the memory component mapped by [mp], whose words are [l]: it was empty when the stack pointer was
    [base], and holds the words [s] now, the top one first. *)
Definition stack_in (m : cpu device) (mp : mapping) (l : list Z) (base : Z) (s : list Z) : Prop :=
  ram_at (c_mem m) mp l /\ base mod 4 = 0 /\ base <= mp_addr mp + mp_size mp /\ mp_addr mp <= base - 4 * zlen s /\
  R m (sp_of m) = (base - 4 * zlen s) mod 2 ^ 32 /\
  forall k w, nth_error s k = Some w -> nth (word_index mp (base - 4 * zlen s + 4 * Z.of_nat k)) l 0 = w.

(** [m] executes the instructions [is], one per cycle, and ends in [m']. *)
Inductive performs {D} (ops : bus_ops D) (oc : bool) : cpu D -> list instr -> cpu D -> Prop :=
| performs_nil m : performs ops oc m [] m
| performs_cons m i mem1 m1 is m' : executes ops oc m i mem1 m1 -> performs ops oc m1 is m' -> performs ops oc m (i :: is) m'.

(** A history of the stack: [stack_run ops oc mp base m s m' s'] when the machine goes from [m] to [m'], pushing and popping with
    translation off and enough room, and otherwise neither moving the stack pointer nor switching mode nor storing into the
    words of the stack; [s] and [s'] are what an ideal stack would hold. *)
Inductive stack_run (ops : bus_ops device) (oc : bool) (mp : mapping) (base : Z) : cpu device -> list Z -> cpu device -> list Z -> Prop :=
| run_here m s : stack_run ops oc mp base m s m s
| run_push m v x mem1 m1 s m' s' : executes ops oc m (Push v) mem1 m1 -> R m R_mtt = 0 -> operand2 m v = Some x ->
    mp_addr mp <= base - 4 * (zlen s + 1) ->
    stack_run ops oc mp base m1 (x :: s) m' s' -> stack_run ops oc mp base m s m' s'
| run_call m v x mem1 m1 s m' s' : executes ops oc m (Call v) mem1 m1 -> R m R_mtt = 0 -> operand2 m v = Some x ->
    mp_addr mp <= base - 4 * (zlen s + 1) ->
    stack_run ops oc mp base m1 ((R m R_pc + 4) mod 2 ^ 32 :: s) m' s' -> stack_run ops oc mp base m s m' s'
| run_pop m d mem1 m1 w s m' s' : executes ops oc m (Pop d) mem1 m1 -> R m R_mtt = 0 -> can_write (sup_mode m) d = true ->
    d <> sp_of m -> d <> R_smt ->
    stack_run ops oc mp base m1 s m' s' -> stack_run ops oc mp base m (w :: s) m' s'
| run_other m m1 s m' s' : next ops oc m = Ret m1 -> sup_mode m1 = sup_mode m -> R m1 (sp_of m) = R m (sp_of m) ->
    (forall a, base - 4 * zlen s <= a < base -> ~ may_change ops m a) ->
    stack_run ops oc mp base m1 s m' s' -> stack_run ops oc mp base m s m' s'.

(** [m] pops into the registers [ds] one after the other, obtaining the words [ws], and ends in [m']. *)
Inductive pop_each {D} (ops : bus_ops D) (oc : bool) : cpu D -> list reg -> list Z -> cpu D -> Prop :=
| pop_none m : pop_each ops oc m [] [] m
| pop_one m d mem1 m1 w ds ws m' : executes ops oc m (Pop d) mem1 m1 -> R m1 d = w -> pop_each ops oc m1 ds ws m' ->
    pop_each ops oc m (d :: ds) (w :: ws) m'.
(** The operands [ps] have the values [ws] in [m], and their values do not depend on the stack pointer or on pc. *)
Definition pushable {D} (m : cpu D) (ps : list rl2) (ws : list Z) : Prop :=
  Forall2 (fun v x => operand2 m v = Some x /\ v <> Reg2 (sp_of m) /\ v <> Reg2 R_pc) ps ws.
(** Registers one may pop into without disturbing the stack, the mode, translation or the program counter. *)
Definition poppable {D} (m : cpu D) (ds : list reg) : Prop :=
  Forall (fun d => can_write (sup_mode m) d = true /\ d <> sp_of m /\ d <> R_smt /\ d <> R_mtt /\ d <> R_pc) ds.
