(** Specification vocabulary for page directories: what they let userland do. *)
From Coq Require Import ZArith List Bool Lia.
From Verif Require Import Base Board Mem Cpu Asm Devices SpecMach SpecIsa SpecBus SpecObs SpecMap SpecMemory SpecUser.
Import ListNotations.
Open Scope Z_scope.

(** Where the page entry of address [a] is, with the directory at [pda]. *)
Definition entry_at (pda a : Z) : Z := (pda + 4 * (a mod 1024)) mod 2 ^ 32.

Section Guard.
Context {D : Type} (ops : bus_ops D).
Implicit Types mem : memory D.
(** Accesses to the components that leave the guarded addresses alone: reads of page entries, and reads and writes of words that are not guarded. *)
Inductive touches (guard : Z -> bool) (pda : Z) : memory D -> memory D -> Prop :=
| touch_none mem : touches guard pda mem mem
| touch_entry mem mem1 a ex e mem2 : touches guard pda mem mem1 -> a mod 4 = 0 -> mem_read ops false mem1 (entry_at pda a) = Ret (mem2, ex, e) ->
    touches guard pda mem mem2
| touch_read mem mem1 a ex w mem2 : touches guard pda mem mem1 -> a mod 4 = 0 -> guard a = false -> mem_read ops false mem1 a = Ret (mem2, ex, w) ->
    touches guard pda mem mem2
| touch_write mem mem1 a w ex mem2 : touches guard pda mem mem1 -> a mod 4 = 0 -> guard a = false -> mem_write ops false mem1 a w = Ret (mem2, ex) ->
    touches guard pda mem mem2.
(** The directory at [pda] refuses userland exactly the guarded words, and still does after any accesses that leave them alone. *)
Definition fenced (guard : Z -> bool) (pda : Z) mem : Prop :=
  forall mem', touches guard pda mem mem' -> forall a, a mod 4 = 0 ->
    exists e mem2, mem_read ops false mem' (entry_at pda a) = Ret (mem2, 0, e) /\ Z.testbit e 30 = guard a.
(** The next [n] cycles of [m] (in build [oc]) are all in userland and execute no RESET. *)
Definition in_userland (oc : bool) (n : nat) (m : cpu D) : Prop :=
  forall k mk, (k < n)%nat -> run ops oc k m = Ret mk -> sup_mode mk = false /\ forall v mem1, ~ fetches ops mk (Reset v) mem1.
End Guard.

(** The directory at [pda] is in the memory component mapped by [mp], whose words are [l]; it refuses userland exactly the guarded words, among which
    all its entries. *)
Definition self_guarding (guard : Z -> bool) (pda : Z) (mem : memory device) (mp : mapping) (l : list Z) : Prop :=
  ram_at mem mp l /\ forall a, a mod 4 = 0 ->
    entry_at pda a mod 4 = 0 /\ occupies mp (entry_at pda a) /\ Z.testbit (nth (word_index mp (entry_at pda a)) l 0) 30 = guard a /\ guard (entry_at pda a) = true.
(** The directory at [pda] is in the boot ROM mapped by [mp], whose words are [l]; it refuses userland exactly the guarded words. *)
Definition rom_directory (guard : Z -> bool) (pda : Z) (mem : memory device) (mp : mapping) (l : list Z) : Prop :=
  tidy false mem /\ In mp (mm_maps mem) /\
  (exists e s id, znth (mm_hwb mem) (mp_aux_id mp) = Some e /\ ae_dev e = DRom (BootRom l (zlen l) s id) /\ mp_size mp <= 4 * s) /\
  forall a, a mod 4 = 0 -> entry_at pda a mod 4 = 0 /\ occupies mp (entry_at pda a) /\ Z.testbit (nth (word_index mp (entry_at pda a)) l 0) 30 = guard a.

(** Two components alike but, if they are memories, for some words numbered in [secret]. *)
Definition twins (secret : Z -> Prop) (d1 d2 : device) : Prop :=
  d1 = d2 \/ exists s1 s2, (d1 = DRam s1 /\ d2 = DRam s2 \/ d1 = DFlash s1 /\ d2 = DFlash s2) /\ sm_size s1 = sm_size s2 /\ sm_hw_id s1 = sm_hw_id s2 /\
    length (sm_storage s1) = length (sm_storage s2) /\ forall i, ~ secret (Z.of_nat i) -> nth i (sm_storage s1) 0 = nth i (sm_storage s2) 0.
(** Word number [i] of component [id] is guarded: it is mapped only at guarded addresses. *)
Definition guarded_word (guard : Z -> bool) (mem : memory device) (id i : Z) : Prop :=
  forall mp, In mp (mm_maps mem) -> mp_aux_id mp = id -> guard (mp_addr mp + 4 * i) = true.
(** Two boards that differ at most in guarded words of memories. *)
Definition same_but_guarded (guard : Z -> bool) (mem1 mem2 : memory device) : Prop :=
  tidy false mem1 /\ mm_maps mem1 = mm_maps mem2 /\ length (mm_hwb mem1) = length (mm_hwb mem2) /\
  forall id e1 e2, znth (mm_hwb mem1) id = Some e1 -> znth (mm_hwb mem2) id = Some e2 ->
    ae_cache e1 = ae_cache e2 /\ twins (guarded_word guard mem1 id) (ae_dev e1) (ae_dev e2).
(** Two machines in userland that differ at most in guarded words of memories and in hidden registers. *)
Definition veiled (guard : Z -> bool) (m1 m2 : cpu device) : Prop :=
  same_but_guarded guard (c_mem m1) (c_mem m2) /\ c_cycles m1 = c_cycles m2 /\ c_halted m1 = c_halted m2 /\
  (forall r, hidden r = false -> R m1 r = R m2 r) /\ R m1 R_pda = R m2 R_pda.
(** Two such machines that both just left userland, by the same exception, each for its own handler. *)
Definition both_left (guard : Z -> bool) (m1 m2 : cpu device) : Prop :=
  same_but_guarded guard (c_mem m1) (c_mem m2) /\ c_cycles m1 = c_cycles m2 /\ c_halted m1 = c_halted m2 /\
  R m1 R_smt = 1 /\ R m1 R_et = R m2 R_et /\ R m1 R_pc = R m1 R_ev /\ R m2 R_pc = R m2 R_ev /\
  forall r, hidden r = false -> r <> R_pc -> R m1 r = R m2 r.
