(** Properties proved in ProofGuard.v: statements only. Generated by tools/gen_props.py. *)
From Coq Require Import ZArith List Bool Lia.
From Verif Require Import Base Board Mem Cpu Asm Devices SpecMach SpecIsa SpecBus SpecObs SpecSim SpecTotal SpecUser SpecMap SpecMemory SpecGuard BaseFacts RegFacts MemFacts AluFacts IsaFacts IsaStep CycleFacts MonoFacts InvFacts ReachFacts CyclePost
  DevTyped ExecFacts ProofMap ProofMem ProofPanic ProofRun ProofRom ProofEffect Demo ProofState ProofTotal ProofRam.
From Verif Require Import ProofGuard.
Import ListNotations.
Open Scope Z_scope.

(** Userland does nothing to the components but accesses at addresses that are not guarded, and reads of page entries. *)
Theorem C90_confined : forall D (ops : bus_ops D) oc guard n m m', typed ops -> wf m -> R m R_mtt <> 0 -> fenced ops guard (R m R_pda) (c_mem m) -> in_userland ops oc (S n) m -> run ops oc (S n) m = Ret m' ->
  touches ops guard (R m R_pda) (c_mem m) (c_mem m') /\ fenced ops guard (R m R_pda) (c_mem m').
Proof. exact P_C90_confined. Qed.
Print Assumptions C90_confined.

Example C90_confined_example : exists m m1 m', wf m /\ R m R_mtt <> 0 /\ fenced (dev_ops false) sixteenth (R m R_pda) (c_mem m) /\ in_userland (dev_ops false) false 2 m /\ next (dev_ops false) false m = Ret m1 /\ R m1 R_a2 = 9 /\
  run (dev_ops false) false 2 m = Ret m' /\ R m' R_et = et_value false 6 1024.
Proof. exact E_C90_confined. Qed.

(** A directory in a memory that guards its own entries, and any directory in a boot ROM, keep refusing the same words. *)
Theorem C90_self : forall oc guard pda mem mp l, self_guarding guard pda mem mp l -> fenced (dev_ops oc) guard pda mem.
Proof. exact P_C90_self. Qed.
Print Assumptions C90_self.

Example C90_self_example : exists m l, reachable (dev_ops false) false m /\ self_guarding sixteenth 1024 (c_mem m) fence_mp l /\ sixteenth 1024 = true /\ sixteenth 1028 = false.
Proof. exact E_C90_self. Qed.

(** A page directory held in a ROM is fenced: no store changes what it says. *)
Theorem C90_rom : forall oc guard pda mem mp l, rom_directory guard pda mem mp l -> fenced (dev_ops oc) guard pda mem.
Proof. exact P_C90_rom. Qed.
Print Assumptions C90_rom.

Example C90_rom_example : exists m l, reachable (dev_ops false) false m /\ rom_directory vault_guard 1024 (c_mem m) vault_rom l /\ vault_guard 5376 = true /\ vault_guard 5380 = false.
Proof. exact E_C90_rom. Qed.

(** Integrity: the guarded words of memories keep their values however long userland runs. *)
Theorem C90_integrity : forall oc guard n m m' mp a w, wf m -> R m R_mtt <> 0 -> fenced (dev_ops oc) guard (R m R_pda) (c_mem m) -> in_userland (dev_ops oc) oc n m -> run (dev_ops oc) oc n m = Ret m' ->
  a mod 4 = 0 -> occupies mp a -> guard a = true -> holds (c_mem m) mp a w -> holds (c_mem m') mp a w.
Proof. exact P_C90_integrity. Qed.
Print Assumptions C90_integrity.

Example C90_integrity_example : exists m m', wf m /\ R m R_mtt <> 0 /\ fenced (dev_ops false) sixteenth (R m R_pda) (c_mem m) /\ in_userland (dev_ops false) false 2 m /\ run (dev_ops false) false 2 m = Ret m' /\
  sixteenth 1024 = true /\ occupies fence_mp 1024 /\ holds (c_mem m) fence_mp 1024 (2 ^ 30) /\ holds (c_mem m') fence_mp 1024 (2 ^ 30).
Proof. exact E_C90_integrity. Qed.

(** Secrecy: what guarded words contain has no influence on userland. *)
Theorem C90_secrecy : forall oc guard n m1 m2, wf m1 -> wf m2 -> R m1 R_mtt <> 0 -> veiled guard m1 m2 ->
  fenced (dev_ops oc) guard (R m1 R_pda) (c_mem m1) -> fenced (dev_ops oc) guard (R m2 R_pda) (c_mem m2) -> in_userland (dev_ops oc) oc (S n) m1 ->
  match run (dev_ops oc) oc (S n) m1, run (dev_ops oc) oc (S n) m2 with
  | Ret m1', Ret m2' => veiled guard m1' m2' \/ both_left guard m1' m2'
  | Panic, Panic => True
  | _, _ => oc = true
  end.
Proof. exact P_C90_secrecy. Qed.
Print Assumptions C90_secrecy.

Example C90_secrecy_example : exists m1 m2 m1' m2', wf m1 /\ wf m2 /\ R m1 R_mtt <> 0 /\ veiled vault_guard m1 m2 /\ holds (c_mem m1) vault_ram 5376 7 /\ holds (c_mem m2) vault_ram 5376 8 /\
  fenced (dev_ops false) vault_guard (R m1 R_pda) (c_mem m1) /\ fenced (dev_ops false) vault_guard (R m2 R_pda) (c_mem m2) /\ in_userland (dev_ops false) false 2 m1 /\
  run (dev_ops false) false 2 m1 = Ret m1' /\ run (dev_ops false) false 2 m2 = Ret m2' /\ R m1' R_et = et_value false 6 5376.
Proof. exact E_C90_secrecy. Qed.

(** A directory that guards its own entries refuses userland a quarter of all words, wherever they are. *)
Theorem C90_quarter : forall guard pda mem mp l a, self_guarding guard pda mem mp l -> a mod 4 = 0 -> a mod 16 = pda mod 16 -> guard a = true.
Proof. exact P_C90_quarter. Qed.
Print Assumptions C90_quarter.

Example C90_quarter_example : exists m l, reachable (dev_ops false) false m /\ self_guarding sixteenth 1024 (c_mem m) fence_mp l /\ 4096 mod 4 = 0 /\ 4096 mod 16 = 1024 mod 16 /\ sixteenth 4096 = true.
Proof. exact E_C90_quarter. Qed.

(** A RESET executed in userland opens the fence: nothing keeps userland from it. *)
Theorem C90_reset_refuted : ~ (forall oc guard n m m' mp a w, wf m -> R m R_mtt <> 0 -> fenced (dev_ops oc) guard (R m R_pda) (c_mem m) ->
  (forall k mk, (k < n)%nat -> run (dev_ops oc) oc k m = Ret mk -> sup_mode mk = false) -> run (dev_ops oc) oc n m = Ret m' ->
  a mod 4 = 0 -> occupies mp a -> guard a = true -> holds (c_mem m) mp a w -> holds (c_mem m') mp a w).
Proof. exact P_C90_reset_refuted. Qed.
Print Assumptions C90_reset_refuted.
