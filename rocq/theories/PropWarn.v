(** Properties proved in ProofWarn.v: statements only. Generated by tools/gen_props.py. *)
From Coq Require Import String ZArith List Bool Lia.
From Verif Require Import Base Board Mem Cpu Asm Tools Devices LasmRules Lasm Console Warn SpecMach SpecMap SpecConsole SpecWarn SpecDev BaseFacts MemFacts MapFacts ConsoleFacts Demo
  ReachFacts DevTyped ProofMap ProofIo.
From Verif Require Import ProofWarn.
Import ListNotations.
Open Scope string_scope.
Open Scope Z_scope.

(** A debug build warns of a read or a write exactly when no component is mapped at the address, and says the address; a release build never does. *)
Theorem C93_read : forall D (m : memory D) debug oc a, tidy oc m -> 0 <= a < 2 ^ 32 -> a mod 4 = 0 ->
  (debug = true /\ nothing_at m a -> warns_of "read" a (read_warning debug oc m a)) /\
  (~ (debug = true /\ nothing_at m a) -> read_warning debug oc m a = []).
Proof. exact P_C93_read. Qed.
Print Assumptions C93_read.

Example C93_read_example : exists (m : memory device), tidy true m /\ nothing_at m 100 /\ ~ nothing_at m 4 /\
  read_warning true true m 100 = ["Warning: tried to read non-mapped memory at address 0x00000064"] /\ read_warning true true m 4 = [] /\ read_warning false true m 100 = [].
Proof. exact E_C93_read. Qed.

(** In debug mode a store where nothing is mapped warns, naming the address; otherwise nothing is printed. *)
Theorem C93_write : forall D (m : memory D) debug oc a, tidy oc m -> 0 <= a < 2 ^ 32 -> a mod 4 = 0 ->
  (debug = true /\ nothing_at m a -> warns_of "write" a (write_warning debug oc m a)) /\
  (~ (debug = true /\ nothing_at m a) -> write_warning debug oc m a = []).
Proof. exact P_C93_write. Qed.
Print Assumptions C93_write.

Example C93_write_example : nothing_at (Memory [] [Mapping 0 0 0 64] : memory device) 100 /\
  write_warning true true (Memory [] [Mapping 0 0 0 64] : memory device) 100 = ["Warning: tried to write non-mapped memory at address 0x00000064"] /\
  write_warning true true (Memory [] [Mapping 0 0 0 64] : memory device) 60 = [].
Proof. exact E_C93_write. Qed.

(** The answer to a request that was warned of: a read gives 0, a write changes nothing, no exception. *)
Theorem C93_harmless : forall D (ops : bus_ops D) (m : memory D) debug oc a w, mem_wf m -> tidy oc m -> is_u32 a -> a mod 4 = 0 ->
  (read_warning debug oc m a <> [] -> mem_read ops oc m a = Ret (m, 0, 0)) /\ (write_warning debug oc m a <> [] -> mem_write ops oc m a w = Ret (m, 0)).
Proof. exact P_C93_harmless. Qed.
Print Assumptions C93_harmless.

Example C93_harmless_example : write_warning true true (Memory [] [Mapping 0 0 0 64] : memory device) 64 <> [] /\ read_warning true true (Memory [] [Mapping 0 0 0 64] : memory device) 64 <> [].
Proof. exact E_C93_harmless. Qed.

(** A file-backed memory warns exactly when the length of the file is not a number of words. *)
Theorem C93_open : forall f wr id, zlen f < 2 ^ 32 ->
  (Z.divide 4 (zlen f) -> open_warning f = Some []) /\
  (~ Z.divide 4 (zlen f) -> open_warning f = Some ["Warning: opened unaligned file as aligned (rounded size to nearest lower multiple of 4 bytes)"] /\
     exists d, fm_open f wr id = Ret d /\ fm_size d = 4 * (zlen f / 4) /\ fm_real_size d = 4 * (zlen f / 4)).
Proof. exact P_C93_open. Qed.
Print Assumptions C93_open.

Example C93_open_example : open_warning [1; 2; 3; 4; 5] = Some ["Warning: opened unaligned file as aligned (rounded size to nearest lower multiple of 4 bytes)"] /\ open_warning [1; 2; 3; 4] = Some [].
Proof. exact E_C93_open. Qed.

(** The line keyboard warns exactly when it is told to ask for a line and the line has more bytes than its buffer; it says how many this is. *)
Theorem C93_line : forall l id input k addr w, 4 * zlen l + 4 < 2 ^ 32 -> in_range (4 * zlen l + 4) (Write addr w) ->
  let d := LineKeyboard l (zlen l) id input k in
  let too_long := addr = 4 * zlen l /\ w = 170 /\ 4 * zlen l < zlen (input k) in
  (too_long -> warns_too_long (4 * zlen l) (line_warning d addr w)) /\ (~ too_long -> line_warning d addr w = []).
Proof. exact P_C93_line. Qed.
Print Assumptions C93_line.

Example C93_line_example : let d := LineKeyboard [0; 0] 2 5 (fun _ => [72; 101; 108; 108; 111; 33; 33; 33; 33]) 0 in
  in_range 12 (Write 8 170) /\ line_warning d 8 170 = ["Warning: input is too long for synchronous keyboard's buffer (max. 8 bytes)"] /\
  line_warning (LineKeyboard [0; 0] 2 5 (fun _ => [72; 101; 108; 108; 111; 33; 33; 33]) 0) 8 170 = [].
Proof. exact E_C93_line. Qed.
