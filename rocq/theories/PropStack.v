(** Properties proved in ProofStack.v: statements only. Generated by tools/gen_props.py. *)
From Coq Require Import ZArith List Bool Lia.
From Verif Require Import Base Board Mem Cpu Asm Devices SpecMach SpecIsa SpecBus SpecObs SpecMap SpecMemory BaseFacts RegFacts MemFacts
  CycleFacts CyclePost InvFacts DevTyped ExecFacts ProofMap ProofMem ProofRun ProofEffect ProofRam Demo.
From Verif Require Import ProofStack.
Import ListNotations.
Open Scope Z_scope.

(** On a stack in RAM with room for one more word and translation off, PUSH cannot fail: it adds the word on top, moves the stack
    pointer, and changes nothing else, in registers or in this memory. *)
Theorem C23_push_ram : forall oc m v x mem1 m' mp l base s, wf m -> executes (dev_ops oc) oc m (Push v) mem1 m' ->
  stack_in m mp l base s -> R m R_mtt = 0 -> operand2 m v = Some x -> mp_addr mp <= base - 4 * (zlen s + 1) ->
  let top := base - 4 * (zlen s + 1) in
  regs_after m m' [(sp_of m, top); (R_pc, (R m R_pc + 4) mod 2 ^ 32)] /\ c_halted m' = false /\
  stack_in m' mp (upd l (word_index mp top) x) base (x :: s).
Proof. exact P_C23_push_ram. Qed.
Print Assumptions C23_push_ram.

Example C23_push_ram_example : exists m mem1 m' l, reachable (dev_ops false) false m /\ executes (dev_ops false) false m (Push (Lit2 5)) mem1 m' /\
  stack_in m demo_mp l 512 [] /\ R m R_mtt = 0 /\ operand2 m (Lit2 5) = Some 5 /\ mp_addr demo_mp <= 512 - 4 * (zlen (@nil Z) + 1).
Proof. exact E_C23_push_ram. Qed.

(** CALL, on such a stack, pushes the address of the next instruction. *)
Theorem C24_call_ram : forall oc m v x mem1 m' mp l base s, wf m -> executes (dev_ops oc) oc m (Call v) mem1 m' ->
  stack_in m mp l base s -> R m R_mtt = 0 -> operand2 m v = Some x -> mp_addr mp <= base - 4 * (zlen s + 1) ->
  let top := base - 4 * (zlen s + 1) in let back := (R m R_pc + 4) mod 2 ^ 32 in
  regs_after m m' [(R_pc, x); (sp_of m, top)] /\ c_halted m' = false /\ stack_in m' mp (upd l (word_index mp top) back) base (back :: s).
Proof. exact P_C24_call_ram. Qed.
Print Assumptions C24_call_ram.

Example C24_call_ram_example : exists m mem1 m' l, wf m /\ executes (dev_ops false) false m (Call (Lit2 16)) mem1 m' /\ stack_in m demo_mp l 512 [] /\ R m R_mtt = 0 /\
  operand2 m (Lit2 16) = Some 16 /\ mp_addr demo_mp <= 512 - 4 * (zlen (@nil Z) + 1) /\ R m R_pc = 4.
Proof. exact E_C24_call_ram. Qed.

(** POP, on such a stack holding at least one word, cannot fail either: it yields the top word and removes it. *)
Theorem C23_pop_ram : forall oc m d mem1 m' mp l base w s, wf m -> executes (dev_ops oc) oc m (Pop d) mem1 m' ->
  stack_in m mp l base (w :: s) -> R m R_mtt = 0 -> can_write (sup_mode m) d = true -> d <> sp_of m -> d <> R_smt ->
  regs_after m m' [(d, w); (sp_of m, (base - 4 * zlen s) mod 2 ^ 32); (R_pc, (R m R_pc + 4) mod 2 ^ 32)] /\ c_halted m' = false /\
  stack_in m' mp l base s.
Proof. exact P_C23_pop_ram. Qed.
Print Assumptions C23_pop_ram.

Example C23_pop_ram_example : exists m mem1 m' l, reachable (dev_ops false) false m /\ executes (dev_ops false) false m (Pop R_a1) mem1 m' /\
  stack_in m demo_mp l 512 [7; 6; 5] /\ R m R_mtt = 0 /\ can_write (sup_mode m) R_a1 = true /\ R_a1 <> sp_of m /\ R_a1 <> R_smt.
Proof. exact E_C23_pop_ram. Qed.

(** Any history of pushes, calls, pops and other instructions: the stack in RAM is always what an ideal stack would be. *)
Theorem C23_history : forall oc mp base m s m' s', wf m -> stack_run (dev_ops oc) oc mp base m s m' s' ->
  forall l, stack_in m mp l base s -> exists l', stack_in m' mp l' base s'.
Proof. exact P_C23_history. Qed.
Print Assumptions C23_history.

Example C23_history_example : exists m m' l l', demo_run false sub_prog 1 = Ret m /\ stack_in m demo_mp l 512 [] /\
  stack_run (dev_ops false) false demo_mp 512 m [] m' [9; 8] /\ stack_in m' demo_mp l' 512 [9; 8].
Proof. exact E_C23_history. Qed.

(** On a stack pointer inside RAM, with translation off: pushing any list of words, then popping as many, cannot fail; it returns
    them in reverse order, restores the stack pointer and every register that was not popped into (except pc), and leaves this
    memory as it was outside the words that were pushed. *)
Theorem C23_lifo : forall oc m ps ws m1 ds m' mp l, wf m -> c_halted m = false -> R m R_mtt = 0 ->
  ram_at (c_mem m) mp l -> let sp := R m (sp_of m) in sp mod 4 = 0 -> sp <= mp_addr mp + mp_size mp -> mp_addr mp <= sp - 4 * zlen ps ->
  pushable m ps ws -> performs (dev_ops oc) oc m (map Push ps) m1 ->
  poppable m ds -> length ds = length ps -> performs (dev_ops oc) oc m1 (map Pop ds) m' ->
  pop_each (dev_ops oc) oc m1 ds (rev ws) m' /\
  (forall r, ~ In r ds -> r <> R_pc -> R m' r = R m r) /\ R m' R_pc = (R m R_pc + 8 * zlen ps) mod 2 ^ 32 /\ c_halted m' = false /\
  exists l', ram_at (c_mem m') mp l' /\
    forall b, occupies mp b -> b mod 4 = 0 -> ~ (sp - 4 * zlen ps <= b < sp) -> nth (word_index mp b) l' 0 = nth (word_index mp b) l 0.
Proof. exact P_C23_lifo. Qed.
Print Assumptions C23_lifo.

Example C23_lifo_example : exists m m1 m' l, demo_run false lifo_prog 1 = Ret m /\ wf m /\ c_halted m = false /\ R m R_mtt = 0 /\
  ram_at (c_mem m) demo_mp l /\ R m (sp_of m) = 512 /\ mp_addr demo_mp <= 512 - 4 * zlen lifo_ps /\ 512 <= mp_addr demo_mp + mp_size demo_mp /\
  pushable m lifo_ps [5; 6; 7] /\ performs (dev_ops false) false m (map Push lifo_ps) m1 /\
  poppable m lifo_ds /\ performs (dev_ops false) false m1 (map Pop lifo_ds) m' /\
  map (R m') lifo_ds = [7; 6; 5] /\ R m' (sp_of m) = 512.
Proof. exact E_C23_lifo. Qed.

(** A subroutine: CALL on such a stack, then any number of cycles that never store into the saved word nor reset components,
    then a RET with the stack pointer back where the CALL left it: it resumes after the CALL with the stack pointer restored. *)
Theorem C24_subroutine : forall oc m v x mem1 m1 n m2 mem2 m3 mp l base s, wf m -> executes (dev_ops oc) oc m (Call v) mem1 m1 ->
  stack_in m mp l base s -> R m R_mtt = 0 -> operand2 m v = Some x -> mp_addr mp <= base - 4 * (zlen s + 1) ->
  run (dev_ops oc) oc n m1 = Ret m2 -> sup_mode m2 = sup_mode m -> R m2 (sp_of m) = R m1 (sp_of m) -> R m2 R_mtt = 0 ->
  (forall k mk, (k < n)%nat -> run (dev_ops oc) oc k m1 = Ret mk -> ~ may_change (dev_ops oc) mk (R m1 (sp_of m))) ->
  executes (dev_ops oc) oc m2 (Pop R_pc) mem2 m3 ->
  R m3 R_pc = (R m R_pc + 4) mod 2 ^ 32 /\ R m3 (sp_of m) = R m (sp_of m) /\
  (forall r, r <> R_pc -> r <> sp_of m -> R m3 r = R m2 r).
Proof. exact P_C24_subroutine. Qed.
Print Assumptions C24_subroutine.

Example C24_subroutine_example : exists m m1 m2 m3 mem1 mem2 l, demo_run false sub_prog 1 = Ret m /\ wf m /\
  executes (dev_ops false) false m (Call (Lit2 16)) mem1 m1 /\ stack_in m demo_mp l 512 [] /\ R m R_mtt = 0 /\
  run (dev_ops false) false 2 m1 = Ret m2 /\ sup_mode m2 = sup_mode m /\ R m2 (sp_of m) = R m1 (sp_of m) /\ R m2 R_mtt = 0 /\
  (forall k mk, (k < 2)%nat -> run (dev_ops false) false k m1 = Ret mk -> ~ may_change (dev_ops false) mk (R m1 (sp_of m))) /\
  executes (dev_ops false) false m2 (Pop R_pc) mem2 m3 /\ R m R_pc = 4 /\ R m3 R_pc = 8.
Proof. exact E_C24_subroutine. Qed.

(** SRM at an address in RAM, twice, with translation off: nothing has changed, in registers other than pc or in this memory. *)
Theorem C25_srm_twice : forall oc m v add r a mem1 m1 mem2 m2 mp l, wf m ->
  executes (dev_ops oc) oc m (Srm v add r) mem1 m1 -> executes (dev_ops oc) oc m1 (Srm v add r) mem2 m2 ->
  load_address m (Srm v add r) = Some a -> ram_at (c_mem m) mp l -> occupies mp a -> a mod 4 = 0 -> R m R_mtt = 0 ->
  can_read (sup_mode m) r = true -> can_write (sup_mode m) r = true -> ~ In r [R_pc; R_smt; R_mtt] ->
  ~ In v [Reg1 r; Reg1 R_pc] -> ~ In add [Reg1 r; Reg1 R_pc] ->
  R m1 r = nth (word_index mp a) l 0 /\ ram_at (c_mem m1) mp (upd l (word_index mp a) (R m r)) /\
  (forall q, q <> R_pc -> R m2 q = R m q) /\ ram_at (c_mem m2) mp l.
Proof. exact P_C25_srm_twice. Qed.
Print Assumptions C25_srm_twice.

(** SRM twice at 0x104. *)
Example C25_srm_twice_example : exists m m1 m2 mem1 mem2 l, demo_run false (asm [Cpy R_a0 (Lit2 256); Wsa (Reg1 R_a0) (Lit1 4) (Lit1 7); Cpy R_a1 (Lit2 9);
      Srm (Reg1 R_a0) (Lit1 4) R_a1; Srm (Reg1 R_a0) (Lit1 4) R_a1]) 3 = Ret m /\ wf m /\
  executes (dev_ops false) false m (Srm (Reg1 R_a0) (Lit1 4) R_a1) mem1 m1 /\ executes (dev_ops false) false m1 (Srm (Reg1 R_a0) (Lit1 4) R_a1) mem2 m2 /\
  load_address m (Srm (Reg1 R_a0) (Lit1 4) R_a1) = Some 260 /\ ram_at (c_mem m) demo_mp l /\ R m R_mtt = 0 /\ R m R_a1 = 9 /\ R m1 R_a1 = 7 /\ R m2 R_a1 = 9.
Proof. exact E_C25_srm_twice. Qed.
