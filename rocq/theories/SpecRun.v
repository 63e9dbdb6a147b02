(** Specification vocabulary for the VM runner (run_vm, prepare_vm, exec_vm): when a run stops, what a list of components must satisfy. *)
From Coq Require Import ZArith List Bool Lia.
From Verif Require Import Base Board Mem Cpu Asm Tools Runner SpecMach SpecIsa SpecBus.
Import ListNotations.
Open Scope Z_scope.

(** A run must stop here: the processor is halted; or the cycle limit is exceeded; or, once at least one cycle was executed and if asked
    for, the exception register is not zero. *)
Definition must_stop {D} (cfg : run_config) (executed : nat) (m : cpu D) : Prop :=
  c_halted m = true \/ (exists l, cf_limit cfg = Some l /\ l < c_cycles m) \/
  ((0 < executed)%nat /\ cf_halt_on_ex cfg = true /\ R m R_et <> 0).

(** After exactly [n] cycles from [m], at [m'], the run must stop for the first time. *)
Definition stops_after {D} (ops : bus_ops D) (oc : bool) (cfg : run_config) (m : cpu D) (n : nat) (m' : cpu D) : Prop :=
  run ops oc n m = Ret m' /\ must_stop cfg n m' /\
  forall k mk, (k < n)%nat -> run ops oc k m = Ret mk -> ~ must_stop cfg k mk.

(** The address of the last executed instruction; where the run starts if none is executed. *)
Definition last_address {D} (ops : bus_ops D) (oc : bool) (m : cpu D) (n : nat) (a : Z) : Prop :=
  exists mk, run ops oc (pred n) m = Ret mk /\ a = R mk R_pc.

(** The exception reported: mode bit, code and payload are the documented fields of the exception register. *)
Definition reported {D} (cfg : run_config) (n : nat) (m' : cpu D) (x : option ex_with_mode) : Prop :=
  if (0 <? Z.of_nat n) && cf_halt_on_ex cfg && negb (R m' R_et =? 0)
  then exists e, x = Some e /\ xm_raw e = R m' R_et /\ xm_sv e = negb (R m' R_et / 2 ^ 24 =? 0) /\
       xm_code e = R m' R_et / 2 ^ 16 mod 2 ^ 8 /\ xm_data e = R m' R_et mod 2 ^ 16
  else x = None.

(** Nothing is printed about exceptions. *)
Definition no_printing (cfg : run_config) : Prop := cf_print_ex cfg = false /\ cf_print_finish cfg = false.
(** An exception register whose printing crashes: a protected-register exception about a register that does not exist. *)
Definition unprintable (et : Z) : Prop := (et / 2 ^ 16 mod 2 ^ 8 = 3 \/ et / 2 ^ 16 mod 2 ^ 8 = 4) /\ 32 <= et mod 2 ^ 8.

(** An exception seen by the runner is worded, at once or in the closing line. *)
Definition words_exceptions (cfg : run_config) : bool := cf_print_ex cfg || (cf_halt_on_ex cfg && cf_print_finish cfg).
(** A run crashes the host: it gets to a cycle before which it never had to stop, and there the processor itself crashes, or the cycle
    leaves an exception register whose printing, which was asked for, crashes. *)
Definition crashes {D} (ops : bus_ops D) (oc : bool) (cfg : run_config) (m : cpu D) : Prop :=
  exists n mn, run ops oc n m = Ret mn /\ (forall k mk, (k <= n)%nat -> run ops oc k m = Ret mk -> ~ must_stop cfg k mk) /\
    (next ops oc mn = Panic \/ exists mp, next ops oc mn = Ret mp /\ words_exceptions cfg = true /\ unprintable (R mp R_et)).

(** Sizes of components that can be mapped one after the other from address 0 (a debug build cannot fill the whole address space). *)
Definition sum (l : list Z) : Z := fold_right Z.add 0 l.
Definition bootable (oc : bool) (szs : list Z) : Prop :=
  Forall (fun s => 0 < s /\ s mod 4 = 0) szs /\ sum szs <= 2 ^ 32 /\ (oc = true -> sum szs < 2 ^ 32).

(** The instruction-set specification, composed along a program held at address 0: from [s] to [s'] in [n] cycles, each executing
    the instruction of the program that pc points to (translation off). *)
Inductive follows {D} (ops : bus_ops D) (prog : list Z) : nat -> st (memory D) -> st (memory D) -> Prop :=
| follows_0 s : follows ops prog 0 s s
| follows_S n j w i s s1 s' : s_halt s = false -> get s R_mtt = 0 -> get s R_pc = 4 * Z.of_nat j -> nth_error prog j = Some w ->
    decode (bytes_of_word w) = ROk i ->
    step (board_bus ops false) i (St (s_reg s) (s_bus s) ((s_cyc s + 1) mod 2 ^ 128) false) = Ret s1 ->
    follows ops prog n s1 s' -> follows ops prog (S n) s s'.
