(** Properties proved in ProofRun.v: statements only. Generated by tools/gen_props.py. *)
From Coq Require Import ZArith List Bool Lia FinFun.
From Verif Require Import Base Board Mem Cpu Asm Tools Devices Runner SpecMach SpecIsa SpecObs SpecAsm SpecMap SpecDev SpecRun BaseFacts RegFacts MemFacts IsaFacts CyclePost InvFacts MapFacts DevTyped ReachFacts Demo ProofState ProofBoard ProofPanic ProofMap.
From Verif Require Import ProofRun.
Import ListNotations.
Open Scope Z_scope.

(** * C65 *)

(** When run_vm returns, it ran the machine up to the first stop and says truly where, when and why. *)
Theorem C65_stops : forall D (ops : bus_ops D) oc fuel cfg m m' st, typed ops -> wf m -> run_vm ops oc fuel cfg m = Ret (Some (m', st)) ->
  exists n, stops_after ops oc cfg m n m' /\ sp_cycles st = c_cycles m' /\ last_address ops oc m n (sp_addr st) /\ reported cfg n m' (sp_ex st).
Proof. exact P_C65_stops. Qed.
Print Assumptions C65_stops.

(** A run of three cycles that halts. *)
Example C65_stops_example : exists m m' st, reachable words_ops false m /\ run_vm words_ops false 9 config_default m = Ret (Some (m', st)) /\
  sp_cycles st = 3 /\ sp_addr st = 8 /\ sp_ex st = None /\ R m' R_a0 = 7.
Proof. exact E_C65_stops. Qed.

(** If the machine must stop, run_vm returns with it, provided that no exception register that it prints is unprintable. *)
Theorem C65_returns : forall D (ops : bus_ops D) oc cfg m n m', typed ops -> wf m -> stops_after ops oc cfg m n m' ->
  (no_printing cfg \/ forall k mk, (0 < k <= n)%nat -> run ops oc k m = Ret mk -> ~ unprintable (R mk R_et)) ->
  forall fuel, (n < fuel)%nat -> exists st, run_vm ops oc fuel cfg m = Ret (Some (m', st)).
Proof. exact P_C65_returns. Qed.
Print Assumptions C65_returns.

(** A stopping point three cycles ahead. *)
Example C65_returns_example : exists m m', wf m /\ stops_after words_ops false config_quiet m 3 m' /\ no_printing config_quiet.
Proof. exact E_C65_returns. Qed.

(** While run_vm is running, the machine must not stop: it never misses a stop, and it runs forever only if nothing stops the machine. *)
Theorem C65_running : forall D (ops : bus_ops D) oc cfg m fuel, typed ops -> wf m -> run_vm ops oc fuel cfg m = Ret None ->
  (exists mf, run ops oc fuel m = Ret mf) /\ forall k mk, (k < fuel)%nat -> run ops oc k m = Ret mk -> ~ must_stop cfg k mk.
Proof. exact P_C65_running. Qed.
Print Assumptions C65_running.

Example C65_running_example : exists m, reachable words_ops false m /\ run_vm words_ops false 5 config_quiet m = Ret None.
Proof. exact E_C65_running. Qed.

(** [run_vm] crashes the host exactly when the run gets, without ever having had to stop, to a cycle that crashes the processor or that
    leaves an unprintable exception while exceptions are worded. *)
Theorem C65_crashes : forall D (ops : bus_ops D) oc cfg m, typed ops -> wf m ->
  ((exists fuel, run_vm ops oc fuel cfg m = Panic) <-> crashes ops oc cfg m).
Proof. exact P_C65_crashes. Qed.
Print Assumptions C65_crashes.

(** A machine still running after five cycles. *)
Example C65_crashes_example : exists m, reachable words_ops false m /\ crashes words_ops false config_default m.
Proof. exact E_C65_crashes. Qed.

(** How long one waits changes nothing once the runner has answered: the answer, or the crash, is always the same. *)
Theorem C65_settled : forall D (ops : bus_ops D) oc cfg m fuel fuel', run_vm ops oc fuel cfg m <> Ret None -> (fuel <= fuel')%nat ->
  run_vm ops oc fuel' cfg m = run_vm ops oc fuel cfg m.
Proof. exact P_C65_settled. Qed.
Print Assumptions C65_settled.

Example C65_settled_example : exists m, reachable words_ops false m /\ run_vm words_ops false 9 config_default m <> Ret None /\ run_vm words_ops false 1 config_default m = Ret None.
Proof. exact E_C65_settled. Qed.

(** With a limit [l], the machine is never run beyond cycle [l + 1], and a run stopped by the limit alone has executed cycle [l + 1]. *)
Theorem C65_limit : forall D (ops : bus_ops D) oc fuel cfg m m' st l, typed ops -> wf m -> cf_limit cfg = Some l -> 0 <= l < 2 ^ 128 - 1 ->
  run_vm ops oc fuel cfg m = Ret (Some (m', st)) ->
  sp_cycles st <= Z.max (c_cycles m) (l + 1) /\
  (c_cycles m <= l -> c_halted m' = false -> sp_ex st = None -> sp_cycles st = l + 1).
Proof. exact P_C65_limit. Qed.
Print Assumptions C65_limit.

(** A limit reached. *)
Example C65_limit_example : exists m m' st, wf m /\ run_vm words_ops false 9 (with_cycles_limit (Some 2) config_quiet) m = Ret (Some (m', st)) /\ c_cycles m = 0 /\ c_halted m' = false /\ sp_ex st = None /\ sp_cycles st = 3.
Proof. exact E_C65_limit. Qed.

(** With a limit, a program that never resets the processor is always stopped. *)
Theorem C65_limit_ends : forall D (ops : bus_ops D) oc cfg m l, typed ops -> wf m -> cf_limit cfg = Some l -> 0 <= l < 2 ^ 128 - 1 -> c_cycles m <= l ->
  (forall n, exists mn, run ops oc n m = Ret mn) ->
  (forall n mn i mem1, run ops oc n m = Ret mn -> fetches ops mn i mem1 -> ~ resets_cpu mn i) ->
  exists n m', Z.of_nat n <= l + 1 - c_cycles m /\ stops_after ops oc cfg m n m'.
Proof. exact P_C65_limit_ends. Qed.
Print Assumptions C65_limit_ends.

(** A program that never resets the processor, with a limit: its only instruction halts. *)
Example C65_limit_ends_example : exists m l, wf m /\ cf_limit (with_cycles_limit (Some 3) config_quiet) = Some l /\ c_cycles m <= l /\
  (forall n, exists mn, run words_ops false n m = Ret mn) /\
  (forall n mn i mem1, run words_ops false n m = Ret mn -> fetches words_ops mn i mem1 -> ~ resets_cpu mn i).
Proof. exact E_C65_limit_ends. Qed.

(** If no exception was pending at the start, a run stopped by an exception has just entered it. *)
Theorem C65_fresh : forall D (ops : bus_ops D) oc fuel cfg m m' st e, typed ops -> wf m -> R m R_et = 0 ->
  run_vm ops oc fuel cfg m = Ret (Some (m', st)) -> sp_ex st = Some e ->
  R m' R_pc = R m' R_ev /\ R m' R_smt = 1 /\ exists sup code data, ex_code code /\ ex_data code data /\ R m' R_et = et_value sup code data.
Proof. exact P_C65_fresh. Qed.
Print Assumptions C65_fresh.

(** A run stopped by an exception, with the default printing. *)
Example C65_fresh_example : exists m m' st e, reachable words_ops false m /\ R m R_et = 0 /\
  run_vm words_ops false 9 config_halt_on_ex m = Ret (Some (m', st)) /\ sp_ex st = Some e /\ xm_code e = 240 /\ xm_data e = 7 /\ xm_sv e = true.
Proof. exact E_C65_fresh. Qed.

(** False: a limit of [l] cycles is not exceeded. *)
Theorem C65_limit_refuted : ~ (forall D (ops : bus_ops D) oc fuel cfg m m' st l, typed ops -> reachable ops oc m -> cf_limit cfg = Some l -> c_cycles m <= l ->
  run_vm ops oc fuel cfg m = Ret (Some (m', st)) -> sp_cycles st <= l).
Proof. exact P_C65_limit_refuted. Qed.
Print Assumptions C65_limit_refuted.

(** False: with a limit, the run always ends. A guest that executes RESET puts the cycle counter back to zero. *)
Theorem C65_limit_evaded_refuted : ~ (forall D (ops : bus_ops D) oc cfg m l, typed ops -> reachable ops oc m -> cf_limit cfg = Some l ->
  exists fuel, run_vm ops oc fuel cfg m <> Ret None).
Proof. exact P_C65_limit_evaded_refuted. Qed.
Print Assumptions C65_limit_evaded_refuted.

(** False: a run that stops reporting an exception has just entered it. The exception register keeps the last exception, so a later run reports it again. *)
Theorem C65_stale_refuted : ~ (forall D (ops : bus_ops D) oc fuel cfg m m' st e, typed ops -> reachable ops oc m ->
  run_vm ops oc fuel cfg m = Ret (Some (m', st)) -> sp_ex st = Some e -> R m' R_pc = R m' R_ev).
Proof. exact P_C65_stale_refuted. Qed.
Print Assumptions C65_stale_refuted.

(** False: with the default configuration a run that reaches a stopping point returns. Printing an exception about a register that does not exist crashes. *)
Theorem C65_printing_refuted : ~ (forall D (ops : bus_ops D) oc cfg m n m', typed ops -> reachable ops oc m -> stops_after ops oc cfg m n m' ->
  forall fuel, (n < fuel)%nat -> exists st, run_vm ops oc fuel cfg m = Ret (Some (m', st))).
Proof. exact P_C65_printing_refuted. Qed.
Print Assumptions C65_printing_refuted.

(** Valid components are mapped one after the other from address 0, all reset, and the processor starts at 0 in supervisor mode. *)
Theorem C66_boots : forall D (ops : bus_ops D) oc ds szs, typed ops -> Forall2 (declares ops) ds szs -> (forall d, In d ds -> exists d', bo_reset ops d = Ret d') ->
  bootable oc szs ->
  exists m, prepare_vm ops oc ds = Ret m /\ reachable ops oc m /\
    (forall r, R m r = match r with R_smt => 1 | _ => 0 end) /\ c_cycles m = 0 /\ c_halted m = false /\
    length (mm_maps (c_mem m)) = length ds /\
    forall k d sz, nth_error ds k = Some d -> nth_error szs k = Some sz ->
      (exists mp, nth_error (mm_maps (c_mem m)) k = Some mp /\ mp_aux_id mp = Z.of_nat k /\ mp_addr mp = sum (firstn k szs) /\ mp_size mp = sz) /\
      exists d' e, bo_reset ops d = Ret d' /\ znth (c_hwb m) (Z.of_nat k) = Some e /\ ae_dev e = d'.
Proof. exact P_C66_boots. Qed.
Print Assumptions C66_boots.

(** Three components, 64 + 64 + 64 bytes. *)
Example C66_boots_example : typed words_ops /\ Forall2 (declares words_ops) [[1]; [2; 3]; []] [64; 64; 64] /\ (forall d, In d [[1]; [2; 3]; []] -> exists d', bo_reset words_ops d = Ret d') /\ bootable true [64; 64; 64].
Proof. exact E_C66_boots. Qed.

(** Otherwise it crashes. *)
Theorem C66_panics : forall D (ops : bus_ops D) oc ds szs, typed ops -> Forall2 (declares ops) ds szs -> ~ bootable oc szs -> prepare_vm ops oc ds = Panic.
Proof. exact P_C66_panics. Qed.
Print Assumptions C66_panics.

(** A component that declares no address. *)
Example C66_panics_example : exists D (ops : bus_ops D) ds szs, typed ops /\ Forall2 (declares ops) ds szs /\ ~ bootable false szs.
Proof. exact E_C66_panics. Qed.
