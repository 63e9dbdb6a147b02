(** VM runner. Models /repo/lrvm_tools/src/debug/{run,run_config,prepare,exec}.rs. *)
From Coq Require Import ZArith List Bool Lia.
From Verif Require Import Base Board Mem Cpu Asm Tools.
Import ListNotations.
Open Scope Z_scope.

(** RunConfig (run_config.rs:3-10), default (93-104). *)
Record run_config : Type := RunConfig {
  cf_limit : option Z; cf_halt_on_ex : bool; cf_print_cycles : bool; cf_print_ex : bool;
  cf_print_finish : bool; cf_newline : bool }.
Definition config_default : run_config := RunConfig None false false true true false.
(** Builders (run_config.rs:14-90). *)
Definition with_halt_on_exception (b : bool) (c : run_config) : run_config :=
  RunConfig (cf_limit c) b (cf_print_cycles c) (cf_print_ex c) (cf_print_finish c) (cf_newline c).
Definition with_cycles_limit (l : option Z) (c : run_config) : run_config :=
  RunConfig l (cf_halt_on_ex c) (cf_print_cycles c) (cf_print_ex c) (cf_print_finish c) (cf_newline c).
Definition with_print_cycles (b : bool) (c : run_config) : run_config :=
  RunConfig (cf_limit c) (cf_halt_on_ex c) b (cf_print_ex c) (cf_print_finish c) (cf_newline c).
Definition with_print_exceptions (b : bool) (c : run_config) : run_config :=
  RunConfig (cf_limit c) (cf_halt_on_ex c) (cf_print_cycles c) b (cf_print_finish c) (cf_newline c).
Definition with_print_finish (b : bool) (c : run_config) : run_config :=
  RunConfig (cf_limit c) (cf_halt_on_ex c) (cf_print_cycles c) (cf_print_ex c) b (cf_newline c).
Definition with_newline_on_finish (b : bool) (c : run_config) : run_config :=
  RunConfig (cf_limit c) (cf_halt_on_ex c) (cf_print_cycles c) (cf_print_ex c) (cf_print_finish c) b.
Definition be_verbose (c : run_config) : run_config :=
  RunConfig (cf_limit c) (cf_halt_on_ex c) true true true (cf_newline c).
Definition be_quiet (c : run_config) : run_config :=
  RunConfig (cf_limit c) (cf_halt_on_ex c) false false false (cf_newline c).
Definition config_halt_on_ex : run_config := with_halt_on_exception true config_default.
Definition config_verbose : run_config := be_verbose config_default.
Definition config_quiet : run_config := be_quiet config_default.

(** ExWithMode and StoppedState (run.rs:10-32). *)
Record ex_with_mode : Type := ExWithMode { xm_raw : Z; xm_sv : bool; xm_code : Z; xm_data : Z }.
Record stopped : Type := Stopped { sp_cycles : Z; sp_addr : Z; sp_ex : option ex_with_mode }.

(** run.rs:67-75. *)
Definition ex_of_et (et : Z) : ex_with_mode :=
  ExWithMode et (negb (u8 (et / 16777216) =? 0)) (u8 (et / 65536)) (of_be2 (u8 (et / 256)) (u8 et)).

(** prettify_ex_with_mode (run.rs:110-115): only its panics are modelled. *)
Definition prettify_ex (x : ex_with_mode) : outcome unit :=
  match native_decode_parts (xm_code x) (Some (xm_data x)) with
  | Some e => native_display e
  | None => Ret tt
  end.

Section Runner.
Context {D : Type} (ops : bus_ops D) (oc : bool).

(** The loop of run_vm (run.rs:43-90), on explicit fuel; [None] means that the loop is still running
    when the fuel is exhausted. Result: CPU, last address, exception the VM was stopped by. *)
Fixpoint run_loop (fuel : nat) (cfg : run_config) (was_at : Z) (m : cpu D)
  : outcome (option (cpu D * Z * option ex_with_mode)) :=
  match fuel with
  | O => Ret None
  | S f =>
      if c_halted m then Ret (Some (m, was_at, None))
      else if match cf_limit cfg with Some l => l <? c_cycles m | None => false end
      then Ret (Some (m, was_at, None))
      else
        let was_at := r_pc (c_regs m) in
        do! m <- next ops oc m;
        if negb (r_et (c_regs m) =? 0) then
          let ex := ex_of_et (r_et (c_regs m)) in
          do! _ <- (if cf_print_ex cfg && negb (cf_halt_on_ex cfg && cf_print_finish cfg)
                    then prettify_ex ex else Ret tt);
          if cf_halt_on_ex cfg then Ret (Some (m, was_at, Some ex))
          else run_loop f cfg was_at m
        else run_loop f cfg was_at m
  end.

(** run_vm (run.rs:35-107). *)
Definition run_vm (fuel : nat) (cfg : run_config) (m : cpu D) : outcome (option (cpu D * stopped)) :=
  do! r <- run_loop fuel cfg (r_pc (c_regs m)) m;
  match r with
  | None => Ret None
  | Some (m, was_at, ex) =>
      do! _ <- (if cf_print_finish cfg
                then match ex with Some x => prettify_ex x | None => Ret tt end
                else Ret tt);
      Ret (Some (m, Stopped (c_cycles m) was_at ex))
  end.

(** prepare_vm (prepare.rs:11-60); what it prints is in Console.v. *)
Definition prepare_vm (ds : list D) : outcome (cpu D) :=
  do! m <- board_new ops ds;
  do! (mem, res, _) <- map_contiguous oc (c_mem m) 0 (zrange (length ds));
  match res with
  | ROk _ => board_reset ops (with_mem mem m)
  | RErr _ => Panic
  end.

(** exec_vm (exec.rs:6-10). *)
Definition exec_vm (fuel : nat) (cfg : run_config) (ds : list D) : outcome (option (cpu D * stopped)) :=
  do! m <- prepare_vm ds; run_vm fuel cfg m.
End Runner.
