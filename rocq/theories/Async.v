(** The asynchronous counter of the async_hw example as a component of a board, and the example's [main].
    Models /repo/examples/async_hw/src/counter.rs (through Counter.v) and main.rs. *)
From Coq Require Import String ZArith List Bool Lia.
From Verif Require Import Base Board Mem Cpu Asm Tools Devices Runner LasmRules Lasm Sources Counter Examples.
Import ListNotations.
Open Scope Z_scope.

(** A component on a board: its identifier, its state with that of its threads, and what the scheduler of the host does: [ac_sched n] are
    the steps that happen between call number [n - 1] and the end of call number [n] of the methods of the component (counter.rs:45-109). *)
Record async : Type := AsyncCounter { ac_hw_id : Z; ac_world : world; ac_sched : nat -> list choice; ac_used : nat }.
(** AsyncCounter::new (counter.rs:27-35). *)
Definition async_new (hw_id : Z) (sched : nat -> list choice) : async := AsyncCounter hw_id world_new sched 0.
(** The steps of a schedule, oldest first. A choice that is not possible is skipped, and so are calls (the scheduler makes none). *)
Fixpoint let_run (w : world) (cs : list choice) : world :=
  match cs with
  | [] => w
  | c :: t =>
      let_run (match c with
               | Run _ | Continue => match exec w c with Some (_, w') => w' | None => w end
               | _ => w
               end) t
  end.
(** The end of a call in progress, when the schedule did not reach it: the caller goes on, and when it cannot, the thread it waits for does.
    [n] bounds the number of steps. Only executions where every call returns are modelled (C68_never_stuck: no schedule prevents it). *)
Fixpoint finish (n : nat) (w : world) : outcome world :=
  match wd_owner w, n with
  | OIdle, _ => Ret w
  | _, O => Panic
  | o, S n =>
      match exec w Continue with
      | Some (_, w') => finish n w'
      | None =>
          match o with
          | OJoin _ h => match exec w (Run h) with Some (_, w') => finish n w' | None => Panic end
          | _ => Panic
          end
      end
  end.
Definition ac_next (a : async) (w : world) : async := AsyncCounter (ac_hw_id a) w (ac_sched a) (S (ac_used a)).
(** [impl Bus for AsyncCounter] (counter.rs:45-102): the steps before a read or a write happen first; those of a reset after its start. The call
    itself is refused ([Panic]) when another one is in progress, which [&mut self] excludes. *)
Definition async_ops : bus_ops async := {|
  bo_name := fun _ => chars "Async Counter";
  bo_metadata := fun a => counter_metadata (ac_hw_id a);
  bo_read := fun a _ =>
    match exec (let_run (ac_world a) (ac_sched a (ac_used a))) CallRead with
    | Some (LRead v, w) => Ret (ac_next a w, 0, u32 v)
    | _ => Panic
    end;
  bo_write := fun a _ _ =>
    match exec (let_run (ac_world a) (ac_sched a (ac_used a))) CallWrite with
    | Some (LWrite ex, w) => Ret (ac_next a w, u16 ex)
    | _ => Panic
    end;
  bo_reset := fun a =>
    match exec (ac_world a) CallReset with
    | Some (_, w) => do! w <- finish 7 (let_run w (ac_sched a (ac_used a))); Ret (ac_next a w)
    | None => Panic
    end
|}.

(** Components of two kinds on one board ([Box<dyn Bus>]: dynamic dispatch). *)
Definition sum_ops {A B : Type} (a : bus_ops A) (b : bus_ops B) : bus_ops (A + B) := {|
  bo_name := fun d => match d with inl d => bo_name a d | inr d => bo_name b d end;
  bo_metadata := fun d => match d with inl d => bo_metadata a d | inr d => bo_metadata b d end;
  bo_read := fun d x => match d with
    | inl d => do! (d, ex, v) <- bo_read a d x; Ret (inl d, ex, v)
    | inr d => do! (d, ex, v) <- bo_read b d x; Ret (inr d, ex, v)
    end;
  bo_write := fun d x w => match d with
    | inl d => do! (d, ex) <- bo_write a d x w; Ret (inl d, ex)
    | inr d => do! (d, ex) <- bo_write b d x w; Ret (inr d, ex)
    end;
  bo_reset := fun d => match d with
    | inl d => do! d <- bo_reset a d; Ret (inl d)
    | inr d => do! d <- bo_reset b d; Ret (inr d)
    end
|}.

(** examples/async_hw/src/main.rs:11-28, for any third component; NumberDisplay::new_print prints every number it is given. *)
Definition async_run {C : Type} (cops : bus_ops C) (oc : bool) (fuel : nat) (c : C) (id0 id1 id3 : Z) : running (cpu (device + C) * stopped) :=
  do! program <- unwrap (assemble_words async_source);
  do! rom <- unwrap (br_with_size program 4096 id0);
  do! ram <- unwrap (sm_new 4096 id1);
  exec_vm (sum_ops (dev_ops oc) cops) oc fuel config_halt_on_ex [inl (DRom rom); inl (DRam ram); inr c; inl (DNum (NumDisplay id3 []))].
Definition async_main (oc : bool) (fuel : nat) (sched : nat -> list choice) (id0 id1 id2 id3 : Z) : running (cpu (device + async) * stopped) :=
  async_run async_ops oc fuel (async_new id2 sched) id0 id1 id3.
(** The numbers given to the handler of a number display, component [k] of the board. *)
Definition async_displayed {C : Type} (k : Z) (m : cpu (device + C)) : option (list Z) :=
  match znth (c_hwb m) k with Some (AuxEntry (inl (DNum d)) _) => Some (map (fun c => fst (fst c)) (nd_calls d)) | _ => None end.
