(** The asynchronous counter component and its counting threads, as an interleaving of atomic steps.
    Models /repo/examples/async_hw/src/counter.rs. Simplifications: sleeping (line 90) takes no step (the scheduler may delay
    a thread for any time anyway); [SeqCst] atomics are sequentially consistent memory cells; [thread::spawn] never fails and the
    thread body cannot panic ([fetch_add] wraps), so [join().unwrap()] never panics; calls come from one thread at a time ([&mut self]). *)
From Coq Require Import ZArith List Bool Lia.
From Verif Require Import Base Board Mem Cpu Asm Tools.
Import ListNotations.
Open Scope Z_scope.

(** Where a counting thread is (counter.rs:87-100): in iteration [i] of [for _ in 1..100], about to sleep and poll the flag;
    about to increment; returned. *)
Inductive tpc : Type := TPoll (i : Z) | TAdd | TDone.
(** A thread with the two cells it captured (counter.rs:80-84). *)
Record thread : Type := Thread { th_counter : nat; th_flag : nat; th_pc : tpc }.

(** What follows [stop] (counter.rs:38-43): nothing (it is public), the rest of [reset] (74-100), the end of the component (105-109). *)
Inductive after_stop : Type := ThenIdle | ThenReset | ThenDropped.
(** Where the owner of the component is: between calls; about to store the flag / to join thread [h] in [stop] (39-41);
    about to create the counter (75), the flag (78), the thread (81-100) in [reset]; dropped. *)
Inductive opc : Type := OIdle | OStore (k : after_stop) (h : nat) | OJoin (k : after_stop) (h : nat)
  | ONewCounter | ONewFlag | OSpawn | ODropped.

(** Memory cells ([Arc<AtomicU32>], [Arc<AtomicBool>]: each [Arc::new] is a new cell), threads, fields of the component
    (counter.rs:12-24) and position of the owner. *)
Record world : Type := World {
  wd_counters : list Z; wd_flags : list bool; wd_threads : list thread;
  wd_counter : nat; wd_flag : nat; wd_handle : option nat; wd_owner : opc }.

(** AsyncCounter::new (counter.rs:27-35). *)
Definition world_new : world := World [0] [false] [] 0 0 None OIdle.

(** What an observer of all steps sees. *)
Inductive label : Type :=
| LRead (v : Z) | LWrite (ex : Z) | LStop | LReset | LDrop  (* calls (stop, reset, drop: their beginning) *)
| LStore (h : nat) | LJoin (h : nat) | LNewCounter | LNewFlag
| LSpawn (j : nat)                                          (* end of reset *)
| LPoll (j : nat) (b : bool) | LAdd (j : nat).              (* steps of counting thread [j] *)

(** Choices of the callers and of the scheduler. *)
Inductive choice : Type := CallRead | CallWrite | CallStop | CallReset | CallDrop | Continue | Run (j : nat).

Fixpoint set_nth {A} (l : list A) (n : nat) (x : A) : list A :=
  match l, n with
  | [], _ => []
  | _ :: t, O => x :: t
  | y :: t, S n => y :: set_nth t n x
  end.
Definition with_thread (w : world) (j : nat) (p : tpc) : world :=
  match nth_error (wd_threads w) j with
  | Some t => World (wd_counters w) (wd_flags w) (set_nth (wd_threads w) j (Thread (th_counter t) (th_flag t) p))
                    (wd_counter w) (wd_flag w) (wd_handle w) (wd_owner w)
  | None => w
  end.
Definition with_owner (w : world) (h : option nat) (o : opc) : world :=
  World (wd_counters w) (wd_flags w) (wd_threads w) (wd_counter w) (wd_flag w) h o.

(** One step of counting thread [j] (counter.rs:87-100). *)
Definition thread_step (w : world) (j : nat) : option (label * world) :=
  match nth_error (wd_threads w) j with
  | None => None
  | Some t =>
      match th_pc t with
      | TDone => None
      | TPoll i =>
          if nth (th_flag t) (wd_flags w) false then Some (LPoll j true, with_thread w j TDone)
          else Some (LPoll j false, with_thread w j (if i + 1 <? 100 then TPoll (i + 1) else TAdd))
      | TAdd =>
          let w' := World (set_nth (wd_counters w) (th_counter t) (u32 (nth (th_counter t) (wd_counters w) 0 + 1)))
                          (wd_flags w) (wd_threads w) (wd_counter w) (wd_flag w) (wd_handle w) (wd_owner w) in
          Some (LAdd j, with_thread w' j (TPoll 1))
      end
  end.
Definition is_done (w : world) (j : nat) : bool :=
  match nth_error (wd_threads w) j with
  | Some t => match th_pc t with TDone => true | _ => false end
  | None => false
  end.

(** One step of the owner inside a call (counter.rs:38-43, 70-101). *)
Definition owner_step (w : world) : option (label * world) :=
  match wd_owner w with
  | OIdle | ODropped => None
  | OStore k h =>
      Some (LStore h, World (wd_counters w) (set_nth (wd_flags w) (wd_flag w) true) (wd_threads w)
                            (wd_counter w) (wd_flag w) (wd_handle w) (OJoin k h))
  | OJoin k h =>
      if is_done w h
      then Some (LJoin h, with_owner w (wd_handle w) (match k with ThenIdle => OIdle | ThenReset => ONewCounter | ThenDropped => ODropped end))
      else None
  | ONewCounter =>
      Some (LNewCounter, World (wd_counters w ++ [0]) (wd_flags w) (wd_threads w)
                               (length (wd_counters w)) (wd_flag w) (wd_handle w) ONewFlag)
  | ONewFlag =>
      Some (LNewFlag, World (wd_counters w) (wd_flags w ++ [false]) (wd_threads w)
                            (wd_counter w) (length (wd_flags w)) (wd_handle w) OSpawn)
  | OSpawn =>
      let j := length (wd_threads w) in
      Some (LSpawn j, World (wd_counters w) (wd_flags w)
                            (wd_threads w ++ [Thread (wd_counter w) (wd_flag w) (TPoll 1)])
                            (wd_counter w) (wd_flag w) (Some j) OIdle)
  end.

(** One step of the whole: a call is accepted between calls only; [counting_thread.take()] empties the field (39). *)
Definition exec (w : world) (c : choice) : option (label * world) :=
  match c, wd_owner w with
  | Run j, _ => thread_step w j
  | Continue, _ => owner_step w
  | CallRead, OIdle => Some (LRead (nth (wd_counter w) (wd_counters w) 0), w)                     (* 59-61 *)
  | CallWrite, OIdle => Some (LWrite (aux_encode MemoryNotWritable), w)                           (* 65-67 *)
  | CallStop, OIdle =>
      Some (LStop, with_owner w None (match wd_handle w with Some h => OStore ThenIdle h | None => OIdle end))
  | CallReset, OIdle =>
      Some (LReset, with_owner w None (match wd_handle w with Some h => OStore ThenReset h | None => ONewCounter end))
  | CallDrop, OIdle =>
      Some (LDrop, with_owner w None (match wd_handle w with Some h => OStore ThenDropped h | None => ODropped end))
  | _, _ => None
  end.

(** metadata (counter.rs:53-55). *)
Definition counter_metadata (hw_id : Z) : outcome words8 :=
  do! md <- metadata_new hw_id 4 CatUncategorized None None; metadata_encode md.
