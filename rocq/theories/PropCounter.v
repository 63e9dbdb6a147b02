(** Properties proved in ProofCounter.v: statements only. Generated by tools/gen_props.py. *)
From Coq Require Import ZArith List Bool Lia.
From Verif Require Import Base Board Asm Tools Counter SpecCounter SpecAsm SpecDev BaseFacts DevTyped ProofTools.
From Verif Require Import ProofCounter.
Import ListNotations.
Open Scope Z_scope.

(** A read returns the number of increments made by the counting thread since the last reset returned (since the creation if there was none), modulo 2^32, whatever threads did before. *)
Theorem C67_reads : forall tr w v, history (LRead v :: tr) w -> v = ticks tr mod 2 ^ 32.
Proof. exact P_C67_reads. Qed.
Print Assumptions C67_reads.

Example C67_reads_example : history trace_one after_one.
Proof. exact E_C67_reads. Qed.

(** Between calls the component can always be read, and reading changes nothing. *)
Theorem C67_readable : forall tr w, history tr w -> idle w -> exec w CallRead = Some (LRead (ticks tr mod 2 ^ 32), w).
Proof. exact P_C67_readable. Qed.
Print Assumptions C67_readable.

Example C67_readable_example : history trace_one after_one /\ idle after_one /\ ticks trace_one = 1.
Proof. exact E_C67_readable. Qed.

(** A write is refused as not writable (code 0x31 with no data, in the upper byte) and changes nothing. *)
Theorem C67_writes : forall w, idle w -> exec w CallWrite = Some (LWrite (49 * 2 ^ 8), w).
Proof. exact P_C67_writes. Qed.
Print Assumptions C67_writes.

Example C67_writes_example : idle after_one /\ exec after_one CallWrite = Some (LWrite 12544, after_one).
Proof. exact E_C67_writes. Qed.

(** At most one counting thread is alive, and it is the one created by the last reset that returned. *)
Theorem C67_one_alive : forall tr w i j, history tr w -> alive w i -> alive w j -> i = j /\ last_thread tr = Some i.
Proof. exact P_C67_one_alive. Qed.
Print Assumptions C67_one_alive.

Example C67_one_alive_example : history trace_one after_one /\ alive after_one 0%nat /\ last_thread trace_one = Some 0%nat.
Proof. exact E_C67_one_alive. Qed.

(** Every step of a counting thread (poll or increment) is one of the thread created by the last reset that returned. *)
Theorem C67_current : forall l tr w j, history (l :: tr) w -> of_thread j l -> last_thread tr = Some j.
Proof. exact P_C67_current. Qed.
Print Assumptions C67_current.

Example C67_current_example : exists w, history (LPoll 0 true :: tl trace_stop) w /\ of_thread 0 (LPoll 0 true).
Proof. exact E_C67_current. Qed.

(** When a reset returns: the thread it created is alive and is the only one, the component is ready for a call and reads 0. *)
Theorem C67_reset : forall tr w j, history (LSpawn j :: tr) w ->
  (forall i, alive w i <-> i = j) /\ idle w /\ exec w CallRead = Some (LRead 0, w) /\ ~ (exists k, last_thread tr = Some k /\ (j <= k)%nat).
Proof. exact P_C67_reset. Qed.
Print Assumptions C67_reset.

Example C67_reset_example : history trace_again after_again /\ last_thread (tl trace_again) = Some 0%nat /\ ~ alive after_again 0%nat /\ alive after_again 1%nat.
Proof. exact E_C67_reset. Qed.

(** From the moment a reset returns until the next one returns, only the thread it created makes steps: those of earlier generations never act again. *)
Theorem C67_isolated : forall later j tr w l i, history (later ++ LSpawn j :: tr) w -> no_spawn later -> In l later -> of_thread i l -> i = j.
Proof. exact P_C67_isolated. Qed.
Print Assumptions C67_isolated.

Example C67_isolated_example : exists w, history (repeat (LPoll 1 false) 7 ++ LSpawn 1 :: tl trace_again) w /\ no_spawn (repeat (LPoll 1 false) 7) /\ In (LPoll 1 false) (repeat (LPoll 1 false) 7).
Proof. exact E_C67_isolated. Qed.

(** A call of [stop] that found a thread returns only once no counting thread is left. *)
Theorem C67_joined : forall tr w h, history (LJoin h :: tr) w -> forall j, ~ alive w j.
Proof. exact P_C67_joined. Qed.
Print Assumptions C67_joined.

Example C67_joined_example : exists w, history (LJoin 0 :: trace_stop) w /\ length (wd_threads w) = 1%nat.
Proof. exact E_C67_joined. Qed.

(** The component declares 4 bytes and no category. *)
Theorem C67_metadata : forall id, is_u64 id -> counter_metadata id = Ret (W8 (id / 2 ^ 32) (id mod 2 ^ 32) 4 (2 ^ 32 - 1) 0 0 0 0).
Proof. exact P_C67_metadata. Qed.
Print Assumptions C67_metadata.

Example C67_metadata_example : is_u64 (2 ^ 40 + 7) /\ counter_metadata (2 ^ 40 + 7) = Ret (W8 256 7 4 4294967295 0 0 0 0).
Proof. exact E_C67_metadata. Qed.

(** Between two resets, a later read returns the value of an earlier one plus the number of increments made in between (modulo 2^32); it is never less before 2^32 increments. *)
Theorem C68_monotone : forall mid tr w v1 v2, history (LRead v2 :: mid ++ LRead v1 :: tr) w -> no_spawn mid ->
  v2 = (v1 + adds mid) mod 2 ^ 32 /\ (ticks (mid ++ tr) < 2 ^ 32 -> v1 <= v2).
Proof. exact P_C68_monotone. Qed.
Print Assumptions C68_monotone.

Example C68_monotone_example : history (LRead 1 :: (LAdd 0 :: repeat (LPoll 0 false) 99) ++ LRead 0 :: [LSpawn 0; LNewFlag; LNewCounter; LReset]) after_one /\
  no_spawn (LAdd 0 :: repeat (LPoll 0 false) 99) /\ adds (LAdd 0 :: repeat (LPoll 0 false) 99) = 1.
Proof. exact E_C68_monotone. Qed.

(** A thread increments the counter only after exactly 99 polls since its creation or its previous increment. *)
Theorem C68_pace : forall tr w j, history (LAdd j :: tr) w -> polls j tr = 99.
Proof. exact P_C68_pace. Qed.
Print Assumptions C68_pace.

Example C68_pace_example : exists w tr, history (LAdd 0 :: tr) w /\ length tr = 104%nat.
Proof. exact E_C68_pace. Qed.

(** Once the stop flag of thread [h] is set, until the next reset returns the counting threads make no more than an increment already due and one last poll (newest first). *)
Theorem C68_stop : forall mid tr w h, history (mid ++ LStore h :: tr) w -> no_spawn mid ->
  In (thread_labels mid) [[]; [LAdd h]; [LPoll h true]; [LPoll h true; LAdd h]].
Proof. exact P_C68_stop. Qed.
Print Assumptions C68_stop.

(** A thread caught between its last poll and its increment still makes the increment, then sees the flag. *)
Example C68_stop_example : exists w tr, history ([LJoin 0; LPoll 0 true; LAdd 0] ++ LStore 0 :: tr) w /\ no_spawn [LJoin 0; LPoll 0 true; LAdd 0].
Proof. exact E_C68_stop. Qed.

(** Once the flag is set, a stop, a reset (up to the creation of its thread, its last step) or a drop ends within five steps of the whole system, whatever the schedule. *)
Theorem C68_finishes : forall mid tr w h, history (mid ++ LStore h :: tr) w -> no_spawn mid -> no_call mid -> (length mid <= 5)%nat.
Proof. exact P_C68_finishes. Qed.
Print Assumptions C68_finishes.

(** The bound is reached. *)
Example C68_finishes_example : exists w tr, history ([LNewFlag; LNewCounter; LJoin 0; LPoll 0 true; LAdd 0] ++ LStore 0 :: tr) w /\
  no_spawn [LNewFlag; LNewCounter; LJoin 0; LPoll 0 true; LAdd 0] /\ no_call [LNewFlag; LNewCounter; LJoin 0; LPoll 0 true; LAdd 0].
Proof. exact E_C68_finishes. Qed.

(** No call ever blocks for good: as long as a call is in progress, it or the current counting thread can make a step. *)
Theorem C68_never_stuck : forall tr w, history tr w -> ~ idle w -> ~ dropped w ->
  (exists l w', exec w Continue = Some (l, w')) \/ (exists h l w', last_thread tr = Some h /\ exec w (Run h) = Some (l, w')).
Proof. exact P_C68_never_stuck. Qed.
Print Assumptions C68_never_stuck.

(** A call that must wait for the thread. *)
Example C68_never_stuck_example : history (tl trace_stop) after_store /\ ~ idle after_store /\ ~ dropped after_store /\ exec after_store Continue = None.
Proof. exact E_C68_never_stuck. Qed.

(** Once the component has been dropped no counting thread is left and nothing more ever happens. *)
Theorem C68_dropped : forall tr w, history tr w -> dropped w -> (forall j, ~ alive w j) /\ forall c, exec w c = None.
Proof. exact P_C68_dropped. Qed.
Print Assumptions C68_dropped.

Example C68_dropped_example : exists tr w, history tr w /\ dropped w /\ length (wd_threads w) = 1%nat.
Proof. exact E_C68_dropped. Qed.
