(** Properties proved in ProofAsyncUse.v: statements only. Generated by tools/gen_props.py. *)
From Coq Require Import String ZArith List Bool Lia.
From Verif Require Import Base BaseFacts Board Mem Asm Tools Devices Counter Async SpecAsm SpecCounter SpecDev SpecAsync ProofCounter.
From Verif Require Import ProofAsyncUse.
Import ListNotations.
Open Scope Z_scope.

(** The counter on a board, for every schedule and every sequence of requests: each is answered (never a panic), no call is then in progress, and the requests with
    their answers are the calls of a history of the counter, in order: what C67 and C68 say of histories holds of it. *)
Theorem C77_component : forall id sched h, exists a xs tr,
  serve async_ops (async_new id sched) h = Ret (a, xs) /\ history tr (ac_world a) /\ idle (ac_world a) /\ length xs = length h /\
  map Some (calls tr) = map (fun p => appears (fst p) (snd p)) (combine h xs).
Proof. exact P_C77_component. Qed.
Print Assumptions C77_component.

Example C77_component_example : exists a, serve async_ops (async_new 7 busy) [ResetReq; Read 0; Write 0 5; ResetReq; Read 0] = Ret (a, [Done; Got 0 1; Put 12544; Done; Got 0 0]) /\
  wd_threads (ac_world a) = [Thread 1 1 TDone; Thread 2 2 (TPoll 1)].
Proof. exact E_C77_component. Qed.

(** Its answers: a write is refused as not writable, whatever the address and the word; a read or a reset raises no exception. *)
Theorem C77_answers : forall id sched h a xs k r x, serve async_ops (async_new id sched) h = Ret (a, xs) -> nth_error h k = Some r -> nth_error xs k = Some x ->
  match r with Read _ => exists v, x = Got 0 v /\ 0 <= v < 2 ^ 32 | Write _ _ => x = Put (49 * 256) | ResetReq => x = Done end.
Proof. exact P_C77_answers. Qed.
Print Assumptions C77_answers.

Example C77_answers_example : exists a xs, serve async_ops (async_new 7 busy) [ResetReq; Write 4096 9] = Ret (a, xs) /\ nth_error xs 1 = Some (Put 12544).
Proof. exact E_C77_answers. Qed.

(** Before and after any requests it has the same name, and in its metadata the same identifier, one word of memory, no category, type, model or data. *)
Theorem C77_declares : forall id sched h a xs, is_u64 id -> serve async_ops (async_new id sched) h = Ret (a, xs) ->
  bo_name async_ops a = chars "Async Counter"%string /\ bo_metadata async_ops a = Ret (W8 (id / 2 ^ 32) (id mod 2 ^ 32) 4 (2 ^ 32 - 1) 0 0 0 0).
Proof. exact P_C77_declares. Qed.
Print Assumptions C77_declares.

Example C77_declares_example : exists a xs, is_u64 (2 ^ 40 + 7) /\ serve async_ops (async_new (2 ^ 40 + 7) busy) [ResetReq; Read 0] = Ret (a, xs) /\ List.length xs = 2%nat /\ bo_metadata async_ops a = Ret (W8 256 7 4 4294967295 0 0 0 0).
Proof. exact E_C77_declares. Qed.

(** A board that holds components of two kinds: each answers any sequence of requests as it does alone, and has the same name and metadata. *)
Theorem C77_kinds : forall A B (a : bus_ops A) (b : bus_ops B) h,
  (forall d, serve (sum_ops a b) (inl d) h = match serve a d h with Ret (d', xs) => Ret (inl d', xs) | Panic => Panic end /\
     bo_name (sum_ops a b) (inl d) = bo_name a d /\ bo_metadata (sum_ops a b) (inl d) = bo_metadata a d) /\
  (forall d, serve (sum_ops a b) (inr d) h = match serve b d h with Ret (d', xs) => Ret (inr d', xs) | Panic => Panic end /\
     bo_name (sum_ops a b) (inr d) = bo_name b d /\ bo_metadata (sum_ops a b) (inr d) = bo_metadata b d).
Proof. exact P_C77_kinds. Qed.
Print Assumptions C77_kinds.

Example C77_kinds_example : exists d d', bo_write (sum_ops async_ops (dev_ops true)) (inr d) 4 9 = Ret (inr d', 0) /\ d <> d' /\ exists a, serve (sum_ops async_ops (dev_ops true)) (inl (async_new 7 busy)) [ResetReq; Read 0] = Ret (inl a, [Done; Got 0 1]).
Proof. exact E_C77_kinds. Qed.
