(** Specification of the asynchronous counter: what may be observed, whatever the scheduler does. *)
From Coq Require Import ZArith List Bool Lia.
From Verif Require Import Base Tools Counter.
Import ListNotations.
Open Scope Z_scope.

(** Everything that can happen, from the creation of the component: the labels observed so far, NEWEST FIRST, and the state. *)
Inductive history : list label -> world -> Prop :=
| history_new : history [] world_new
| history_step tr w c l w' : history tr w -> exec w c = Some (l, w') -> history (l :: tr) w'.

(** Number of increments since the last reset returned. *)
Fixpoint ticks (tr : list label) : Z :=
  match tr with
  | [] => 0
  | LSpawn _ :: _ => 0
  | LAdd _ :: t => 1 + ticks t
  | _ :: t => ticks t
  end.
(** The thread created by the last reset that returned. *)
Fixpoint last_thread (tr : list label) : option nat :=
  match tr with
  | [] => None
  | LSpawn j :: _ => Some j
  | _ :: t => last_thread t
  end.
(** Number of times thread [j] polled the flag, finding it not set, since its creation or last increment. *)
Fixpoint polls (j : nat) (tr : list label) : Z :=
  match tr with
  | [] => 0
  | LSpawn i :: t => if Nat.eqb i j then 0 else polls j t
  | LAdd i :: t => if Nat.eqb i j then 0 else polls j t
  | LPoll i false :: t => if Nat.eqb i j then 1 + polls j t else polls j t
  | _ :: t => polls j t
  end.

(** Labels of counting threads. *)
Definition by_thread (l : label) : Prop := match l with LPoll _ _ | LAdd _ => True | _ => False end.
Definition of_thread (j : nat) (l : label) : Prop := match l with LPoll i _ => i = j | LAdd i => i = j | _ => False end.
Definition is_spawn (l : label) : Prop := match l with LSpawn _ => True | _ => False end.
Definition no_spawn (tr : list label) : Prop := Forall (fun l => ~ is_spawn l) tr.
Definition thread_labels (tr : list label) : list label := filter (fun l => match l with LPoll _ _ | LAdd _ => true | _ => false end) tr.

(** Thread [j] has been created and has not returned. *)
Definition alive (w : world) (j : nat) : Prop := exists t, nth_error (wd_threads w) j = Some t /\ th_pc t <> TDone.
(** No call is in progress. *)
Definition idle (w : world) : Prop := wd_owner w = OIdle.
Definition dropped (w : world) : Prop := wd_owner w = ODropped.
(** Number of increments in a piece of history. *)
Definition adds (tr : list label) : Z := Z.of_nat (length (filter (fun l => match l with LAdd _ => true | _ => false end) tr)).
(** Labels of calls made to the component. *)
Definition is_call (l : label) : Prop := match l with LRead _ | LWrite _ | LStop | LReset | LDrop => True | _ => False end.
Definition no_call (tr : list label) : Prop := Forall (fun l => ~ is_call l) tr.
(** Whether a choice is made by the scheduler (rather than by a caller). *)
Definition scheduler (c : choice) : Prop := match c with Continue | Run _ => True | _ => False end.
(** The choices of a schedule one after the other (oldest first) with what is observed (oldest first). *)
Fixpoint run_choices (w : world) (cs : list choice) : option (list label * world) :=
  match cs with
  | [] => Some ([], w)
  | c :: t => match exec w c with
              | Some (l, w1) => match run_choices w1 t with Some (ls, w2) => Some (l :: ls, w2) | None => None end
              | None => None
              end
  end.
