(** Specification vocabulary for the example programs. *)
From Coq Require Import ZArith List Bool Lia.
From Verif Require Import Base Board Mem Cpu Asm Tools Devices Runner Counter Examples SpecMach SpecIsa SpecBus SpecObs SpecDev SpecRun.
Import ListNotations.
Open Scope Z_scope.

(** What the hw_detect example must display for component number [k], which is [d], of a board whose components have sizes [szs]: its
    identifier, name (cut to 32 bytes, padded with zeros), size, category, model and data, and the addresses where it starts and ends. *)
Definition seen_as {D} (ops : bus_ops D) (szs : list Z) (k : nat) (d : D) (c : component) : Prop :=
  exists md name sz, bo_metadata ops d = Ret md /\ longest_prefix32 (bo_name ops d) name /\ nth_error szs k = Some sz /\
    let start := sum (firstn k szs) in
    cp_uid c = w0 md * 2 ^ 32 + w1 md /\
    cp_name c = utf8 name ++ repeat 0 (32 - length (utf8 name)) /\
    cp_size c = sz /\
    cp_category c = match category_decode (w3 md * 2 ^ 32 + w4 md) with Some x => inl x | None => inr (w3 md * 2 ^ 32 + w4 md) end /\
    cp_model c = w5 md /\
    cp_data c = w6 md * 2 ^ 32 + w7 md /\
    cp_mapping c = Some (start, start + sz - 1).

(** The values of [l] greater than [best] and than all the ones before them: what a program showing only new maxima shows. *)
Fixpoint records (best : Z) (l : list Z) : list Z :=
  match l with
  | [] => []
  | x :: t => if best <? x then x :: records x t else records best t
  end.
(** Whole seconds between two instants in nanoseconds (0 if the second is before the first), as a 32-bit word. *)
Definition seconds_between (a b : Z) : Z := Z.max 0 (b - a) / 10 ^ 9 mod 2 ^ 32.
(** The values of [l] that differ from the one just before ([prev] for the first). *)
Fixpoint changes (prev : Z) (l : list Z) : list Z :=
  match l with
  | [] => []
  | x :: t => if x =? prev then changes prev t else x :: changes x t
  end.

(** ** The async_hw example *)
(** Steps given to counting thread 0 by a piece of schedule. *)
Definition runs (cs : list choice) : Z := Z.of_nat (length (filter (fun c => match c with Run 0 => true | _ => false end) cs)).
(** What is left of a piece of schedule once the caller has made [n] steps. *)
Fixpoint after_continues (n : nat) (cs : list choice) {struct cs} : list choice :=
  match n, cs with
  | O, _ => cs
  | S _, [] => []
  | S n, Continue :: t => after_continues n t
  | S _, _ :: t => after_continues n t
  end.
(** Steps the counting thread has made when the word is read for the [i]-th time (from 0): the reset at the start of the machine creates the
    thread with the third step of the caller, and then piece of schedule [k] passes before the [k]-th reading. *)
Fixpoint turns (sched : nat -> list choice) (i : nat) : Z :=
  match i with
  | O => runs (after_continues 3 (sched O)) + runs (sched 1%nat)
  | S i => turns sched i + runs (sched (S (S i)))
  end.
(** Seconds counted: one for each 100 steps of the thread (99 polls after 10 milliseconds each, and the increment). *)
Definition increments (sched : nat -> list choice) (i : nat) : Z := turns sched i / 100.
