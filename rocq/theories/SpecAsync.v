(** Specification vocabulary: the asynchronous counter as a component that answers requests. *)
From Coq Require Import ZArith List Bool Lia.
From Verif Require Import Base Board Tools Counter SpecCounter SpecDev.
Import ListNotations.
Open Scope Z_scope.

(** How a request and its answer appear in a history of the counter: the value read without exception, the exception of a write, a reset. *)
Definition appears (r : request) (x : answer) : option label :=
  match r, x with
  | Read _, Got ex v => if ex =? 0 then Some (LRead v) else None
  | Write _ _, Put ex => Some (LWrite ex)
  | ResetReq, Done => Some LReset
  | _, _ => None
  end.
(** The calls of a history (given newest first), oldest first. *)
Definition calls (tr : list label) : list label :=
  rev (filter (fun l => match l with LRead _ | LWrite _ | LStop | LReset | LDrop => true | _ => false end) tr).
