(** Specification of observational equivalence: components that answer alike cannot be told apart by the machine. *)
From Coq Require Import ZArith List Bool Lia.
From Verif Require Import Base Board Mem Cpu SpecMach.
Import ListNotations.
Open Scope Z_scope.

(** Both computations crash, or both return and the results are related. *)
Definition both {A B} (P : A -> B -> Prop) (x : outcome A) (y : outcome B) : Prop :=
  match x, y with Ret a, Ret b => P a b | Panic, Panic => True | _, _ => False end.

(** Two implementations of components, of states related by [Rel], answer every request alike and stay related. *)
Record answer_alike {D1 D2} (o1 : bus_ops D1) (o2 : bus_ops D2) (Rel : D1 -> D2 -> Prop) : Prop := AnswerAlike {
  aa_name : forall d1 d2, Rel d1 d2 -> bo_name o1 d1 = bo_name o2 d2;
  aa_meta : forall d1 d2, Rel d1 d2 -> bo_metadata o1 d1 = bo_metadata o2 d2;
  aa_read : forall d1 d2 a, Rel d1 d2 ->
    both (fun x y => Rel (fst (fst x)) (fst (fst y)) /\ snd (fst x) = snd (fst y) /\ snd x = snd y) (bo_read o1 d1 a) (bo_read o2 d2 a);
  aa_write : forall d1 d2 a w, Rel d1 d2 ->
    both (fun x y => Rel (fst x) (fst y) /\ snd x = snd y) (bo_write o1 d1 a w) (bo_write o2 d2 a w);
  aa_reset : forall d1 d2, Rel d1 d2 -> both Rel (bo_reset o1 d1) (bo_reset o2 d2) }.

(** Two machines with the same registers, cycle counter, halted state, mappings and cached component descriptions. *)
Definition look_alike {D1 D2} (Rel : D1 -> D2 -> Prop) (m1 : cpu D1) (m2 : cpu D2) : Prop :=
  (forall r, R m1 r = R m2 r) /\ c_cycles m1 = c_cycles m2 /\ c_halted m1 = c_halted m2 /\
  mm_maps (c_mem m1) = mm_maps (c_mem m2) /\ map ae_cache (c_hwb m1) = map ae_cache (c_hwb m2) /\
  Forall2 Rel (map ae_dev (c_hwb m1)) (map ae_dev (c_hwb m2)).
