(** Specification of C94: boards with the same components at the same addresses. *)
From Coq Require Import ZArith List Bool Lia Permutation.
From Verif Require Import Base Board Mem Cpu Asm SpecMach SpecObs SpecMap.
Import ListNotations.
Open Scope Z_scope.

(** The same processor: registers, cycle counter, halted or not. *)
Definition same_cpu {D} (m1 m2 : cpu D) : Prop :=
  (forall r, R m1 r = R m2 r) /\ c_cycles m1 = c_cycles m2 /\ c_halted m1 = c_halted m2.

(** The same components, mapped in another order. *)
Definition reordered {D} (b1 b2 : memory D) : Prop := mm_hwb b1 = mm_hwb b2 /\ Permutation (mm_maps b1) (mm_maps b2).

(** The components of two boards seen through a correspondence of their numbers: [P i j] when component [i] of the first board is component [j] of the
    second. It is one to one, corresponding components are in the same state, and they are mapped at the same addresses. The boards may
    have other components, that are not mapped. *)
Definition wired {D} (P : Z -> Z -> Prop) (b1 b2 : memory D) : Prop :=
  (forall i j i' j', P i j -> P i' j' -> (i = i' <-> j = j')) /\
  (forall i j, P i j -> exists e1 e2, znth (mm_hwb b1) i = Some e1 /\ znth (mm_hwb b2) j = Some e2 /\ ae_dev e1 = ae_dev e2) /\
  (forall mp1, In mp1 (mm_maps b1) -> exists mp2, In mp2 (mm_maps b2) /\ mp_addr mp2 = mp_addr mp1 /\ mp_size mp2 = mp_size mp1 /\ P (mp_aux_id mp1) (mp_aux_id mp2)) /\
  (forall mp2, In mp2 (mm_maps b2) -> exists mp1, In mp1 (mm_maps b1) /\ mp_addr mp1 = mp_addr mp2 /\ mp_size mp1 = mp_size mp2 /\ P (mp_aux_id mp1) (mp_aux_id mp2)).

(** The word that the next cycle fetches, if any, is no HWD and no RESET (operations 0x1C and 0x1F, in the five upper bits): these two name components by their numbers. *)
Definition nameless {D} (ops : bus_ops D) (m : cpu D) : Prop :=
  forall w mem1, loads ops m (c_mem m) (R m R_pc) w mem1 -> w / 2 ^ 27 <> 28 /\ w / 2 ^ 27 <> 31.
(** That holds before each of the [n] first cycles. *)
Definition nameless_run {D} (ops : bus_ops D) (n : nat) (m : cpu D) : Prop :=
  forall k mk, (k < n)%nat -> run ops false k m = Ret mk -> c_halted mk = false -> nameless ops mk.

(** Map components one after the other; [None] at the first refusal. *)
Fixpoint map_all {D} (oc : bool) (l : list (Z * Z)) (b : memory D) : outcome (option (memory D)) :=
  match l with
  | [] => Ret (Some b)
  | (a, id) :: t =>
      match mem_map oc b a id with
      | Ret (b', ROk _) => map_all oc t b'
      | Ret (_, RErr _) => Ret None
      | Panic => Panic
      end
  end.
