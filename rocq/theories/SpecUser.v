(** Specification vocabulary for what userland can observe. *)
From Coq Require Import ZArith List Bool Lia.
From Verif Require Import Base Board Mem Cpu Asm SpecMach SpecObs.
Import ListNotations.
Open Scope Z_scope.

(** The registers of the supervisor that are hidden from userland. *)
Definition hidden (r : reg) : bool := match r with R_ssp | R_et | R_era | R_ev | R_pda => true | _ => false end.

Section User.
Context {D : Type}.
Implicit Type m : cpu D.
(** Two machines that differ at most in the hidden registers (the page directory only when translation is off). *)
Definition user_alike m1 m2 : Prop :=
  c_mem m1 = c_mem m2 /\ c_cycles m1 = c_cycles m2 /\ c_halted m1 = c_halted m2 /\
  (forall r, hidden r = false -> R m1 r = R m2 r) /\ (R m1 R_mtt = 0 \/ R m1 R_pda = R m2 R_pda).
(** Two machines that both just left userland by the same exception, each for its own handler; otherwise they still differ at most in the hidden registers. *)
Definition both_entered m1 m2 : Prop :=
  c_mem m1 = c_mem m2 /\ c_cycles m1 = c_cycles m2 /\ c_halted m1 = c_halted m2 /\
  R m1 R_smt = 1 /\ R m1 R_et = R m2 R_et /\ R m1 R_pc = R m1 R_ev /\ R m2 R_pc = R m2 R_ev /\
  (forall r, hidden r = false -> r <> R_pc -> R m1 r = R m2 r).
(** Two machines with nothing different. *)
Definition same_machine m1 m2 : Prop :=
  c_mem m1 = c_mem m2 /\ c_cycles m1 = c_cycles m2 /\ c_halted m1 = c_halted m2 /\ forall r, R m1 r = R m2 r.
End User.
