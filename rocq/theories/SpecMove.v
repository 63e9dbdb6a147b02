(** Specification vocabulary for moved code: machines that differ only in where they are. *)
From Coq Require Import ZArith List Bool Lia.
From Verif Require Import Base Board Mem Cpu Asm SpecMach SpecObs SpecTools SpecUser.
Import ListNotations.
Open Scope Z_scope.

(** The instruction takes the value of pc: as an operand, or (CALL) to push the address of return. *)
Definition is_pc (r : reg) : bool := match r with R_pc => true | _ => false end.
Definition uses_pc (i : instr) : bool :=
  match i with
  | Call _ => true
  | Lsm v => existsb is_pc (regs2 v)
  | Srm v w r => existsb is_pc (regs1 v ++ regs1 w ++ [r])
  | _ => existsb is_pc (reads i)
  end.
Section Move.
Context {D : Type}.
Implicit Type m : cpu D.
(** [m2] is [m1], [k] bytes further. *)
Definition moved (k : Z) m1 m2 : Prop :=
  c_mem m2 = c_mem m1 /\ c_cycles m2 = c_cycles m1 /\ c_halted m2 = c_halted m1 /\
  (forall r, r <> R_pc -> R m2 r = R m1 r) /\ R m2 R_pc = (R m1 R_pc + k) mod 2 ^ 32.
(** Both machines fetch the same instruction, with the same effect on the components, and it does not take the value of pc; or both are halted. *)
Definition same_code (ops : bus_ops D) m1 m2 : Prop :=
  c_halted m1 = true /\ c_halted m2 = true \/ exists i mem, fetches ops m1 i mem /\ fetches ops m2 i mem /\ uses_pc i = false.
End Move.
