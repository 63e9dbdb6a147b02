(** Specification of warnings. *)
From Coq Require Import String ZArith List Bool.
From Verif Require Import Base Board Mem SpecMap SpecConsole.
Import ListNotations.
Open Scope string_scope.
Open Scope Z_scope.

(** No component is mapped at the address. *)
Definition nothing_at {D} (m : memory D) (a : Z) : Prop := forall mp, In mp (mm_maps m) -> ~ occupies mp a.
(** One line that says that one tried to do [what] there. *)
Definition warns_of (what : string) (a : Z) (lines : list string) : Prop :=
  exists h, lines = ["Warning: tried to " ++ what ++ " non-mapped memory at address " ++ h] /\ hex_of 8 h a.
(** One line that says that the input is longer than [n] bytes. *)
Definition warns_too_long (n : Z) (lines : list string) : Prop :=
  exists d, lines = ["Warning: input is too long for synchronous keyboard's buffer (max. " ++ d ++ " bytes)"] /\ dec_of d n.
