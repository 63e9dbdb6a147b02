(** Properties proved in ProofCrate.v: statements only. Generated by tools/gen_props.py. *)
From Coq Require Import ZArith List Bool Lia.
From Verif Require Import Base Board Mem Cpu Asm Tools Devices SpecMach SpecAsm SpecDev BaseFacts MemFacts DevTyped ReachFacts ProofAsm ProofTools Demo ProofPanic ProofBoard ProofHist ProofDev ProofIo.
From Verif Require Import ProofCrate.
Import ListNotations.
Open Scope Z_scope.

(** Any board of the crate's components can be built in a release build... *)
Theorem C02_crate_board : forall ds, Forall crate_component ds -> zlen ds < 2 ^ 32 -> exists m, board_new (dev_ops false) ds = Ret m.
Proof. exact P_C02_crate_board. Qed.
Print Assumptions C02_crate_board.

Example C02_crate_board_example : exists rom ram, br_new [1; 2; 3] 1 = Some rom /\ sm_new 256 2 = Some ram /\ Forall crate_component [DRom rom; DRam ram] /\ zlen [DRom rom; DRam ram] < 2 ^ 32.
Proof. exact E_C02_crate_board. Qed.
