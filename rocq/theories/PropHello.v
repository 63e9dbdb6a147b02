(** Properties proved in ProofHello.v: statements only. Generated by tools/gen_props.py. *)
From Coq Require Import String ZArith List Bool Lia.
From Verif Require Import Base BaseFacts Board Mem Cpu Asm Tools Devices Runner LasmRules Lasm Sources Examples SpecMach SpecIsa SpecBus SpecObs SpecMap SpecDev SpecRun SpecPanic.
From Verif Require Import Counter RegFacts MemFacts MapFacts CycleFacts CyclePost ReachFacts InvFacts DevTyped ProofMap ProofBoard ProofReg ProofRun ProofCrash ProofRom SymFacts.
From Verif Require Import ProofHello.
Import ListNotations.
Open Scope list_scope.
Open Scope Z_scope.

(** The code of the hello_world example (its first 13 words), followed by any message of at most 63 non-zero words, a zero and
    anything else: the program halts without exception after 9 + 7 cycles per word, and the display's handler was called exactly once,
    with the bytes of the message followed by zeros. *)
Theorem C74_hello_any : forall words oc msg rest id0 id1 id2 fuel, assemble_words hello_source = Some words ->
  Forall is_u32 msg -> Forall is_u32 rest -> Forall (fun w => w <> 0) msg -> zlen msg <= 63 -> zlen msg + zlen rest <= 1010 ->
  9 + 7 * zlen msg < Z.of_nat fuel ->
  exists m, hello_run oc fuel (firstn 13 words ++ msg ++ 0 :: rest) id0 id1 id2 = Ret (Some m) /\ c_halted m = true /\ c_cycles m = 9 + 7 * zlen msg /\
    hello_shown m = Some [(false, words_to_bytes (msg ++ zeros (63 - zlen msg)))].
Proof. exact P_C74_hello_any. Qed.
Print Assumptions C74_hello_any.

Example C74_hello_any_example : exists m words, assemble_words hello_source = Some words /\
  hello_run true 100 (firstn 13 words ++ [4294967295; 2; 3] ++ [0]) 7 8 9 = Ret (Some m) /\ c_cycles m = 30.
Proof. exact E_C74_hello_any. Qed.

(** The hello_world example, in release and debug builds, whatever the random identifiers: it halts without exception after 37 cycles,
    and the display's handler was called exactly once, with "Hello, world!", a line feed and 238 zero bytes. *)
Theorem C74_hello : forall oc id0 id1 id2 fuel, 37 < Z.of_nat fuel ->
  exists m, hello_main oc fuel id0 id1 id2 = Ret (Some m) /\ c_halted m = true /\ c_cycles m = 37 /\
    hello_shown m = Some [(false, chars "Hello, world!" ++ [10] ++ zeros 238)].
Proof. exact P_C74_hello. Qed.
Print Assumptions C74_hello.

Example C74_hello_example : 37 < Z.of_nat 38 /\ exists m, hello_main false 38 7 8 9 = Ret (Some m) /\ c_cycles m = 37.
Proof. exact E_C74_hello. Qed.
