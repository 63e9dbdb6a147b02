(** Properties proved in ProofBf.v: statements only. Generated by tools/gen_props.py. *)
From Coq Require Import String ZArith List Bool Lia.
From Verif Require Import Base BaseFacts Board Mem Cpu Asm Tools Devices Runner LasmRules Lasm Sources Examples SpecMach SpecIsa SpecBus SpecObs SpecMap SpecDev SpecRun SpecPanic SpecBf.
From Verif Require Import Counter RegFacts MemFacts MapFacts CycleFacts CyclePost ReachFacts InvFacts DevTyped ProofMap ProofBoard ProofReg ProofRun ProofCrash ProofRom ProofDev ProofIo SymFacts BfFacts BfRun.
From Verif Require Import ProofBf.
Import ListNotations.
Open Scope list_scope.
Open Scope Z_scope.

(** The brainfuck example, in release and debug builds, for any line typed (the keyboard keeps its first 4092 bytes) and any keys typed later:
    the program follows the interpreter of SpecBf.v. When the interpreter finishes, the virtual machine halts without exception; the buffered
    display was given the three messages, the character display the values shown by the program, and the number display nothing. *)
Theorem C78_finishes : forall oc lines keys id0 id1 id2 id3 id4 id5 id6 id7 n s, Forall is_u8 (lines O) -> (forall k, is_u32 (keys k)) ->
  bf_steps (firstn 4092 (lines O)) keys n bf_init s -> bf_step (firstn 4092 (lines O)) keys s = Finishes ->
  exists needed, forall fuel, (needed <= fuel)%nat -> exists m cycles a,
    brainfuck_main oc fuel lines keys id0 id1 id2 id3 id4 id5 id6 id7 = Ret (Some (m, Stopped cycles a None)) /\ c_halted m = true /\
    displays m [t_welcome; t_running; t_goodbye] (b_out s) [].
Proof. exact P_C78_finishes. Qed.
Print Assumptions C78_finishes.

(** The line "+." and a new line: the interpreter shows 1, then finishes. *)
Example C78_finishes_example : exists s, Forall is_u8 (chars "+." ++ [10]) /\ bf_steps (firstn 4092 (chars "+." ++ [10])) (fun _ => 0) 2 bf_init s /\
  bf_step (firstn 4092 (chars "+." ++ [10])) (fun _ => 0) s = Finishes /\ b_out s = [1].
Proof. exact E_C78_finishes. Qed.

(** When the interpreter fails, the virtual machine halts without exception; the displays were given what the program had shown, and the report
    of the error. *)
Theorem C78_fails : forall oc lines keys id0 id1 id2 id3 id4 id5 id6 id7 n s position e, Forall is_u8 (lines O) -> (forall k, is_u32 (keys k)) ->
  bf_steps (firstn 4092 (lines O)) keys n bf_init s -> bf_step (firstn 4092 (lines O)) keys s = Fails position e ->
  exists needed, forall fuel, (needed <= fuel)%nat -> exists m cycles a,
    brainfuck_main oc fuel lines keys id0 id1 id2 id3 id4 id5 id6 id7 = Ret (Some (m, Stopped cycles a None)) /\ c_halted m = true /\
    displays m ([t_welcome; t_running; t_error; t_indent] ++ error_texts e ++ [t_exiting]) (b_out s ++ error_chars e) (error_numbers position e).
Proof. exact P_C78_fails. Qed.
Print Assumptions C78_fails.

(** The line "+.x": the interpreter shows 1, then fails at its third character. *)
Example C78_fails_example : exists s, Forall is_u8 (chars "+.x") /\ bf_steps (firstn 4092 (chars "+.x")) (fun _ => 0) 2 bf_init s /\
  bf_step (firstn 4092 (chars "+.x")) (fun _ => 0) s = Fails 2 (UnknownSymbol 120) /\ b_out s = [1].
Proof. exact E_C78_fails. Qed.

(** When the interpreter goes on for ever, so does the virtual machine. *)
Theorem C78_forever : forall oc lines keys id0 id1 id2 id3 id4 id5 id6 id7 fuel, Forall is_u8 (lines O) -> (forall k, is_u32 (keys k)) ->
  (forall n, exists s, bf_steps (firstn 4092 (lines O)) keys n bf_init s) ->
  brainfuck_main oc fuel lines keys id0 id1 id2 id3 id4 id5 id6 id7 = Ret None.
Proof. exact P_C78_forever. Qed.
Print Assumptions C78_forever.

(** The line "+[]": the interpreter goes on for ever. *)
Example C78_forever_example : Forall is_u8 (chars "+[]") /\ forall n, exists s, bf_steps (firstn 4092 (chars "+[]")) (fun _ => 0) n bf_init s.
Proof. exact E_C78_forever. Qed.

(** A program whose moves are written four times, of at most 4092 bytes, with at most 1021 nested loops, which reaches no loop but an empty one
    while the current cell is zero, and which ends under the usual rules: the example runs it as these rules say, and says goodbye. *)
Theorem C78_runs : forall oc lines keys id0 id1 id2 id3 id4 id5 id6 id7 prog rest r, Forall is_u8 (lines O) -> (forall k, is_u32 (keys k)) ->
  lines O = text prog ++ rest -> rest = [] \/ In (hd 0 rest) [0; 13; 10] -> zlen (text prog) <= 4092 -> depth prog <= 1021 ->
  entered keys prog bf_zero r ->
  usual keys prog bf_zero r /\
  exists needed, forall fuel, (needed <= fuel)%nat -> exists m cycles a,
    brainfuck_main oc fuel lines keys id0 id1 id2 id3 id4 id5 id6 id7 = Ret (Some (m, Stopped cycles a None)) /\ c_halted m = true /\
    displays m [t_welcome; t_running; t_goodbye] (m_out r) [].
Proof. exact P_C78_runs. Qed.
Print Assumptions C78_runs.

(** The program ",[.-]>+." with the key 2: it shows 2, 1 and 1. *)
Example C78_runs_example : let prog := [Comma; Loop [Dot; Minus]; Right; Plus; Dot] in exists r, text prog = chars ",[.-]>>>>+." /\
  Forall is_u8 (text prog) /\ zlen (text prog) <= 4092 /\ depth prog <= 1021 /\ entered (fun _ => 2) prog bf_zero r /\ m_out r = [2; 1; 1].
Proof. exact E_C78_runs. Qed.

(** Under the usual rules, a loop reached while the current cell is zero is skipped: not by the example. The program "[+]." shows 0 under the usual
    rules; the example reports that a loop was not closed. *)
Theorem C78_loops_refuted : ~ (forall oc lines keys id0 id1 id2 id3 id4 id5 id6 id7 prog r, Forall is_u8 (lines O) -> (forall k, is_u32 (keys k)) ->
  lines O = text prog -> zlen (text prog) <= 4092 -> depth prog <= 1021 -> usual keys prog bf_zero r ->
  exists needed, forall fuel, (needed <= fuel)%nat -> exists m cycles a,
    brainfuck_main oc fuel lines keys id0 id1 id2 id3 id4 id5 id6 id7 = Ret (Some (m, Stopped cycles a None)) /\
    displays m [t_welcome; t_running; t_goodbye] (m_out r) []).
Proof. exact P_C78_loops_refuted. Qed.
Print Assumptions C78_loops_refuted.

(** Under the usual rules, the moves go from a cell to the next: not in the example, where they move by one byte. With the program ">+", written as
    usual, the virtual machine stops with an exception. *)
Theorem C78_moves_refuted : ~ (forall oc lines keys id0 id1 id2 id3 id4 id5 id6 id7 prog r, Forall is_u8 (lines O) -> (forall k, is_u32 (keys k)) ->
  lines O = usual_text prog -> zlen (usual_text prog) <= 4092 -> depth prog <= 1021 -> entered keys prog bf_zero r ->
  exists needed, forall fuel, (needed <= fuel)%nat -> exists m cycles a,
    brainfuck_main oc fuel lines keys id0 id1 id2 id3 id4 id5 id6 id7 = Ret (Some (m, Stopped cycles a None)) /\
    displays m [t_welcome; t_running; t_goodbye] (m_out r) []).
Proof. exact P_C78_moves_refuted. Qed.
Print Assumptions C78_moves_refuted.
