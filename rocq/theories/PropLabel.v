(** Properties proved in ProofLabel.v: statements only. Generated by tools/gen_props.py. *)
From Coq Require Import String Ascii ZArith List ListDec Bool Lia.
From Verif Require Import Base Mem Asm Tools LasmRules Lasm SpecAsm SpecLasm SpecShort SpecLabel BaseFacts RegFacts ProofAsm LasmFacts ProofLasm ProofShort LabelFacts.
From Verif Require Import ProofLabel.
Import ListNotations.
Open Scope string_scope.
Open Scope list_scope.
Open Scope Z_scope.

(** What a source assembles to is what its lines mean: each instruction assembles as it would alone, with every label replaced by the address where
    it is defined. *)
Theorem C79_labels : forall ls, Forall line_ok ls -> code_size ls < 2 ^ 60 -> NoDup (map fst (labels_of ls)) ->
  assemble (source ls) = meaning (labels_of ls) 0 "" (bodies ls).
Proof. exact P_C79_labels. Qed.
Print Assumptions C79_labels.

Example C79_labels_example : source (firstn 3 a_source) = ("start:" ++ newline ++ "    cpy a0, msg ; take it" ++ newline ++ "    jp .end")%string /\ Forall line_ok a_source /\ code_size a_source < 2 ^ 60 /\ NoDup (map fst (labels_of a_source)) /\
  meaning (labels_of a_source) 0 "" (bodies a_source) = Some [12; 0; 0; 12; 12; 22; 0; 8; 216; 0; 20; 0; 72; 105; 33; 34; 63; 0; 0; 0; 12; 22; 0; 20; 18; 52; 86; 120].
Proof. exact E_C79_labels. Qed.

(** A label defined twice is an error. *)
Theorem C79_duplicate : forall ls, Forall line_ok ls -> ~ NoDup (map fst (labels_of ls)) -> assemble (source ls) = None.
Proof. exact P_C79_duplicate. Qed.
Print Assumptions C79_duplicate.

Example C79_duplicate_example : let ls := a_source ++ [Line 0 (BLocal "end") None] in Forall line_ok ls /\ ~ NoDup (map fst (labels_of ls)).
Proof. exact E_C79_duplicate. Qed.

(** The code has the size of its lines. *)
Theorem C79_size : forall ls code, Forall line_ok ls -> code_size ls < 2 ^ 60 -> assemble (source ls) = Some code -> zlen code = code_size ls.
Proof. exact P_C79_size. Qed.
Print Assumptions C79_size.

Example C79_size_example : assemble (source a_source) = Some [12; 0; 0; 12; 12; 22; 0; 8; 216; 0; 20; 0; 72; 105; 33; 34; 63; 0; 0; 0; 12; 22; 0; 20; 18; 52; 86; 120] /\ code_size a_source = 28.
Proof. exact E_C79_size. Qed.

(** The address of a label is where the code of the next line starts, the next multiple of four after the code before it, which is followed by
    zeros up to there. *)
Theorem C79_address : forall l1 l l2 code k, Forall line_ok (l1 ++ l :: l2) -> code_size (l1 ++ l :: l2) < 2 ^ 60 ->
  assemble (source (l1 ++ l :: l2)) = Some code -> body_key (scope_after l1) (l_body l) = Some k ->
  exists c1 n c2, code = c1 ++ repeat 0 n ++ c2 /\ zlen c1 = code_size l1 /\ (n < 4)%nat /\ address (labels_of (l1 ++ l :: l2)) k = Some (zlen c1 + Z.of_nat n) /\ (zlen c1 + Z.of_nat n) mod 4 = 0.
Proof. exact P_C79_address. Qed.
Print Assumptions C79_address.

Example C79_address_example : a_source = firstn 9 a_source ++ Line 0 (BLabel "go") (Some ": here") :: skipn 10 a_source /\ code_size (firstn 9 a_source) = 17 /\ address (labels_of a_source) ("go", "") = Some 20.
Proof. exact E_C79_address. Qed.

(** In a source that assembles, every label named in an instruction is defined and its address is below 65536. *)
Theorem C79_reach : forall l1 l l2 code m args x k, Forall line_ok (l1 ++ l :: l2) -> code_size (l1 ++ l :: l2) < 2 ^ 60 ->
  assemble (source (l1 ++ l :: l2)) = Some code -> l_body l = BInstr m args -> In x args -> arg_key (scope_after l1) x = Some k ->
  exists a, address (labels_of (l1 ++ l :: l2)) k = Some a /\ 0 <= a < 65536.
Proof. exact P_C79_reach. Qed.
Print Assumptions C79_reach.

Example C79_reach_example : a_source = firstn 2 a_source ++ Line 4 (BInstr "jp" [ALocal "end"]) None :: skipn 3 a_source /\ arg_key (scope_after (firstn 2 a_source)) (ALocal "end") = Some ("start", "end") /\ address (labels_of a_source) ("start", "end") = Some 8.
Proof. exact E_C79_reach. Qed.

(** In a source that assembles, [jp], [call] and [cpy] to a label run as the instruction with its address. *)
Theorem C79_jump : forall l1 l l2 code m args x i k, Forall line_ok (l1 ++ l :: l2) -> code_size (l1 ++ l :: l2) < 2 ^ 60 ->
  assemble (source (l1 ++ l :: l2)) = Some code -> l_body l = BInstr m args -> takes x m args i -> arg_key (scope_after l1) x = Some k ->
  exists a c1 bs c2, address (labels_of (l1 ++ l :: l2)) k = Some a /\ code = c1 ++ list_of_bytes bs ++ c2 /\ zlen c1 = code_size l1 /\ runs_as bs (i a).
Proof. exact P_C79_jump. Qed.
Print Assumptions C79_jump.

Example C79_jump_example : a_source = firstn 1 a_source ++ Line 4 (BInstr "cpy" [AName "a0"; AGlobal "msg"]) (Some "take it") :: skipn 2 a_source /\ takes (AGlobal "msg") "cpy" [AName (reg_name R_a0); AGlobal "msg"] (fun a => Cpy R_a0 (Lit2 a)) /\ address (labels_of a_source) ("msg", "") = Some 12.
Proof. exact E_C79_jump. Qed.

(** A local label before any global one is an error. *)
Theorem C79_orphan : forall l1 l l2 n, Forall line_ok (l1 ++ l :: l2) -> code_size (l1 ++ l :: l2) < 2 ^ 60 -> l_body l = BLocal n -> scope_after l1 = "" -> assemble (source (l1 ++ l :: l2)) = None.
Proof. exact P_C79_orphan. Qed.
Print Assumptions C79_orphan.

Example C79_orphan_example : Forall line_ok [Line 0 (BInstr "halt" []) None; Line 0 (BLocal "end") None] /\ code_size [Line 0 (BInstr "halt" []) None; Line 0 (BLocal "end") None] < 2 ^ 60 /\ scope_after [Line 0 (BInstr "halt" []) None] = "".
Proof. exact E_C79_orphan. Qed.
