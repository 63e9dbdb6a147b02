(** Properties proved in ProofExtText.v: statements only. Generated by tools/gen_props.py. *)
From Coq Require Import String.
From Coq Require Import ZArith List Bool Lia.
From Verif Require Import Base Board Mem Cpu Asm Tools Lasm SpecMach SpecIsa SpecBus SpecObs SpecAsm SpecExt SpecLasm SpecExtText
  BaseFacts RegFacts InvFacts ReachFacts ExecFacts LasmFacts Demo DevTyped Devices ProofAlu ProofReg ProofMem ProofAsm ProofTools ProofExt ProofLasm SpecConsole ConsoleFacts.
From Verif Require Import ProofExtText.
Import ListNotations.
Open Scope list_scope.
Open Scope Z_scope.

(** Every extended instruction prints a text, in any build, that the assembler accepts and turns into as many instructions. *)
Theorem C92_text : forall oc e, ext_wf e -> exists code, written oc e code /\ zlen code = 4 * ext_count e.
Proof. exact P_C92_text. Qed.
Print Assumptions C92_text.

Example C92_text_example : exists t, ext_wf (ReadAddrTo R_a3 131080) /\ ext_to_lasm true (ReadAddrTo R_a3 131080) = Ret t /\
  t = String.concat newline ["cpy avr, 0x2"; "shl avr, 0x10"; "add avr, 0x8"; "lea avr, 0x0, 0x0"; "cpy a3, avr"]%string.
Proof. exact E_C92_text. Qed.

(** The text of SetReg(r, v), assembled and run, sets the register and nothing else but pc and af. *)
Theorem C92_set_reg : forall D (ops : bus_ops D) oc oc' m r v code m', typed ops -> wf m -> is_u32 v -> can_write (sup_mode m) r = true -> r <> R_pc -> r <> R_smt ->
  written oc' (SetReg r v) code -> runs_words ops oc m (words_of code) m' -> prepared ops oc m (words_of code) [(r, v)] m'.
Proof. exact P_C92_set_reg. Qed.
Print Assumptions C92_set_reg.

Example C92_set_reg_example : exists code, written true (SetReg R_ev 65535) code /\ demo_words (words_of code) 0 (words_of code) (fun m m' =>
  can_write (sup_mode m) R_ev = true /\ R m' R_ev = 65535 /\ R m' R_pc = 12).
Proof. exact E_C92_set_reg. Qed.

(** So does the text of the others: unlike its encoding, the text of ReadAddrTo loads into the register given, *)
Theorem C92_read_addr_to : forall D (ops : bus_ops D) oc oc' m r a code m', typed ops -> wf m -> is_u32 a -> can_write (sup_mode m) r = true -> r <> R_pc ->
  written oc' (ReadAddrTo r a) code -> runs_words ops oc m (words_of code) m' -> loads_to ops oc m (words_of code) a R_avr r m'.
Proof. exact P_C92_read_addr_to. Qed.
Print Assumptions C92_read_addr_to.

(** The word at address 8 is the third instruction. *)
Example C92_read_addr_to_example : exists code, written true (ReadAddrTo R_a3 8) code /\ demo_words (words_of code) 0 (words_of code) (fun m m' =>
  can_write (sup_mode m) R_a3 = true /\ R m R_a3 = 0 /\ R m' R_a3 = encode_word (Add R_avr (Lit2 8)) /\ R m' R_pc = 20).
Proof. exact E_C92_read_addr_to. Qed.

(** the text of WriteAddr stores the register given (or the address itself, if this register is rr0), *)
Theorem C92_write_addr : forall D (ops : bus_ops D) oc oc' m r a code m', typed ops -> wf m -> is_u32 a -> can_read (sup_mode m) r = true -> r <> R_pc -> r <> R_af ->
  written oc' (WriteAddr a r) code -> runs_words ops oc m (words_of code) m' -> stores_from ops oc m (words_of code) a r m'.
Proof. exact P_C92_write_addr. Qed.
Print Assumptions C92_write_addr.

Example C92_write_addr_example : exists code, written true (WriteAddr 260 R_a3) code /\ demo_words (asm [Cpy R_a3 (Lit2 77)] ++ words_of code) 1 (words_of code) (fun m m' =>
  can_read (sup_mode m) R_a3 = true /\ R m R_a3 = 77 /\ R m R_a0 = 0 /\ mem_read (dev_ops false) false (c_mem m') 260 = Ret (c_mem m', 0, 77) /\ R m' R_pc = 24).
Proof. exact E_C92_write_addr. Qed.

(** and those of ReadAddr and WriteAddrLit load into avr and store the constant. *)
Theorem C92_read_addr : forall D (ops : bus_ops D) oc oc' m a code m', typed ops -> wf m -> is_u32 a ->
  written oc' (ReadAddr a) code -> runs_words ops oc m (words_of code) m' ->
  exists m3 mem1, prepared ops oc m (firstn 3 (words_of code)) [(R_avr, a)] m3 /\ executes ops oc m3 (Lea (Reg1 R_avr) (Lit1 0) (Lit1 0)) mem1 m' /\
    ((exists w, loads ops m mem1 a w (c_mem m') /\ straight m m' 4 [(R_avr, w)]) \/
     (exists mem2 code data, load_faults ops m mem1 a mem2 code data /\ raised m3 m' mem2 code data)).
Proof. exact P_C92_read_addr. Qed.
Print Assumptions C92_read_addr.

Example C92_read_addr_example : exists code, written true (ReadAddr 8) code /\ demo_words (words_of code) 0 (words_of code) (fun m m' =>
  R m' R_avr = encode_word (Add R_avr (Lit2 8)) /\ R m' R_pc = 16).
Proof. exact E_C92_read_addr. Qed.

(** WriteAddrLit written as text and assembled: the value is stored at the address, or the store's exception is raised, after rr0 and avr were set. *)
Theorem C92_write_addr_lit : forall D (ops : bus_ops D) oc oc' m a v code m', typed ops -> wf m -> is_u32 a -> is_u32 v ->
  written oc' (WriteAddrLit a v) code -> runs_words ops oc m (words_of code) m' ->
  exists m6 mem1, prepared ops oc m (firstn 6 (words_of code)) [(R_rr0, a); (R_avr, v)] m6 /\ executes ops oc m6 (Wea (Reg1 R_rr0) (Lit1 0) (Lit1 0)) mem1 m' /\
    ((stores ops m mem1 a v (c_mem m') /\ straight m m' 7 [(R_rr0, a); (R_avr, v)]) \/
     (exists mem2 code data, store_faults ops m mem1 a v mem2 code data /\ raised m6 m' mem2 code data)).
Proof. exact P_C92_write_addr_lit. Qed.
Print Assumptions C92_write_addr_lit.

Example C92_write_addr_lit_example : exists code, written true (WriteAddrLit 260 3735928559) code /\ demo_words (words_of code) 0 (words_of code) (fun m m' =>
  mem_read (dev_ops false) false (c_mem m') 260 = Ret (c_mem m', 0, 3735928559) /\ R m' R_pc = 28).
Proof. exact E_C92_write_addr_lit. Qed.

(** The encoding of ReadAddrTo loads the word in avr but copies a0 to the register, and that of WriteAddr stores a0, whatever the register given. *)
Theorem C92_encoded_read_addr_to : forall D (ops : bus_ops D) oc m r a m', typed ops -> wf m -> is_u32 a -> can_write (sup_mode m) r = true -> r <> R_pc ->
  runs_words ops oc m (ext_encode_words (ReadAddrTo r a)) m' -> loads_to ops oc m (ext_encode_words (ReadAddrTo r a)) a R_a0 r m'.
Proof. exact P_C92_encoded_read_addr_to. Qed.
Print Assumptions C92_encoded_read_addr_to.

Example C92_encoded_read_addr_to_example : demo_words (asm [Cpy R_a0 (Lit2 77)] ++ ext_encode_words (ReadAddrTo R_a1 8)) 1 (ext_encode_words (ReadAddrTo R_a1 8)) (fun m m' =>
  R m R_a0 = 77 /\ R m' R_a1 = 77 /\ R m' R_avr = encode_word (Shl R_avr (Lit1 16))).
Proof. exact E_C92_encoded_read_addr_to. Qed.

(** WriteAddr encoded directly, not through its text, stores register a0 whatever register was asked for. *)
Theorem C92_encoded_write_addr : forall D (ops : bus_ops D) oc m r a m', typed ops -> wf m -> is_u32 a ->
  runs_words ops oc m (ext_encode_words (WriteAddr a r)) m' -> stores_from ops oc m (ext_encode_words (WriteAddr a r)) a R_a0 m'.
Proof. exact P_C92_encoded_write_addr. Qed.
Print Assumptions C92_encoded_write_addr.

Example C92_encoded_write_addr_example : demo_words (asm [Cpy R_a0 (Lit2 77); Cpy R_a1 (Lit2 5)] ++ ext_encode_words (WriteAddr 260 R_a1)) 2 (ext_encode_words (WriteAddr 260 R_a1)) (fun m m' =>
  R m R_a1 = 5 /\ mem_read (dev_ops false) false (c_mem m') 260 = Ret (c_mem m', 0, 77)).
Proof. exact E_C92_encoded_write_addr. Qed.

(** The annotated listing of a program is its plain listing, each line after the address of its word, in hexadecimal on eight digits (a program of
    less than 2^29 words, so that the addresses are positive 32-bit numbers). *)
Theorem C92_listing : forall oc p t, zlen p < 2 ^ 29 -> prog_to_lasm oc p true = Ret t ->
  exists xs ls, t = String.concat newline (map (fun xl => fst xl ++ ": " ++ snd xl)%string (combine xs ls)) /\
    Forall2 (fun w l => pw_to_lasm oc w = Ret l) p ls /\ prog_to_lasm oc p false = Ret (String.concat newline ls) /\
    List.length xs = List.length p /\ forall k x, nth_error xs k = Some x -> hex_of 8 x (4 * Z.of_nat k).
Proof. exact P_C92_listing. Qed.
Print Assumptions C92_listing.

Example C92_listing_example : prog_to_lasm true (from_instr (to_instr (ReadAddr 131080))) true =
  Ret (String.concat newline ["0x00000000: cpy avr, 0x2"; "0x00000004: shl avr, 0x10"; "0x00000008: add avr, 0x8"; "0x0000000C: lea avr, 0x0, 0x0"])%string.
Proof. exact E_C92_listing. Qed.
