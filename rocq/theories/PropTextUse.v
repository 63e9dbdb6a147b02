(** Properties proved in ProofTextUse.v: statements only. Generated by tools/gen_props.py. *)
From Coq Require Import String Ascii ZArith List Bool Lia.
From Verif Require Import Base BaseFacts Board Mem Cpu Asm Tools Devices Runner LasmRules Lasm Sources Console Utf8 Examples ExampleText
  SpecMach SpecIsa SpecBus SpecDev SpecText SpecRun SpecObs SpecConsole SpecExample SpecExampleText DevTyped ConsoleFacts
  ProofIo ProofHello ProofConsole ProofDetect ProofTools DetectFacts SpecAsm ProofText.
From Verif Require Import ProofTextUse.
Import ListNotations.
Open Scope list_scope.
Open Scope Z_scope.

(** The buffer of the character keyboard is a character at any time, as its documentation says. *)
Theorem C95_keyboard : forall oc c id input n h, scalar c -> (forall k, scalar (input k)) -> Forall (in_range 8) h ->
  exists c' n' xs, serve (dev_ops oc) (DKeyChar (CharKeyboard c id input n)) h = Ret (DKeyChar (CharKeyboard c' id input n'), xs) /\ scalar c' /\
    reads_as (dev_ops oc) (DKeyChar (CharKeyboard c' id input n')) 0 c'.
Proof. exact P_C95_keyboard. Qed.
Print Assumptions C95_keyboard.

Example C95_keyboard_example : scalar 0 /\ (forall k, scalar ((fun n => match n with O => 128049 | _ => 65 end) k)) /\
  match serve (dev_ops false) (DKeyChar (CharKeyboard 0 1 (fun n => match n with O => 128049 | _ => 65 end) 0)) [Write 4 1; Read 0] with
  | Ret (_, xs) => xs = [Put 0; Got 0 128049] | _ => False end.
Proof. exact E_C95_keyboard. Qed.

(** What a cleared line keyboard holds after a request, the line being any text: the text and null characters when it fits; otherwise the
    characters that fit, and U+FFFD (once read with replacements) if a character is cut. *)
Theorem C95_line : forall oc l id input k h, Forall is_u32 l -> (forall j, exists s, encodes (input j) s) -> Forall (in_range (4 * zlen l + 4)) h ->
  exists x k' xs words s,
    serve (dev_ops oc) (DKeyLine (LineKeyboard l (zlen l) id input k)) (h ++ [Write (4 * zlen l) 255; Write (4 * zlen l) 170]) = Ret (x, xs) /\
    length words = length l /\ (forall i, 0 <= i < zlen l -> reads_as (dev_ops oc) x (4 * i) (nth (Z.to_nat i) words 0)) /\
    encodes (input k') s /\
    ((length (input k') <= 4 * length l)%nat -> encodes (buffer_bytes words) (s ++ repeat 0 (4 * length l - length (input k')))) /\
    ((4 * length l < length (input k'))%nat -> exists p c r, s = p ++ c :: r /\
       (encodes (buffer_bytes words) p \/ (~ (exists t, encodes (buffer_bytes words) t)) /\ reads_lossily (buffer_bytes words) (p ++ [65533]))).
Proof. exact P_C95_line. Qed.
Print Assumptions C95_line.

Example C95_line_example : encodes [97; 97; 97; 195; 169] [97; 97; 97; 233] /\
  match serve (dev_ops false) (DKeyLine (LineKeyboard [7] 1 1 (fun _ => [97; 97; 97; 195; 169]) 0)) [Write 4 255; Write 4 170; Read 0] with
  | Ret (_, xs) => xs = [Put 0; Put 0; Got 0 1633771971] /\ from_utf8_lossy (buffer_bytes [1633771971]) = [97; 97; 97; 65533] | _ => False end.
Proof. exact E_C95_line. Qed.

(** The documentation of the line keyboard: its buffer is guaranteed to contain valid UTF-8 data. False: a line of 5 bytes, its last character on 2 bytes, in a
    buffer of 4 bytes. *)
Theorem C95_line_refuted : ~ (forall oc capacity id input d h, lk_new capacity id input = Some d -> (forall j, exists s, encodes (input j) s) -> Forall (in_range capacity) h ->
  exists x xs words s, serve (dev_ops oc) (DKeyLine d) h = Ret (x, xs) /\ 4 * zlen words + 4 = capacity /\
    (forall i, 0 <= i < zlen words -> reads_as (dev_ops oc) x (4 * i) (nth (Z.to_nat i) words 0)) /\ encodes (buffer_bytes words) s).
Proof. exact P_C95_line_refuted. Qed.
Print Assumptions C95_line_refuted.

(** The example hello_world prints its greeting, and after it as many null characters as its display has unused bytes. *)
Theorem C95_hello : forall oc id0 id1 id2 fuel, 37 < Z.of_nat fuel ->
  exists m calls, hello_main oc fuel id0 id1 id2 = Ret (Some m) /\ hello_shown m = Some calls /\
    hello_stdout calls = ("> Assembling LASM code..." ++ line_feed ++ "> Preparing components and motherboard..." ++ line_feed ++
      "> Running the program..." ++ line_feed ++ "[Display] Hello, world!" ++ line_feed ++ nulls 238 ++ "> CPU halted." ++ line_feed)%string.
Proof. exact P_C95_hello. Qed.
Print Assumptions C95_hello.

Example C95_hello_example : 37 < Z.of_nat 38 /\ hello_print (RErr [255]) = "[Display] <invalid input received>"%string.
Proof. exact E_C95_hello. Qed.

(** The example hw_detect, on a board of its three components and any others (as in C75): it prints eight lines per component, which describe it. *)
Theorem C95_detect : forall oc words id0 id1 id2 rest szs fuel, assemble_words hw_detect_source = Some words ->
  Forall2 (declares (dev_ops oc)) rest szs -> (forall d, In d rest -> exists d', bo_reset (dev_ops oc) d = Ret d') -> bootable oc (4096 :: 4096 :: 32 :: szs) ->
  (3 + length rest <= 53)%nat -> (9 + 47 * (3 + length rest) < fuel)%nat ->
  exists rom ram stack cs, br_with_size words 4096 id0 = Some rom /\ sm_new 4096 id1 = Some ram /\ sm_new 32 id2 = Some stack /\
    let ds := DRom rom :: DRam ram :: DRam stack :: rest in
    hw_detect_run oc fuel words id0 id1 id2 rest = Ret (Some cs) /\ length (detect_lines cs) = (8 * length ds)%nat /\
    forall k d, nth_error ds k = Some d ->
      described_by (dev_ops oc) (4096 :: 4096 :: 32 :: szs) (length ds) k d (firstn 8 (skipn (8 * k) (detect_lines cs))).
Proof. exact P_C95_detect. Qed.
Print Assumptions C95_detect.

Example C95_detect_example : component_lines 3 2 (Component 171 (utf8 [82; 65; 77] ++ repeat 0 29) 32 (inr 77) 0 0 None) =
  [(line_feed ++ "========== Decoding component n°3/3 (from memory address 0x0000109C) ==========")%string; "> UID      : 0x00000000000000AB"%string;
   ("> Name     : RAM" ++ nulls 29)%string; "> Size     : 0x00000020 (bytes)"%string; "> Category : <unknown> (0x000000000000004D)"%string; "> Model    : 0x00000000"%string;
   "> Data     : 0x0000000000000000"%string; "> Mapping  : <device is not mapped>"%string] /\
  (exists words, assemble_words hw_detect_source = Some words) /\ bootable true [4096; 4096; 32].
Proof. exact E_C95_detect. Qed.
