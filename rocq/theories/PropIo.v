(** Properties proved in ProofIo.v: statements only. Generated by tools/gen_props.py. *)
From Coq Require Import ZArith List Bool Lia.
From Verif Require Import Base Board Mem Cpu Asm Tools Devices SpecMach SpecAsm SpecDev BaseFacts MemFacts DevTyped ReachFacts ProofAsm ProofTools ProofHist ProofDev.
From Verif Require Import ProofIo.
Import ListNotations.
Open Scope Z_scope.

(** * C61 *)

(** The number display calls its handler once per write, in order, with the word, the format of the address and the newline flag;
    reads raise MemoryNotReadable and call nothing. *)
Theorem C61_number : forall oc id calls sz h, Forall (in_range sz) h ->
  serve (dev_ops oc) (DNum (NumDisplay id calls)) h = Ret (DNum (NumDisplay id (calls ++ map number_call (writes h))), map write_only h).
Proof. exact P_C61_number. Qed.
Print Assumptions C61_number.

Example C61_number_example : match serve (dev_ops false) (DNum (NumDisplay 1 [])) [Write 4 300; Read 0; Write 24 7] with
  | Ret (DNum d, xs) => nd_calls d = [(300, NHexLong, true); (7, NDec, false)] /\ xs = [Put 0; Got 8448 0; Put 0] | _ => False end.
Proof. exact E_C61_number. Qed.

(** Its documentation says it is 8 words long: it declares 16. *)
Theorem C61_number_size_refuted : ~ (forall oc id, is_u64 id -> declares (dev_ops oc) (DNum (NumDisplay id [])) 32).
Proof. exact P_C61_number_size_refuted. Qed.
Print Assumptions C61_number_size_refuted.

(** The character display calls its handler once per write, in order, with the character, or with the word if it is no character. *)
Theorem C61_character : forall oc id calls sz h, Forall (in_range sz) h ->
  exists new, serve (dev_ops oc) (DChar (CharDisplay id calls)) h = Ret (DChar (CharDisplay id (calls ++ new)), map write_only h) /\
    Forall2 (fun x c => (scalar (snd x) /\ c = ROk (snd x)) \/ (~ scalar (snd x) /\ c = RErr (snd x))) (writes h) new.
Proof. exact P_C61_character. Qed.
Print Assumptions C61_character.

Example C61_character_example : match serve (dev_ops false) (DChar (CharDisplay 1 [])) [Write 0 65; Write 0 55297] with
  | Ret (DChar d, xs) => cd_calls d = [ROk 65; RErr 55297] | _ => False end.
Proof. exact E_C61_character. Qed.

(** It describes itself as a buffered display. *)
Theorem C61_character_type_refuted : ~ (forall oc id md, is_u64 id -> bo_metadata (dev_ops oc) (DChar (CharDisplay id [])) = Ret md ->
  w4 md = type_code (CatDisplay TCharacter)).
Proof. exact P_C61_character_type_refuted. Qed.
Print Assumptions C61_character_type_refuted.

(** The buffered display: over any history its handler is called exactly as [shown] says. *)
Theorem C61_buffered : forall oc l id calls h, Forall is_u32 l -> Forall (in_range (4 * zlen l + 4)) h ->
  exists l', serve (dev_ops oc) (DBuf (BufDisplay l (zlen l) id calls)) h =
    Ret (DBuf (BufDisplay l' (zlen l) id (calls ++ shown (zlen l) (fun i => word_at l (4 * i)) h)), map (buffered_answer (zlen l)) h) /\ zlen l' = zlen l.
Proof. exact P_C61_buffered. Qed.
Print Assumptions C61_buffered.

Example C61_buffered_example : exists d, bd_new 12 3 = Some d /\ zlen (bd_buffer d) = bd_words d /\
  match serve (dev_ops false) (DBuf d) [Write 0 1; Write 8 170; Write 4 2; Write 8 187; Write 8 3; Write 8 255; Write 8 170] with
  | Ret (DBuf d', xs) => bd_calls d' = [(false, [0; 0; 0; 1; 0; 0; 0; 0]); (true, [0; 0; 0; 1; 0; 0; 0; 2]); (false, [0; 0; 0; 0; 0; 0; 0; 0])] /\
      xs = [Put 0; Put 0; Put 0; Put 0; Put 4099; Put 0; Put 0]
  | _ => False end.
Proof. exact E_C61_buffered. Qed.

(** Displaying should clear the buffer. *)
Theorem C61_clears_refuted : ~ (forall oc l id calls h, Forall is_u32 l -> Forall (in_range (4 * zlen l + 4)) h ->
  exists l' xs, serve (dev_ops oc) (DBuf (BufDisplay l (zlen l) id calls)) h =
    Ret (DBuf (BufDisplay l' (zlen l) id (calls ++ shown_doc (zlen l) (fun i => word_at l (4 * i)) h)), xs)).
Proof. exact P_C61_clears_refuted. Qed.
Print Assumptions C61_clears_refuted.

(** [BufferedDisplay::new(capacity)] refuses exactly 0 and unaligned capacities; otherwise it declares [capacity] bytes: a zero buffer
    and the control word. *)
Theorem C61_buffered_new : forall oc capacity id, is_u32 capacity -> is_u64 id ->
  (bd_new capacity id = None <-> capacity = 0 \/ ~ Z.divide 4 capacity) /\
  forall d, bd_new capacity id = Some d -> declares (dev_ops oc) (DBuf d) capacity /\ 4 * bd_words d + 4 = capacity /\
    zlen (bd_buffer d) = bd_words d /\ Forall (eq 0) (bd_buffer d) /\ bd_calls d = [].
Proof. exact P_C61_buffered_new. Qed.
Print Assumptions C61_buffered_new.

Example C61_buffered_new_example : exists d, bd_new 64 3 = Some d /\ bd_words d = 15.
Proof. exact E_C61_buffered_new. Qed.

(** * C62 *)

(** The character keyboard after any history: it asked the user for as many characters as it was told to, and holds the last one, or 0 after
    a clear or a reset. *)
Theorem C62_character : forall oc c id input n h, is_u32 c -> (forall k, is_u32 (input k)) -> Forall (in_range 8) h ->
  let s := typed_char input h (n, c) in
  exists xs, serve (dev_ops oc) (DKeyChar (CharKeyboard c id input n)) h = Ret (DKeyChar (CharKeyboard (snd s) id input (fst s)), xs) /\
    reads_as (dev_ops oc) (DKeyChar (CharKeyboard (snd s) id input (fst s))) 0 (snd s).
Proof. exact P_C62_character. Qed.
Print Assumptions C62_character.

Example C62_character_example : match serve (dev_ops false) (DKeyChar (CharKeyboard 0 1 (fun n => 65 + Z.of_nat n) 0)) [Write 4 1; Read 0; Write 4 1; Read 0; Write 4 2; Read 0; Write 4 9] with
  | Ret (_, xs) => xs = [Put 0; Got 0 65; Put 0; Got 0 66; Put 0; Got 0 0; Put 4105] | _ => False end.
Proof. exact E_C62_character. Qed.

(** The control word cannot be read, the buffer cannot be written, unknown commands are refused; nothing changes then. *)
Theorem C62_character_errors : forall oc d w, is_u32 w -> let x := DKeyChar d in
  bo_read (dev_ops oc) x 4 = Ret (x, 33 * 2 ^ 8, 0) /\ bo_write (dev_ops oc) x 0 w = Ret (x, 49 * 2 ^ 8) /\
  (w <> 1 -> w <> 2 -> bo_write (dev_ops oc) x 4 w = Ret (x, 16 * 2 ^ 8 + w mod 2 ^ 8)).
Proof. exact P_C62_character_errors. Qed.
Print Assumptions C62_character_errors.

Example C62_character_errors_example : is_u32 259 /\ match serve (dev_ops false) (DKeyChar (CharKeyboard 0 1 (fun n => 65 + Z.of_nat n) 0)) [Write 4 259; Read 4; Write 0 1; Read 0] with
  | Ret (_, xs) => xs = [Put 4099; Got 8448 0; Put 12544; Got 0 0] | _ => False end.
Proof. exact E_C62_character_errors. Qed.

(** [SyncLineKeyboard::new] refuses a capacity of zero or that is not a multiple of 4; the keyboard it gives declares its capacity, its last word being
    the one of orders, and holds no text and has asked for none. *)
Theorem C62_line_new : forall oc capacity id input, is_u32 capacity -> is_u64 id ->
  (lk_new capacity id input = None <-> capacity = 0 \/ ~ Z.divide 4 capacity) /\
  forall d, lk_new capacity id input = Some d -> declares (dev_ops oc) (DKeyLine d) capacity /\ 4 * lk_capacity d + 4 = capacity /\
    zlen (lk_buffer d) = lk_capacity d /\ Forall (eq 0) (lk_buffer d) /\ lk_input d = input /\ lk_used d = O.
Proof. exact P_C62_line_new. Qed.
Print Assumptions C62_line_new.

Example C62_line_new_example : exists d, lk_new 64 3 (fun _ => [65]) = Some d /\ lk_capacity d = 15.
Proof. exact E_C62_line_new. Qed.

(** The line keyboard of [n] words after any history: it asked for as many lines as it was told to; a line overwrites the words it
    reaches, cut at the end of the buffer, the last one padded with zero bytes; clearing and resetting store zeros. *)
Theorem C62_line : forall oc l id input k h, Forall is_u32 l -> (forall j, Forall is_u8 (input j)) -> Forall (in_range (4 * zlen l + 4)) h ->
  let s := typed_line (zlen l) input h (k, fun i => word_at l (4 * i)) in
  exists l' xs, serve (dev_ops oc) (DKeyLine (LineKeyboard l (zlen l) id input k)) h = Ret (DKeyLine (LineKeyboard l' (zlen l) id input (fst s)), xs) /\
    zlen l' = zlen l /\
    (forall i, 0 <= i < zlen l -> reads_as (dev_ops oc) (DKeyLine (LineKeyboard l' (zlen l) id input (fst s))) (4 * i) (snd s i)) /\
    reads_as (dev_ops oc) (DKeyLine (LineKeyboard l' (zlen l) id input (fst s))) (4 * zlen l) 0.
Proof. exact P_C62_line. Qed.
Print Assumptions C62_line.

Example C62_line_example : match lk_new 12 1 (fun j => match j with O => [72; 101; 108; 108; 111; 33; 33; 33; 33; 33] | _ => [79; 75] end) with
  | Some d => zlen (lk_buffer d) = lk_capacity d /\
      match serve (dev_ops false) (DKeyLine d) [Write 8 170; Read 0; Read 4; Write 8 170; Read 0; Read 4; Write 8 255; Read 4; Read 8] with
      | Ret (_, xs) => xs = [Put 0; Got 0 1214606444; Got 0 1864442145; Put 0; Got 0 1330315264; Got 0 1864442145; Put 0; Got 0 0; Got 0 0] | _ => False end
  | None => False end.
Proof. exact E_C62_line. Qed.

(** In a cleared buffer a line is found exactly: its bytes, zero-padded, cut at the capacity. *)
Theorem C62_line_cleared : forall oc l id input k h, Forall is_u32 l -> (forall j, Forall is_u8 (input j)) -> Forall (in_range (4 * zlen l + 4)) h ->
  exists l' k' xs, let x := DKeyLine (LineKeyboard l' (zlen l) id input (S k')) in
    serve (dev_ops oc) (DKeyLine (LineKeyboard l (zlen l) id input k)) (h ++ [Write (4 * zlen l) 255; Write (4 * zlen l) 170]) = Ret (x, xs) /\
    forall i, 0 <= i < zlen l -> reads_as (dev_ops oc) x (4 * i) (line_word (input k') i).
Proof. exact P_C62_line_cleared. Qed.
Print Assumptions C62_line_cleared.

Example C62_line_cleared_example : let l := [1; 2; 3] in let input := fun j : nat => [72; 105; 33; 33; 33] in let h := [Write 0 7; Read 12; Write 12 170] in
  Forall is_u32 l /\ (forall j, Forall is_u8 (input j)) /\ Forall (in_range (4 * zlen l + 4)) h /\
  match serve (dev_ops false) (DKeyLine (LineKeyboard l (zlen l) 1 input 0)) (h ++ [Write 12 255; Write 12 170; Read 0; Read 4; Read 8]) with
  | Ret (_, xs) => skipn 3 xs = [Put 0; Put 0; Got 0 (line_word (input 1%nat) 0); Got 0 (line_word (input 1%nat) 1); Got 0 0] | _ => False end.
Proof. exact E_C62_line_cleared. Qed.

(** Without clearing first, a shorter line should replace a longer one: false, its end remains. *)
Theorem C62_line_stale_refuted : ~ (forall oc l id input k h, Forall is_u32 l -> (forall j, Forall is_u8 (input j)) -> Forall (in_range (4 * zlen l + 4)) h ->
  exists l' k' xs, let x := DKeyLine (LineKeyboard l' (zlen l) id input (S k')) in
    serve (dev_ops oc) (DKeyLine (LineKeyboard l (zlen l) id input k)) (h ++ [Write (4 * zlen l) 170]) = Ret (x, xs) /\
    forall i, 0 <= i < zlen l -> reads_as (dev_ops oc) x (4 * i) (line_word (input k') i)).
Proof. exact P_C62_line_stale_refuted. Qed.
Print Assumptions C62_line_stale_refuted.

(** * C63 *)

(** What the six words of the clock are, [t] being the system time since the epoch and [e] the time since the last reset (both in
    nanoseconds) when the word is read. Words 2 and 5 count the sub-second part up to three times; word 3 is that of the system time. *)
Theorem C63_words : forall oc d t e, rc_system d (rc_used d) = Some t -> 0 <= t < 2 ^ 64 * second ->
  e = Z.max 0 (rc_instant d (rc_used d) - rc_reset_at d) -> e < 2 ^ 64 * second ->
  let x := DClock d in let r := dev_ops oc in
  reads_as r x 0 (t / second / 2 ^ 32) /\ reads_as r x 4 (t / second mod 2 ^ 32) /\ reads_as r x 8 (subsec_word t) /\
  reads_as r x 12 (t / second / 2 ^ 32) /\ reads_as r x 16 (e / second mod 2 ^ 32) /\ reads_as r x 20 (subsec_word e).
Proof. exact P_C63_words. Qed.
Print Assumptions C63_words.

Example C63_words_example : let d := Clock 1 5 (fun _ => Some 1700000000123456789) (fun _ => 3000000007) 0 in
  rc_system d (rc_used d) = Some 1700000000123456789 /\ rc_instant d (rc_used d) - rc_reset_at d = 3000000002 /\
  match serve (dev_ops false) (DClock d) [Read 0; Read 4; Read 8; Read 16; Read 20] with
  | Ret (_, xs) => xs = [Got 0 0; Got 0 1700000000; Got 0 369912789; Got 0 3; Got 0 2] | _ => False end.
Proof. exact E_C63_words. Qed.

(** Before the epoch, the words of the system time raise TimeSynchronizationError; the clock cannot be written; a reset makes now the reference. *)
Theorem C63_errors : forall oc d a w, In a [0; 4; 8; 12] ->
  (rc_system d (rc_used d) = None -> exists d', bo_read (dev_ops oc) (DClock d) a = Ret (d', 2 * 2 ^ 8, 0)) /\
  bo_write (dev_ops oc) (DClock d) a w = Ret (DClock d, 49 * 2 ^ 8) /\
  exists d', bo_reset (dev_ops oc) (DClock d) = Ret (DClock d') /\ rc_reset_at d' = rc_instant d (rc_used d).
Proof. exact P_C63_errors. Qed.
Print Assumptions C63_errors.

(** A host clock that is before 1970 once. *)
Example C63_errors_example : let d := Clock 1 5 (fun n => match n with O => None | _ => Some 1000000007 end) (fun n => 9 + Z.of_nat n) 0 in
  rc_system d (rc_used d) = None /\
  match serve (dev_ops false) (DClock d) [Read 4; Read 4; Write 8 1] with
  | Ret (_, xs) => xs = [Got 512 0; Got 0 1; Put 12544] | _ => False end.
Proof. exact E_C63_errors. Qed.

(** The documented meaning of the words (each pair of words a 64-bit number of seconds, then the nanoseconds of the sub-second part) is false
    of the sub-second words... *)
Theorem C63_nanoseconds_refuted : ~ (forall oc d t, rc_system d (rc_used d) = Some t -> 0 <= t < 2 ^ 64 * second ->
  reads_as (dev_ops oc) (DClock d) 8 (t mod second)).
Proof. exact P_C63_nanoseconds_refuted. Qed.
Print Assumptions C63_nanoseconds_refuted.

(** ... and of word 3, which is that of the system time. *)
Theorem C63_since_reset_refuted : ~ (forall oc d t e, rc_system d (rc_used d) = Some t -> 0 <= t < 2 ^ 64 * second ->
  e = Z.max 0 (rc_instant d (rc_used d) - rc_reset_at d) -> e < 2 ^ 64 * second -> reads_as (dev_ops oc) (DClock d) 12 (e / second / 2 ^ 32)).
Proof. exact P_C63_since_reset_refuted. Qed.
Print Assumptions C63_since_reset_refuted.

(** * C64 *)

(** The debug interface reports each word written, once and in order, in the format documented for its address. *)
Theorem C64_formats : forall oc id calls h, Forall (in_range 64) h ->
  serve (dev_ops oc) (DDebug (BasicDebug id calls)) h = Ret (DDebug (BasicDebug id (calls ++ map debug_report (writes h))), map write_only h).
Proof. exact P_C64_formats. Qed.
Print Assumptions C64_formats.

Example C64_formats_example : match serve (dev_ops false) (DDebug (BasicDebug 1 [])) [Write 12 255; Write 28 65537; Write 48 7] with
  | Ret (DDebug d, _) => dbg_calls d = [SignedByteHex (-1); UnsignedHalfWordDec 1; DbgBoolean true] | _ => False end.
Proof. exact E_C64_formats. Qed.

(** It declares 32 bytes, so that only the first eight of its sixteen words can be reached. *)
Theorem C64_declares : forall oc id calls, is_u64 id -> declares (dev_ops oc) (DDebug (BasicDebug id calls)) 32.
Proof. exact P_C64_declares. Qed.
Print Assumptions C64_declares.

Example C64_declares_example : is_u64 7 /\ match bo_metadata (dev_ops true) (DDebug (BasicDebug 7 [])) with Ret md => w1 md = 7 /\ w2 md = 32 | Panic => False end.
Proof. exact E_C64_declares. Qed.

(** It should declare its sixteen words. *)
Theorem C64_declares_all_refuted : ~ (forall oc id, is_u64 id -> declares (dev_ops oc) (DDebug (BasicDebug id [])) 64).
Proof. exact P_C64_declares_all_refuted. Qed.
Print Assumptions C64_declares_all_refuted.

(** * The components of the crate never panic on the requests they can get. *)
