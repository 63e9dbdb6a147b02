(** Properties proved in ProofText.v: statements only. Generated by tools/gen_props.py. *)
From Coq Require Import String Ascii ZArith List Bool Lia.
From Verif Require Import Base BaseFacts Board Mem Cpu Asm Tools Devices Runner LasmRules Lasm Console Utf8
  SpecMach SpecIsa SpecBus SpecDev SpecText DevTyped.
From Verif Require Import ProofText.
Import ListNotations.
Open Scope list_scope.
Open Scope Z_scope.

(** A text is accepted exactly when the bytes are its encoding. *)
Theorem C95_strict : forall bytes s, Forall is_u8 bytes -> (from_utf8 bytes = Some s <-> encodes bytes s).
Proof. exact P_C95_strict. Qed.
Print Assumptions C95_strict.

(** ** Witnesses *)
Example C95_strict_example : from_utf8 [104; 195; 169; 240; 159; 166; 128] = Some [104; 233; 129408] /\ encodes [104; 195; 169; 240; 159; 166; 128] [104; 233; 129408] /\
  from_utf8 [237; 160; 128] = None /\ from_utf8 [192; 128] = None.
Proof. exact E_C95_strict. Qed.

(** Reading with replacements follows the practice recommended by the Unicode standard. *)
Theorem C95_lossy : forall bytes s, Forall is_u8 bytes -> (from_utf8_lossy bytes = s <-> reads_lossily bytes s).
Proof. exact P_C95_lossy. Qed.
Print Assumptions C95_lossy.

Example C95_lossy_example : from_utf8_lossy [97; 226; 130; 98; 255; 240; 159; 166; 195] = [97; 65533; 98; 65533; 65533; 65533] /\
  from_utf8_lossy [237; 160; 128] = [65533; 65533; 65533].
Proof. exact E_C95_lossy. Qed.

(** A text followed by zeroes reads back as itself followed by null characters. *)
Theorem C95_padded : forall s n, Forall scalar s -> from_utf8_lossy (utf8 s ++ repeat 0 n) = s ++ repeat 0 n /\ from_utf8 (utf8 s ++ repeat 0 n) = Some (s ++ repeat 0 n).
Proof. exact P_C95_padded. Qed.
Print Assumptions C95_padded.

Example C95_padded_example : from_utf8_lossy (utf8 [233] ++ repeat 0 2) = [233; 0; 0].
Proof. exact E_C95_padded. Qed.

(** Reading with replacements never touches the ASCII characters: they are all found, in order, and no other. *)
Theorem C95_ascii : forall bytes s, Forall is_u8 bytes -> reads_lossily bytes s -> ascii_only s = ascii_only bytes /\ Forall scalar s.
Proof. exact P_C95_ascii. Qed.
Print Assumptions C95_ascii.

Example C95_ascii_example : exists s, reads_lossily [97; 226; 98] s /\ ascii_only s = [97; 98] /\ s = [97; 65533; 98].
Proof. exact E_C95_ascii. Qed.

(** What the handler receives: on a strict request the text the bytes are the encoding of, or an error with the bytes when they are no text;
    on a lossy one always a text. *)
Theorem C95_message : forall bytes, Forall is_u8 bytes ->
  (forall s, bd_message (false, bytes) = ROk s <-> encodes bytes s) /\
  (forall e, bd_message (false, bytes) = RErr e <-> e = bytes /\ ~ exists s, encodes bytes s) /\
  (forall s, bd_message (true, bytes) = ROk s <-> reads_lossily bytes s).
Proof. exact P_C95_message. Qed.
Print Assumptions C95_message.

Example C95_message_example : bd_message (false, [97; 255]) = RErr [97; 255] /\ bd_message (true, [97; 255]) = ROk [97; 65533] /\ bd_message (false, [195; 169]) = ROk [233].
Proof. exact E_C95_message. Qed.

(** What a display built by [new_print_lossy] prints on a request, strict or lossy: the bytes of the buffer when they are a text, and otherwise
    the text read with replacements. *)
Theorem C95_print : forall d w d' ex, Forall is_u32 (bd_buffer d) -> w = 170 \/ w = 187 -> bd_write d (4 * bd_words d) w = Ret (d', ex) ->
  ex = 0 /\ exists s, reads_lossily (buffer_bytes (bd_buffer d)) s /\ buf_display_printed d' = buf_display_printed d ++ utf8 s /\
    ((exists t, encodes (buffer_bytes (bd_buffer d)) t) -> utf8 s = buffer_bytes (bd_buffer d)).
Proof. exact P_C95_print. Qed.
Print Assumptions C95_print.

Example C95_print_example : exists d d', bd_new 12 3 = Some d /\ bd_write d 0 1633771873 = Ret (d', 0) /\ bd_words d' = 2 /\
  match bd_write d' 8 170 with Ret (d'', ex) => ex = 0 /\ buf_display_printed d'' = [97; 97; 97; 97; 0; 0; 0; 0] | _ => False end.
Proof. exact E_C95_print. Qed.
