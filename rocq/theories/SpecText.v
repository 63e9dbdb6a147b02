(** Specification vocabulary for texts in buffers: reading bytes as UTF-8, strictly and with replacements (Unicode standard, section 3.9:
    each maximal subpart of an ill-formed sequence is replaced by U+FFFD). [utf8_char] and [utf8] encode characters. *)
From Coq Require Import ZArith List Bool.
From Verif Require Import Base Board SpecMach.
Import ListNotations.
Open Scope Z_scope.

(** The bytes are the encoding of the text [s]. *)
Definition encodes (bytes s : list Z) : Prop := Forall scalar s /\ bytes = utf8 s.
(** Some bytes missing at the end, [q] would be a character. *)
Definition unfinished (q : list Z) : Prop := exists c r, scalar c /\ r <> [] /\ utf8_char c = q ++ r.
(** Reading with replacements: a character when there is one; otherwise U+FFFD for the longest unfinished character, or for one byte
    when no character starts there. *)
Inductive reads_lossily : list Z -> list Z -> Prop :=
| rl_end : reads_lossily [] []
| rl_char c rest s : scalar c -> reads_lossily rest s -> reads_lossily (utf8_char c ++ rest) (c :: s)
| rl_replaced q rest s : q <> [] ->
    (forall c r, scalar c -> q ++ rest <> utf8_char c ++ r) ->
    (unfinished q \/ length q = 1%nat) ->
    (forall q' r, q ++ rest = q' ++ r -> unfinished q' -> (length q' <= length q)%nat) ->
    reads_lossily rest s -> reads_lossily (q ++ rest) (65533 :: s).
(** ASCII characters. *)
Definition ascii_only (l : list Z) : list Z := filter (fun b => b <? 128) l.
(** The bytes of a buffer of words. *)
Definition buffer_bytes (l : list Z) : list Z := flat_map (fun w => [w / 2 ^ 24; w / 2 ^ 16 mod 2 ^ 8; w / 2 ^ 8 mod 2 ^ 8; w mod 2 ^ 8]) l.
