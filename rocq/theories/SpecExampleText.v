(** What the example hw_detect must print for a component: specification vocabulary. *)
From Coq Require Import String Ascii ZArith List Bool.
From Verif Require Import Base Board Mem Tools Devices Lasm Console SpecMach SpecObs SpecRun SpecConsole.
Import ListNotations.
Open Scope string_scope.
Open Scope Z_scope.

(** A line feed, null characters. *)
Definition line_feed : string := String (ascii_of_nat 10) "".
Fixpoint nulls (n : nat) : string := match n with O => "" | S n => String (ascii_of_nat 0) (nulls n) end.
(** The lines for component number [k] (from 0) of [n], which is [d]: its number, counted from 1, and the address of its description in the
    table; its identifier, name (cut at 32 bytes, then null characters up to 32 bytes), size, category, model and data, as its metadata give
    them, and where it is mapped. *)
Definition described_by {D} (ops : bus_ops D) (szs : list Z) (n k : nat) (d : D) (lines : list string) : Prop :=
  exists md name sz i t a0 u s c m v a b,
    bo_metadata ops d = Ret md /\ longest_prefix32 (bo_name ops d) name /\ nth_error szs k = Some sz /\
    lines = [line_feed ++ "========== Decoding component n°" ++ i ++ "/" ++ t ++ " (from memory address " ++ a0 ++ ") ==========";
             "> UID      : " ++ u;
             "> Name     : " ++ text_of_bytes (utf8 name) ++ nulls (32 - List.length (utf8 name));
             "> Size     : " ++ s ++ " (bytes)";
             "> Category : " ++ c;
             "> Model    : " ++ m;
             "> Data     : " ++ v;
             "> Mapping  : " ++ a ++ " -> " ++ b] /\
    dec_of i (Z.of_nat k + 1) /\ dec_of t (Z.of_nat n) /\ hex_of 8 a0 (4100 + 76 * Z.of_nat k) /\
    hex_of 16 u (w0 md * 2 ^ 32 + w1 md) /\ hex_of 8 s sz /\
    (let code := w3 md * 2 ^ 32 + w4 md in
     match category_decode code with
     | Some x => category_says x c
     | None => exists h, c = "<unknown> (" ++ h ++ ")" /\ hex_of 16 h code
     end) /\
    hex_of 8 m (w5 md) /\ hex_of 16 v (w6 md * 2 ^ 32 + w7 md) /\
    hex_of 8 a (sum (firstn k szs)) /\ hex_of 8 b (sum (firstn k szs) + sz - 1).
