(** What the examples hello_world and hw_detect print: /repo/examples/hello_world/src/main.rs and /repo/examples/hw_detect/src/main.rs.
    Texts are strings of bytes (UTF-8), as in Console.v. *)
From Coq Require Import String Ascii ZArith List Bool.
From Verif Require Import Base Board Mem Cpu Asm Tools Devices Runner LasmRules Lasm Console Utf8 Examples.
Import ListNotations.
Open Scope string_scope.
Open Scope Z_scope.

(** The handler of the display of hello_world (main.rs:24-26). *)
Definition hello_print (message : result (list Z) (list Z)) : string :=
  "[Display] " ++ match message with ROk s => text_of_bytes (utf8 s) | RErr _ => "<invalid input received>" end.
(** All that main prints (main.rs:9, 14, 42 and 56, and the handler while the loop runs), for a run that ends. *)
Definition hello_stdout (calls : list (bool * list Z)) : string :=
  "> Assembling LASM code..." ++ newline ++ "> Preparing components and motherboard..." ++ newline ++ "> Running the program..." ++ newline ++
  String.concat "" (map (fun c => hello_print (bd_message c)) calls) ++ "> CPU halted." ++ newline.

(** "{:#018X}" of a u64. *)
Definition fmt_hex18 (n : Z) : string := "0x" ++ number 16 16 n.
(** The lines printed for component number [k] of [n] (hw_detect/src/main.rs:146-176); the number of its address does not wrap around:
    main.rs:146, like the index in [detect_all]. The first line starts with a line feed. *)
Definition component_lines (n k : Z) (c : component) : list string :=
  [ newline ++ "========== Decoding component n°" ++ fmt_dec (k + 1) ++ "/" ++ fmt_dec n ++ " (from memory address " ++ fmt_hex10 (4096 + 4 + k * 76) ++ ") ==========";
    "> UID      : " ++ fmt_hex18 (cp_uid c);
    "> Name     : " ++ text_of_bytes (utf8 (from_utf8_lossy (cp_name c)));
    "> Size     : " ++ fmt_hex10 (cp_size c) ++ " (bytes)";
    "> Category : " ++ match cp_category c with inl cat => category_text cat | inr code => "<unknown> (" ++ fmt_hex18 code ++ ")" end;
    "> Model    : " ++ fmt_hex10 (cp_model c);
    "> Data     : " ++ fmt_hex18 (cp_data c);
    "> Mapping  : " ++ match cp_mapping c with None => "<device is not mapped>" | Some (a, b) => fmt_hex10 a ++ " -> " ++ fmt_hex10 b end ].
(** The lines printed by the loop (main.rs:145-177) when no read fails. *)
Definition detect_lines (cs : list component) : list string :=
  flat_map (fun x => component_lines (zlen cs) (fst x) (snd x)) (combine (zrange (List.length cs)) cs).
