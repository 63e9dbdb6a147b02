(** Text conversions used by the components: the standard library's [str::from_utf8] and [String::from_utf8_lossy], as used by
    /repo/lrvm_aux/src/display/buffered.rs:109-116 and 71-77 and /repo/examples/hw_detect/src/main.rs:62. *)
From Coq Require Import String Ascii ZArith List Bool.
From Verif Require Import Base Board Mem Asm Tools Devices Runner LasmRules Lasm Console.
Import ListNotations.
Open Scope Z_scope.

(** core::str::utf8_char_width: how many bytes a first byte announces, 0 if it cannot be one. *)
Definition utf8_width (b : Z) : Z :=
  if b <? 128 then 1
  else if (194 <=? b) && (b <=? 223) then 2
  else if (224 <=? b) && (b <=? 239) then 3
  else if (240 <=? b) && (b <=? 244) then 4
  else 0.
(** A continuation byte. *)
Definition is_cont (b : Z) : bool := (128 <=? b) && (b <=? 191).
(** The second bytes allowed after a first byte of three or four bytes (core::str::lossy, core::str::validations). *)
Definition second_of_3 (a b : Z) : bool :=
  (a =? 224) && (160 <=? b) && (b <=? 191) || (225 <=? a) && (a <=? 236) && is_cont b ||
  (a =? 237) && (128 <=? b) && (b <=? 159) || (238 <=? a) && (a <=? 239) && is_cont b.
Definition second_of_4 (a b : Z) : bool :=
  (a =? 240) && (144 <=? b) && (b <=? 191) || (241 <=? a) && (a <=? 243) && is_cont b ||
  (a =? 244) && (128 <=? b) && (b <=? 143).

(** core::str::lossy::Utf8Chunks: the characters found from the left, [None] for each invalid part: an invalid part ends before the first
    byte that cannot continue it (it has at least one byte). *)
Fixpoint utf8_parts (l : list Z) : list (option Z) :=
  match l with
  | [] => []
  | a :: t =>
      match utf8_width a with
      | 1 => Some a :: utf8_parts t
      | 2 =>
          match t with
          | b :: t1 => if is_cont b then Some ((a - 192) * 64 + (b - 128)) :: utf8_parts t1 else None :: utf8_parts t
          | [] => [None]
          end
      | 3 =>
          match t with
          | b :: t1 =>
              if second_of_3 a b then
                match t1 with
                | c :: t2 => if is_cont c then Some ((a - 224) * 4096 + (b - 128) * 64 + (c - 128)) :: utf8_parts t2 else None :: utf8_parts t1
                | [] => [None]
                end
              else None :: utf8_parts t
          | [] => [None]
          end
      | 4 =>
          match t with
          | b :: t1 =>
              if second_of_4 a b then
                match t1 with
                | c :: t2 =>
                    if is_cont c then
                      match t2 with
                      | d :: t3 =>
                          if is_cont d then Some ((a - 240) * 262144 + (b - 128) * 4096 + (c - 128) * 64 + (d - 128)) :: utf8_parts t3
                          else None :: utf8_parts t2
                      | [] => [None]
                      end
                    else None :: utf8_parts t1
                | [] => [None]
                end
              else None :: utf8_parts t
          | [] => [None]
          end
      | _ => None :: utf8_parts t
      end
  end.

(** [str::from_utf8]: the text, or an error (the [Utf8Error] is not modelled). *)
Fixpoint whole_text (l : list (option Z)) : option (list Z) :=
  match l with
  | [] => Some []
  | Some c :: t => option_map (cons c) (whole_text t)
  | None :: _ => None
  end.
Definition from_utf8 (bytes : list Z) : option (list Z) := whole_text (utf8_parts bytes).
(** [String::from_utf8_lossy]: U+FFFD for each invalid part. *)
Definition from_utf8_lossy (bytes : list Z) : list Z := map (fun o => match o with Some c => c | None => 65533 end) (utf8_parts bytes).

(** What the handler of a BufferedDisplay receives (buffered.rs:108-117): [Ok(text)], or [Err((_, bytes))]. *)
Definition bd_message (call : bool * list Z) : result (list Z) (list Z) :=
  let '(lossy, bytes) := call in
  if lossy then ROk (from_utf8_lossy bytes)
  else match from_utf8 bytes with Some s => ROk s | None => RErr bytes end.
(** The handler of BufferedDisplay::new_print_lossy (buffered.rs:70-76): what it prints, as bytes. *)
Definition bd_print (message : result (list Z) (list Z)) : list Z :=
  match message with
  | ROk s => utf8 s
  | RErr bytes => utf8 (from_utf8_lossy bytes)
  end.
(** What such a display has printed so far: its handler is called once per recorded call. *)
Definition buf_display_printed (d : buf_display) : list Z := flat_map (fun c => bd_print (bd_message c)) (bd_calls d).
