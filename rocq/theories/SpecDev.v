(** Specification of the components of lrvm_aux: what a component is asked, what it answers, and what its documentation
    promises. Nothing here looks inside the model of a component. *)
From Coq Require Import String ZArith List Bool Lia.
From Verif Require Import Base Board Mem Tools Devices SpecMach SpecAsm.
Import ListNotations.
Open Scope list_scope.
Open Scope Z_scope.

(** What the motherboard can ask of a component. *)
Inductive request : Type := Read (addr : Z) | Write (addr word : Z) | ResetReq.
(** What it answers: an exception value (0: none) and the word read. *)
Inductive answer : Type := Got (ex word : Z) | Put (ex : Z) | Done.

(** The answers of a component in state [d] to a history of requests, and its final state. *)
Fixpoint serve {D} (ops : bus_ops D) (d : D) (h : list request) : outcome (D * list answer) :=
  match h with
  | [] => Ret (d, [])
  | r :: t =>
      match (match r with
             | Read a => match bo_read ops d a with Ret (d', ex, v) => Ret (d', Got ex v) | Panic => Panic end
             | Write a w => match bo_write ops d a w with Ret (d', ex) => Ret (d', Put ex) | Panic => Panic end
             | ResetReq => match bo_reset ops d with Ret d' => Ret (d', Done) | Panic => Panic end
             end) with
      | Ret (d', x) => match serve ops d' t with Ret (d'', xs) => Ret (d'', x :: xs) | Panic => Panic end
      | Panic => Panic
      end
  end.

(** Requests for aligned words below [sz] bytes. *)
Definition in_range (sz : Z) (r : request) : Prop :=
  match r with
  | Read a => 0 <= a < sz /\ a mod 4 = 0
  | Write a w => 0 <= a < sz /\ a mod 4 = 0 /\ is_u32 w
  | ResetReq => True
  end.
Definition silent (x : answer) : Prop := match x with Got ex _ => ex = 0 | Put ex => ex = 0 | Done => True end.

(** The value of the word at [a] after a history, if it was [init]: the last word written there; a reset stores
    [on_reset] of the value. *)
Definition last_word (on_reset : Z -> Z) (h : list request) (a init : Z) : Z :=
  fold_left (fun v r => match r with
                        | Read _ => v
                        | Write b w => if b =? a then w else v
                        | ResetReq => on_reset v
                        end) h init.
Definition erased (_ : Z) : Z := 0.
Definition kept (v : Z) : Z := v.

(** A component that is a store of words: below [sz] it answers every history without exception, reads give the last
    word written, or [init]. *)
Definition word_store {D} (ops : bus_ops D) (on_reset : Z -> Z) (sz : Z) (init : Z -> Z) (d : D) : Prop :=
  forall h, Forall (in_range sz) h ->
    exists d' xs, serve ops d h = Ret (d', xs) /\ Forall silent xs /\
      forall a, 0 <= a < sz -> a mod 4 = 0 ->
        exists d'', bo_read ops d' a = Ret (d'', 0, last_word on_reset h a (init a)).

(** Word at byte address [a] of a list of words, 0 beyond it. *)
Definition word_at (l : list Z) (a : Z) : Z := nth (Z.to_nat (a / 4)) l 0.
(** Big-endian word at byte [a] of a file. *)
Definition file_word (f : list Z) (a : Z) : Z :=
  let byte k := nth (Z.to_nat (a + k)) f 0 in
  byte 0 * 2 ^ 24 + byte 1 * 2 ^ 16 + byte 2 * 2 ^ 8 + byte 3.

(** The writes of a history, in order. *)
Fixpoint writes (h : list request) : list (Z * Z) :=
  match h with
  | [] => []
  | Write a w :: t => (a, w) :: writes t
  | _ :: t => writes t
  end.

(** The four bytes of a word, most significant first. *)
Definition bytes_of (w : Z) : list Z := [w / 2 ^ 24; w / 2 ^ 16 mod 2 ^ 8; w / 2 ^ 8 mod 2 ^ 8; w mod 2 ^ 8].
(** The first [n] words of a memory. *)
Definition words_upto (n : Z) (content : Z -> Z) : list Z := map content (map Z.of_nat (seq 0 (Z.to_nat n))).

(** What a buffered display of [n] words shows during a history, its buffer being [content]: the strict (false) or lossy
    (true) rendering of the buffer each time one is requested. The control word is the one after the buffer.
    Displaying does not change the buffer; 0xFF and resets clear it. *)
Fixpoint shown (n : Z) (content : Z -> Z) (h : list request) : list (bool * list Z) :=
  match h with
  | [] => []
  | Read _ :: t => shown n content t
  | ResetReq :: t => shown n (fun _ => 0) t
  | Write a w :: t =>
      if a =? 4 * n then
        if w =? 170 then (false, flat_map bytes_of (words_upto n content)) :: shown n content t
        else if w =? 187 then (true, flat_map bytes_of (words_upto n content)) :: shown n content t
        else if w =? 255 then shown n (fun _ => 0) t
        else shown n content t
      else shown n (fun i => if i =? a / 4 then w else content i) t
  end.
(** What the documentation of the display says instead: both display requests clear the buffer afterwards. *)
Fixpoint shown_doc (n : Z) (content : Z -> Z) (h : list request) : list (bool * list Z) :=
  match h with
  | [] => []
  | Read _ :: t => shown_doc n content t
  | ResetReq :: t => shown_doc n (fun _ => 0) t
  | Write a w :: t =>
      if a =? 4 * n then
        if w =? 170 then (false, flat_map bytes_of (words_upto n content)) :: shown_doc n (fun _ => 0) t
        else if w =? 187 then (true, flat_map bytes_of (words_upto n content)) :: shown_doc n (fun _ => 0) t
        else if w =? 255 then shown_doc n (fun _ => 0) t
        else shown_doc n content t
      else shown_doc n (fun i => if i =? a / 4 then w else content i) t
  end.

(** A character keyboard after a history, the user answering [input 0], [input 1], ...: how many characters were asked for,
    and the last one, or 0 after a clear or a reset. *)
Definition typed_char (input : nat -> Z) (h : list request) (s : nat * Z) : nat * Z :=
  fold_left (fun s r => match r with
                        | Write 4 1 => (S (fst s), input (fst s))
                        | Write 4 2 | ResetReq => (fst s, 0)
                        | _ => s
                        end) h s.

(** Word [i] of a text, padded with zero bytes. *)
Definition line_word (line : list Z) (i : Z) : Z := file_word line (4 * i).
(** A line keyboard of [n] words after a history: how many lines were asked for and the words of its buffer. A new line only
    overwrites the words it reaches. *)
Definition typed_line (n : Z) (input : nat -> list Z) (h : list request) (s : nat * (Z -> Z)) : nat * (Z -> Z) :=
  fold_left (fun s r => match r with
                        | Write a w =>
                            if a =? 4 * n then
                              if w =? 170 then
                                (S (fst s), fun i => if 4 * i <? zlen (input (fst s)) then line_word (input (fst s)) i else snd s i)
                              else if w =? 255 then (fst s, fun _ => 0) else s
                            else s
                        | ResetReq => (fst s, fun _ => 0)
                        | Read _ => s
                        end) h s.

(** A general view of the [n]-bit two's complement number held in the weakest bits of a word. *)
Definition signed_bits (n w : Z) : Z := let x := w mod 2 ^ n in if x <? 2 ^ (n - 1) then x else x - 2 ^ n.

(** The size in bytes a component declares in its metadata (hence the size of its mapping). *)
Definition declares {D} (ops : bus_ops D) (d : D) (sz : Z) : Prop := exists md, bo_metadata ops d = Ret md /\ w2 md = sz.
(** Reads at [a] give [w] without exception. *)
Definition reads_as {D} (ops : bus_ops D) (d : D) (a w : Z) : Prop := exists d', bo_read ops d a = Ret (d', 0, w).

(** The answers of a ROM containing [l]; 0x31 is MemoryNotWritable. *)
Definition rom_answer (l : list Z) (r : request) : answer :=
  match r with Read a => Got 0 (word_at l a) | Write _ _ => Put (49 * 2 ^ 8) | ResetReq => Done end.
(** The contents of a file after successive writable instances on it (with these identifiers) each served a history and were dropped. *)
Fixpoint sessions (oc : bool) (f : list Z) (hs : list (Z * list request)) : outcome (list Z) :=
  match hs with
  | [] => Ret f
  | (id, h) :: t => do! d <- fm_writable_new f id; do! (x, _) <- serve (dev_ops oc) (DFile d) h;
                    match x with DFile d' => sessions oc (fm_file d') t | _ => Panic end
  end.

(** A write-only component without errors: reading it raises MemoryNotReadable (0x21). *)
Definition write_only (r : request) : answer :=
  match r with Read _ => Got (33 * 2 ^ 8) 0 | Write _ _ => Put 0 | ResetReq => Done end.
(** The number display: the format of the word at byte [a], and whether a newline follows (first four words). *)
Definition number_call (x : Z * Z) : Z * num_format * bool :=
  let k := fst x / 4 in (snd x, nth (Z.to_nat (k mod 4)) [NHex; NHexLong; NDec; NDecLong] NHex, k <? 4).
(** The answers of a buffered display of [n] words: an unknown control word raises UnknownOperation (0x10) with its weakest byte. *)
Definition buffered_answer (n : Z) (r : request) : answer :=
  match r with
  | Read _ => Got (33 * 2 ^ 8) 0
  | Write a w => Put (if (a =? 4 * n) && negb ((w =? 170) || (w =? 187) || (w =? 255)) then 16 * 2 ^ 8 + w mod 2 ^ 8 else 0)
  | ResetReq => Done
  end.
(** The debug interface: word [k] reports the word in this format (basic.rs:10-27 documents the sixteen words). *)
Definition debug_report (x : Z * Z) : debug_info :=
  let w := snd x in
  let byte := w mod 2 ^ 8 in let half := w mod 2 ^ 16 in
  nth (Z.to_nat (fst x / 4))
    [ UnsignedByteHex byte; UnsignedHalfWordHex half; UnsignedWordHex w;
      SignedByteHex (signed_bits 8 w); SignedHalfWordHex (signed_bits 16 w); SignedWordHex (signed_bits 32 w);
      UnsignedByteDec byte; UnsignedHalfWordDec half; UnsignedWordDec w;
      SignedByteDec (signed_bits 8 w); SignedHalfWordDec (signed_bits 16 w); SignedWordDec (signed_bits 32 w);
      DbgBoolean (negb (w =? 0)); DbgUtf8Char (if (w <? 55296) || (57344 <=? w) && (w <? 1114112) then ROk w else RErr w);
      DbgAgnosticChar w; DbgMessage ] DbgMessage.

(** One second in nanoseconds. *)
Definition second : Z := 10 ^ 9.
(** What each sub-second word of the clock holds for an instant [t]: milliseconds, microseconds and nanoseconds, each in nanoseconds,
    added up. *)
Definition subsec_word (t : Z) : Z := let n := t mod second in n / 10 ^ 6 * 10 ^ 6 + n / 10 ^ 3 * 10 ^ 3 + n.

(** What the constructors of lrvm_aux build, from arguments of the declared types ([Ram], [PersistentMem], [BootRom], [FileBackedMem],
    the displays, keyboards, clock and debug interface). *)
Inductive crate_component : device -> Prop :=
| cc_ram_new size id d : is_u32 size -> is_u64 id -> sm_new size id = Some d -> crate_component (DRam d)
| cc_ram_from l id d : Forall is_u32 l -> is_u64 id -> sm_from l id = Some d -> crate_component (DRam d)
| cc_ram_sized l size id d : Forall is_u32 l -> is_u32 size -> is_u64 id -> sm_from_with_size l size id = Some d -> crate_component (DRam d)
| cc_flash_new size id d : is_u32 size -> is_u64 id -> sm_new size id = Some d -> crate_component (DFlash d)
| cc_flash_from l id d : Forall is_u32 l -> is_u64 id -> sm_from l id = Some d -> crate_component (DFlash d)
| cc_flash_sized l size id d : Forall is_u32 l -> is_u32 size -> is_u64 id -> sm_from_with_size l size id = Some d -> crate_component (DFlash d)
| cc_rom_new l id d : Forall is_u32 l -> is_u64 id -> br_new l id = Some d -> crate_component (DRom d)
| cc_rom_sized l size id d : Forall is_u32 l -> is_u32 size -> is_u64 id -> br_with_size l size id = Some d -> crate_component (DRom d)
| cc_file f id d : Forall is_u8 f -> is_u64 id -> fm_writable_new f id = Ret d \/ fm_readonly f id = Ret d -> crate_component (DFile d)
| cc_file_sized f size id d : Forall is_u8 f -> is_u32 size -> is_u64 id ->
    fm_writable_with_size f size id = Ret d \/ fm_readonly_with_size f size id = Ret d -> crate_component (DFile d)
| cc_number id : is_u64 id -> crate_component (DNum (NumDisplay id []))
| cc_char id : is_u64 id -> crate_component (DChar (CharDisplay id []))
| cc_buffered size id d : is_u32 size -> is_u64 id -> bd_new size id = Some d -> crate_component (DBuf d)
| cc_key_char id input : is_u64 id -> (forall k, scalar (input k)) -> crate_component (DKeyChar (CharKeyboard 0 id input 0))
| cc_key_line size id input d : is_u32 size -> is_u64 id -> (forall k, Forall is_u8 (input k)) -> lk_new size id input = Some d ->
    crate_component (DKeyLine d)
| cc_clock id sys inst : is_u64 id -> crate_component (DClock (Clock id (inst O) sys inst 1))
| cc_debug id : is_u64 id -> crate_component (DDebug (BasicDebug id [])).

(** What a component of each kind says it is: its name, the hardware identifier it was created with, its category and type. *)
Definition identity (d : device) : string * Z * category :=
  (match d with
   | DRam d => ("RAM", sm_hw_id d, CatMemory TRam)
   | DFlash d => ("Flash Memory", sm_hw_id d, CatStorage TFlash)
   | DRom d => ("BootROM", br_hw_id d, CatStorage TReadonly)
   | DFile d => ("Persistent Memory", fm_hw_id d, CatStorage TPersistent)
   | DNum d => ("Number Display", nd_hw_id d, CatDisplay TNumber)
   | DChar d => ("Character Display", cd_hw_id d, CatDisplay TBuffered)
   | DBuf d => ("Buffered Display", bd_hw_id d, CatDisplay TBuffered)
   | DKeyChar d => ("Synchronous Character Keyboard", ck_hw_id d, CatKeyboard TReadChar)
   | DKeyLine d => ("Synchronous Line Keyboard", lk_hw_id d, CatKeyboard TReadLine)
   | DClock d => ("Realtime Clock", rc_hw_id d, CatClock TRealtime)
   | DDebug d => ("Basic Debug Interface", dbg_hw_id d, CatDebug TBasic)
   end)%string.
