(** Properties proved in ProofDev.v: statements only. Generated by tools/gen_props.py. *)
From Coq Require Import String ZArith List Bool Lia.
From Verif Require Import Base Board Mem Cpu Asm Tools Devices SpecMach SpecAsm SpecDev BaseFacts MemFacts DevTyped ReachFacts ProofTools ProofHist.
From Verif Require Import ProofDev.
Import ListNotations.
Open Scope list_scope.
Open Scope Z_scope.

(** * C56 *)

(** RAM over any history of requests: never a panic nor an exception, reads give the last word written, 0 after a reset, or the
    initial word. *)
Theorem C56_ram : forall oc l s id sz, Forall is_u32 l -> sz <= 4 * zlen l ->
  word_store (dev_ops oc) erased sz (word_at l) (DRam (StoreMem l s id)).
Proof. exact P_C56_ram. Qed.
Print Assumptions C56_ram.

Example C56_ram_example : exists d, sm_new 16 7 = Some d /\
  let h := [Write 4 9; Write 8 5; Write 4 6; Read 8] in
  Forall (in_range 16) h /\ last_word erased h 4 0 = 6 /\ last_word erased (h ++ [ResetReq; Write 12 3]) 4 0 = 0 /\
  match serve (dev_ops false) (DRam d) (h ++ [Read 4; ResetReq; Read 4]) with
  | Ret (_, xs) => xs = [Put 0; Put 0; Put 0; Got 0 5; Got 0 6; Done; Got 0 0] | Panic => False end.
Proof. exact E_C56_ram. Qed.

(** In particular one built by [Ram::new], for its whole size. *)
Theorem C56_new : forall oc size id d, is_u32 size -> sm_new size id = Some d -> word_store (dev_ops oc) erased size (fun _ => 0) (DRam d).
Proof. exact P_C56_new. Qed.
Print Assumptions C56_new.

Example C56_new_example : exists d, is_u32 16 /\ sm_new 16 7 = Some d.
Proof. exact E_C56_new. Qed.

(** * C57 *)

(** A BootROM over any history: it answers with its words, 0 beyond them, refuses every write with MemoryNotWritable, and never
    changes. *)
Theorem C57_rom : forall oc l s id sz h, Forall is_u32 l -> Forall (in_range sz) h ->
  let d := DRom (BootRom l (zlen l) s id) in serve (dev_ops oc) d h = Ret (d, map (rom_answer l) h).
Proof. exact P_C57_rom. Qed.
Print Assumptions C57_rom.

Example C57_rom_example : exists d, br_new [7; 8] 1 = Some d /\ br_len d = zlen (br_storage d) /\ Forall is_u32 (br_storage d) /\
  match serve (dev_ops false) (DRom d) [Read 4; Write 4 1; ResetReq; Read 4; Read 12] with
  | Ret (_, xs) => xs = [Got 0 8; Put 12544; Done; Got 0 8; Got 0 0] | Panic => False end.
Proof. exact E_C57_rom. Qed.

(** Whatever programs run, mapped or not, reset or not: the ROM's contents are those the board was built with. *)
Theorem C57_program : forall oc cs m m' k e d, wf m -> Forall api_wf cs -> api_run (dev_ops oc) oc cs m = Ret m' ->
  znth (c_hwb m) k = Some e -> ae_dev e = DRom d -> br_len d = zlen (br_storage d) -> Forall is_u32 (br_storage d) -> znth (c_hwb m') k = Some e.
Proof. exact P_C57_program. Qed.
Print Assumptions C57_program.

(** A program that tries to write over its own ROM. *)
Example C57_program_example : exists m0 m e d, board_new (dev_ops false) [DRom (BootRom (map encode_word [Wsa (Lit1 0) (Lit1 4) (Lit1 9); Halt]) 2 2 1)] = Ret m0 /\ wf m0 /\ Forall api_wf [AMap 0 0; AReset; ANext; ANext] /\
  api_run (dev_ops false) false [AMap 0 0; AReset; ANext; ANext] m0 = Ret m /\ znth (c_hwb m0) 0 = Some e /\ ae_dev e = DRom d /\ br_len d = zlen (br_storage d) /\ Forall is_u32 (br_storage d) /\ R m R_et <> 0.
Proof. exact E_C57_program. Qed.

(** * C58 *)

(** Flash memory between resets: reads give the last word written. A reset erases it. *)
Theorem C58_flash : forall oc l s id sz, Forall is_u32 l -> sz <= 4 * zlen l ->
  word_store (dev_ops oc) erased sz (word_at l) (DFlash (StoreMem l s id)).
Proof. exact P_C58_flash. Qed.
Print Assumptions C58_flash.

Example C58_flash_example : exists d, sm_new 16 7 = Some d /\
  match serve (dev_ops false) (DFlash d) [Write 4 9; Read 4; ResetReq; Read 4] with
  | Ret (_, xs) => xs = [Put 0; Got 0 9; Done; Got 0 0] | Panic => False end.
Proof. exact E_C58_flash. Qed.

(** The documented behaviour, content kept across resets, is false. *)
Theorem C58_survives_reset_refuted : ~ (forall oc size id d, is_u32 size -> sm_new size id = Some d ->
  word_store (dev_ops oc) kept size (fun _ => 0) (DFlash d)).
Proof. exact P_C58_survives_reset_refuted. Qed.
Print Assumptions C58_survives_reset_refuted.

(** * C59 *)

(** [new(size)] refuses exactly 0 and unaligned sizes, and otherwise gives a memory of [size] zero bytes that declares [size]. *)
Theorem C59_new : forall oc size id, is_u32 size -> is_u64 id ->
  (sm_new size id = None <-> size = 0 \/ ~ Z.divide 4 size) /\
  forall d, sm_new size id = Some d ->
    declares (dev_ops oc) (DRam d) size /\ declares (dev_ops oc) (DFlash d) size /\
    word_store (dev_ops oc) erased size (fun _ => 0) (DRam d) /\ word_store (dev_ops oc) erased size (fun _ => 0) (DFlash d).
Proof. exact P_C59_new. Qed.
Print Assumptions C59_new.

Example C59_new_example : exists d, sm_new 64 5 = Some d /\ declares (dev_ops false) (DRam d) 64.
Proof. exact E_C59_new. Qed.

(** [from(list)] exposes only the first quarter of the list: it declares as many bytes as it should declare words (rounded down). *)
Theorem C59_from : forall oc l id d, is_u64 id -> Forall is_u32 l -> sm_from l id = Some d ->
  declares (dev_ops oc) (DRam d) (4 * (zlen l / 4)) /\ declares (dev_ops oc) (DFlash d) (4 * (zlen l / 4)) /\
  word_store (dev_ops oc) erased (4 * (zlen l / 4)) (word_at l) (DRam d) /\ word_store (dev_ops oc) erased (4 * (zlen l / 4)) (word_at l) (DFlash d).
Proof. exact P_C59_from. Qed.
Print Assumptions C59_from.

Example C59_from_example : exists d, is_u64 5 /\ Forall is_u32 [1; 2; 3; 4; 5; 6; 7; 8] /\ sm_from [1; 2; 3; 4; 5; 6; 7; 8] 5 = Some d /\
  match serve (dev_ops false) (DRam d) [Read 4; Write 4 9; Read 4; Read 0] with Ret (_, xs) => xs = [Got 0 2; Put 0; Got 0 9; Got 0 1] | Panic => False end.
Proof. exact E_C59_from. Qed.

(** It should expose the whole list. *)
Theorem C59_from_whole_refuted : ~ (forall oc l id d, is_u64 id -> Forall is_u32 l -> 4 * zlen l < 2 ^ 32 -> sm_from l id = Some d ->
  declares (dev_ops oc) (DRam d) (4 * zlen l)).
Proof. exact P_C59_from_whole_refuted. Qed.
Print Assumptions C59_from_whole_refuted.

(** [from_with_size(list, size)] refuses sizes that are 0, unaligned or below the length of the list (compared as words, although the
    size is in bytes); otherwise it declares [size] bytes, holding as much of the list as fits, then zeros. *)
Theorem C59_from_with_size : forall oc l size id, is_u64 id -> is_u32 size -> Forall is_u32 l -> zlen l < 2 ^ 32 ->
  (sm_from_with_size l size id = None <-> size < zlen l \/ size = 0 \/ ~ Z.divide 4 size) /\
  forall d, sm_from_with_size l size id = Some d ->
    declares (dev_ops oc) (DRam d) size /\ declares (dev_ops oc) (DFlash d) size /\
    word_store (dev_ops oc) erased size (word_at l) (DRam d) /\ word_store (dev_ops oc) erased size (word_at l) (DFlash d).
Proof. exact P_C59_from_with_size. Qed.
Print Assumptions C59_from_with_size.

Example C59_from_with_size_example : exists d, is_u64 5 /\ is_u32 32 /\ Forall is_u32 [1; 2; 3] /\ sm_from_with_size [1; 2; 3] 32 5 = Some d /\ sm_from_with_size [1; 2; 3] 2 5 = None /\
  match serve (dev_ops false) (DFlash d) [Read 4; Write 28 9; Read 28; Read 12] with Ret (_, xs) => xs = [Got 0 2; Put 0; Got 0 9; Got 0 0] | Panic => False end.
Proof. exact E_C59_from_with_size. Qed.

(** It should keep the whole list, or refuse it. *)
Theorem C59_from_with_size_whole_refuted : ~ (forall oc l size id d, is_u64 id -> is_u32 size -> Forall is_u32 l -> sm_from_with_size l size id = Some d ->
  exists sz, declares (dev_ops oc) (DRam d) sz /\ 4 * zlen l <= sz).
Proof. exact P_C59_from_with_size_whole_refuted. Qed.
Print Assumptions C59_from_with_size_whole_refuted.

(** [BootRom::new(list)] declares the whole list (when its bytes can be addressed); [with_size] declares [size] bytes. *)
Theorem C59_rom : forall oc l size id, is_u64 id -> is_u32 size -> 4 * zlen l < 2 ^ 32 ->
  (exists d, br_new l id = Some d /\ br_storage d = l /\ br_len d = zlen l /\ declares (dev_ops oc) (DRom d) (4 * zlen l)) /\
  (br_with_size l size id = None <-> size < zlen l \/ size = 0 \/ ~ Z.divide 4 size) /\
  forall d, br_with_size l size id = Some d -> br_storage d = l /\ br_len d = zlen l /\ declares (dev_ops oc) (DRom d) size.
Proof. exact P_C59_rom. Qed.
Print Assumptions C59_rom.

Example C59_rom_example : exists d, br_with_size [1; 2; 3] 32 5 = Some d /\ declares (dev_ops true) (DRom d) 32.
Proof. exact E_C59_rom. Qed.

(** [with_size] should keep the whole list, or refuse it. *)
Theorem C59_rom_with_size_whole_refuted : ~ (forall oc l size id d, is_u64 id -> is_u32 size -> Forall is_u32 l -> br_with_size l size id = Some d ->
  exists sz, declares (dev_ops oc) (DRom d) sz /\ 4 * zlen l <= sz).
Proof. exact P_C59_rom_with_size_whole_refuted. Qed.
Print Assumptions C59_rom_with_size_whole_refuted.

(** * C60 *)

(** A writable file-backed memory over any history of aligned requests, in range or not: no panic nor exception; the file keeps its length; each of
    its whole words holds the last word written there, resets included; bytes beyond the whole words are untouched; words beyond the
    end read as 0. *)
Theorem C60_writable : forall oc f id sz h d, zlen f < 2 ^ 32 -> Forall is_u8 f -> fm_writable_new f id = Ret d -> Forall (in_range sz) h ->
  exists d' xs, serve (dev_ops oc) (DFile d) h = Ret (DFile d', xs) /\ Forall silent xs /\
    zlen (fm_file d') = zlen f /\
    (forall a, 0 <= a -> a + 4 <= zlen f -> a mod 4 = 0 ->
       file_word (fm_file d') a = last_word kept h a (file_word f a) /\ reads_as (dev_ops oc) (DFile d') a (last_word kept h a (file_word f a))) /\
    (forall i, zlen f - zlen f mod 4 <= i -> nth (Z.to_nat i) (fm_file d') 0 = nth (Z.to_nat i) f 0) /\
    (forall a, zlen f < a + 4 -> a mod 4 = 0 -> reads_as (dev_ops oc) (DFile d') a 0).
Proof. exact P_C60_writable. Qed.
Print Assumptions C60_writable.

Example C60_writable_example : exists d, fm_writable_new [0; 0; 1; 2; 3; 4; 5; 6; 7] 5 = Ret d /\
  match serve (dev_ops false) (DFile d) [Read 0; Write 4 4278190081; ResetReq; Read 4; Read 8] with
  | Ret (DFile d', xs) => xs = [Got 0 258; Put 0; Done; Got 0 4278190081; Got 0 0] /\ fm_file d' = [0; 0; 1; 2; 255; 0; 0; 1; 7]
  | _ => False end.
Proof. exact E_C60_writable. Qed.

(** Reopening: over any number of successive instances on one file, every whole word of the file is the last one written by any of them. *)
Theorem C60_reopen : forall oc sz hs f, zlen f < 2 ^ 32 -> Forall is_u8 f -> Forall (fun s => Forall (in_range sz) (snd s)) hs ->
  exists f', sessions oc f hs = Ret f' /\ zlen f' = zlen f /\
    forall a, 0 <= a -> a + 4 <= zlen f -> a mod 4 = 0 -> file_word f' a = last_word kept (concat (map snd hs)) a (file_word f a).
Proof. exact P_C60_reopen. Qed.
Print Assumptions C60_reopen.

(** A file of nine bytes used by two instances. *)
Example C60_reopen_example : let f := [0; 0; 1; 2; 3; 4; 5; 6; 7] in let hs := [(5, [Write 4 9; ResetReq]); (6, [Read 4; Write 0 4278190081])] in
  zlen f < 2 ^ 32 /\ Forall is_u8 f /\ Forall (fun s => Forall (in_range 8) (snd s)) hs /\ sessions true f hs = Ret [255; 0; 0; 1; 0; 0; 0; 9; 7].
Proof. exact E_C60_reopen. Qed.

(** A read-only instance: its answers are those of a ROM; it never changes the file. *)
Theorem C60_readonly : forall oc f id sz h d, zlen f < 2 ^ 32 -> Forall is_u8 f -> (fm_readonly f id = Ret d \/ exists size, fm_readonly_with_size f size id = Ret d) ->
  Forall (in_range sz) h -> fm_file d = f /\
  serve (dev_ops oc) (DFile d) h = Ret (DFile d, map (fun r =>
    match r with
    | Read a => Got 0 (if a + 4 <=? zlen f then file_word f a else 0)
    | Write _ _ => Put (49 * 2 ^ 8)
    | ResetReq => Done
    end) h).
Proof. exact P_C60_readonly. Qed.
Print Assumptions C60_readonly.

Example C60_readonly_example : let f := [0; 0; 1; 2; 3; 4; 5; 6; 7] in exists d, zlen f < 2 ^ 32 /\ Forall is_u8 f /\ fm_readonly f 5 = Ret d /\ Forall (in_range 12) [Read 0; Write 4 9; Read 4; Read 8] /\
  match serve (dev_ops true) (DFile d) [Read 0; Write 4 9; Read 4; Read 8] with Ret (_, xs) => xs = [Got 0 258; Put 12544; Got 0 50595078; Got 0 0] | Panic => False end.
Proof. exact E_C60_readonly. Qed.

(** Opening panics exactly on files of 4 GB or more. *)
Theorem C60_open : forall f wr id, fm_open f wr id = Panic <-> 2 ^ 32 <= zlen f.
Proof. exact P_C60_open. Qed.
Print Assumptions C60_open.

Example C60_open_example : exists d, fm_open [1; 2; 3; 4; 5] true 7 = Ret d /\ exists big, 2 ^ 32 <= zlen big /\ fm_open big true 7 = Panic.
Proof. exact E_C60_open. Qed.

(** It declares four times the size of the file (when that can be addressed). *)
Theorem C60_declares : forall oc f id d wr, is_u64 id -> fm_open f wr id = Ret d -> Z.divide 4 (zlen f) -> 4 * zlen f < 2 ^ 32 ->
  declares (dev_ops oc) (DFile d) (4 * zlen f).
Proof. exact P_C60_declares. Qed.
Print Assumptions C60_declares.

Example C60_declares_example : exists d, is_u64 7 /\ fm_open [1; 2; 3; 4; 5; 6; 7; 8] true 7 = Ret d /\ Z.divide 4 (zlen [1; 2; 3; 4; 5; 6; 7; 8]) /\ declares (dev_ops true) (DFile d) 32.
Proof. exact E_C60_declares. Qed.

(** It should declare the size of the file. *)
Theorem C60_declares_size_refuted : ~ (forall oc f id d, is_u64 id -> Forall is_u8 f -> fm_writable_new f id = Ret d -> Z.divide 4 (zlen f) -> 4 * zlen f < 2 ^ 32 ->
  declares (dev_ops oc) (DFile d) (zlen f)).
Proof. exact P_C60_declares_size_refuted. Qed.
Print Assumptions C60_declares_size_refuted.

(** [writable_with_size(size)] should give a memory of [size] bytes: false when the file is shorter. *)
Theorem C60_with_size_refuted : ~ (forall oc f size id d, is_u64 id -> is_u32 size -> Z.divide 4 size -> Forall is_u8 f -> fm_writable_with_size f size id = Ret d ->
  word_store (dev_ops oc) kept size (file_word (fm_file d)) (DFile d)).
Proof. exact P_C60_with_size_refuted. Qed.
Print Assumptions C60_with_size_refuted.

(** What [writable_with_size(size)] gives instead: the file is set to [size] bytes, zeros being added, when it has fewer whole words, and is
    left alone otherwise; then, over any history of aligned requests, the words the file had when it was opened, and only these, are kept as
    [writable] keeps them, also beyond [size]; the others read as 0. The size declared is four times [size], or four times the file's when
    the file was shorter. *)
Theorem C60_with_size : forall oc f size id sz h d, zlen f < 2 ^ 32 -> Forall is_u8 f -> is_u64 id -> is_u32 size -> fm_writable_with_size f size id = Ret d ->
  Forall (in_range sz) h ->
  let kept_bytes := zlen f - zlen f mod 4 in
  (4 * Z.min size kept_bytes < 2 ^ 32 -> declares (dev_ops oc) (DFile d) (4 * Z.min size kept_bytes)) /\
  (zlen (fm_file d) = if kept_bytes <? size then size else zlen f) /\
  (forall i, 0 <= i -> nth (Z.to_nat i) (fm_file d) 0 = if i <? zlen (fm_file d) then nth (Z.to_nat i) f 0 else 0) /\
  exists d' xs, serve (dev_ops oc) (DFile d) h = Ret (DFile d', xs) /\ Forall silent xs /\
    zlen (fm_file d') = zlen (fm_file d) /\
    (forall a, 0 <= a < kept_bytes -> a mod 4 = 0 ->
       file_word (fm_file d') a = last_word kept h a (file_word f a) /\ reads_as (dev_ops oc) (DFile d') a (last_word kept h a (file_word f a))) /\
    (forall i, kept_bytes <= i -> nth (Z.to_nat i) (fm_file d') 0 = nth (Z.to_nat i) (fm_file d) 0) /\
    (forall a, kept_bytes <= a -> a mod 4 = 0 -> reads_as (dev_ops oc) (DFile d') a 0).
Proof. exact P_C60_with_size. Qed.
Print Assumptions C60_with_size.

Example C60_with_size_example : exists d, fm_writable_with_size [0; 0; 1; 2; 9] 12 5 = Ret d /\ fm_file d = [0; 0; 1; 2; 9; 0; 0; 0; 0; 0; 0; 0] /\
  match serve (dev_ops false) (DFile d) [Read 0; Write 4 7; Read 4; Write 0 8; Read 0] with
  | Ret (DFile d', xs) => xs = [Got 0 258; Put 0; Got 0 0; Put 0; Got 0 8] /\ fm_file d' = [0; 0; 0; 8; 9; 0; 0; 0; 0; 0; 0; 0]
  | _ => False end.
Proof. exact E_C60_with_size. Qed.

(** What a component says it is: its name, and in its metadata its identifier, category and type (no model, no data); a request never changes it. *)
Theorem C59_identity : forall oc d name id c, identity d = (name, id, c) -> is_u64 id ->
  bo_name (dev_ops oc) d = chars name /\
  (forall md, bo_metadata (dev_ops oc) d = Ret md -> w0 md * 2 ^ 32 + w1 md = id /\ w3 md = category_code c /\ w4 md = type_code c /\ w5 md = 0 /\ w6 md = 0 /\ w7 md = 0) /\
  (forall h d' xs, serve (dev_ops oc) d h = Ret (d', xs) -> identity d' = identity d).
Proof. exact P_C59_identity. Qed.
Print Assumptions C59_identity.

Example C59_identity_example : exists d, sm_new 4096 7 = Some d /\ identity (DRam d) = ("RAM"%string, 7, CatMemory TRam) /\
  option_map (fun md => [w0 md; w1 md; w2 md; w3 md; w4 md; w5 md; w6 md; w7 md]) (match bo_metadata (dev_ops true) (DRam d) with Ret md => Some md | Panic => None end) = Some [0; 7; 4096; 135168; 256; 0; 0; 0].
Proof. exact E_C59_identity. Qed.
