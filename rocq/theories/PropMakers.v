(** Properties proved in ProofMakers.v: statements only. Generated by tools/gen_props.py. *)
From Coq Require Import String ZArith List Bool Lia Znumtheory.
From Verif Require Import Base Board Mem Cpu Asm Tools Devices Makers SpecMach SpecAsm SpecDev ProofTools ProofDev.
From Verif Require Import ProofMakers.
Import ListNotations.
Open Scope string_scope.
Open Scope Z_scope.

(** A memory is refused for its size exactly as the message says: the size is 0, or is not a multiple of 4 bytes. Otherwise the component is the one of C59. *)
Theorem C97_new : forall k size id,
  (forall t, store_new k size id = RErr t <->
     size = 0 /\ t = kind_text k ++ "'s size cannot be 0" \/
     size <> 0 /\ ~ (4 | size) /\ t = kind_text k ++ "'s size must be a multiple of 4 bytes") /\
  (forall d, store_new k size id = ROk d <-> sm_new size id = Some d).
Proof. exact P_C97_new. Qed.
Print Assumptions C97_new.

(** The reasons of a refusal. *)
Example C97_new_example : store_new KRam 0 1 = RErr "RAM's size cannot be 0" /\ store_new KFlash 6 1 = RErr "Flash memory's size must be a multiple of 4 bytes" /\ exists d, store_new KRam 8 1 = ROk d /\ store_size d = 2.
Proof. exact E_C97_new. Qed.

(** The same for a memory made from given words: the reasons, in the order they are looked for. *)
Theorem C97_from_with_size : forall k l size id,
  (forall t, store_from_with_size k l size id = RErr t <->
     2 ^ 32 <= zlen l /\ t = kind_text k ++ "'s length cannot be larger than 2^32 words" \/
     zlen l < 2 ^ 32 /\ size < zlen l /\ t = kind_text k ++ "'s size cannot be lower than its initial storage's size" \/
     zlen l <= size /\ zlen l < 2 ^ 32 /\ size = 0 /\ t = kind_text k ++ "'s size cannot be 0" \/
     zlen l <= size /\ zlen l < 2 ^ 32 /\ size <> 0 /\ ~ (4 | size) /\ t = kind_text k ++ "'s size must be a multiple of 4 bytes") /\
  (forall d, store_from_with_size k l size id = ROk d <-> sm_from_with_size l size id = Some d) /\
  (forall t, store_from k l id = RErr t <-> 2 ^ 32 <= zlen l /\ t = kind_text k ++ "'s length cannot be larger than 2^32 words") /\
  (forall d, store_from k l id = ROk d <-> sm_from l id = Some d).
Proof. exact P_C97_from_with_size. Qed.
Print Assumptions C97_from_with_size.

Example C97_from_with_size_example : store_from_with_size KFlash [1; 2; 3] 2 1 = RErr "Flash memory's size cannot be lower than its initial storage's size" /\ store_from_with_size KRam [] 0 1 = RErr "RAM's size cannot be 0" /\
  store_from_with_size KRam [1] 5 1 = RErr "RAM's size must be a multiple of 4 bytes" /\ exists d, store_from_with_size KRam [1] 8 1 = ROk d /\ store_size d = 2.
Proof. exact E_C97_from_with_size. Qed.

(** A display or keyboard buffer is refused exactly as the message says. *)
Theorem C97_buffers : forall capacity id input,
  (forall t, buffered_new capacity id = RErr t <->
     capacity = 0 /\ t = "Buffered display's capacity cannot be 0" \/ capacity <> 0 /\ ~ (4 | capacity) /\ t = "Buffered display's capacity must be aligned") /\
  (forall d, buffered_new capacity id = ROk d <-> bd_new capacity id = Some d) /\
  (forall t, line_new capacity id input = RErr t <->
     capacity = 0 /\ t = "Synchronous keyboard's buffer capacity cannot be 0" \/ capacity <> 0 /\ ~ (4 | capacity) /\ t = "Synchronous keyboard's buffer capacity must be aligned") /\
  (forall d, line_new capacity id input = ROk d <-> lk_new capacity id input = Some d).
Proof. exact P_C97_buffers. Qed.
Print Assumptions C97_buffers.

Example C97_buffers_example : buffered_new 0 1 = RErr "Buffered display's capacity cannot be 0" /\ line_new 6 1 (fun _ => []) = RErr "Synchronous keyboard's buffer capacity must be aligned" /\ exists d, buffered_new 64 1 = ROk d /\ bd_words d = 15.
Proof. exact E_C97_buffers. Qed.

(** A boot ROM is refused for the same reasons as a flash memory made from the same words with the same size, and with the same messages, which call it a flash memory,
    except when the words are too many. *)
Theorem C97_rom : forall l size id,
  (forall d, rom_new l id = ROk d <-> br_new l id = Some d) /\ (forall d, rom_with_size l size id = ROk d <-> br_with_size l size id = Some d) /\
  (forall t, rom_new l id = RErr t <-> 2 ^ 32 <= zlen l /\ t = "Storage's length cannot be larger than 2^32 words") /\
  (2 ^ 32 <= zlen l -> rom_with_size l size id = RErr "Storage's length cannot be larger than 2^32 words") /\
  (zlen l < 2 ^ 32 -> forall t, rom_with_size l size id = RErr t <-> store_from_with_size KFlash l size id = RErr t).
Proof. exact P_C97_rom. Qed.
Print Assumptions C97_rom.

Example C97_rom_example : rom_with_size [1] 6 1 = RErr "Flash memory's size must be a multiple of 4 bytes" /\ exists d, rom_with_size [1] 8 1 = ROk d /\ rom_len d = 1 /\ rom_size d = 2.
Proof. exact E_C97_rom. Qed.

(** What the methods [size] and [len] tell the host: words, of which the size declared to the board (and given to the constructor) holds four times as many bytes. *)
Theorem C97_sizes : forall oc k l size id d, is_u64 id -> is_u32 size -> Forall is_u32 l -> zlen l < 2 ^ 32 ->
  (store_new k size id = ROk d -> 4 * store_size d = size /\ declares (dev_ops oc) (DRam d) (4 * store_size d)) /\
  (store_from_with_size k l size id = ROk d -> 4 * store_size d = size /\ declares (dev_ops oc) (DRam d) (4 * store_size d)) /\
  (store_from k l id = ROk d -> store_size d = zlen l / 4 /\ declares (dev_ops oc) (DRam d) (4 * store_size d)).
Proof. exact P_C97_sizes. Qed.
Print Assumptions C97_sizes.

Example C97_sizes_example : exists d1 d2 d3, is_u64 1 /\ is_u32 8 /\ Forall is_u32 [1; 2; 3; 4; 5] /\ store_new KRam 8 1 = ROk d1 /\ store_from_with_size KFlash [1; 2; 3; 4; 5] 8 1 = ROk d2 /\ store_from KRam [1; 2; 3; 4; 5] 1 = ROk d3 /\ store_size d3 = 1.
Proof. exact E_C97_sizes. Qed.

(** Of a boot ROM: [len] is the number of words it was given, [size] the declared size in words. *)
Theorem C97_rom_sizes : forall oc l size id d, is_u64 id -> is_u32 size -> 4 * zlen l < 2 ^ 32 ->
  (rom_new l id = ROk d -> rom_len d = zlen l /\ rom_size d = zlen l /\ declares (dev_ops oc) (DRom d) (4 * rom_size d)) /\
  (rom_with_size l size id = ROk d -> rom_len d = zlen l /\ 4 * rom_size d = size /\ declares (dev_ops oc) (DRom d) (4 * rom_size d)).
Proof. exact P_C97_rom_sizes. Qed.
Print Assumptions C97_rom_sizes.

Example C97_rom_sizes_example : exists d1 d2, is_u64 1 /\ is_u32 8 /\ rom_new [1; 2; 3] 1 = ROk d1 /\ rom_size d1 = 3 /\ rom_with_size [1; 2; 3] 8 1 = ROk d2 /\ rom_len d2 = 3 /\ rom_size d2 = 2.
Proof. exact E_C97_rom_sizes. Qed.

(** A boot ROM larger than its storage, as the constructor is said to make, is not what one always gets: the number of words is compared with the size in bytes. *)
Theorem C97_rom_larger_refuted : ~ (forall l size id d, is_u32 size -> rom_with_size l size id = ROk d -> rom_len d <= rom_size d).
Proof. exact P_C97_rom_larger_refuted. Qed.
Print Assumptions C97_rom_larger_refuted.
