(** Properties proved in ProofTools.v: statements only. Generated by tools/gen_props.py. *)
From Coq Require Import String ZArith List Bool Lia.
From Verif Require Import Base Board Mem Cpu Asm Tools SpecMach SpecAsm BaseFacts RegFacts ReachFacts ProofAsm.
From Verif Require Import ProofTools.
Import ListNotations.
Open Scope Z_scope.

(** * C49 *)

(** Encoding a native exception, with or without the processor's mode, fits 32 bits and decoding gives it back. *)
Theorem C49_roundtrip : forall e supervisor, native_wf e ->
  0 <= native_encode_with_mode e supervisor < 2 ^ 25 /\
  native_decode_with_mode (native_encode_with_mode e supervisor) = Some (e, supervisor) /\
  0 <= native_encode e < 2 ^ 24 /\ native_decode (native_encode e) = Some e.
Proof. exact P_C49_roundtrip. Qed.
Print Assumptions C49_roundtrip.

Example C49_roundtrip_example : native_wf (NHardwareException (UnknownOperation 7)) /\
  native_encode_with_mode (NHardwareException (UnknownOperation 7)) true = 16777216 + 160 * 65536 + 16 * 256 + 7 /\
  native_decode_with_mode (16777216 + 14 * 65536) = None /\ native_decode (18 * 65536 + 513) = Some (NComponentNotMapped 513).
Proof. exact E_C49_roundtrip. Qed.

(** Decoding reads the documented fields of the word: the code (third byte), as much of the data as the exception has, and the mode
    (fourth byte not zero); it fails exactly on undocumented codes. *)
Theorem C49_decode : forall x, is_u32 x ->
  match native_decode_with_mode x with
  | Some (e, supervisor) => native_wf e /\ native_code e = x / 2 ^ 16 mod 256 /\ supervisor = negb (x / 2 ^ 24 =? 0) /\
      match e with
      | NHardwareException h => aux_decode (x mod 2 ^ 16) = Some h
      | _ => opt_or0 (native_data e) = x mod 2 ^ data_bits (native_code e)
      end
  | None => ~ In (x / 2 ^ 16 mod 256) native_codes \/ x / 2 ^ 16 mod 256 = 160 /\ ~ In (x / 2 ^ 8 mod 256) aux_codes
  end.
Proof. exact P_C49_decode. Qed.
Print Assumptions C49_decode.

Example C49_decode_example : is_u32 (2 ^ 24 + 160 * 2 ^ 16 + 33 * 2 ^ 8) /\
  native_decode_with_mode (2 ^ 24 + 160 * 2 ^ 16 + 33 * 2 ^ 8) = Some (NHardwareException MemoryNotReadable, true) /\
  native_decode_with_mode (2 ^ 16 * 2 + 65535) = Some (NUnknownRegister 255, false) /\ native_decode_with_mode (99 * 2 ^ 16) = None.
Proof. exact E_C49_decode. Qed.

(** * C51 *)

(** Every mode except "division by zero gives the maximum" is decoded to itself; that one is decoded as "gives the minimum". *)
Theorem C51_roundtrip : forall m, 0 <= div_mode_encode m < 32 /\
  div_mode_decode (div_mode_encode m) = Some (DivMode (dm_sign m) (match dm_zero m with ZEqToMax => ZEqToMin | z => z end) (dm_ovf m)).
Proof. exact P_C51_roundtrip. Qed.
Print Assumptions C51_roundtrip.

Example C51_roundtrip_example : let m := DivMode DSigned ZEqToMax OEqToZero in div_mode_decode (div_mode_encode m) <> None /\ div_mode_decode (div_mode_encode m) <> Some m.
Proof. exact E_C51_roundtrip. Qed.

(** Modes other than 'maximum on division by zero' survive encoding. *)
Theorem C51_same : forall m, no_zero_max m -> div_mode_decode (div_mode_encode m) = Some m.
Proof. exact P_C51_same. Qed.
Print Assumptions C51_same.

Example C51_same_example : no_zero_max (DivMode DSigned ZEqToMin OEqToZero) /\ div_mode_encode (DivMode DSigned ZEqToMin OEqToZero) <> 0.
Proof. exact E_C51_same. Qed.

(** With that mode included the claim is false. *)
Theorem C51_roundtrip_refuted : ~ (forall m, div_mode_decode (div_mode_encode m) = Some m).
Proof. exact P_C51_roundtrip_refuted. Qed.
Print Assumptions C51_roundtrip_refuted.

(** Different modes have different codes. *)
Theorem C51_injective : forall m n, div_mode_encode m = div_mode_encode n -> m = n.
Proof. exact P_C51_injective. Qed.
Print Assumptions C51_injective.

Example C51_injective_example : div_mode_encode (DivMode DSigned ZEqToMax OEqToZero) <> div_mode_encode (DivMode DSigned ZEqToMin OEqToZero).
Proof. exact E_C51_injective. Qed.

(** Setting one sub-mode changes its bits (4: signed; 3-2: division by zero; 1-0: overflow) and leaves the others. *)
Theorem C51_builders : forall m signed z o, 
  div_mode_encode (div_mode_with_sign m (div_sign_from signed)) = div_mode_encode m mod 16 + (if signed then 16 else 0) /\
  div_mode_encode (div_mode_with_zero m z) = div_mode_encode m / 16 * 16 + 4 * (match z with ZForbid => 0 | ZEqToMin => 1 | ZEqToZero => 2 | ZEqToMax => 3 end) + div_mode_encode m mod 4 /\
  div_mode_encode (div_mode_with_ovf m o) = div_mode_encode m / 4 * 4 + (match o with OForbid => 0 | OEqToMin => 1 | OEqToZero => 2 | OEqToMax => 3 end) /\
  div_sign_is_signed (div_sign_from signed) = signed /\ Z.testbit (div_mode_encode m) 4 = div_sign_is_signed (dm_sign m) /\ div_mode_to_val m = Lit1 (div_mode_encode m).
Proof. exact P_C51_builders. Qed.
Print Assumptions C51_builders.

Example C51_builders_example : div_mode_encode (div_mode_with_ovf (div_mode_with_sign div_mode_new DSigned) OEqToMax) = 19.
Proof. exact E_C51_builders. Qed.

(** A sub-mode alone is decoded from exactly its codes, and never from the bits of another sub-mode. *)
Theorem C51_submodes : forall b,
  (forall s, div_sign_decode b = Some s <-> b = match s with DUnsigned => 0 | DSigned => 16 end) /\
  (forall z, div_zero_decode b = Some z <-> match z with ZForbid => b = 0 | ZEqToMin => b = 4 \/ b = 12 | ZEqToZero => b = 8 | ZEqToMax => False end) /\
  (forall o, div_ovf_decode b = Some o <-> b = match o with OForbid => 0 | OEqToMin => 1 | OEqToZero => 2 | OEqToMax => 3 end).
Proof. exact P_C51_submodes. Qed.
Print Assumptions C51_submodes.

Example C51_submodes_example : div_zero_decode 8 = Some ZEqToZero /\ div_zero_decode 2 = None /\ div_ovf_decode 2 = Some OEqToZero /\ div_sign_decode 2 = None.
Proof. exact E_C51_submodes. Qed.

(** Every byte decodes to a mode; encoding it again gives the lower five bits of the byte, except that the "maximum" bits 11 for
    division by zero become the "minimum" bits 01. *)
Theorem C51_decode : forall b, 0 <= b -> exists m, div_mode_decode b = Some m /\ no_zero_max m /\
  div_mode_encode m = b mod 32 - (if b / 4 mod 4 =? 3 then 8 else 0).
Proof. exact P_C51_decode. Qed.
Print Assumptions C51_decode.

Example C51_decode_example : div_mode_decode 25 = Some (DivMode DSigned ZEqToZero OEqToMin) /\ no_zero_max (DivMode DSigned ZEqToZero OEqToMin) /\ div_mode_encode (DivMode DSigned ZEqToZero OEqToMin) = 25.
Proof. exact E_C51_decode. Qed.

(** * C55 *)

(** Encoding a category fits 64 bits, is the category code then the type code, and is decoded to the same category. *)
Theorem C55_roundtrip : forall c, category_wf c -> is_u64 (category_encode c) /\ category_decode (category_encode c) = Some c.
Proof. exact P_C55_roundtrip. Qed.
Print Assumptions C55_roundtrip.

Example C55_roundtrip_example : category_wf (CatPlatform 42) /\ category_encode (CatStorage TFlash) = 139264 * 2 ^ 32 + 17 /\ category_decode (139264 * 2 ^ 32 + 18) = None /\
  category_decode (4294967295 * 2 ^ 32 + 18) = Some CatUncategorized.
Proof. exact E_C55_roundtrip. Qed.

(** Decoding accepts encodings only, and any type code for an uncategorized device. *)
Theorem C55_decode : forall x c, is_u64 x -> category_decode x = Some c ->
  category_wf c /\ (category_encode c = x \/ c = CatUncategorized /\ x / 2 ^ 32 = 2 ^ 32 - 1).
Proof. exact P_C55_decode. Qed.
Print Assumptions C55_decode.

Example C55_decode_example : is_u64 (139264 * 2 ^ 32 + 17) /\ category_decode (139264 * 2 ^ 32 + 17) = Some (CatStorage TFlash) /\
  category_encode (CatStorage TFlash) = 139264 * 2 ^ 32 + 17 /\ is_u64 (4294967295 * 2 ^ 32 + 18) /\ category_encode CatUncategorized <> 4294967295 * 2 ^ 32 + 18.
Proof. exact E_C55_decode. Qed.

(** Different categories have different codes. *)
Theorem C55_injective : forall c d, category_wf c -> category_wf d -> category_encode c = category_encode d -> c = d.
Proof. exact P_C55_injective. Qed.
Print Assumptions C55_injective.

Example C55_injective_example : category_wf (CatPlatform 42) /\ category_wf (CatStorage TFlash) /\ category_encode (CatPlatform 42) <> category_encode (CatStorage TFlash).
Proof. exact E_C55_injective. Qed.

(** * C54 *)

(** The metadata of a device are the eight documented words: identifier (2), size, category, type, model, data (2). *)
Theorem C54_layout : forall md, metadata_wf md -> metadata_encode md = Ret (metadata_words md).
Proof. exact P_C54_layout. Qed.
Print Assumptions C54_layout.

Example C54_layout_example : metadata_wf (Metadata (2 ^ 33 + 5) 64 (CatMemory TRam) (Some 3) None) /\
  metadata_encode (Metadata (2 ^ 33 + 5) 64 (CatMemory TRam) (Some 3) None) = Ret (W8 2 5 64 135168 256 3 0 0).
Proof. exact E_C54_layout. Qed.

(** Nothing is lost, except that "no model" and "no data" look like model 0 and data 0. *)
Theorem C54_injective : forall a b w, metadata_wf a -> metadata_wf b -> metadata_encode a = Ret w -> metadata_encode b = Ret w ->
  md_hw_id a = md_hw_id b /\ md_size a = md_size b /\ md_category a = md_category b /\
  opt_or0 (md_model a) = opt_or0 (md_model b) /\ opt_or0 (md_data a) = opt_or0 (md_data b).
Proof. exact P_C54_injective. Qed.
Print Assumptions C54_injective.

(** Only the difference between an absent model and model 0 is lost. *)
Example C54_injective_example : let a := Metadata (2 ^ 33 + 5) 64 (CatMemory TRam) (Some 0) None in let b := Metadata (2 ^ 33 + 5) 64 (CatMemory TRam) None (Some 0) in
  a <> b /\ metadata_wf a /\ metadata_wf b /\ exists w, metadata_encode a = Ret w /\ metadata_encode b = Ret w.
Proof. exact E_C54_injective. Qed.

(** The constructor refuses (by panicking) exactly the sizes that are not a multiple of 4; otherwise what it builds is encoded in full. *)
Theorem C54_new : forall id size c model data, is_u64 id -> is_u32 size -> category_wf c -> opt_wf is_u32 model -> opt_wf is_u64 data ->
  (metadata_new id size c model data = Panic <-> ~ (Z.divide 4 size)) /\ ((Z.divide 4 size) -> obind (metadata_new id size c model data) metadata_encode =
     Ret (W8 (id / 2 ^ 32) (id mod 2 ^ 32) size (category_code c) (type_code c) (opt_or0 model) (opt_or0 data / 2 ^ 32) (opt_or0 data mod 2 ^ 32))).
Proof. exact P_C54_new. Qed.
Print Assumptions C54_new.

Example C54_new_example : is_u64 (2 ^ 33 + 5) /\ is_u32 64 /\ category_wf (CatPlatform 42) /\ opt_wf is_u32 (Some 3) /\ opt_wf is_u64 None /\ Z.divide 4 64 /\ ~ Z.divide 4 66.
Proof. exact E_C54_new. Qed.

(** Setting the size changes the third word and nothing else. *)
Theorem C54_set_size : forall md size w, metadata_wf md -> is_u32 size -> metadata_encode md = Ret w ->
  metadata_encode (metadata_set_size md size) = Ret (W8 (w0 w) (w1 w) size (w3 w) (w4 w) (w5 w) (w6 w) (w7 w)).
Proof. exact P_C54_set_size. Qed.
Print Assumptions C54_set_size.

Example C54_set_size_example : metadata_encode (metadata_set_size (Metadata (2 ^ 33 + 5) 64 (CatMemory TRam) (Some 3) None) 128) = Ret (W8 2 5 128 135168 256 3 0 0).
Proof. exact E_C54_set_size. Qed.

(** A motherboard knows each component by the identifier and size of its metadata. *)
Theorem C54_board : forall D (ops : bus_ops D) ds m k d md, typed ops -> board_new ops ds = Ret m -> nth_error ds k = Some d ->
  bo_metadata ops d = metadata_encode md -> metadata_wf md ->
  hw_id_of (c_hwb m) (Z.of_nat k) = Some (md_hw_id md) /\ size_of (c_hwb m) (Z.of_nat k) = Some (md_size md).
Proof. exact P_C54_board. Qed.
Print Assumptions C54_board.

Example C54_board_example : exists (ops : bus_ops bool) m, let md := Metadata (2 ^ 33 + 5) 64 (CatMemory TRam) (Some 3) None in
  typed ops /\ board_new ops [false; true] = Ret m /\ nth_error [false; true] 1 = Some true /\ bo_metadata ops true = metadata_encode md /\ metadata_wf md /\
  hw_id_of (c_hwb m) 0 = Some 1.
Proof. exact E_C54_board. Qed.
