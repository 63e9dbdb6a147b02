(** The tools library: native exceptions, division modes, device metadata and categories (C49, C51, C54, C55). *)
From Coq Require Import String ZArith List Bool Lia.
From Verif Require Import Base Board Mem Cpu Asm Tools SpecMach SpecAsm BaseFacts RegFacts ReachFacts ProofAsm.
Import ListNotations.
Open Scope Z_scope.
Ltac Zify.zify_post_hook ::= Z.div_mod_to_equations.

(** * C49 *)
Lemma native_parts e : native_wf e -> is_u16 (opt_or0 (native_data e)) /\ 0 < native_code e < 256 /\
  native_decode_parts (native_code e) (Some (opt_or0 (native_data e))) = Some e.
Proof.
  destruct e; cbn [native_wf native_data native_code opt_or0]; intros H; unfold is_u8, is_u16 in *;
    try (split; [lia|]; split; [lia|]; cbn; unfold u8; rewrite ?Z.mod_small by lia; reflexivity).
  destruct (aux_roundtrip e H) as (X & Y). unfold is_u16 in X. split; [lia|]. split; [lia|]. cbn. rewrite Y. reflexivity.
Qed.
(** Encoding a native exception, with or without the processor's mode, fits 32 bits and decoding gives it back. *)
Lemma P_C49_roundtrip : forall e supervisor, native_wf e ->
  0 <= native_encode_with_mode e supervisor < 2 ^ 25 /\
  native_decode_with_mode (native_encode_with_mode e supervisor) = Some (e, supervisor) /\
  0 <= native_encode e < 2 ^ 24 /\ native_decode (native_encode e) = Some e.
Proof.
  intros e sv H. destruct (native_parts e H) as (H1 & H2 & H3).
  assert (X : forall sv, 0 <= native_encode_with_mode e sv < 2 ^ 25 /\ native_decode_with_mode (native_encode_with_mode e sv) = Some (e, sv)).
  { intros b. unfold native_encode_with_mode, native_encode, native_decode_with_mode, is_u16 in *. generalize dependent (opt_or0 (native_data e)). intros d H1 H3.
    split; [change (2 ^ 25) with 33554432; destruct b; lia|].
    replace (u8 ((native_code e * 65536 + d + (if b then 16777216 else 0)) / 65536)) with (native_code e) by (unfold u8; destruct b; lia).
    replace (of_be2 (u8 ((native_code e * 65536 + d + (if b then 16777216 else 0)) / 256)) (u8 (native_code e * 65536 + d + (if b then 16777216 else 0))))
      with d by (unfold of_be2, u8; destruct b; lia).
    rewrite H3. f_equal. f_equal. unfold u8. destruct b.
    - destruct (Z.eqb_spec ((native_code e * 65536 + d + 16777216) / 16777216 mod 256) 0); [lia|reflexivity].
    - destruct (Z.eqb_spec ((native_code e * 65536 + d + 0) / 16777216 mod 256) 0); [reflexivity|lia]. }
  destruct (X sv) as (A & B). split; [auto|]. split; [auto|]. split.
  - unfold native_encode, is_u16 in *. change (2 ^ 24) with 16777216. lia.
  - destruct (X false) as (_ & C). unfold native_decode. unfold native_encode_with_mode in C. rewrite Z.add_0_r in C. rewrite C. reflexivity.
Qed.
(** Decoding reads the documented fields of the word: the code (third byte), as much of the data as the exception has, and the mode
    (fourth byte not zero); it fails exactly on undocumented codes. *)
Lemma P_C49_decode : forall x, is_u32 x ->
  match native_decode_with_mode x with
  | Some (e, supervisor) => native_wf e /\ native_code e = x / 2 ^ 16 mod 256 /\ supervisor = negb (x / 2 ^ 24 =? 0) /\
      match e with
      | NHardwareException h => aux_decode (x mod 2 ^ 16) = Some h
      | _ => opt_or0 (native_data e) = x mod 2 ^ data_bits (native_code e)
      end
  | None => ~ In (x / 2 ^ 16 mod 256) native_codes \/ x / 2 ^ 16 mod 256 = 160 /\ ~ In (x / 2 ^ 8 mod 256) aux_codes
  end.
Proof.
  intros x Hx. unfold native_decode_with_mode, is_u32 in *. change (2 ^ 16) with 65536. change (2 ^ 24) with 16777216. change (2 ^ 8) with 256.
  replace (of_be2 (u8 (x / 256)) (u8 x)) with (x mod 65536) by (unfold of_be2, u8; lia).
  replace (u8 (x / 16777216)) with (x / 16777216) by (unfold u8; lia). unfold u8.
  assert (Hc : 0 <= x / 65536 mod 256 < 256) by lia.
  assert (Hd : is_u16 (x mod 65536)) by (unfold is_u16; lia).
  assert (Ha : x / 256 mod 256 = x mod 65536 / 256) by lia. rewrite Ha.
  assert (Hm : x mod 256 = x mod 65536 mod 256) by lia.
  assert (H0 : x mod 2 ^ 0 = 0) by (change (2 ^ 0) with 1; apply Z.mod_1_r).
  assert (HA := P_C50_decode (x mod 65536) Hd).
  generalize dependent (x / 65536 mod 256). intros c Hc. remember (x mod 65536) as d eqn:Ed. clear Ha.
  destruct (in_dec Z.eq_dec c native_codes) as [I|N].
  - unfold native_codes in I. cbn [In] in I.
    repeat (destruct I as [<-|I];
      [cbn [native_decode_parts option_map native_wf native_code data_bits native_data opt_or0];
       try (change (2 ^ 16) with 65536; change (2 ^ 8) with 256; unfold is_u8, is_u16, u8 in *;
            split; [lia || exact I|]; split; [reflexivity|]; split; [reflexivity|]; rewrite ?H0; lia)|]); [|destruct I].
    destruct (aux_decode d) as [h|]; cbn [option_map native_wf native_code]; [tauto|right; auto].
  - replace (native_decode_parts c (Some d)) with (@None native_exception); [left; auto|].
    unfold native_codes in N. destruct c as [|c|c]; [reflexivity| |lia].
    do 8 (destruct c as [c|c|]; cbn [native_decode_parts]; try reflexivity; try (exfalso; apply N; cbn; tauto)); exfalso; lia.
Qed.
Lemma E_C49_roundtrip : native_wf (NHardwareException (UnknownOperation 7)) /\
  native_encode_with_mode (NHardwareException (UnknownOperation 7)) true = 16777216 + 160 * 65536 + 16 * 256 + 7 /\
  native_decode_with_mode (16777216 + 14 * 65536) = None /\ native_decode (18 * 65536 + 513) = Some (NComponentNotMapped 513).
Proof. split; [vm_compute; split; congruence|]. repeat split. Qed.

(** * C51 *)
(** Every mode except "division by zero gives the maximum" is decoded to itself; that one is decoded as "gives the minimum". *)
Lemma P_C51_roundtrip : forall m, 0 <= div_mode_encode m < 32 /\
  div_mode_decode (div_mode_encode m) = Some (DivMode (dm_sign m) (match dm_zero m with ZEqToMax => ZEqToMin | z => z end) (dm_ovf m)).
Proof. intros [[] [] []]; (split; [vm_compute; split; congruence|reflexivity]). Qed.
(** Modes other than 'maximum on division by zero' survive encoding. *)
Lemma P_C51_same : forall m, no_zero_max m -> div_mode_decode (div_mode_encode m) = Some m.
Proof. intros [[] [] []] H; try reflexivity; elim H; reflexivity. Qed.
(** With that mode included the claim is false. *)
Lemma P_C51_roundtrip_refuted : ~ (forall m, div_mode_decode (div_mode_encode m) = Some m).
Proof. intros H. specialize (H (DivMode DSigned ZEqToMax OForbid)). discriminate. Qed.
(** Different modes have different codes. *)
Lemma P_C51_injective : forall m n, div_mode_encode m = div_mode_encode n -> m = n.
Proof. intros [[] [] []] [[] [] []] H; try reflexivity; vm_compute in H; discriminate. Qed.
Lemma land_bits b n : 0 <= n -> Z.land b (2 ^ n) = if Z.testbit b n then 2 ^ n else 0.
Proof.
  intros Hn. apply Z.bits_inj'. intros k Hk. rewrite Z.land_spec. destruct (Z.eqb_spec k n) as [->|N].
  - rewrite Z.pow2_bits_true by lia. destruct (Z.testbit b n); cbn; [rewrite Z.pow2_bits_true by lia|rewrite Z.bits_0]; reflexivity.
  - rewrite Z.pow2_bits_false by lia. rewrite andb_false_r. destruct (Z.testbit b n); [rewrite Z.pow2_bits_false by lia|rewrite Z.bits_0]; reflexivity.
Qed.
(** Setting one sub-mode changes its bits (4: signed; 3-2: division by zero; 1-0: overflow) and leaves the others. *)
Lemma P_C51_builders : forall m signed z o, 
  div_mode_encode (div_mode_with_sign m (div_sign_from signed)) = div_mode_encode m mod 16 + (if signed then 16 else 0) /\
  div_mode_encode (div_mode_with_zero m z) = div_mode_encode m / 16 * 16 + 4 * (match z with ZForbid => 0 | ZEqToMin => 1 | ZEqToZero => 2 | ZEqToMax => 3 end) + div_mode_encode m mod 4 /\
  div_mode_encode (div_mode_with_ovf m o) = div_mode_encode m / 4 * 4 + (match o with OForbid => 0 | OEqToMin => 1 | OEqToZero => 2 | OEqToMax => 3 end) /\
  div_sign_is_signed (div_sign_from signed) = signed /\ Z.testbit (div_mode_encode m) 4 = div_sign_is_signed (dm_sign m) /\ div_mode_to_val m = Lit1 (div_mode_encode m).
Proof. intros [[] [] []] [] z o; repeat split; try reflexivity; try (destruct z; reflexivity); destruct o; reflexivity. Qed.
Lemma E_C51_builders : div_mode_encode (div_mode_with_ovf (div_mode_with_sign div_mode_new DSigned) OEqToMax) = 19.
Proof. reflexivity. Qed.
(** A sub-mode alone is decoded from exactly its codes, and never from the bits of another sub-mode. *)
Lemma P_C51_submodes : forall b,
  (forall s, div_sign_decode b = Some s <-> b = match s with DUnsigned => 0 | DSigned => 16 end) /\
  (forall z, div_zero_decode b = Some z <-> match z with ZForbid => b = 0 | ZEqToMin => b = 4 \/ b = 12 | ZEqToZero => b = 8 | ZEqToMax => False end) /\
  (forall o, div_ovf_decode b = Some o <-> b = match o with OForbid => 0 | OEqToMin => 1 | OEqToZero => 2 | OEqToMax => 3 end).
Proof.
  intros b. split; [|split].
  - intros s. unfold div_sign_decode. change cst_DIV_USG with 0. change cst_DIV_SIG with 16.
    repeat (match goal with |- context[b =? ?n] => destruct (Z.eqb_spec b n) as [->|] end); destruct s; split; intros; try reflexivity; try discriminate; congruence.
  - intros z. unfold div_zero_decode. change cst_DIV_ZRO_FRB with 0. change cst_DIV_ZRO_MIN with 4. change cst_DIV_ZRO_ZRO with 8. change cst_DIV_ZRO_MAX with 12.
    repeat (match goal with |- context[b =? ?n] => destruct (Z.eqb_spec b n) as [->|] end); destruct z; split; intros; try reflexivity; try discriminate; try lia; auto.
  - intros o. unfold div_ovf_decode. change cst_DIV_OFW_FRB with 0. change cst_DIV_OFW_MIN with 1. change cst_DIV_OFW_ZRO with 2. change cst_DIV_OFW_MAX with 3.
    repeat (match goal with |- context[b =? ?n] => destruct (Z.eqb_spec b n) as [->|] end); destruct o; split; intros; try reflexivity; try discriminate; congruence.
Qed.
Lemma E_C51_submodes : div_zero_decode 8 = Some ZEqToZero /\ div_zero_decode 2 = None /\ div_ovf_decode 2 = Some OEqToZero /\ div_sign_decode 2 = None.
Proof. repeat split. Qed.
(** Every byte decodes to a mode; encoding it again gives the lower five bits of the byte, except that the "maximum" bits 11 for
    division by zero become the "minimum" bits 01. *)
Lemma P_C51_decode : forall b, 0 <= b -> exists m, div_mode_decode b = Some m /\ no_zero_max m /\
  div_mode_encode m = b mod 32 - (if b / 4 mod 4 =? 3 then 8 else 0).
Proof.
  intros b Hb.
  assert (X : forall c, In c (map Z.of_nat (seq 0 32)) -> exists m, div_mode_decode c = Some m /\ no_zero_max m /\ div_mode_encode m = c - (if c / 4 mod 4 =? 3 then 8 else 0)).
  { intros c Hc. cbn [map seq In] in Hc.
    repeat (destruct Hc as [<-|Hc]; [eexists; split; [vm_compute; reflexivity|split; [unfold no_zero_max; cbn; discriminate|vm_compute; reflexivity]]|]). destruct Hc. }
  specialize (X (b mod 32)). destruct X as (m & E1 & E2 & E3).
  { apply in_map_iff. exists (Z.to_nat (b mod 32)). split; [lia|]. apply in_seq. lia. }
  exists m. split; [|split; [auto|]].
  - rewrite <- E1. unfold div_mode_decode, cst_DIV_SIGN_MODE_MASK, cst_DIV_ZERO_MODE_MASK, cst_DIV_OVFW_MODE_MASK.
    assert (L : forall k, 0 <= k < 32 -> Z.land (b mod 32) k = Z.land b k).
    { intros k Hk. change 32 with (2 ^ 5). rewrite <- Z.land_ones by lia. rewrite <- Z.land_assoc. f_equal.
      rewrite Z.land_comm, Z.land_ones by lia. apply Z.mod_small. change (2 ^ 5) with 32. lia. }
    rewrite !L by lia. reflexivity.
  - rewrite E3. replace (b / 4 mod 4) with (b mod 32 / 4 mod 4) by lia. reflexivity.
Qed.
Lemma E_C51_decode : div_mode_decode 25 = Some (DivMode DSigned ZEqToZero OEqToMin) /\ no_zero_max (DivMode DSigned ZEqToZero OEqToMin) /\ div_mode_encode (DivMode DSigned ZEqToZero OEqToMin) = 25.
Proof. repeat split. discriminate. Qed.

(** * C55 *)
Lemma category_codes_u32 c : category_wf c -> is_u32 (category_code c) /\ is_u32 (type_code c).
Proof. destruct c as [[]|[]|[]|[]|[]|[]|n|]; cbn; unfold is_u32; lia. Qed.
Lemma category_fields x : 0 <= x < 18446744073709551616 -> u32 (Z.shiftr x 32) = x / 4294967296 /\ Z.land x 4294967295 = x mod 4294967296.
Proof.
  intros H. rewrite Z.shiftr_div_pow2 by lia. change (2 ^ 32) with 4294967296. unfold u32. split; [lia|].
  change 4294967295 with (Z.ones 32). rewrite Z.land_ones by lia. reflexivity.
Qed.
(** Encoding a category fits 64 bits, is the category code then the type code, and is decoded to the same category. *)
Lemma P_C55_roundtrip : forall c, category_wf c -> is_u64 (category_encode c) /\ category_decode (category_encode c) = Some c.
Proof.
  intros c H. destruct (category_codes_u32 c H) as (H1 & H2). unfold is_u32 in *.
  assert (U : is_u64 (category_encode c)). { unfold is_u64, category_encode. lia. } split; [auto|].
  unfold category_decode. destruct (category_fields (category_encode c) U) as (-> & ->).
  replace (category_encode c / 4294967296) with (category_code c) by (unfold category_encode; lia).
  replace (category_encode c mod 4294967296) with (type_code c) by (unfold category_encode; lia).
  destruct c as [[]|[]|[]|[]|[]|[]|n|]; reflexivity.
Qed.
Lemma pos_table (x : Z) (l : list Z) : {In x l} + {~ In x l}.
Proof. apply in_dec, Z.eq_dec. Qed.
Ltac table c := let H := fresh in destruct c as [|c|c]; try discriminate;
  repeat (destruct c as [c|c|]; cbn; try discriminate).
(** Decoding accepts encodings only, and any type code for an uncategorized device. *)
Lemma P_C55_decode : forall x c, is_u64 x -> category_decode x = Some c ->
  category_wf c /\ (category_encode c = x \/ c = CatUncategorized /\ x / 2 ^ 32 = 2 ^ 32 - 1).
Proof.
  intros x c Hx. unfold category_decode. destruct (category_fields x Hx) as (-> & ->). change (2 ^ 32) with 4294967296.
  assert (Hx' : x = x / 4294967296 * 4294967296 + x mod 4294967296) by lia.
  assert (Ht : is_u32 (x mod 4294967296)) by (unfold is_u32; lia). unfold is_u64 in Hx.
  assert (Hc : 0 <= x / 4294967296 < 4294967296) by lia.
  generalize dependent (x mod 4294967296). generalize dependent (x / 4294967296). intros k Hk t Hx' Ht H. subst x.
  destruct (pos_table k [256; 4096; 69632; 90112; 135168; 139264; 4008636142; 4294967295]) as [I|N].
  - cbn [In] in I. destruct I as [<-|[<-|[<-|[<-|[<-|[<-|[<-|[<-|[]]]]]]]]].
    1: unfold debug_decode in H. 2: unfold clock_decode in H. 3: unfold display_decode in H. 4: unfold keyboard_decode in H. 5: unfold memory_decode in H. 6: unfold storage_decode in H.
    1-6: destruct (pos_table t [256; 1; 16; 4096; 17; 33]) as [I|N];
         [cbn [In] in I; destruct I as [<-|[<-|[<-|[<-|[<-|[<-|[]]]]]]]; cbn in H; try discriminate; injection H as <-; cbn; auto|].
    1-6: exfalso; apply N; clear N; destruct t as [|p|p]; cbn in H; try discriminate;
         repeat (match type of H with context [match ?q with _ => _ end] => is_var q; destruct q; cbn in H; try discriminate end); cbn; tauto.
    + injection H as <-. split; [exact Ht|left; reflexivity].
    + injection H as <-. split; [exact I|right]. split; [reflexivity|]. unfold is_u32 in Ht. lia.
  - exfalso. apply N. clear N. destruct k as [|k|k]; try discriminate.
    repeat (match type of H with context [match ?q with _ => _ end] => is_var q; destruct q; try discriminate end); cbn; tauto.
Qed.
(** Different categories have different codes. *)
Lemma P_C55_injective : forall c d, category_wf c -> category_wf d -> category_encode c = category_encode d -> c = d.
Proof. intros c d Hc Hd E. apply P_C55_roundtrip in Hc. apply P_C55_roundtrip in Hd. rewrite E in Hc. destruct Hc as (_ & Hc), Hd as (_ & Hd). congruence. Qed.
Lemma E_C55_roundtrip : category_wf (CatPlatform 42) /\ category_encode (CatStorage TFlash) = 139264 * 2 ^ 32 + 17 /\ category_decode (139264 * 2 ^ 32 + 18) = None /\
  category_decode (4294967295 * 2 ^ 32 + 18) = Some CatUncategorized.
Proof. split; [vm_compute; split; congruence|]. repeat split. Qed.

(** * C54 *)
Lemma be_words w : is_u32 w -> forall t, words_be (be_bytes32 w ++ t) = w :: words_be t.
Proof.
  intros H t. cbn [be_bytes32 app words_be]. f_equal. unfold word_be, u8, is_u32 in *.
  change (2 ^ 24) with 16777216. change (2 ^ 16) with 65536. change (2 ^ 8) with 256. lia.
Qed.
(** The metadata of a device are the eight documented words: identifier (2), size, category, type, model, data (2). *)
Lemma P_C54_layout : forall md, metadata_wf md -> metadata_encode md = Ret (metadata_words md).
Proof.
  intros [id sz cat model data] (H1 & H2 & H3 & H4 & H5). cbn [md_hw_id md_size md_category md_model md_data] in *.
  unfold metadata_encode, metadata_to_bytes, metadata_words. cbn [md_hw_id md_size md_category md_model md_data].
  destruct (category_codes_u32 cat H3) as (C1 & C2).
  assert (Hm : is_u32 (opt_or0 model)) by (destruct model; cbn in *; [auto|unfold is_u32; lia]).
  assert (Hd : is_u64 (opt_or0 data)) by (destruct data; cbn in *; [auto|unfold is_u64; lia]).
  unfold is_u64, is_u32 in *. unfold be_bytes64.
  rewrite bytes_to_words_full; [|unfold zlen; cbn; reflexivity]. rewrite <- !app_assoc.
  rewrite (be_words (id / 4294967296)) by (unfold is_u32; lia). rewrite (be_words (id mod 4294967296)) by (unfold is_u32; lia).
  rewrite (be_words sz) by (unfold is_u32; lia).
  rewrite (be_words (category_encode cat / 4294967296)) by (unfold is_u32, category_encode; lia).
  rewrite (be_words (category_encode cat mod 4294967296)) by (unfold is_u32, category_encode; lia).
  rewrite (be_words (opt_or0 model)) by (unfold is_u32; lia).
  rewrite (be_words (opt_or0 data / 4294967296)) by (unfold is_u32; lia).
  rewrite <- (app_nil_r (be_bytes32 (opt_or0 data mod 4294967296))). rewrite (be_words (opt_or0 data mod 4294967296)) by (unfold is_u32; lia).
  cbn [words_be words8_of_list].
  replace (category_encode cat / 4294967296) with (category_code cat) by (unfold category_encode; lia).
  replace (category_encode cat mod 4294967296) with (type_code cat) by (unfold category_encode; lia).
  change (2 ^ 32) with 4294967296. destruct model, data; reflexivity.
Qed.
(** Nothing is lost, except that "no model" and "no data" look like model 0 and data 0. *)
Lemma P_C54_injective : forall a b w, metadata_wf a -> metadata_wf b -> metadata_encode a = Ret w -> metadata_encode b = Ret w ->
  md_hw_id a = md_hw_id b /\ md_size a = md_size b /\ md_category a = md_category b /\
  opt_or0 (md_model a) = opt_or0 (md_model b) /\ opt_or0 (md_data a) = opt_or0 (md_data b).
Proof.
  intros a b w Ha Hb Ea Eb. rewrite P_C54_layout in Ea by auto. rewrite P_C54_layout in Eb by auto. rewrite <- Eb in Ea. injection Ea as E1 E2 E3 E4 E5 E6 E7 E8.
  destruct Ha as (Ha1 & Ha2 & Ha3 & Ha4 & Ha5), Hb as (Hb1 & Hb2 & Hb3 & Hb4 & Hb5). unfold is_u64 in *. change (2 ^ 32) with 4294967296 in *.
  repeat split; auto.
  - lia.
  - apply P_C55_injective; auto. unfold category_encode. lia.
  - destruct (md_data a), (md_data b); cbn [opt_wf opt_or0] in *; unfold is_u64 in *; lia.
Qed.
(** The constructor refuses (by panicking) exactly the sizes that are not a multiple of 4; otherwise what it builds is encoded in full. *)
Lemma P_C54_new : forall id size c model data, is_u64 id -> is_u32 size -> category_wf c -> opt_wf is_u32 model -> opt_wf is_u64 data ->
  (metadata_new id size c model data = Panic <-> ~ (Z.divide 4 size)) /\ ((Z.divide 4 size) -> obind (metadata_new id size c model data) metadata_encode =
     Ret (W8 (id / 2 ^ 32) (id mod 2 ^ 32) size (category_code c) (type_code c) (opt_or0 model) (opt_or0 data / 2 ^ 32) (opt_or0 data mod 2 ^ 32))).
Proof.
  intros id size c model data H1 H2 H3 H4 H5. unfold metadata_new. destruct (Z.eqb_spec (size mod 4) 0) as [E|E].
  - apply Z.mod_divide in E; [|lia]. split; [split; [discriminate|tauto]|]. intros _. cbn [obind]. rewrite P_C54_layout; [|unfold metadata_wf; cbn [md_hw_id md_size md_category md_model md_data]; auto 10].
    unfold metadata_words. cbn [md_hw_id md_size md_category md_model md_data]. destruct model, data; reflexivity.
  - rewrite Z.mod_divide in E by lia. split; [tauto|]. tauto.
Qed.
(** Setting the size changes the third word and nothing else. *)
Lemma P_C54_set_size : forall md size w, metadata_wf md -> is_u32 size -> metadata_encode md = Ret w ->
  metadata_encode (metadata_set_size md size) = Ret (W8 (w0 w) (w1 w) size (w3 w) (w4 w) (w5 w) (w6 w) (w7 w)).
Proof.
  intros md size w Hm Hs E. rewrite P_C54_layout in E by exact Hm. apply (f_equal (fun o => match o with Ret x => x | Panic => w end)) in E. subst w.
  assert (W : metadata_wf (metadata_set_size md size)) by (destruct Hm as (A & _ & B); split; [exact A|split; [exact Hs|exact B]]). rewrite P_C54_layout by exact W. reflexivity.
Qed.
Lemma E_C54_set_size : metadata_encode (metadata_set_size (Metadata (2 ^ 33 + 5) 64 (CatMemory TRam) (Some 3) None) 128) = Ret (W8 2 5 128 135168 256 3 0 0).
Proof. vm_compute. reflexivity. Qed.
(** A motherboard knows each component by the identifier and size of its metadata. *)
Lemma P_C54_board : forall D (ops : bus_ops D) ds m k d md, typed ops -> board_new ops ds = Ret m -> nth_error ds k = Some d ->
  bo_metadata ops d = metadata_encode md -> metadata_wf md ->
  hw_id_of (c_hwb m) (Z.of_nat k) = Some (md_hw_id md) /\ size_of (c_hwb m) (Z.of_nat k) = Some (md_size md).
Proof.
  intros D ops ds m k d md Ht H Hk Hb Hm. apply board_new_spec in H; [|exact Ht]. destruct H as (_ & _ & E & _ & _ & _ & H).
  assert (X : exists e, znth (c_hwb m) (Z.of_nat k) = Some e /\ ae_dev e = d).
  { rewrite znth_nth by lia. rewrite Nat2Z.id. rewrite <- E in Hk. rewrite nth_error_map in Hk.
    destruct (nth_error (c_hwb m) k) as [e|]; [|discriminate]. injection Hk as <-. eauto. }
  destruct X as (e & He & <-). destruct (H _ _ He) as (w & Hw & Hc). rewrite Hb, P_C54_layout in Hw by auto. injection Hw as <-.
  unfold hw_id_of, size_of, cache_of. rewrite He. cbn [option_map]. rewrite Hc. cbn [ac_hw_id ac_size w0 w1 w2 metadata_words].
  split; [|reflexivity]. f_equal. change (2 ^ 32) with 4294967296. lia.
Qed.
Lemma E_C54_layout : metadata_wf (Metadata (2 ^ 33 + 5) 64 (CatMemory TRam) (Some 3) None) /\
  metadata_encode (Metadata (2 ^ 33 + 5) 64 (CatMemory TRam) (Some 3) None) = Ret (W8 2 5 64 135168 256 3 0 0).
Proof. split; [|vm_compute; reflexivity]. unfold metadata_wf, opt_wf, category_wf, is_u64, is_u32. cbn. lia. Qed.

(* Concrete cases for the theorems above that have none beside them. *)
Lemma E_C49_decode : is_u32 (2 ^ 24 + 160 * 2 ^ 16 + 33 * 2 ^ 8) /\
  native_decode_with_mode (2 ^ 24 + 160 * 2 ^ 16 + 33 * 2 ^ 8) = Some (NHardwareException MemoryNotReadable, true) /\
  native_decode_with_mode (2 ^ 16 * 2 + 65535) = Some (NUnknownRegister 255, false) /\ native_decode_with_mode (99 * 2 ^ 16) = None.
Proof. vm_compute. repeat split; congruence. Qed.
Lemma E_C51_roundtrip : let m := DivMode DSigned ZEqToMax OEqToZero in div_mode_decode (div_mode_encode m) <> None /\ div_mode_decode (div_mode_encode m) <> Some m.
Proof. vm_compute. split; congruence. Qed.
Lemma E_C51_same : no_zero_max (DivMode DSigned ZEqToMin OEqToZero) /\ div_mode_encode (DivMode DSigned ZEqToMin OEqToZero) <> 0.
Proof. split; [discriminate|]. vm_compute. discriminate. Qed.
Lemma E_C51_injective : div_mode_encode (DivMode DSigned ZEqToMax OEqToZero) <> div_mode_encode (DivMode DSigned ZEqToMin OEqToZero).
Proof. vm_compute. congruence. Qed.
Lemma E_C55_decode : is_u64 (139264 * 2 ^ 32 + 17) /\ category_decode (139264 * 2 ^ 32 + 17) = Some (CatStorage TFlash) /\
  category_encode (CatStorage TFlash) = 139264 * 2 ^ 32 + 17 /\ is_u64 (4294967295 * 2 ^ 32 + 18) /\ category_encode CatUncategorized <> 4294967295 * 2 ^ 32 + 18.
Proof. vm_compute. repeat split; congruence. Qed.
Lemma E_C55_injective : category_wf (CatPlatform 42) /\ category_wf (CatStorage TFlash) /\ category_encode (CatPlatform 42) <> category_encode (CatStorage TFlash).
Proof. vm_compute. repeat split; congruence. Qed.
(** Only the difference between an absent model and model 0 is lost. *)
Lemma E_C54_injective : let a := Metadata (2 ^ 33 + 5) 64 (CatMemory TRam) (Some 0) None in let b := Metadata (2 ^ 33 + 5) 64 (CatMemory TRam) None (Some 0) in
  a <> b /\ metadata_wf a /\ metadata_wf b /\ exists w, metadata_encode a = Ret w /\ metadata_encode b = Ret w.
Proof. split; [discriminate|]. split; [|split; [|eexists; split; vm_compute; reflexivity]]; unfold metadata_wf, opt_wf, category_wf, is_u64, is_u32; cbn; lia. Qed.
Lemma E_C54_new : is_u64 (2 ^ 33 + 5) /\ is_u32 64 /\ category_wf (CatPlatform 42) /\ opt_wf is_u32 (Some 3) /\ opt_wf is_u64 None /\ Z.divide 4 64 /\ ~ Z.divide 4 66.
Proof. unfold opt_wf, is_u64, is_u32. cbn. repeat split; try lia. - exists 16. reflexivity. - intros [q H]. lia. Qed.
Lemma E_C54_board : exists (ops : bus_ops bool) m, let md := Metadata (2 ^ 33 + 5) 64 (CatMemory TRam) (Some 3) None in
  typed ops /\ board_new ops [false; true] = Ret m /\ nth_error [false; true] 1 = Some true /\ bo_metadata ops true = metadata_encode md /\ metadata_wf md /\
  hw_id_of (c_hwb m) 0 = Some 1.
Proof.
  exists {| bo_name := fun _ => []; bo_metadata := fun d : bool => Ret (if d then W8 2 5 64 135168 256 3 0 0 else W8 0 1 32 135168 256 3 0 0);
     bo_read := fun d _ => Ret (d, 0, 0); bo_write := fun d _ _ => Ret (d, 0); bo_reset := fun d => Ret d |}.
  eexists. cbv zeta. split.
  - split; cbn.
    + intros d off d' ex v E. injection E as <- <- <-. split; [unfold is_u16; lia|unfold is_u32; lia].
    + intros d off w d' ex E. injection E as <- <-. unfold is_u16; lia.
    + intros d md E. injection E as <-. destruct d; cbn; unfold is_u32; repeat split; lia.
    + intros d. constructor.
  - split; [vm_compute; reflexivity|]. split; [reflexivity|]. split; [vm_compute; reflexivity|]. split; [|reflexivity].
    unfold metadata_wf, opt_wf, category_wf, is_u64, is_u32; cbn; lia.
Qed.
