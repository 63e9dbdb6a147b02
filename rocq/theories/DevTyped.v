(** The components of lrvm_aux satisfy what their Rust types promise. *)
From Coq Require Import String Ascii ZArith List Bool Lia.
From Verif Require Import Base Board Mem Cpu Asm Tools Devices SpecMach BaseFacts MemFacts.
Import ListNotations.
Open Scope Z_scope.
Ltac Zify.zify_post_hook ::= Z.div_mod_to_equations.

Lemma obind_inv {A B} (x : outcome A) (f : A -> outcome B) b :
  obind x f = Ret b -> exists a, x = Ret a /\ f a = Ret b.
Proof. destruct x; cbn; [eauto|discriminate]. Qed.

Lemma b2w_aux (bytes : list Z) : forall i w ws w' ws', Forall is_u8 bytes -> 0 <= i ->
  0 <= w -> w mod 2 ^ ((4 - i mod 4) * 8) = 0 -> is_u32 w -> Forall is_u32 ws ->
  b2w_loop i w ws bytes = (w', ws') -> is_u32 w' /\ Forall is_u32 ws'.
Proof.
  induction bytes as [|b t IH]; intros i w ws w' ws' HF Hi Hw Hm Hu Hws; cbn [b2w_loop].
  { intros E; inversion E; subst; auto. }
  inversion HF as [|? ? Hb Ht]; subst. unfold is_u8, is_u32 in *.
  rewrite Z.shiftl_mul_pow2 by lia.
  assert (C : i mod 4 = 0 \/ i mod 4 = 1 \/ i mod 4 = 2 \/ i mod 4 = 3) by lia.
  destruct C as [C|[C|[C|C]]]; rewrite C in *.
  1:change (2 ^ ((4 - 0) * 8)) with 4294967296 in *; change (2 ^ ((3 - 0) * 8)) with 16777216; change (0 =? 3) with false; cbv iota.
  2:change (2 ^ ((4 - 1) * 8)) with 16777216 in *; change (2 ^ ((3 - 1) * 8)) with 65536; change (1 =? 3) with false; cbv iota.
  3:change (2 ^ ((4 - 2) * 8)) with 65536 in *; change (2 ^ ((3 - 2) * 8)) with 256; change (2 =? 3) with false; cbv iota.
  4:change (2 ^ ((4 - 3) * 8)) with 256 in *; change (2 ^ ((3 - 3) * 8)) with 1; change (3 =? 3) with true; cbv iota.
  - apply IH; auto; try lia. replace ((i + 1) mod 4) with 1 by lia. change (2 ^ ((4 - 1) * 8)) with 16777216. lia.
  - apply IH; auto; try lia. replace ((i + 1) mod 4) with 2 by lia. change (2 ^ ((4 - 2) * 8)) with 65536. lia.
  - apply IH; auto; try lia. replace ((i + 1) mod 4) with 3 by lia. change (2 ^ ((4 - 3) * 8)) with 256. lia.
  - apply IH; auto; try lia. constructor; auto. lia.
Qed.

Lemma bytes_to_words_u32 bytes : Forall is_u8 bytes -> Forall is_u32 (bytes_to_words bytes).
Proof.
  intros H. unfold bytes_to_words. destruct (b2w_loop 0 0 [] bytes) as [w ws] eqn:E.
  apply b2w_aux in E; auto; try (unfold is_u32; lia). destruct E.
  apply Forall_rev. destruct (negb _); auto. constructor; auto. apply u32_range.
Qed.

Lemma be32_u8 w : Forall is_u8 (be_bytes32 w).
Proof. unfold be_bytes32. repeat constructor; apply u8_range. Qed.
Lemma be64_u8 w : Forall is_u8 (be_bytes64 w).
Proof. unfold be_bytes64. apply Forall_app; split; apply be32_u8. Qed.

Lemma metadata_u32 md ws : metadata_encode md = Ret ws ->
  is_u32 (w0 ws) /\ is_u32 (w1 ws) /\ is_u32 (w2 ws) /\ is_u32 (w3 ws) /\
  is_u32 (w4 ws) /\ is_u32 (w5 ws) /\ is_u32 (w6 ws) /\ is_u32 (w7 ws).
Proof.
  unfold metadata_encode.
  assert (H : Forall is_u32 (bytes_to_words (metadata_to_bytes md))).
  { apply bytes_to_words_u32. unfold metadata_to_bytes.
    repeat (apply Forall_app; split); auto using be32_u8, be64_u8. }
  unfold words8_of_list.
  destruct (bytes_to_words _) as [|a [|b [|c [|d [|e [|f [|g [|h [|? ?]]]]]]]]]; try discriminate.
  intros E; inversion E; subst; cbn.
  repeat match goal with H : Forall _ (_ :: _) |- _ => inversion H; subst; clear H end. tauto.
Qed.

Lemma chars_scalar s : Forall scalar (chars s).
Proof.
  unfold chars. apply Forall_map. apply Forall_forall. intros c _. left.
  assert (N_of_ascii c < 256)%N by apply N_ascii_bounded. lia.
Qed.

Lemma dev_typed oc : typed (dev_ops oc).
Proof.
  assert (WR : forall A (f : A -> device) x d ex v, wrap_r f x = Ret (d, ex, v) -> is_u16 ex /\ is_u32 v).
  { intros A f x d ex v E. unfold wrap_r in E. apply obind_inv in E. destruct E as ([[d0 ex0] v0] & _ & E).
    inversion E; subst. split; [apply u16_range|apply u32_range]. }
  assert (WW : forall A (f : A -> device) x d ex, wrap_w f x = Ret (d, ex) -> is_u16 ex).
  { intros A f x d ex E. unfold wrap_w in E. apply obind_inv in E. destruct E as ([d0 ex0] & _ & E).
    inversion E; subst. apply u16_range. }
  assert (MM : forall x md, obind x metadata_encode = Ret md ->
      is_u32 (w0 md) /\ is_u32 (w1 md) /\ is_u32 (w2 md) /\ is_u32 (w3 md) /\
      is_u32 (w4 md) /\ is_u32 (w5 md) /\ is_u32 (w6 md) /\ is_u32 (w7 md)).
  { intros x md E. apply obind_inv in E. destruct E as (m & _ & E). eapply metadata_u32; eauto. }
  constructor.
  - intros d off d' ex v. cbn [bo_read dev_ops]. destruct d; apply WR.
  - intros d off w d' ex. cbn [bo_write dev_ops]. destruct d; apply WW.
  - intros d md. cbn [bo_metadata dev_ops].
    destruct d; unfold sm_metadata, br_metadata, fm_metadata, nd_metadata, cd_metadata, bd_metadata,
      ck_metadata, lk_metadata, rc_metadata, dbg_metadata; intros E;
      repeat first [apply MM in E; exact E | apply obind_inv in E; destruct E as (? & ? & E)].
  - intros d. cbn [bo_name dev_ops]. apply chars_scalar.
Qed.
