(** Lemmas about Base.v: machine arithmetic, bits, lists. *)
From Coq Require Import ZArith List Bool Lia ZArith.Zquot.
From Verif Require Import Base.
Import ListNotations.
Open Scope Z_scope.
Ltac Zify.zify_post_hook ::= Z.div_mod_to_equations.

Lemma u32_range x : is_u32 (u32 x).
Proof. unfold is_u32, u32. lia. Qed.
Lemma u16_range x : is_u16 (u16 x).
Proof. unfold is_u16, u16. lia. Qed.
Lemma u8_range x : is_u8 (u8 x).
Proof. unfold is_u8, u8. lia. Qed.
Lemma u32_id x : is_u32 x -> u32 x = x.
Proof. unfold is_u32, u32. intros. apply Z.mod_small. lia. Qed.
Lemma u16_id x : is_u16 x -> u16 x = x.
Proof. unfold is_u16, u16. intros. apply Z.mod_small. lia. Qed.
Lemma u8_id x : is_u8 x -> u8 x = x.
Proof. unfold is_u8, u8. intros. apply Z.mod_small. lia. Qed.

Lemma i32_signed x : is_u32 x -> i32 x = if x <? 2147483648 then x else x - 4294967296.
Proof. intros H. unfold i32. rewrite u32_id; auto. Qed.

(** Checked and wrapping arithmetic. *)
Lemma add_u32_release a b : 0 <= a -> 0 <= b -> add_u32 false a b = Ret (u32 (a + b)).
Proof.
  intros. unfold add_u32. destruct (Z.ltb_spec (a + b) 4294967296); auto.
  unfold u32. rewrite Z.mod_small; auto; lia.
Qed.
Lemma mul_u32_release a b : 0 <= a -> 0 <= b -> mul_u32 false a b = Ret (u32 (a * b)).
Proof.
  intros. unfold mul_u32. destruct (Z.ltb_spec (a * b) 4294967296); auto.
  unfold u32. rewrite Z.mod_small; auto; nia.
Qed.
Lemma sub_u32_release a b : a < 4294967296 -> 0 <= b -> sub_u32 false a b = Ret (u32 (a - b)).
Proof.
  intros. unfold sub_u32. destruct (Z.leb_spec b a); auto.
  unfold u32. rewrite Z.mod_small; auto; lia.
Qed.
Lemma shl1_release n : 0 <= n -> shl1_u32 false n = Ret (2 ^ (n mod 32)).
Proof.
  intros. unfold shl1_u32. destruct (Z.ltb_spec n 32); auto.
  rewrite Z.mod_small; auto; lia.
Qed.

Lemma add_u32_mono a b c : add_u32 true a b = Ret c -> add_u32 false a b = Ret c.
Proof. unfold add_u32. destruct (a + b <? 4294967296); congruence. Qed.
Lemma sub_u32_mono a b c : sub_u32 true a b = Ret c -> sub_u32 false a b = Ret c.
Proof. unfold sub_u32. destruct (b <=? a); congruence. Qed.
Lemma mul_u32_mono a b c : mul_u32 true a b = Ret c -> mul_u32 false a b = Ret c.
Proof. unfold mul_u32. destruct (a * b <? 4294967296); congruence. Qed.
Lemma shl1_u32_mono n c : shl1_u32 true n = Ret c -> shl1_u32 false n = Ret c.
Proof. unfold shl1_u32. destruct (n <? 32); congruence. Qed.
Lemma add_u32_range oc a b c : 0 <= a -> 0 <= b -> add_u32 oc a b = Ret c -> is_u32 c.
Proof.
  unfold add_u32. intros ? ?. destruct (Z.ltb_spec (a + b) 4294967296).
  - intros E; injection E as <-. unfold is_u32; lia.
  - destruct oc; try congruence. intros E; injection E as <-. apply u32_range.
Qed.
Lemma sub_u32_range oc a b c : a < 4294967296 -> 0 <= b -> sub_u32 oc a b = Ret c -> is_u32 c.
Proof.
  unfold sub_u32. intros ? ?. destruct (Z.leb_spec b a).
  - intros E; injection E as <-. unfold is_u32; lia.
  - destruct oc; try congruence. intros E; injection E as <-. apply u32_range.
Qed.

(** Single-bit tests. *)
Lemma land_pow2_zero x n : 0 <= n -> (Z.land x (2 ^ n) =? 0) = negb (Z.testbit x n).
Proof.
  intros Hn.
  destruct (Z.testbit x n) eqn:E; cbn.
  - apply Z.eqb_neq. intros H.
    assert (Z.testbit (Z.land x (2 ^ n)) n = false) by (rewrite H; apply Z.bits_0).
    rewrite Z.land_spec, Z.pow2_bits_true, E in H0; cbn in H0; congruence.
  - apply Z.eqb_eq. apply Z.bits_inj'. intros k Hk.
    rewrite Z.land_spec, Z.bits_0.
    destruct (Z.eq_dec k n).
    + subst. rewrite E. reflexivity.
    + rewrite Z.pow2_bits_false; auto with zarith. apply andb_false_r.
Qed.

Lemma land_shiftl1_zero x n : 0 <= n -> (Z.land x (Z.shiftl 1 n) =? 0) = negb (Z.testbit x n).
Proof. intros. rewrite Z.shiftl_mul_pow2, Z.mul_1_l; auto. apply land_pow2_zero; auto. Qed.

Lemma land_shiftl1_one x n : 0 < n -> (Z.land x (Z.shiftl 1 n) =? 1) = false.
Proof.
  intros H. apply Z.eqb_neq. intros E.
  assert (T : Z.testbit (Z.land x (Z.shiftl 1 n)) 0 = true) by (rewrite E; reflexivity).
  rewrite Z.land_spec, Z.shiftl_spec_low in T by lia.
  rewrite andb_false_r in T. discriminate.
Qed.

Lemma land_mod x n k : 0 <= k -> n = 2 ^ k -> Z.land x (n - 1) = x mod n.
Proof. intros Hk ->. rewrite <- Z.sub_1_r || idtac. rewrite <- Z.land_ones by auto.
  rewrite Z.ones_equiv. f_equal. Qed.

Lemma land_255 x : Z.land x 255 = x mod 256.
Proof. apply (land_mod x 256 8); lia. Qed.
Lemma land_1023 x : Z.land x 1023 = x mod 1024.
Proof. apply (land_mod x 1024 10); lia. Qed.
Lemma land_15 x : Z.land x 15 = x mod 16.
Proof. apply (land_mod x 16 4); lia. Qed.
Lemma land_1 x : Z.land x 1 = x mod 2.
Proof. apply (land_mod x 2 1); lia. Qed.

Lemma land_nonneg_r a b : 0 <= b -> 0 <= Z.land a b.
Proof. intros; apply Z.land_nonneg; auto. Qed.

(** Bitwise operations stay inside [u32]. *)
Lemma u32_bits x : is_u32 x <-> (0 <= x /\ forall n, 32 <= n -> Z.testbit x n = false).
Proof.
  unfold is_u32. split.
  - intros H; split; [lia|]. intros n Hn.
    destruct (Z.eq_dec x 0) as [->|]; [apply Z.bits_0|].
    apply Z.bits_above_log2; [lia|].
    assert (Z.log2 x < 32); [|lia].
    apply Z.log2_lt_pow2; [lia|]. change (2 ^ 32) with 4294967296; lia.
  - intros [H0 H]. split; auto.
    destruct (Z.lt_ge_cases x 4294967296); auto.
    exfalso.
    assert (32 <= Z.log2 x) by (apply Z.log2_le_pow2; [lia|]; change (2 ^ 32) with 4294967296; lia).
    specialize (H _ H2). rewrite Z.bit_log2 in H; [discriminate|lia].
Qed.
Lemma land_u32 a b : is_u32 a -> is_u32 b -> is_u32 (Z.land a b).
Proof.
  rewrite !u32_bits. intros [? A] [? B]; split; [apply Z.land_nonneg; auto|].
  intros; rewrite Z.land_spec, A; auto.
Qed.
Lemma lor_u32 a b : is_u32 a -> is_u32 b -> is_u32 (Z.lor a b).
Proof.
  rewrite !u32_bits. intros [? A] [? B]; split; [apply Z.lor_nonneg; auto|].
  intros; rewrite Z.lor_spec, A, B; auto.
Qed.
Lemma lxor_u32 a b : is_u32 a -> is_u32 b -> is_u32 (Z.lxor a b).
Proof.
  rewrite !u32_bits. intros [? A] [? B]; split; [apply Z.lxor_nonneg; tauto|].
  intros; rewrite Z.lxor_spec, A, B; auto.
Qed.
Lemma shiftr_u32 a n : is_u32 a -> 0 <= n -> is_u32 (Z.shiftr a n).
Proof.
  unfold is_u32. intros. rewrite Z.shiftr_div_pow2 by auto.
  assert (0 < 2 ^ n) by (apply Z.pow_pos_nonneg; lia).
  split. { apply Z.div_pos; lia. }
  apply Z.le_lt_trans with a; [|lia]. apply Z.div_le_upper_bound; auto. nia.
Qed.

Lemma be_of_bytes a b c d : is_u8 a -> is_u8 b -> is_u8 c -> is_u8 d -> is_u32 (of_be4 a b c d).
Proof. unfold is_u8, is_u32, of_be4. lia. Qed.
Lemma of_be2_range a b : is_u8 a -> is_u8 b -> is_u16 (of_be2 a b).
Proof. unfold is_u8, is_u16, of_be2. lia. Qed.

(** [znth], [zset], [zlen]. *)
Lemma zlen_nonneg {A} (l : list A) : 0 <= zlen l.
Proof. unfold zlen; lia. Qed.
Lemma zlen_cons {A} (x : A) l : zlen (x :: l) = zlen l + 1.
Proof. unfold zlen; cbn [length]; lia. Qed.
Lemma zlen_app {A} (l l' : list A) : zlen (l ++ l') = zlen l + zlen l'.
Proof. unfold zlen; rewrite app_length; lia. Qed.
Lemma znth_nth {A} (l : list A) i : 0 <= i -> znth l i = nth_error l (Z.to_nat i).
Proof.
  revert i; induction l as [|x t IH]; intros i Hi; cbn [znth].
  - destruct (Z.to_nat i); reflexivity.
  - destruct (Z.eqb_spec i 0) as [->|].
    + reflexivity.
    + rewrite IH by lia. replace (Z.to_nat i) with (S (Z.to_nat (i - 1))) by lia. reflexivity.
Qed.
Lemma znth_some {A} (l : list A) i : 0 <= i < zlen l -> exists x, znth l i = Some x.
Proof.
  intros H. rewrite znth_nth by lia. destruct (nth_error l (Z.to_nat i)) eqn:E; eauto.
  apply nth_error_None in E. unfold zlen in H; lia.
Qed.
Lemma znth_none {A} (l : list A) i : zlen l <= i -> znth l i = None.
Proof. intros H. pose proof (zlen_nonneg l). rewrite znth_nth by lia. apply nth_error_None. unfold zlen in H; lia. Qed.
Lemma znth_neg {A} (l : list A) i : i < 0 -> znth l i = None.
Proof.
  revert i; induction l; intros; cbn [znth]; auto.
  destruct (Z.eqb_spec i 0); [lia|]. apply IHl; lia.
Qed.
Lemma znth_bound {A} (l : list A) i x : znth l i = Some x -> 0 <= i < zlen l.
Proof.
  intros H. destruct (Z.lt_ge_cases i 0). { rewrite znth_neg in H; congruence. }
  destruct (Z.lt_ge_cases i (zlen l)); auto. rewrite znth_none in H; congruence.
Qed.
Lemma znth_In {A} (l : list A) i x : znth l i = Some x -> In x l.
Proof. intros H. pose proof (znth_bound _ _ _ H). rewrite znth_nth in H by lia. eapply nth_error_In; eauto. Qed.
Lemma zset_some {A} (l : list A) i v : 0 <= i < zlen l -> exists l', zset l i v = Some l'.
Proof.
  revert i; induction l as [|x t IH]; intros i H; cbn [zset].
  - unfold zlen in H; cbn in H; lia.
  - destruct (Z.eqb_spec i 0); eauto.
    rewrite zlen_cons in H. destruct (IH (i - 1)) as [l' ->]; [lia|]. eauto.
Qed.
Lemma zset_length {A} (l : list A) i v l' : zset l i v = Some l' -> length l' = length l.
Proof.
  revert i l'; induction l as [|x t IH]; intros i l'; cbn [zset]; [congruence|].
  destruct (i =? 0). { intros E; injection E as <-; reflexivity. }
  destruct (zset t (i - 1) v) eqn:E; [|congruence]. intros E'; injection E' as <-.
  cbn; f_equal; eauto.
Qed.
Lemma zset_get {A} (l : list A) i v l' j :
  zset l i v = Some l' -> znth l' j = if j =? i then Some v else znth l j.
Proof.
  revert i l' j; induction l as [|x t IH]; intros i l' j; cbn [zset]; [congruence|].
  destruct (Z.eqb_spec i 0).
  { intros E; injection E as <-. subst. cbn [znth]. destruct (j =? 0); auto. }
  destruct (zset t (i - 1) v) eqn:E; [|congruence]. intros E'; injection E' as <-.
  cbn [znth]. destruct (Z.eqb_spec j 0).
  - subst. destruct (Z.eqb_spec 0 i); [lia|auto].
  - rewrite (IH _ _ _ E). destruct (Z.eqb_spec j i), (Z.eqb_spec (j - 1) (i - 1)); auto; lia.
Qed.
Lemma zset_bound {A} (l : list A) i v l' : zset l i v = Some l' -> 0 <= i < zlen l.
Proof.
  revert i l'; induction l as [|x t IH]; intros i l'; cbn [zset]; [congruence|].
  pose proof (zlen_nonneg t). rewrite zlen_cons.
  destruct (Z.eqb_spec i 0); [lia|].
  destruct (zset t (i - 1) v) eqn:E; [|congruence]. apply IH in E. lia.
Qed.

Lemma zrange_length n : length (zrange n) = n.
Proof. unfold zrange. rewrite map_length, seq_length. reflexivity. Qed.
