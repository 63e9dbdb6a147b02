(** The model's [compute] against the ALU specification. *)
From Coq Require Import ZArith List Bool Lia.
From Verif Require Import Base Board Mem Cpu Asm SpecMach SpecIsa BaseFacts RegFacts.
Import ListNotations.
Open Scope Z_scope.
Ltac Zify.zify_post_hook ::= Z.div_mod_to_equations.

Definition op_of_alu (a : alu) : op :=
  match a with
  | AAdd => OpAdd | ASub => OpSub | AMul => OpMul | AAnd => OpAnd | ABor => OpBor | AXor => OpXor
  | AShl => OpShl | AShr => OpShr
  | ADiv mode => OpDiv (u8 (Z.land mode 255)) | AMod mode => OpMod (u8 (Z.land mode 255))
  end.

Definition all_bytes : list Z := zrange 256.
Lemma in_all_bytes x : is_u8 x -> In x all_bytes.
Proof.
  intros H. unfold all_bytes, zrange. apply in_map_iff. exists (Z.to_nat x).
  unfold is_u8 in H. split; [lia|]. apply in_seq. lia.
Qed.

Definition mode_check (m : Z) : bool :=
  (Z.shiftr (Z.land m 12) 2 =? (if Z.testbit m 3 then 2 else 0) + (if Z.testbit m 2 then 1 else 0))
  && (Z.shiftr (Z.land m 3) 2 =? 0)
  && Bool.eqb (Z.land m 16 =? 0) (negb (Z.testbit m 4)).
Lemma mode_facts m : is_u8 m ->
  Z.shiftr (Z.land m 12) 2 = (if Z.testbit m 3 then 2 else 0) + (if Z.testbit m 2 then 1 else 0) /\
  Z.shiftr (Z.land m 3) 2 = 0 /\ (Z.land m 16 =? 0) = negb (Z.testbit m 4).
Proof.
  intros H. apply in_all_bytes in H.
  assert (C : forallb mode_check all_bytes = true) by (vm_compute; reflexivity).
  rewrite forallb_forall in C. specialize (C _ H). unfold mode_check in C.
  apply andb_true_iff in C. destruct C as (C & C3). apply andb_true_iff in C. destruct C as (C1 & C2).
  apply Z.eqb_eq in C1, C2. apply eqb_prop in C3. auto.
Qed.
Lemma mode_low m n : 0 <= n < 8 -> Z.testbit (u8 (Z.land m 255)) n = Z.testbit m n.
Proof.
  intros H. rewrite land_255. unfold u8. rewrite Zmod_mod.
  change 256 with (2 ^ 8). apply Z.mod_pow2_bits_low. lia.
Qed.

Lemma fits_eq x : i32_fits x = fits_signed x.
Proof.
  unfold i32_fits, fits_signed. f_equal.
  destruct (Z.leb_spec x 2147483647), (Z.ltb_spec x 2147483648); auto; lia.
Qed.
Lemma signed_i32 x : is_u32 x -> i32 x = signed x.
Proof. intros; unfold signed; apply i32_signed; auto. Qed.
Lemma signed_mod x : signed x mod 4294967296 = x mod 4294967296.
Proof.
  unfold signed. destruct (x <? 2147483648); auto.
  replace (x - 4294967296) with (x + -1 * 4294967296) by lia. apply Z.mod_add; lia.
Qed.
Lemma signed_zero x : is_u32 x -> (signed x =? 0) = (x =? 0).
Proof.
  unfold is_u32, signed; intros.
  destruct (Z.ltb_spec x 2147483648); auto.
  destruct (Z.eqb_spec (x - 4294967296) 0), (Z.eqb_spec x 0); auto; lia.
Qed.

Lemma compute_core_spec a x y : is_u32 x -> is_u32 y ->
  compute_core x y (op_of_alu a) =
    match alu_spec a x y with AluOk r c o => inl (r, c, o) | AluFault code => inr code end.
Proof.
  intros Hx Hy.
  assert (Hdiv : forall is_div mode,
    (let signed' := negb (Z.land (u8 (Z.land mode 255)) 16 =? 0) in
     if i32 y =? 0 then
      match Z.shiftr (Z.land (u8 (Z.land mode 255)) 12) 2 with
      | 0 => inr 10
      | 1 => inl (2147483648, true, true)
      | 2 => inl (0, true, true)
      | _ => inl (2147483647, true, true)
      end
    else if signed' && (i32 x =? -2147483648) && (i32 y =? -1) then
      match Z.shiftr (Z.land (u8 (Z.land mode 255)) 3) 2 with
      | 0 => inr 11
      | 1 => inl (2147483648, true, true)
      | 2 => inl (0, true, true)
      | _ => inl (2147483647, true, true)
      end
    else
      match is_div, signed' with
      | true, true => inl (u32 (Z.quot (i32 x) (i32 y)), false, false)
      | false, true => inl (u32 (Z.rem (i32 x) (i32 y)), false, false)
      | true, false => inl (x / y, false, false)
      | false, false => inl (x mod y, false, false)
      end) = match divide is_div mode x y with AluOk r c o => inl (r, c, o) | AluFault code => inr code end).
  { intros is_div mode.
    destruct (mode_facts (u8 (Z.land mode 255)) (u8_range _)) as (M1 & M2 & M3).
    cbv zeta. rewrite M1, M2, M3, !mode_low, negb_involutive, !signed_i32 by (auto; lia).
    rewrite signed_zero by auto. unfold divide, by_zero.
    destruct (y =? 0).
    - destruct (Z.testbit mode 3), (Z.testbit mode 2); reflexivity.
    - destruct (Z.testbit mode 4); cbn [andb].
      + destruct ((signed x =? -2147483648) && (signed y =? -1)); auto. destruct is_div; auto.
      + destruct is_div; auto. }
  destruct a; cbn [op_of_alu compute_core alu_spec].
  - rewrite !signed_i32, fits_eq by auto. reflexivity.
  - rewrite !signed_i32, fits_eq by auto. reflexivity.
  - rewrite !signed_i32, fits_eq by auto. unfold u32, m32.
    rewrite Z.mul_mod, !signed_mod, <- Z.mul_mod by lia. reflexivity.
  - reflexivity.
  - reflexivity.
  - reflexivity.
  - rewrite Z.shiftl_mul_pow2 by lia. reflexivity.
  - rewrite Z.shiftr_div_pow2 by lia. reflexivity.
  - exact (Hdiv true mode).
  - exact (Hdiv false mode).
Qed.

Lemma ctz_S f x : ctz_fuel (S f) x = if Z.odd x then 0 else 1 + ctz_fuel f (x / 2).
Proof. reflexivity. Qed.
Lemma ctz_odd x : Z.odd x = true -> trailing_zeros x = 0.
Proof. intros H. unfold trailing_zeros. rewrite ctz_S, H. reflexivity. Qed.
Lemma ctz_nonneg f x : 0 <= ctz_fuel f x.
Proof. revert x; induction f; intros; [cbn; lia|rewrite ctz_S]. destruct (Z.odd x); [lia|]. specialize (IHf (x / 2)). lia. Qed.
Lemma ctz_even x : Z.odd x = false -> trailing_zeros x <> 0.
Proof.
  intros H. unfold trailing_zeros. rewrite ctz_S, H.
  pose proof (ctz_nonneg 31 (x / 2)). lia.
Qed.

Lemma flags_of_spec r c o : is_u32 r -> flags_of r c o = flags_spec r c o.
Proof.
  intros H. unfold flags_of, flags_spec. cbn [flags_sum].
  assert (E1 : (Z.land (Z.shiftr r 31) 1 =? 1) = (2147483648 <=? r)).
  { rewrite land_1, Z.shiftr_div_pow2 by lia. change (2 ^ 31) with 2147483648. unfold is_u32 in H.
    destruct (Z.eqb_spec ((r / 2147483648) mod 2) 1), (Z.leb_spec 2147483648 r); auto; lia. }
  assert (E2 : (Z.land r 1 =? 0) = Z.even r).
  { rewrite land_1, Zmod_even. destruct (Z.even r); reflexivity. }
  assert (E3 : (r <=? 65535) = (r <? 65536)).
  { destruct (Z.leb_spec r 65535), (Z.ltb_spec r 65536); auto; lia. }
  assert (E4 : (trailing_zeros (Z.shiftr r 16) =? 0) = Z.testbit r 16).
  { replace (Z.testbit r 16) with (Z.odd (Z.shiftr r 16)).
    2:{ rewrite <- Z.bit0_odd, Z.shiftr_spec by lia. reflexivity. }
    destruct (Z.odd (Z.shiftr r 16)) eqn:E.
    - rewrite ctz_odd by auto. reflexivity.
    - apply Z.eqb_neq, ctz_even; auto. }
  rewrite E1, E2, E3, E4. unfold flag_bit.
  cbn -[Z.pow Z.testbit Z.even Z.add Z.eqb Z.leb Z.ltb]. 
  change (7 - (0 + 1)) with 6. change (7 - 0) with 7.
  destruct (r =? 0), c, o, (2147483648 <=? r), (Z.even r), (r <? 65536), (Z.testbit r 16); reflexivity.
Qed.

Lemma alu_range a x y r c o : is_u32 x -> is_u32 y -> alu_spec a x y = AluOk r c o -> is_u32 r.
Proof.
  intros Hx Hy H.
  assert (Hm : forall z, is_u32 (m32 z)) by (intros; apply u32_range).
  assert (Hdiv : forall is_div mode, divide is_div mode x y = AluOk r c o -> is_u32 r).
  { intros is_div mode. unfold divide, by_zero.
    destruct (Z.eqb_spec y 0).
    - destruct (Z.testbit mode 3), (Z.testbit mode 2); intros E; inversion E; unfold is_u32; lia.
    - destruct (Z.testbit mode 4).
      + destruct ((signed x =? -2147483648) && (signed y =? -1)); [discriminate|].
        intros E; injection E as <- <- <-. apply Hm.
      + intros E; injection E as <- <- <-. unfold is_u32 in *.
        destruct is_div.
        * assert (0 < y) by lia. pose proof (Z.div_pos x y). pose proof (Z.div_le_upper_bound x y 4294967295).
          assert (x / y <= 4294967295) by (apply Z.div_le_upper_bound; nia). lia.
        * pose proof (Z.mod_pos_bound x y). lia. }
  destruct a; cbn [alu_spec] in H; try (injection H as <- <- <-); eauto.
  - apply land_u32; auto.
  - apply lor_u32; auto.
  - apply lxor_u32; auto.
  - unfold is_u32 in *. assert (0 <= y mod 32) by lia.
    assert (0 < 2 ^ (y mod 32)) by (apply Z.pow_pos_nonneg; lia).
    split. { apply Z.div_pos; lia. } apply Z.div_lt_upper_bound; nia.
Qed.

Lemma flags_range r c o : 0 <= flags_spec r c o < 256.
Proof.
  unfold flags_spec, flag_bit.
  destruct (r =? 0), c, o, (2147483648 <=? r), (Z.even r), (r <? 65536), (Z.testbit r 16); cbn; lia.
Qed.

(** Exception codes and data. *)
Ltac exn := unfold ex_code, ex_data, is_u8, is_u16, is_u32 in *; lia.
Lemma u16_ex c x : c = 6 \/ 16 <= c -> ex_data c (x mod 65536).
Proof. unfold ex_data. lia. Qed.
Lemma code_ex3 r : ex_data 3 (reg_code r).
Proof. pose proof (reg_code_range r). exn. Qed.
Lemma code_ex4 r : ex_data 4 (reg_code r).
Proof. pose proof (reg_code_range r). exn. Qed.
