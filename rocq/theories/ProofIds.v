(** Proofs of C96: hardware identifiers made from names. *)
From Coq Require Import ZArith List Bool Lia Arith FinFun.
From Verif Require Import Base BaseFacts Board Mem Cpu Asm Tools Devices Runner Ids
  SpecMach SpecAsm SpecSip SpecText ProofTools.
Import ListNotations.
Open Scope Z_scope.
Ltac Zify.zify_post_hook ::= Z.div_mod_to_equations.

(** ** 64-bit words *)
Lemma land_shift b a n : 0 <= n -> 0 <= b < 2 ^ n -> Z.land b (Z.shiftl a n) = 0.
Proof.
  intros Hn Hb. apply Z.bits_inj'. intros i Hi. rewrite Z.land_spec, Z.bits_0. destruct (Z.lt_ge_cases i n).
  - rewrite Z.shiftl_spec_low by lia. apply andb_false_r.
  - rewrite <- (Z.mod_small b (2 ^ n)) by lia. rewrite Z.mod_pow2_bits_high by lia. reflexivity.
Qed.
Lemma lor_shift b a n : 0 <= n -> 0 <= b < 2 ^ n -> Z.lor b (Z.shiftl a n) = b + a * 2 ^ n.
Proof.
  intros Hn Hb. pose proof (land_shift b a n Hn Hb) as E. rewrite <- Z.lxor_lor by exact E. rewrite <- Z.add_nocarry_lxor by exact E. rewrite Z.shiftl_mul_pow2 by exact Hn. reflexivity.
Qed.
Lemma lxor_u64 a b : is_u64 a -> is_u64 b -> is_u64 (Z.lxor a b).
Proof.
  unfold is_u64. intros Ha Hb. assert (N : 0 <= Z.lxor a b) by (apply Z.lxor_nonneg; lia). split; [exact N|].
  destruct (Z.eq_dec (Z.lxor a b) 0) as [->|X]; [lia|]. change 18446744073709551616 with (2 ^ 64) in *. apply Z.log2_lt_pow2; [lia|]. pose proof (Z.log2_lxor a b ltac:(lia) ltac:(lia)) as L.
  assert (Y : forall c, 0 <= c < 2 ^ 64 -> Z.log2 c < 64). { intros c Hc. destruct (Z.eq_dec c 0) as [->|]; [reflexivity|]. apply Z.log2_lt_pow2; lia. }
  pose proof (Y a Ha). pose proof (Y b Hb). lia.
Qed.
Lemma rot_split x n : 0 < n < 64 -> is_u64 x -> rot n x = x / 2 ^ (64 - n) + x mod 2 ^ (64 - n) * 2 ^ n /\ 0 <= x / 2 ^ (64 - n) < 2 ^ n /\ 0 <= x mod 2 ^ (64 - n) < 2 ^ (64 - n).
Proof.
  intros Hn Hx. unfold is_u64 in Hx. change 18446744073709551616 with (2 ^ 64) in Hx. unfold rot. assert (P : 0 < 2 ^ n) by (apply Z.pow_pos_nonneg; lia). assert (Q : 0 < 2 ^ (64 - n)) by (apply Z.pow_pos_nonneg; lia).
  assert (E : 2 ^ 64 = 2 ^ (64 - n) * 2 ^ n) by (rewrite <- Z.pow_add_r by lia; f_equal; lia).
  split; [|split].
  - rewrite E. rewrite Z.mul_mod_distr_r by lia. lia.
  - split; [apply Z.div_pos; lia|]. apply Z.div_lt_upper_bound; [lia|]. rewrite <- E. lia.
  - apply Z.mod_pos_bound. exact Q.
Qed.
Lemma rotl_rot x n : 0 < n < 64 -> is_u64 x -> rotl64 x n = rot n x.
Proof.
  intros Hn Hx. destruct (rot_split x n Hn Hx) as (E & B & C). unfold rotl64. rewrite E. rewrite Z.shiftr_div_pow2 by lia.
  replace (Z.shiftl x n mod two64) with (Z.shiftl (x mod 2 ^ (64 - n)) n).
  - rewrite Z.lor_comm. apply lor_shift; [lia|exact B].
  - change two64 with (2 ^ 64). rewrite !Z.shiftl_mul_pow2 by lia. assert (X : 2 ^ 64 = 2 ^ (64 - n) * 2 ^ n) by (rewrite <- Z.pow_add_r by lia; f_equal; lia).
    rewrite X. rewrite Z.mul_mod_distr_r; [reflexivity| |]; apply Z.pow_nonzero; lia.
Qed.
Lemma rot_u64 x n : 0 < n < 64 -> is_u64 x -> is_u64 (rot n x).
Proof.
  intros Hn Hx. destruct (rot_split x n Hn Hx) as (E & B & C). unfold is_u64. change 18446744073709551616 with (2 ^ 64). rewrite E. assert (X : 2 ^ 64 = 2 ^ (64 - n) * 2 ^ n) by (rewrite <- Z.pow_add_r by lia; f_equal; lia).
  rewrite X. assert (P : 0 < 2 ^ n) by (apply Z.pow_pos_nonneg; lia). nia.
Qed.
Lemma add_u64 a b : is_u64 (add a b).
Proof. unfold is_u64, add. apply Z.mod_pos_bound. reflexivity. Qed.

(** ** Rounds *)
Definition st4 (s : sip_state) : Z * Z * Z * Z := (sv0 s, sv1 s, sv2 s, sv3 s).
Definition ok4 (s : Z * Z * Z * Z) : Prop := let '(v0, v1, v2, v3) := s in is_u64 v0 /\ is_u64 v1 /\ is_u64 v2 /\ is_u64 v3.
Lemma compress_round s : ok4 (st4 s) -> st4 (sip_compress s) = round (st4 s).
Proof.
  destruct s as [v0 v1 v2 v3]. unfold st4. cbn [sv0 sv1 sv2 sv3]. intros (H0 & H1 & H2 & H3). unfold sip_compress, round. cbv zeta. cbn [sv0 sv1 sv2 sv3].
  change wadd64 with add.
  assert (K0 := add_u64 v0 v1). assert (K2 := add_u64 v2 v3).
  rewrite (rotl_rot v1 13), (rotl_rot v3 16), (rotl_rot (add v0 v1) 32) by (auto; lia).
  assert (A1 : is_u64 (Z.lxor (rot 13 v1) (add v0 v1))) by (apply lxor_u64; auto; apply rot_u64; auto; lia).
  assert (A3 : is_u64 (Z.lxor (rot 16 v3) (add v2 v3))) by (apply lxor_u64; auto; apply rot_u64; auto; lia).
  rewrite (rotl_rot (Z.lxor (rot 13 v1) (add v0 v1)) 17), (rotl_rot (Z.lxor (rot 16 v3) (add v2 v3)) 21) by (auto; lia).
  rewrite rotl_rot by (try apply add_u64; lia). reflexivity.
Qed.
Lemma round_ok s : ok4 s -> ok4 (round s).
Proof.
  destruct s as [[[v0 v1] v2] v3]. intros (H0 & H1 & H2 & H3). unfold round. cbv zeta. cbn [ok4].
  repeat match goal with |- _ /\ _ => split | |- is_u64 (Z.lxor _ _) => apply lxor_u64 | |- is_u64 (add _ _) => apply add_u64
    | |- is_u64 (rot _ _) => apply rot_u64; [lia|] end; assumption.
Qed.
Lemma block_absorb s m : ok4 (st4 s) -> is_u64 m -> st4 (sip_block s m) = absorb (st4 s) m /\ ok4 (absorb (st4 s) m).
Proof.
  destruct s as [v0 v1 v2 v3]. intros H Hm. pose proof H as (H0 & H1 & H2 & H3). unfold sip_block. cbv zeta. cbn [sv0 sv1 sv2 sv3] in *.
  set (s1 := SipState v0 v1 v2 (Z.lxor v3 m)).
  assert (O : ok4 (st4 s1)) by (cbn; auto using lxor_u64). pose proof (compress_round s1 O) as E. pose proof (round_ok _ O) as O'.
  unfold absorb. change (st4 (SipState v0 v1 v2 v3)) with (v0, v1, v2, v3). cbv iota beta. change (v0, v1, v2, Z.lxor v3 m) with (st4 s1). rewrite <- E in *.
  destruct (sip_compress s1) as [a b c d]. change (st4 (SipState a b c d)) with (a, b, c, d) in *. cbn [ok4] in *. split; [reflexivity|]. intuition auto using lxor_u64.
Qed.

(** ** The message *)
Fixpoint lev (l : list Z) : Z := match l with [] => 0 | b :: t => b + 256 * lev t end.
Lemma lev_bound l : Forall is_u8 l -> 0 <= lev l < 2 ^ (8 * Z.of_nat (length l)).
Proof.
  induction 1 as [|b t H _ IH]; [cbn; lia|]. cbn [lev length]. replace (8 * Z.of_nat (S (length t))) with (8 * Z.of_nat (length t) + 8) by lia. rewrite Z.pow_add_r by lia.
  change (2 ^ 8) with 256. unfold is_u8 in H. lia.
Qed.
Lemma le_lev l : Forall is_u8 l -> le64 l = lev l.
Proof.
  induction 1 as [|b t H _ IH]; [reflexivity|]. cbn [le64 lev]. rewrite IH. rewrite lor_shift by (unfold is_u8 in H; change (2 ^ 8) with 256; lia). change (2 ^ 8) with 256. lia.
Qed.
Lemma lev_app a b : lev (a ++ b) = lev a + 2 ^ (8 * Z.of_nat (length a)) * lev b.
Proof.
  induction a as [|x a IH]; [cbn [List.app lev length]; change (8 * Z.of_nat 0) with 0; lia|]. cbn [List.app lev length]. rewrite IH.
  replace (8 * Z.of_nat (S (length a))) with (8 * Z.of_nat (length a) + 8) by lia. rewrite Z.pow_add_r by lia. change (2 ^ 8) with 256. lia.
Qed.

(** The blocks of the bytes written so far, and the bytes after them. *)
Lemma blocks_cons8 v a b c d e f g h t : sip_blocks v (a :: b :: c :: d :: e :: f :: g :: h :: t) = sip_blocks (sip_block v (le64 [a; b; c; d; e; f; g; h])) t.
Proof. reflexivity. Qed.
Lemma blocks_short v l : (length l < 8)%nat -> sip_blocks v l = (v, l).
Proof. intros H. do 8 (destruct l as [|? l]; [reflexivity|]). cbn [length] in H. lia. Qed.
Lemma blocks_spec n : forall l v, length l = (8 * n)%nat -> Forall is_u8 l -> ok4 (st4 v) ->
  forall rest, (length rest < 8)%nat -> exists v', sip_blocks v (l ++ rest) = (v', rest) /\ st4 v' = fold_left absorb (map (word_le l) (seq 0 n)) (st4 v) /\ ok4 (st4 v').
Proof.
  induction n as [|n IH]; intros l v L HF O rest HR.
  - destruct l; [|cbn [length] in L; lia]. exists v. rewrite blocks_short by exact HR. auto.
  - destruct l as [|a [|b [|c [|d [|e [|f [|g [|h t]]]]]]]]; try (cbn [length] in L; lia).
    assert (F8 : Forall is_u8 [a; b; c; d; e; f; g; h] /\ Forall is_u8 t) by (apply Forall_app; exact HF). destruct F8 as (F8 & FT).
    assert (M : is_u64 (lev [a; b; c; d; e; f; g; h])) by apply (lev_bound _ F8).
    destruct (block_absorb v (lev [a; b; c; d; e; f; g; h]) O M) as (E & O').
    cbn [List.app]. rewrite blocks_cons8, (le_lev _ F8).
    rewrite <- E in O'. destruct (IH t _ ltac:(cbn [length] in L; lia) FT O' rest HR) as (v' & E1 & E2 & E3). exists v'. split; [exact E1|]. split; [|exact E3].
    rewrite E2, E. cbn [seq map fold_left]. rewrite <- seq_shift, map_map. f_equal.
    + apply map_ext. intros i. unfold word_le. replace (8 * S i)%nat with (8 + 8 * i)%nat by lia. cbn [Nat.add nth]. reflexivity.
    + f_equal. unfold word_le. cbn [Nat.mul Nat.add nth]. cbn [lev]. lia.
Qed.
Lemma write_fresh len v l : ok4 (st4 v) -> Forall is_u8 l ->
  exists n whole rest v', l = whole ++ rest /\ length whole = (8 * n)%nat /\ (length rest < 8)%nat /\ sip_rest len v l = Sip v' len (lev rest) (zlen rest) /\
    st4 v' = fold_left absorb (map (word_le whole) (seq 0 n)) (st4 v) /\ ok4 (st4 v').
Proof.
  intros O HF. set (n := (length l / 8)%nat). pose proof (Nat.div_mod_eq (length l) 8) as D. fold n in D. pose proof (Nat.mod_upper_bound (length l) 8 ltac:(lia)) as B.
  assert (E : l = firstn (8 * n) l ++ skipn (8 * n) l) by (symmetry; apply firstn_skipn).
  assert (L1 : length (firstn (8 * n) l) = (8 * n)%nat) by (rewrite firstn_length; lia). assert (L2 : (length (skipn (8 * n) l) < 8)%nat) by (rewrite skipn_length; lia).
  rewrite E in HF. apply Forall_app in HF as (HF1 & HF2).
  destruct (blocks_spec n _ v L1 HF1 O _ L2) as (v' & E1 & E2 & E3). exists n, (firstn (8 * n) l), (skipn (8 * n) l), v'. do 3 (split; [assumption|]). split; [|auto].
  unfold sip_rest. rewrite E at 1. rewrite E1. rewrite (le_lev _ HF2). reflexivity.
Qed.
Lemma word_last w x n : length w = (8 * n)%nat -> length x = 8%nat -> word_le (w ++ x) n = lev x.
Proof.
  intros L X. unfold word_le. rewrite !app_nth2 by lia. rewrite L. replace (8 * n + 0 - 8 * n)%nat with 0%nat by lia. replace (8 * n + 1 - 8 * n)%nat with 1%nat by lia.
  replace (8 * n + 2 - 8 * n)%nat with 2%nat by lia. replace (8 * n + 3 - 8 * n)%nat with 3%nat by lia. replace (8 * n + 4 - 8 * n)%nat with 4%nat by lia.
  replace (8 * n + 5 - 8 * n)%nat with 5%nat by lia. replace (8 * n + 6 - 8 * n)%nat with 6%nat by lia. replace (8 * n + 7 - 8 * n)%nat with 7%nat by lia.
  destruct x as [|a [|b [|c [|d [|e [|f [|g [|h [|]]]]]]]]]; try (cbn [length] in X; lia). cbn [nth lev]. lia.
Qed.
Lemma word_first w x n i : length w = (8 * n)%nat -> (i < n)%nat -> word_le (w ++ x) i = word_le w i.
Proof. intros L H. unfold word_le. rewrite !app_nth1 by lia. reflexivity. Qed.
Lemma words_split whole rest n : length whole = (8 * n)%nat -> (length rest < 8)%nat -> Forall is_u8 rest ->
  message_words (whole ++ rest) = map (word_le whole) (seq 0 n) ++ [lev rest + Z.of_nat (length (whole ++ rest)) mod 256 * 2 ^ 56].
Proof.
  intros L R HF. unfold message_words. assert (D : (length (whole ++ rest) / 8 = n)%nat). { rewrite app_length, L. rewrite Nat.mul_comm, Nat.div_add_l by lia. rewrite Nat.div_small by exact R. lia. }
  assert (M : (length (whole ++ rest) mod 8 = length rest)%nat). { rewrite app_length, L, Nat.mul_comm, Nat.add_comm, Nat.mod_add by lia. apply Nat.mod_small. exact R. }
  rewrite D, seq_app, map_app. cbn [Nat.add seq map]. unfold padded. rewrite M. f_equal.
  - apply map_ext_in. intros i Hi. apply in_seq in Hi. rewrite <- app_assoc. apply word_first with (n := n); [exact L|lia].
  - f_equal. rewrite <- app_assoc. rewrite word_last; [|exact L|rewrite !app_length, repeat_length; cbn [length]; lia].
    set (x := Z.of_nat (length (whole ++ rest)) mod 256). rewrite !lev_app. assert (Z0 : forall k, lev (repeat 0 k) = 0) by (induction k as [|k IH]; [reflexivity|cbn [repeat lev]; lia]).
    rewrite Z0. cbn [lev]. rewrite repeat_length.
    replace (lev rest + 2 ^ (8 * Z.of_nat (length rest)) * (0 + 2 ^ (8 * Z.of_nat (7 - length rest)) * (x + 256 * 0)))
      with (lev rest + x * (2 ^ (8 * Z.of_nat (length rest)) * 2 ^ (8 * Z.of_nat (7 - length rest)))) by ring.
    rewrite <- Z.pow_add_r by lia. replace (8 * Z.of_nat (length rest) + 8 * Z.of_nat (7 - length rest)) with 56 by lia. reflexivity.
Qed.

(** What the hasher holds after some bytes: the whole blocks absorbed, the rest waiting. *)
Definition holds (h : sip) (l : list Z) : Prop :=
  exists n whole rest, l = whole ++ rest /\ length whole = (8 * n)%nat /\ (length rest < 8)%nat /\ sip_tail h = lev rest /\ sip_ntail h = zlen rest /\
    st4 (sip_v h) = fold_left absorb (map (word_le whole) (seq 0 n)) initial /\ ok4 (st4 (sip_v h)) /\ sip_length h = zlen l mod two64.
Lemma holds_new l : Forall is_u8 l -> holds (sip_write sip_new l) l.
Proof.
  intros HF. unfold sip_write. change (sip_ntail sip_new =? 0) with true. cbv iota zeta. assert (O : ok4 (st4 (sip_v sip_new))) by (cbn; unfold is_u64; lia).
  destruct (write_fresh ((sip_length sip_new + zlen l) mod two64) (sip_v sip_new) l O HF) as (n & whole & rest & v' & E1 & E2 & E3 & E4 & E5 & E6).
  exists n, whole, rest. rewrite E4. cbn [sip_tail sip_ntail sip_v sip_length]. do 3 (split; [assumption|]). do 2 (split; [reflexivity|]). split; [exact E5|]. split; [exact E6|]. reflexivity.
Qed.
Lemma holds_byte h l b : holds h l -> Forall is_u8 l -> is_u8 b -> holds (sip_write h [b]) (l ++ [b]).
Proof.
  intros (n & whole & rest & -> & L & R & T & N & V & O & LE) HF Hb. apply Forall_app in HF as (HF1 & HF2).
  assert (EL : (sip_length h + zlen [b]) mod two64 = zlen ((whole ++ rest) ++ [b]) mod two64).
  { rewrite LE. change two64 with (2 ^ 64). unfold zlen. rewrite (app_length (whole ++ rest)). cbn [length]. change (2 ^ 64) with 18446744073709551616. lia. }
  assert (F1 : Forall is_u8 (rest ++ [b])) by (apply Forall_app; auto).
  assert (T1 : sip_ntail h <> 0 -> Z.lor (sip_tail h) (Z.shiftl (le64 [b]) (8 * sip_ntail h) mod two64) = lev (rest ++ [b])).
  { intros _. rewrite T, N, (le_lev [b]) by (constructor; auto). pose proof (lev_bound rest HF2) as B. cbn [lev]. rewrite Z.add_0_r. unfold zlen in *.
    rewrite Z.mod_small.
    - rewrite lor_shift by lia. rewrite lev_app. cbn [lev]. lia.
    - rewrite Z.shiftl_mul_pow2 by lia. assert (P : 0 < 2 ^ (8 * Z.of_nat (length rest))) by (apply Z.pow_pos_nonneg; lia).
      assert (Q : 2 ^ (8 * Z.of_nat (length rest)) <= 2 ^ 56) by (apply Z.pow_le_mono_r; lia). unfold is_u8 in Hb. change two64 with (256 * 2 ^ 56). nia. }
  unfold sip_write. cbv zeta. rewrite EL. destruct (Z.eqb_spec (sip_ntail h) 0) as [E0|E0].
  - assert (rest = []) as -> by (destruct rest; [reflexivity|]; rewrite N in E0; unfold zlen in E0; cbn [length] in E0; lia).
    unfold sip_rest. rewrite blocks_short by (cbn [length]; lia). exists n, whole, [b]. cbn [sip_tail sip_ntail sip_v sip_length].
    rewrite app_nil_r. split; [reflexivity|]. split; [exact L|]. split; [cbn [length]; lia|]. split; [apply le_lev; constructor; auto|]. split; [reflexivity|]. split; [exact V|]. split; [exact O|]. reflexivity.
  - specialize (T1 E0). replace (firstn (Z.to_nat (8 - sip_ntail h)) [b]) with [b].
    2:{ unfold zlen in N. destruct (Z.to_nat (8 - sip_ntail h)) as [|k] eqn:Ek; [lia|]. cbn [firstn]. rewrite firstn_nil. reflexivity. }
    rewrite T1. change (zlen [b]) with 1. destruct (Z.ltb_spec 1 (8 - sip_ntail h)) as [H|H].
    + exists n, whole, (rest ++ [b]). cbn [sip_tail sip_ntail sip_v sip_length]. split; [symmetry; apply app_assoc|]. split; [exact L|]. unfold zlen in *.
      split; [rewrite app_length; cbn [length]; lia|]. split; [reflexivity|]. split; [rewrite app_length; cbn [length]; lia|]. split; [exact V|]. split; [exact O|]. reflexivity.
    + assert (R7 : length rest = 7%nat) by (unfold zlen in N; lia).
      replace (skipn (Z.to_nat (8 - sip_ntail h)) [b]) with (@nil Z) by (replace (Z.to_nat (8 - sip_ntail h)) with 1%nat by (unfold zlen in N; lia); reflexivity).
      unfold sip_rest. cbn [sip_blocks]. assert (B : length (rest ++ [b]) = 8%nat) by (rewrite app_length; cbn [length]; lia).
      assert (M : is_u64 (lev (rest ++ [b]))). { pose proof (lev_bound _ F1) as X. rewrite B in X. exact X. }
      destruct (block_absorb (sip_v h) _ O M) as (E & O'). exists (S n), (whole ++ rest ++ [b]), []. cbn [sip_tail sip_ntail sip_v sip_length]. rewrite app_nil_r, app_assoc.
      split; [reflexivity|]. split; [rewrite !app_length in *; cbn [length] in *; lia|]. split; [cbn [length]; lia|]. do 2 (split; [reflexivity|]).
      split; [|split; [rewrite E; exact O'|reflexivity]]. rewrite E, V. replace (S n) with (n + 1)%nat by lia. rewrite seq_app, map_app, fold_left_app. cbn [Nat.add seq map fold_left].
      rewrite <- app_assoc. rewrite word_last by assumption. f_equal. f_equal. apply map_ext_in. intros i Hi. apply in_seq in Hi. symmetry. apply word_first with (n := n); [exact L|lia].
Qed.
Lemma finish_spec h l : holds h l -> Forall is_u8 l -> sip_finish h = siphash13 l /\ is_u64 (siphash13 l).
Proof.
  intros (n & whole & rest & -> & L & R & T & N & V & O & LE) HF. apply Forall_app in HF as (HF1 & HF2).
  unfold sip_finish, siphash13. cbv zeta. rewrite (words_split whole rest n L R HF2). rewrite fold_left_app. cbn [fold_left]. rewrite <- V.
  set (len := Z.of_nat (length (whole ++ rest))).
  assert (EL : Z.land (sip_length h) 255 = len mod 256).
  { change 255 with (Z.ones 8). rewrite Z.land_ones by lia. rewrite LE. unfold zlen. fold len. change two64 with 18446744073709551616. change (2 ^ 8) with 256. lia. }
  rewrite EL, T. pose proof (lev_bound rest HF2) as B. assert (Q : 2 ^ (8 * Z.of_nat (length rest)) <= 2 ^ 56) by (apply Z.pow_le_mono_r; lia).
  rewrite Z.lor_comm, lor_shift by lia. set (m := lev rest + len mod 256 * 2 ^ 56).
  assert (M : is_u64 m). { unfold is_u64, m. change (2 ^ 56) with 72057594037927936 in *. lia. }
  destruct (block_absorb (sip_v h) m O M) as (E & O'). rewrite <- E in *. destruct (sip_block (sip_v h) m) as [a b c d]. change (st4 (SipState a b c d)) with (a, b, c, d) in *.
  cbn [sv0 sv1 sv2 sv3]. cbn [ok4] in O'. destruct O' as (O0 & O1 & O2 & O3).
  set (s0 := SipState a b (Z.lxor c 255) d). assert (K0 : ok4 (st4 s0)) by (cbn; split; [exact O0|split; [exact O1|split; [|exact O3]]]; apply lxor_u64; [exact O2|unfold is_u64; lia]).
  change (a, b, Z.lxor c 255, d) with (st4 s0).
  pose proof (compress_round s0 K0) as E1. pose proof (round_ok _ K0) as K1. rewrite <- E1 in *.
  pose proof (compress_round _ K1) as E2. pose proof (round_ok _ K1) as K2. rewrite <- E2 in *.
  pose proof (compress_round _ K2) as E3. pose proof (round_ok _ K2) as K3. rewrite <- E3 in *.
  destruct (sip_compress (sip_compress (sip_compress s0))) as [x y z t]. change (st4 (SipState x y z t)) with (x, y, z, t) in *. cbn [sv0 sv1 sv2 sv3]. cbn [ok4] in K3. destruct K3 as (? & ? & ? & ?).
  rewrite Z.lxor_assoc. split; [reflexivity|]. auto using lxor_u64.
Qed.
Lemma name_u8 s : Forall scalar s -> Forall is_u8 (utf8 s).
Proof.
  induction 1 as [|c s H _ IH]; [constructor|]. unfold utf8. cbn [flat_map]. apply Forall_app. split; [|exact IH]. unfold utf8_char, scalar, is_u8 in *.
  destruct (Z.ltb_spec c 128); [repeat constructor; lia|]. destruct (Z.ltb_spec c 2048); [repeat constructor; lia|]. destruct (Z.ltb_spec c 65536); repeat constructor; lia.
Qed.

(** The identifier of a name is the SipHash-1-3, with null keys, of its bytes followed by 0xFF; it depends on nothing else and has 64 bits. *)
Lemma P_C96_siphash : forall name, Forall scalar name -> gen_aux_id name = siphash13 (utf8 name ++ [255]) /\ 0 <= gen_aux_id name < 2 ^ 64.
Proof.
  intros name S. pose proof (name_u8 name S) as U. assert (B : is_u8 255) by (unfold is_u8; lia).
  assert (F : Forall is_u8 (utf8 name ++ [255])) by (apply Forall_app; auto).
  destruct (finish_spec _ _ (holds_byte _ _ 255 (holds_new _ U) U B) F) as (E & R). unfold gen_aux_id. rewrite E. split; [reflexivity|exact R].
Qed.
(** The names of the unit test have different identifiers. *)
Lemma E_C96_siphash : gen_aux_id [116; 101; 115; 116] = 14402189752926126668 /\ gen_aux_id [116; 101; 115; 116] <> gen_aux_id [116; 101; 115; 116; 50] /\
  gen_aux_id [116; 101; 115; 116] <> gen_aux_id [50; 116; 101; 115; 116] /\ Forall scalar [116; 101; 115; 116].
Proof. split; [vm_compute; reflexivity|]. split; [vm_compute; discriminate|]. split; [vm_compute; discriminate|]. repeat constructor; unfold scalar; lia. Qed.

(** An identifier made from a name goes unchanged through the metadata of a component. *)
Lemma P_C96_metadata : forall name size c model data md, Forall scalar name -> is_u32 size -> category_wf c -> opt_wf is_u32 model -> opt_wf is_u64 data ->
  obind (metadata_new (gen_aux_id name) size c model data) metadata_encode = Ret md -> w0 md * 2 ^ 32 + w1 md = gen_aux_id name.
Proof.
  intros name size c model data md S H1 H2 H3 H4 E. destruct (P_C96_siphash name S) as (_ & U).
  destruct (P_C54_new (gen_aux_id name) size c model data U H1 H2 H3 H4) as (P & Q).
  destruct (Z.eq_dec (size mod 4) 0) as [D|D].
  - apply Z.mod_divide in D; [|lia]. rewrite (Q D) in E. injection E as <-. cbn [w0 w1]. change (2 ^ 32) with 4294967296. lia.
  - assert (N : ~ Z.divide 4 size) by (intros X; apply D; apply Z.mod_divide; [lia|exact X]). apply P in N. rewrite N in E. discriminate E.
Qed.
Lemma E_C96_metadata : exists md, obind (metadata_new (gen_aux_id [116; 101; 115; 116]) 64 (CatMemory TRam) None None) metadata_encode = Ret md.
Proof. eexists. vm_compute. reflexivity. Qed.

(** The tutorial presents it as a source of identifiers of which there must be no duplicate: distinct names can have the same identifier. *)
Lemma P_C96_unique_refuted : ~ (forall a b, Forall scalar a -> Forall scalar b -> gen_aux_id a = gen_aux_id b -> a = b).
Proof.
  intros H. set (N := Z.to_nat (2 ^ 64)). assert (EN : Z.of_nat N = 2 ^ 64) by (apply Z2Nat.id; lia). clearbody N.
  assert (SC : forall k, Forall scalar (repeat 97 k)) by (intros k; apply Forall_forall; intros x X; apply repeat_spec in X as ->; unfold scalar; lia).
  set (f := fun k => gen_aux_id (repeat 97 k)). set (l := map f (seq 0 (S N))).
  assert (ND : NoDup l).
  { apply FinFun.Injective_map_NoDup; [|apply seq_NoDup]. intros i j E. apply H in E; auto. apply (f_equal (@length Z)) in E. rewrite !repeat_length in E. exact E. }
  assert (I : incl l (map Z.of_nat (seq 0 N))).
  { intros x X. apply in_map_iff in X as (k & <- & _). destruct (P_C96_siphash _ (SC k)) as (_ & B). change (gen_aux_id (repeat 97 k)) with (f k) in B. clearbody f.
    apply in_map_iff. exists (Z.to_nat (f k)). split; [apply Z2Nat.id; lia|]. apply in_seq. cbn [Nat.add]. lia. }
  pose proof (NoDup_incl_length ND I) as L. unfold l in L. rewrite !map_length, !seq_length in L. lia.
Qed.
