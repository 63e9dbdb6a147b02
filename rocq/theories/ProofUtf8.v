(** C40, C26: the bytes of the names. *)
From Coq Require Import ZArith List Bool Lia.
From Verif Require Import Base Board Mem Cpu Asm SpecMach SpecIsa SpecBus SpecObs SpecUtf8 BaseFacts.
Import ListNotations.
Open Scope Z_scope.
Ltac Zify.zify_post_hook ::= Z.div_mod_to_equations.

Ltac bool_true := match goal with |- context [if ?b then _ else _] => let H := fresh in assert (H : b = true) by (unfold continues; lia); rewrite H; clear H end.
Ltac bool_false := match goal with |- context [if ?b then _ else _] => let H := fresh in assert (H : b = false) by (unfold continues; lia); rewrite H; clear H end.
Lemma char_back c rest : scalar c -> characters (utf8_char c ++ rest) = option_map (cons c) (characters rest).
Proof.
  unfold scalar, utf8_char. intros H. destruct (Z.ltb_spec c 128); [|destruct (Z.ltb_spec c 2048); [|destruct (Z.ltb_spec c 65536)]]; cbn [List.app characters].
  - bool_true. reflexivity.
  - bool_false. bool_true. bool_true. f_equal. f_equal. lia.
  - bool_false. bool_false. bool_true. bool_true. f_equal. f_equal. lia.
  - bool_false. bool_false. bool_false. bool_true. bool_true. f_equal. f_equal. lia.
Qed.
(** The bytes of a name are its characters in UTF-8. *)
Lemma P_C40_utf8 : forall name, Forall scalar name -> characters (utf8 name) = Some name.
Proof. induction 1 as [|c l H _ IH]; [reflexivity|]. unfold utf8. cbn [flat_map]. rewrite char_back by exact H. fold (utf8 l). rewrite IH. reflexivity. Qed.
Lemma utf8_bytes name : Forall scalar name -> Forall (fun b => 0 <= b < 256) (utf8 name).
Proof.
  induction 1 as [|c l H _ IH]; [constructor|]. unfold utf8. cbn [flat_map]. apply Forall_app. split; [|exact IH]. unfold scalar, utf8_char in *.
  destruct (Z.ltb_spec c 128); [|destruct (Z.ltb_spec c 2048); [|destruct (Z.ltb_spec c 65536)]]; repeat constructor; lia.
Qed.
Lemma nth_bytes name k : Forall scalar name -> 0 <= nth k (utf8 name) 0 < 256.
Proof.
  intros H. apply utf8_bytes in H. destruct (Nat.ltb_spec k (length (utf8 name))) as [L|L].
  - rewrite Forall_forall in H. apply H. apply nth_In. exact L.
  - rewrite nth_overflow by exact L. lia.
Qed.
Lemma word_bytes name k : Forall scalar name -> 0 <= k -> bytes_in (name_word_spec name k) = map (fun j => nth (Z.to_nat (4 * k + j)) (utf8 name) 0) [0; 1; 2; 3].
Proof.
  intros H K. unfold name_word_spec, bytes_in. cbn [map].
  pose proof (nth_bytes name (Z.to_nat (4 * k + 0)) H). pose proof (nth_bytes name (Z.to_nat (4 * k + 1)) H). pose proof (nth_bytes name (Z.to_nat (4 * k + 2)) H). pose proof (nth_bytes name (Z.to_nat (4 * k + 3)) H).
  f_equal; [lia|f_equal; [lia|f_equal; [lia|f_equal; lia]]].
Qed.
Lemma firstn_nth (l : list Z) n : (length l <= n)%nat -> firstn (length l) (map (fun j => nth j l 0) (seq 0 n)) = l.
Proof.
  intros H. rewrite firstn_map. replace (firstn (length l) (seq 0 n)) with (seq 0 (length l)).
  - clear H. induction l as [|x l IH]; [reflexivity|]. cbn [length seq map nth]. f_equal. rewrite <- seq_shift, map_map. exact IH.
  - replace n with (length l + (n - length l))%nat by lia. rewrite seq_app, firstn_app, seq_length, Nat.sub_diag. cbn [firstn]. rewrite app_nil_r, firstn_all2; [reflexivity|rewrite seq_length; lia].
Qed.
(** What a program finds when it asks for the name length and the eight name words of a component: the first bytes of the words, as many as the
    length says, are the characters of the component's name, cut to 32 bytes. *)
Lemma P_C26_name : forall D (m : cpu D) id e n w1 w2 w3 w4 w5 w6 w7 w8, wf m -> znth (c_hwb m) id = Some e ->
  info_spec (c_mem m) id 16 = inr n -> info_spec (c_mem m) id 17 = inr w1 -> info_spec (c_mem m) id 18 = inr w2 -> info_spec (c_mem m) id 19 = inr w3 -> info_spec (c_mem m) id 20 = inr w4 ->
  info_spec (c_mem m) id 21 = inr w5 -> info_spec (c_mem m) id 22 = inr w6 -> info_spec (c_mem m) id 23 = inr w7 -> info_spec (c_mem m) id 24 = inr w8 ->
  characters (firstn (Z.to_nat n) (flat_map bytes_in [w1; w2; w3; w4; w5; w6; w7; w8])) = Some (ac_name (ae_cache e)).
Proof.
  intros D m id e n w1 w2 w3 w4 w5 w6 w7 w8 (_ & (W & _) & _) E. assert (X : cache_wf (ae_cache e)). { rewrite Forall_forall in W. apply W. apply (znth_In _ _ _ E). }
  destruct X as (_ & _ & _ & _ & _ & _ & _ & _ & _ & _ & L & S). unfold str_len in L. unfold info_spec. unfold c_hwb in E. rewrite E. cbn [Z.eqb Pos.eqb Z.leb Z.compare Pos.compare Pos.compare_cont andb].
  set (name := ac_name (ae_cache e)) in *. intros N W1 W2 W3 W4 W5 W6 W7 W8. injection N as <-. injection W1 as <-. injection W2 as <-. injection W3 as <-. injection W4 as <-. injection W5 as <-. injection W6 as <-. injection W7 as <-. injection W8 as <-.
  cbn [flat_map]. rewrite !word_bytes by (exact S || lia). cbn [map List.app]. unfold zlen in *. rewrite Nat2Z.id.
  pose proof (firstn_nth (utf8 name) 32 ltac:(lia)) as X. cbn [seq map] in X.
  change (17 - 17) with 0. change (18 - 17) with 1. change (19 - 17) with 2. change (20 - 17) with 3. change (21 - 17) with 4. change (22 - 17) with 5. change (23 - 17) with 6. change (24 - 17) with 7.
  cbn [Z.mul Pos.mul Z.add Pos.add Pos.succ Z.to_nat]. rewrite <- (P_C40_utf8 name S). f_equal. etransitivity; [|exact X]. reflexivity.
Qed.

(** ** Witnesses *)
(** An ASCII character, é, the euro sign, an emoji. *)
Lemma E_C40_utf8 : Forall scalar [65; 233; 8364; 128512] /\ utf8 [65; 233; 8364; 128512] = [65; 195; 169; 226; 130; 172; 240; 159; 152; 128].
Proof. split; [repeat constructor; unfold scalar; lia|reflexivity]. Qed.
Lemma E_C26_name :
  let ops := {| bo_name := fun _ : unit => [65; 233; 8364; 128512]; bo_metadata := fun _ => Ret (W8 0 1 64 0 0 0 0 0);
                bo_read := fun d _ => Ret (d, 0, 0); bo_write := fun d _ _ => Ret (d, 0); bo_reset := fun d => Ret d |} in
  exists m e, board_new ops [tt] = Ret m /\ znth (c_hwb m) 0 = Some e /\ ac_name (ae_cache e) = [65; 233; 8364; 128512] /\
    info_spec (c_mem m) 0 16 = inr 10 /\ info_spec (c_mem m) 0 17 = inr 1103342050 /\ info_spec (c_mem m) 0 18 = inr 2192371871 /\ info_spec (c_mem m) 0 19 = inr 2558525440 /\ info_spec (c_mem m) 0 24 = inr 0.
Proof. intros ops. eexists. eexists. split; [reflexivity|]. split; [reflexivity|]. split; [reflexivity|]. repeat split; vm_compute; reflexivity. Qed.
