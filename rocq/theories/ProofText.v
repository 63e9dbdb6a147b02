(** Proofs of C95: the texts of the buffers of displays and keyboards. *)
From Coq Require Import String Ascii ZArith List Bool Lia.
From Verif Require Import Base BaseFacts Board Mem Cpu Asm Tools Devices Runner LasmRules Lasm Console Utf8
  SpecMach SpecIsa SpecBus SpecDev SpecText DevTyped.
Import ListNotations.
Open Scope list_scope.
Open Scope Z_scope.
Ltac Zify.zify_post_hook ::= Z.div_mod_to_equations.

(** ** The bytes of a character *)
Definition shape2 (a b : Z) : Prop := 194 <= a <= 223 /\ is_cont b = true.
Definition shape3 (a b c : Z) : Prop := second_of_3 a b = true /\ is_cont c = true.
Definition shape4 (a b c d : Z) : Prop := second_of_4 a b = true /\ is_cont c = true /\ is_cont d = true.
Lemma cont_iff b : is_cont b = true <-> 128 <= b <= 191.
Proof. unfold is_cont. lia. Qed.
Lemma second3_iff a b : second_of_3 a b = true <-> 224 <= a <= 239 /\ 128 <= b <= 191 /\ (a = 224 -> 160 <= b) /\ (a = 237 -> b <= 159).
Proof. unfold second_of_3, is_cont. lia. Qed.
Lemma second4_iff a b : second_of_4 a b = true <-> 240 <= a <= 244 /\ 128 <= b <= 191 /\ (a = 240 -> 144 <= b) /\ (a = 244 -> b <= 143).
Proof. unfold second_of_4, is_cont. lia. Qed.

Lemma char_shape c : scalar c -> (utf8_char c = [c] /\ 0 <= c < 128) \/ (exists a b, utf8_char c = [a; b] /\ shape2 a b) \/
  (exists a b d, utf8_char c = [a; b; d] /\ shape3 a b d) \/ (exists a b d e, utf8_char c = [a; b; d; e] /\ shape4 a b d e).
Proof.
  unfold scalar, utf8_char, shape2, shape3, shape4. intros H.
  destruct (Z.ltb_spec c 128); [left; split; [reflexivity|lia]|right]. destruct (Z.ltb_spec c 2048); [left|right; destruct (Z.ltb_spec c 65536); [left|right]].
  - eexists _, _. split; [reflexivity|]. rewrite cont_iff. lia.
  - eexists _, _, _. split; [reflexivity|]. rewrite second3_iff, cont_iff. lia.
  - eexists _, _, _, _. split; [reflexivity|]. rewrite second4_iff, !cont_iff. lia.
Qed.
Lemma shape1_char a : 0 <= a < 128 -> scalar a /\ utf8_char a = [a].
Proof. intros H. unfold scalar, utf8_char. destruct (Z.ltb_spec a 128); [|lia]. split; [lia|reflexivity]. Qed.
Lemma shape2_char a b : shape2 a b -> let v := (a - 192) * 64 + (b - 128) in scalar v /\ utf8_char v = [a; b].
Proof.
  intros H v. unfold shape2 in H. rewrite cont_iff in H. assert (Hv : v = (a - 192) * 64 + (b - 128)) by reflexivity. clearbody v. unfold scalar, utf8_char. destruct (Z.ltb_spec v 128); [lia|]. destruct (Z.ltb_spec v 2048); [|lia].
  split; [lia|]. f_equal; [|f_equal]; lia.
Qed.
Lemma shape3_char a b c : shape3 a b c -> let v := (a - 224) * 4096 + (b - 128) * 64 + (c - 128) in scalar v /\ utf8_char v = [a; b; c].
Proof.
  intros H v. unfold shape3 in H. rewrite second3_iff, cont_iff in H. assert (Hv : v = (a - 224) * 4096 + (b - 128) * 64 + (c - 128)) by reflexivity. clearbody v.
  unfold scalar, utf8_char. destruct (Z.ltb_spec v 128); [lia|]. destruct (Z.ltb_spec v 2048); [lia|]. destruct (Z.ltb_spec v 65536); [|lia].
  split; [lia|]. f_equal; [lia|f_equal; [lia|f_equal; lia]].
Qed.
Lemma shape4_char a b c d : shape4 a b c d -> let v := (a - 240) * 262144 + (b - 128) * 4096 + (c - 128) * 64 + (d - 128) in scalar v /\ utf8_char v = [a; b; c; d].
Proof.
  intros H v. unfold shape4 in H. rewrite second4_iff, !cont_iff in H. assert (Hv : v = (a - 240) * 262144 + (b - 128) * 4096 + (c - 128) * 64 + (d - 128)) by reflexivity. clearbody v.
  unfold scalar, utf8_char. destruct (Z.ltb_spec v 128); [lia|]. destruct (Z.ltb_spec v 2048); [lia|]. destruct (Z.ltb_spec v 65536); [lia|].
  split; [lia|]. f_equal; [lia|f_equal; [lia|f_equal; [lia|f_equal; lia]]].
Qed.
Lemma width1 a : 0 <= a < 128 -> utf8_width a = 1.
Proof. intros. unfold utf8_width. destruct (Z.ltb_spec a 128); [reflexivity|lia]. Qed.
Lemma width2 a : 194 <= a <= 223 -> utf8_width a = 2.
Proof. intros. unfold utf8_width. destruct (Z.ltb_spec a 128); [lia|]. replace ((194 <=? a) && (a <=? 223)) with true by lia. reflexivity. Qed.
Lemma width3 a : 224 <= a <= 239 -> utf8_width a = 3.
Proof. intros. unfold utf8_width. destruct (Z.ltb_spec a 128); [lia|]. replace ((194 <=? a) && (a <=? 223)) with false by lia. replace ((224 <=? a) && (a <=? 239)) with true by lia. reflexivity. Qed.
Lemma width4 a : 240 <= a <= 244 -> utf8_width a = 4.
Proof. intros. unfold utf8_width. destruct (Z.ltb_spec a 128); [lia|]. replace ((194 <=? a) && (a <=? 223)) with false by lia. replace ((224 <=? a) && (a <=? 239)) with false by lia. replace ((240 <=? a) && (a <=? 244)) with true by lia. reflexivity. Qed.
Lemma width_cases a : 0 <= a -> (utf8_width a = 1 /\ 0 <= a < 128) \/ (utf8_width a = 2 /\ 194 <= a <= 223) \/ (utf8_width a = 3 /\ 224 <= a <= 239) \/ (utf8_width a = 4 /\ 240 <= a <= 244) \/
  (utf8_width a = 0 /\ (128 <= a <= 193 \/ 245 <= a)).
Proof.
  intros. unfold utf8_width. destruct (Z.ltb_spec a 128); [lia|]. destruct (Z.leb_spec 194 a), (Z.leb_spec a 223), (Z.leb_spec 224 a), (Z.leb_spec a 239), (Z.leb_spec 240 a), (Z.leb_spec a 244); cbn [andb]; lia.
Qed.

(** ** Strict reading *)
Lemma cons_eq (x y : Z) l m : x :: l = y :: m -> x = y /\ l = m. Proof. intros H. injection H. auto. Qed.
Lemma parts_char c rest : scalar c -> utf8_parts (utf8_char c ++ rest) = Some c :: utf8_parts rest.
Proof.
  intros S. destruct (char_shape c S) as [(E & H)|[(a & b & E & H)|[(a & b & d & E & H)|(a & b & d & e & E & H)]]]; rewrite E.
  - cbn [List.app utf8_parts]. rewrite width1 by exact H. reflexivity.
  - pose proof (shape2_char a b H) as (S' & E'). cbn [List.app utf8_parts]. rewrite width2 by apply H. destruct H as (H1 & H2). rewrite H2.
    f_equal. f_equal. clear - S E H1 H2. apply cont_iff in H2. unfold scalar, utf8_char in E, S.
    destruct (c <? 128); [discriminate E|]. destruct (Z.ltb_spec c 2048); [|destruct (c <? 65536); discriminate E]. apply cons_eq in E as (E1 & E). apply cons_eq in E as (E2 & E). lia.
  - cbn [List.app utf8_parts]. pose proof H as (H1 & H2). pose proof (proj1 (second3_iff a b) H1). rewrite width3 by lia. rewrite H1, H2.
    f_equal. f_equal. clear - S E H1 H2. apply cont_iff in H2. apply second3_iff in H1. unfold scalar, utf8_char in E, S.
    destruct (c <? 128); [discriminate E|]. destruct (c <? 2048); [discriminate E|]. destruct (Z.ltb_spec c 65536); [|discriminate E]. apply cons_eq in E as (E1 & E). apply cons_eq in E as (E2 & E). apply cons_eq in E as (E3 & E). lia.
  - cbn [List.app utf8_parts]. pose proof H as (H1 & H2 & H3). pose proof (proj1 (second4_iff a b) H1). rewrite width4 by lia. rewrite H1, H2, H3.
    f_equal. f_equal. clear - S E H1 H2 H3. apply cont_iff in H2. apply cont_iff in H3. apply second4_iff in H1. unfold scalar, utf8_char in E, S.
    destruct (c <? 128); [discriminate E|]. destruct (c <? 2048); [discriminate E|]. destruct (c <? 65536); [discriminate E|]. apply cons_eq in E as (E1 & E). apply cons_eq in E as (E2 & E). apply cons_eq in E as (E3 & E). apply cons_eq in E as (E4 & E). lia.
Qed.
Lemma parts_text s : Forall scalar s -> utf8_parts (utf8 s) = map Some s.
Proof. induction 1 as [|c s H _ IH]; [reflexivity|]. unfold utf8. cbn [flat_map map]. rewrite parts_char by exact H. fold (utf8 s). rewrite IH. reflexivity. Qed.
Lemma all_map s : whole_text (map Some s) = Some s.
Proof. induction s as [|c s IH]; [reflexivity|]. cbn [map whole_text]. rewrite IH. reflexivity. Qed.

(** One step of the reading: a character, or an invalid part, in front of the rest. *)
Inductive one_part : list Z -> option Z -> list Z -> Prop :=
| op_char c rest : scalar c -> one_part (utf8_char c ++ rest) (Some c) rest
| op_bad q rest : q <> [] -> (forall c r, scalar c -> q ++ rest <> utf8_char c ++ r) -> (unfinished q \/ length q = 1%nat) ->
    (forall q' r, q ++ rest = q' ++ r -> unfinished q' -> (length q' <= length q)%nat) -> one_part (q ++ rest) None rest.

(** Beginnings of characters, by their bytes. *)
Lemma unfinished_inv q : unfinished q -> q = [] \/
  (exists a, q = [a] /\ 194 <= a <= 244) \/ (exists a b, q = [a; b] /\ (second_of_3 a b = true \/ second_of_4 a b = true)) \/
  (exists a b c, q = [a; b; c] /\ second_of_4 a b = true /\ is_cont c = true).
Proof.
  intros (c & r & S & N & E). destruct (char_shape c S) as [(E' & H)|[(a & b & E' & H)|[(a & b & d & E' & H)|(a & b & d & e & E' & H)]]]; rewrite E' in E; clear E'.
  - destruct q as [|x q]; [auto|]. destruct q; destruct r; try discriminate E; congruence.
  - destruct H as (H & _). destruct q as [|x q]; [auto|right]. destruct q as [|y q]; [injection E as <- _; left; eexists; split; [reflexivity|lia]|].
    destruct q; destruct r; try discriminate E; congruence.
  - destruct H as (H & _). pose proof (proj1 (second3_iff a b) H) as H'. destruct q as [|x q]; [auto|right]. destruct q as [|y q]; [injection E as <- _; left; eexists; split; [reflexivity|lia]|right].
    destruct q as [|z q]; [injection E as <- <- _; left; eexists _, _; split; [reflexivity|auto]|]. destruct q; destruct r; try discriminate E; congruence.
  - destruct H as (H & H2 & _). pose proof (proj1 (second4_iff a b) H) as H'. destruct q as [|x q]; [auto|right]. destruct q as [|y q]; [injection E as <- _; left; eexists; split; [reflexivity|lia]|right].
    destruct q as [|z q]; [injection E as <- <- _; left; eexists _, _; split; [reflexivity|auto]|right]. destruct q as [|u q]; [injection E as <- <- <- _; eexists _, _, _; split; [reflexivity|auto]|].
    destruct q; destruct r; try discriminate E; congruence.
Qed.
Lemma unfinished1 a : 194 <= a <= 244 -> unfinished [a].
Proof.
  intros H. assert (C : a <= 223 \/ 224 <= a <= 239 \/ 240 <= a) by lia. destruct C as [C|[C|C]].
  - destruct (shape2_char a 128) as (S & E); [split; [lia|reflexivity]|]. eexists _, [128]. split; [exact S|]. split; [discriminate|exact E].
  - destruct (shape3_char a (if a =? 224 then 160 else 128) 128) as (S & E); [split; [apply second3_iff; destruct (Z.eqb_spec a 224); lia|reflexivity]|].
    eexists _, [_; 128]. split; [exact S|]. split; [discriminate|exact E].
  - destruct (shape4_char a (if a =? 240 then 144 else 128) 128 128) as (S & E); [split; [apply second4_iff; destruct (Z.eqb_spec a 240); lia|split; reflexivity]|].
    eexists _, [_; 128; 128]. split; [exact S|]. split; [discriminate|exact E].
Qed.
Lemma unfinished2_3 a b : second_of_3 a b = true -> unfinished [a; b].
Proof. intros H. destruct (shape3_char a b 128) as (S & E); [split; [exact H|reflexivity]|]. eexists _, [128]. split; [exact S|]. split; [discriminate|exact E]. Qed.
Lemma unfinished2_4 a b : second_of_4 a b = true -> unfinished [a; b].
Proof. intros H. destruct (shape4_char a b 128 128) as (S & E); [split; [exact H|split; reflexivity]|]. eexists _, [128; 128]. split; [exact S|]. split; [discriminate|exact E]. Qed.
Lemma unfinished3 a b c : second_of_4 a b = true -> is_cont c = true -> unfinished [a; b; c].
Proof. intros H Hc. destruct (shape4_char a b c 128) as (S & E); [split; [exact H|split; [exact Hc|reflexivity]]|]. eexists _, [128]. split; [exact S|]. split; [discriminate|exact E]. Qed.

(** A text that starts with a character, by its bytes. *)
Lemma starts_inv l c r : scalar c -> l = utf8_char c ++ r -> exists a t, l = a :: t /\
  ((0 <= a < 128) \/ (exists b t1, t = b :: t1 /\ shape2 a b) \/ (exists b d t2, t = b :: d :: t2 /\ shape3 a b d) \/ (exists b d e t3, t = b :: d :: e :: t3 /\ shape4 a b d e)).
Proof.
  intros S ->. destruct (char_shape c S) as [(E & H)|[(a & b & E & H)|[(a & b & d & E & H)|(a & b & d & e & E & H)]]]; rewrite E; cbn [List.app].
  - eexists _, _. split; [reflexivity|]. left. exact H.
  - eexists _, _. split; [reflexivity|]. right; left. eauto.
  - eexists _, _. split; [reflexivity|]. right; right; left. eauto.
  - eexists _, _. split; [reflexivity|]. right; right; right. eexists _, _, _, _. eauto.
Qed.

Ltac no_char := let c := fresh in let r := fresh in let S := fresh in let E := fresh in intros c r S E; apply (starts_inv _ c r S) in E;
  let a' := fresh in let t' := fresh in destruct E as (a' & t' & E & X); cbn [List.app] in E; injection E as <- <-;
  let X1 := fresh in destruct X as [X|[(? & ? & X & X1)|[(? & ? & ? & X & X1)|(? & ? & ? & ? & X & X1)]]]; unfold shape2, shape3, shape4 in *;
  repeat match goal with H : _ /\ _ |- _ => destruct H end;
  try discriminate; try (injection X as); subst;
  repeat match goal with
  | H : second_of_3 ?x ?y = true |- _ => let H' := fresh in pose proof (proj1 (second3_iff x y) H) as H'; revert H
  | H : second_of_4 ?x ?y = true |- _ => let H' := fresh in pose proof (proj1 (second4_iff x y) H) as H'; revert H end;
  intros; try congruence; try lia.
Ltac longest := let q' := fresh in let r := fresh in let E := fresh in let U := fresh in intros q' r E U; cbn [List.app List.length] in *;
  apply unfinished_inv in U; destruct U as [->|[(? & -> & U)|[(? & ? & -> & [U|U])|(? & ? & ? & -> & U & ?)]]]; cbn [List.length List.app] in *; try lia;
  try discriminate; try (injection E as); subst;
  repeat match goal with
  | H : second_of_3 ?x ?y = true |- _ => let H' := fresh in pose proof (proj1 (second3_iff x y) H) as H'; revert H
  | H : second_of_4 ?x ?y = true |- _ => let H' := fresh in pose proof (proj1 (second4_iff x y) H) as H'; revert H end;
  intros; try congruence; try lia.

Lemma parts_step a t : 0 <= a -> exists o rest, one_part (a :: t) o rest /\ utf8_parts (a :: t) = o :: utf8_parts rest /\ (length rest <= length t)%nat.
Proof.
  intros Ha. destruct (width_cases a Ha) as [(W & H)|[(W & H)|[(W & H)|[(W & H)|(W & H)]]]]; cbn [utf8_parts]; rewrite W.
  - exists (Some a), t. split; [|auto]. destruct (shape1_char a H) as (S & E). pose proof (op_char a t S) as X. rewrite E in X. exact X.
  - assert (B : forall rest, (forall b t1, rest = b :: t1 -> is_cont b = false) -> one_part ([a] ++ rest) None rest).
    { intros rest Hb. apply op_bad; [discriminate| |left; apply unfinished1; lia|].
      - no_char; try (specialize (Hb _ _ eq_refl); congruence).
      - longest. }
    destruct t as [|b t1]; [exists None, []; split; [apply B; discriminate|auto]|].
    destruct (is_cont b) eqn:Eb.
    + eexists (Some _), t1. split; [|split; [reflexivity|cbn [length]; lia]]. destruct (shape2_char a b) as (S & E); [split; [lia|exact Eb]|]. pose proof (op_char _ t1 S) as X. rewrite E in X. exact X.
    + exists None, (b :: t1). split; [apply B; intros ? ? X; injection X as -> ->; exact Eb|auto].
  - assert (B : forall rest, (forall b t1, rest = b :: t1 -> second_of_3 a b = false) -> one_part ([a] ++ rest) None rest).
    { intros rest Hb. apply op_bad; [discriminate| |left; apply unfinished1; lia|].
      - no_char; try (specialize (Hb _ _ eq_refl); congruence).
      - longest; try (specialize (Hb _ _ eq_refl); congruence). }
    destruct t as [|b t1]; [exists None, []; split; [apply B; discriminate|auto]|].
    destruct (second_of_3 a b) eqn:Eb.
    + assert (B2 : forall rest, (forall d t1, rest = d :: t1 -> is_cont d = false) -> one_part ([a; b] ++ rest) None rest).
      { intros rest Hb. apply op_bad; [discriminate| |left; apply unfinished2_3; exact Eb|].
        - no_char; try (specialize (Hb _ _ eq_refl); congruence).
        - longest. }
      destruct t1 as [|d t2]; [exists None, []; split; [apply B2; discriminate|cbn [length]; auto]|].
      destruct (is_cont d) eqn:Ed.
      * eexists (Some _), t2. split; [|split; [reflexivity|cbn [length]; lia]]. destruct (shape3_char a b d) as (S & E); [split; assumption|]. pose proof (op_char _ t2 S) as X. rewrite E in X. exact X.
      * exists None, (d :: t2). split; [apply B2; intros ? ? X; injection X as -> ->; exact Ed|cbn [length]; auto].
    + exists None, (b :: t1). split; [apply B; intros ? ? X; injection X as -> ->; exact Eb|auto].
  - assert (B : forall rest, (forall b t1, rest = b :: t1 -> second_of_4 a b = false) -> one_part ([a] ++ rest) None rest).
    { intros rest Hb. apply op_bad; [discriminate| |left; apply unfinished1; lia|].
      - no_char; try (specialize (Hb _ _ eq_refl); congruence).
      - longest; try (specialize (Hb _ _ eq_refl); congruence). }
    destruct t as [|b t1]; [exists None, []; split; [apply B; discriminate|auto]|].
    destruct (second_of_4 a b) eqn:Eb.
    + assert (B2 : forall rest, (forall d t1, rest = d :: t1 -> is_cont d = false) -> one_part ([a; b] ++ rest) None rest).
      { intros rest Hb. apply op_bad; [discriminate| |left; apply unfinished2_4; exact Eb|].
        - no_char; try (specialize (Hb _ _ eq_refl); congruence).
        - longest; try (specialize (Hb _ _ eq_refl); congruence). }
      destruct t1 as [|d t2]; [exists None, []; split; [apply B2; discriminate|cbn [length]; auto]|].
      destruct (is_cont d) eqn:Ed.
      * assert (B3 : forall rest, (forall e t1, rest = e :: t1 -> is_cont e = false) -> one_part ([a; b; d] ++ rest) None rest).
        { intros rest Hb. apply op_bad; [discriminate| |left; apply unfinished3; assumption|].
          - no_char; try (specialize (Hb _ _ eq_refl); congruence).
          - longest. }
        destruct t2 as [|e t3]; [exists None, []; split; [apply B3; discriminate|cbn [length]; auto]|].
        destruct (is_cont e) eqn:Ee.
        -- eexists (Some _), t3. split; [|split; [reflexivity|cbn [length]; lia]]. destruct (shape4_char a b d e) as (S & E); [split; [|split]; assumption|]. pose proof (op_char _ t3 S) as X. rewrite E in X. exact X.
        -- exists None, (e :: t3). split; [apply B3; intros ? ? X; injection X as -> ->; exact Ee|cbn [length]; auto].
      * exists None, (d :: t2). split; [apply B2; intros ? ? X; injection X as -> ->; exact Ed|cbn [length]; auto].
    + exists None, (b :: t1). split; [apply B; intros ? ? X; injection X as -> ->; exact Eb|auto].
  - exists None, t. split; [|auto]. change (a :: t) with ([a] ++ t). apply op_bad; [discriminate| |right; reflexivity|].
    + no_char.
    + longest.
Qed.

Lemma unfold_parts : forall l, Forall is_u8 l -> forall n, (length l <= n)%nat ->
  reads_lossily l (from_utf8_lossy l) /\ (forall s, whole_text (utf8_parts l) = Some s -> encodes l s).
Proof.
  intros l HF n. revert l HF. induction n as [|n IH]; intros l HF Hn.
  - destruct l; [|cbn [length] in Hn; lia]. split; [constructor|]. intros s E. injection E as <-. split; [constructor|reflexivity].
  - destruct l as [|a t]; [apply IH; [constructor|cbn [length]; lia]|].
    assert (Ha : 0 <= a) by (inversion HF as [|? ? A _]; unfold is_u8 in A; lia).
    destruct (parts_step a t Ha) as (o & rest & O & E & L). unfold from_utf8_lossy. rewrite E. cbn [map].
    assert (HR : Forall is_u8 rest). { inversion O as [c r S E1 E2 E3|q r N1 N2 N3 N4 E1 E2 E3]; subst; rewrite <- E1 in HF; apply Forall_app in HF; apply HF. }
    cbn [length] in Hn. destruct (IH rest HR ltac:(lia)) as (A & B). inversion O as [c r S E1 E2 E3|q r N1 N2 N3 N4 E1 E2 E3]; subst.
    + split; [constructor; assumption|]. intros s Es. cbn [whole_text] in Es. destruct (whole_text (utf8_parts rest)) as [s'|] eqn:Er; [|discriminate Es].
      injection Es as <-. destruct (B s' eq_refl) as (B1 & B2). split; [constructor; assumption|]. unfold utf8. cbn [flat_map]. f_equal. exact B2.
    + split; [|discriminate]. apply rl_replaced; assumption.
Qed.

(** A text is accepted exactly when the bytes are its encoding. *)
Lemma P_C95_strict : forall bytes s, Forall is_u8 bytes -> (from_utf8 bytes = Some s <-> encodes bytes s).
Proof.
  intros bytes s HF. split.
  - apply (unfold_parts bytes HF _ (le_n _)).
  - intros (S & ->). unfold from_utf8. rewrite parts_text by exact S. apply all_map.
Qed.

Lemma char_prefix c c' r r' : scalar c -> scalar c' -> utf8_char c ++ r = utf8_char c' ++ r' -> c = c' /\ r = r'.
Proof.
  intros S S' E. pose proof (f_equal utf8_parts E) as P. rewrite !parts_char in P by assumption. injection P as <- _. split; [reflexivity|]. eapply app_inv_head; exact E.
Qed.
Lemma char_some c : exists a t, utf8_char c = a :: t.
Proof. unfold utf8_char. destruct (c <? 128); [eauto|]. destruct (c <? 2048); [eauto|]. destruct (c <? 65536); eauto. Qed.
Lemma lossily_unique l s : reads_lossily l s -> forall s', reads_lossily l s' -> s = s'.
Proof.
  induction 1 as [|c rest s S _ IH|q rest s N1 N2 N3 N4 _ IH]; intros s' H.
  - inversion H as [|c r s1 S1 H1 E|q r s1 N1 N2 N3 N4 H1 E]; [reflexivity| |].
    + destruct (char_some c) as (x & y & X). rewrite X in E. discriminate E.
    + destruct q; [congruence|discriminate E].
  - inversion H as [E|c' r s1 S1 H1 E|q r s1 N1 N2 N3 N4 H1 E].
    + destruct (char_some c) as (x & y & X). rewrite X in E. discriminate E.
    + destruct (char_prefix c' c r rest S1 S E) as (<- & <-). f_equal. apply IH. exact H1.
    + exfalso. exact (N2 c rest S E).
  - inversion H as [E|c' r s1 S1 H1 E|q' r s1 M1 M2 M3 M4 H1 E].
    + destruct q; [congruence|discriminate E].
    + exfalso. exact (N2 c' r S1 (eq_sym E)).
    + assert (L : length q = length q').
      { apply Nat.le_antisymm.
        - destruct N3 as [U|U]; [apply (M4 q rest E U)|]. rewrite U. destruct q'; [congruence|cbn [length]; lia].
        - destruct M3 as [U|U]; [apply (N4 q' r (eq_sym E) U)|]. rewrite U. destruct q; [congruence|cbn [length]; lia]. }
      apply app_eq_app in E as [k [(E1 & E2)|(E1 & E2)]]; subst; rewrite app_length in L; (destruct k; [|cbn [length] in L; lia]); cbn [List.app] in *; rewrite ?app_nil_r in *; f_equal; apply IH; assumption.
Qed.
(** Reading with replacements follows the practice recommended by the Unicode standard. *)
Lemma P_C95_lossy : forall bytes s, Forall is_u8 bytes -> (from_utf8_lossy bytes = s <-> reads_lossily bytes s).
Proof.
  intros bytes s HF. destruct (unfold_parts bytes HF _ (le_n _)) as (A & _). split; [intros <-; exact A|]. intros B. exact (lossily_unique _ _ A _ B).
Qed.

(** A text read with replacements is that text, also when unused bytes follow it: these are read as as many null characters. *)
Lemma lossy_app s l : Forall scalar s -> from_utf8_lossy (utf8 s ++ l) = s ++ from_utf8_lossy l.
Proof.
  intros S. induction S as [|c s H _ IH]; [reflexivity|]. unfold utf8. cbn [flat_map]. rewrite <- app_assoc. unfold from_utf8_lossy. rewrite parts_char by exact H.
  cbn [map List.app]. f_equal. exact IH.
Qed.
Lemma lossy_zeros n : from_utf8_lossy (repeat 0 n) = repeat 0 n.
Proof. induction n as [|n IH]; [reflexivity|]. cbn [repeat]. unfold from_utf8_lossy in *. cbn [utf8_parts]. change (utf8_width 0) with 1. cbn [map]. f_equal. exact IH. Qed.
Lemma utf8_zeros n : utf8 (repeat 0 n) = repeat 0 n.
Proof. induction n as [|n IH]; [reflexivity|]. cbn [repeat]. unfold utf8 in *. cbn [flat_map]. rewrite IH. reflexivity. Qed.
Lemma utf8_app a b : utf8 (a ++ b) = utf8 a ++ utf8 b.
Proof. apply flat_map_app. Qed.
(** A text followed by zeroes reads back as itself followed by null characters. *)
Lemma P_C95_padded : forall s n, Forall scalar s -> from_utf8_lossy (utf8 s ++ repeat 0 n) = s ++ repeat 0 n /\ from_utf8 (utf8 s ++ repeat 0 n) = Some (s ++ repeat 0 n).
Proof.
  intros s n S. split; [rewrite lossy_app, lossy_zeros by exact S; reflexivity|].
  rewrite <- (utf8_zeros n) at 1. rewrite <- utf8_app. unfold from_utf8. rewrite parts_text; [apply all_map|]. apply Forall_app. split; [exact S|].
  apply Forall_forall. intros x H. apply repeat_spec in H as ->. unfold scalar. lia.
Qed.

Lemma char_ascii c : scalar c -> ascii_only (utf8_char c) = ascii_only [c].
Proof.
  intros S. destruct (char_shape c S) as [(E & H)|[(a & b & E & H)|[(a & b & d & E & H)|(a & b & d & e & E & H)]]]; rewrite E; [reflexivity| | |];
    assert (C : 128 <= c) by (unfold utf8_char in E; destruct (Z.ltb_spec c 128); [discriminate E|lia]); unfold ascii_only, shape2, shape3, shape4 in *; rewrite ?second3_iff, ?second4_iff, ?cont_iff in H; cbn [filter].
  - replace (a <? 128) with false by lia. replace (b <? 128) with false by lia. replace (c <? 128) with false by lia. reflexivity.
  - replace (a <? 128) with false by lia. replace (b <? 128) with false by lia. replace (d <? 128) with false by lia. replace (c <? 128) with false by lia. reflexivity.
  - replace (a <? 128) with false by lia. replace (b <? 128) with false by lia. replace (d <? 128) with false by lia. replace (e <? 128) with false by lia. replace (c <? 128) with false by lia. reflexivity.
Qed.
Lemma bad_ascii q rest : Forall is_u8 q -> (forall c r, scalar c -> q ++ rest <> utf8_char c ++ r) -> (unfinished q \/ length q = 1%nat) -> ascii_only q = [].
Proof.
  intros HF N [U|U].
  - apply unfinished_inv in U as [->|[(a & -> & H)|[(a & b & -> & [H|H])|(a & b & c & -> & H & H')]]]; [reflexivity| | | |];
      rewrite ?second3_iff, ?second4_iff in H; rewrite ?cont_iff in *; unfold ascii_only; cbn [filter];
      repeat match goal with |- context [?x <? 128] => replace (x <? 128) with false by lia end; reflexivity.
  - destruct q as [|a [|? ?]]; try discriminate U. unfold ascii_only. cbn [filter]. destruct (Z.ltb_spec a 128) as [L|L]; [|reflexivity]. exfalso.
    inversion HF as [|? ? A _]; subst. unfold is_u8 in A. destruct (shape1_char a ltac:(lia)) as (S & E). apply (N a rest S). rewrite E. reflexivity.
Qed.
(** Reading with replacements never touches the ASCII characters: they are all found, in order, and no other. *)
Lemma P_C95_ascii : forall bytes s, Forall is_u8 bytes -> reads_lossily bytes s -> ascii_only s = ascii_only bytes /\ Forall scalar s.
Proof.
  intros bytes s HF H. revert HF. induction H as [|c rest s S _ IH|q rest s N1 N2 N3 N4 _ IH]; intros HF; [split; [reflexivity|constructor]| |];
    apply Forall_app in HF as (HF1 & HF2); destruct (IH HF2) as (A & B).
  - split; [|constructor; assumption]. unfold ascii_only. rewrite filter_app. fold (ascii_only (utf8_char c)). rewrite char_ascii by exact S.
    change (ascii_only (c :: s) = ascii_only [c] ++ ascii_only rest). rewrite <- A. unfold ascii_only. rewrite <- filter_app. reflexivity.
  - split; [|constructor; [unfold scalar; lia|assumption]]. unfold ascii_only. rewrite filter_app. fold (ascii_only q). rewrite (bad_ascii q rest HF1 N2 N3).
    cbn [List.app filter]. exact A.
Qed.

(** ** The buffered display *)
(** What the handler receives: on a strict request the text the bytes are the encoding of, or an error with the bytes when they are no text;
    on a lossy one always a text. *)
Lemma P_C95_message : forall bytes, Forall is_u8 bytes ->
  (forall s, bd_message (false, bytes) = ROk s <-> encodes bytes s) /\
  (forall e, bd_message (false, bytes) = RErr e <-> e = bytes /\ ~ exists s, encodes bytes s) /\
  (forall s, bd_message (true, bytes) = ROk s <-> reads_lossily bytes s).
Proof.
  intros bytes HF. unfold bd_message. split; [|split].
  - intros s. rewrite <- P_C95_strict by exact HF. destruct (from_utf8 bytes) as [x|]; split; congruence.
  - intros e. destruct (from_utf8 bytes) as [x|] eqn:E.
    + split; [discriminate|]. intros (_ & N). exfalso. apply N. exists x. apply P_C95_strict; assumption.
    + split; [|intros (-> & _); reflexivity]. intros X. injection X as <-. split; [reflexivity|]. intros (s & H). apply P_C95_strict in H; [congruence|exact HF].
  - intros s. rewrite <- P_C95_lossy by exact HF. split; congruence.
Qed.

Lemma words_bytes l : Forall is_u32 l -> words_to_bytes l = buffer_bytes l /\ Forall is_u8 (buffer_bytes l).
Proof.
  induction 1 as [|w l H _ (IH & IH')]; [split; [reflexivity|constructor]|]. unfold words_to_bytes, buffer_bytes in *. cbn [flat_map]. unfold is_u32 in H. split.
  - f_equal; [|exact IH]. unfold be_bytes32, u8. change (2 ^ 24) with 16777216. change (2 ^ 16) with 65536. change (2 ^ 8) with 256. rewrite (Z.mod_small (w / 16777216) 256) by lia. reflexivity.
  - apply Forall_app. split; [|exact IH']. unfold is_u8. repeat constructor; lia.
Qed.
(** What a display built by [new_print_lossy] prints on a request, strict or lossy: the bytes of the buffer when they are a text, and otherwise
    the text read with replacements. *)
Lemma P_C95_print : forall d w d' ex, Forall is_u32 (bd_buffer d) -> w = 170 \/ w = 187 -> bd_write d (4 * bd_words d) w = Ret (d', ex) ->
  ex = 0 /\ exists s, reads_lossily (buffer_bytes (bd_buffer d)) s /\ buf_display_printed d' = buf_display_printed d ++ utf8 s /\
    ((exists t, encodes (buffer_bytes (bd_buffer d)) t) -> utf8 s = buffer_bytes (bd_buffer d)).
Proof.
  intros d w d' ex HF Hw H. destruct (words_bytes _ HF) as (E & HB).
  assert (X : forall b : bool, ex = 0 -> d' = BufDisplay (bd_buffer d) (bd_words d) (bd_hw_id d) (bd_calls d ++ [(b, words_to_bytes (bd_buffer d))]) ->
    ex = 0 /\ exists s, reads_lossily (buffer_bytes (bd_buffer d)) s /\ buf_display_printed d' = buf_display_printed d ++ utf8 s /\
    ((exists t, encodes (buffer_bytes (bd_buffer d)) t) -> utf8 s = buffer_bytes (bd_buffer d))).
  { intros b Ex ->. split; [exact Ex|]. exists (from_utf8_lossy (buffer_bytes (bd_buffer d))). split; [apply P_C95_lossy; [exact HB|reflexivity]|]. split.
    - unfold buf_display_printed. cbn [bd_calls]. rewrite flat_map_app. f_equal. cbn [flat_map]. rewrite app_nil_r, E. unfold bd_message. destruct b; [reflexivity|].
      destruct (from_utf8 (buffer_bytes (bd_buffer d))) as [t|] eqn:F; cbn [bd_print]; [|reflexivity]. apply P_C95_strict in F; [|exact HB]. destruct F as (S & ->).
      f_equal. pose proof (lossy_app t [] S) as L. rewrite !app_nil_r in L. symmetry. exact L.
    - intros (t & S & Et). rewrite Et. f_equal. pose proof (lossy_app t [] S) as L. rewrite !app_nil_r in L. exact L. }
  unfold bd_write in H. rewrite (Z.mul_comm 4), Z.div_mul in H by lia. rewrite Z.ltb_irrefl in H. destruct Hw as [-> | ->]; cbv zeta in H; injection H as H1 H2; eapply X; eauto.
Qed.

(** ** Witnesses *)
Lemma E_C95_strict : from_utf8 [104; 195; 169; 240; 159; 166; 128] = Some [104; 233; 129408] /\ encodes [104; 195; 169; 240; 159; 166; 128] [104; 233; 129408] /\
  from_utf8 [237; 160; 128] = None /\ from_utf8 [192; 128] = None.
Proof. split; [reflexivity|]. split; [|split; reflexivity]. split; [|reflexivity]. repeat constructor; unfold scalar; lia. Qed.
Lemma E_C95_lossy : from_utf8_lossy [97; 226; 130; 98; 255; 240; 159; 166; 195] = [97; 65533; 98; 65533; 65533; 65533] /\
  from_utf8_lossy [237; 160; 128] = [65533; 65533; 65533].
Proof. split; reflexivity. Qed.
Lemma E_C95_padded : from_utf8_lossy (utf8 [233] ++ repeat 0 2) = [233; 0; 0].
Proof. reflexivity. Qed.
Lemma E_C95_ascii : exists s, reads_lossily [97; 226; 98] s /\ ascii_only s = [97; 98] /\ s = [97; 65533; 98].
Proof. eexists. split; [apply P_C95_lossy; [repeat constructor; unfold is_u8; lia|reflexivity]|]. split; reflexivity. Qed.
Lemma E_C95_message : bd_message (false, [97; 255]) = RErr [97; 255] /\ bd_message (true, [97; 255]) = ROk [97; 65533] /\ bd_message (false, [195; 169]) = ROk [233].
Proof. repeat split. Qed.
Lemma E_C95_print : exists d d', bd_new 12 3 = Some d /\ bd_write d 0 1633771873 = Ret (d', 0) /\ bd_words d' = 2 /\
  match bd_write d' 8 170 with Ret (d'', ex) => ex = 0 /\ buf_display_printed d'' = [97; 97; 97; 97; 0; 0; 0; 0] | _ => False end.
Proof. do 2 eexists. do 3 (split; [reflexivity|]). vm_compute. split; reflexivity. Qed.

(** A character cut by the end of the bytes is replaced by one U+FFFD. *)
Lemma cut_text k : forall s, Forall scalar s -> (k < length (utf8 s))%nat ->
  exists p c r q, s = p ++ c :: r /\ firstn k (utf8 s) = utf8 p ++ q /\ (q = [] \/ q <> [] /\ unfinished q).
Proof.
  intros s S. revert k. induction S as [|c s H _ IH]; intros k Hk; [cbn in Hk; lia|]. unfold utf8 in *. cbn [flat_map] in *. rewrite app_length in Hk.
  destruct (Nat.lt_ge_cases k (length (utf8_char c))) as [L|L].
  - exists [], c, s, (firstn k (utf8_char c)). split; [reflexivity|]. split.
    + rewrite firstn_app. replace (k - length (utf8_char c))%nat with O by lia. rewrite app_nil_r. reflexivity.
    + destruct k as [|k]; [left; reflexivity|]. right. destruct (char_some c) as (a & t & Ec). split; [rewrite Ec; discriminate|].
      exists c, (skipn (S k) (utf8_char c)). split; [exact H|]. split; [|symmetry; apply firstn_skipn].
      intros X. pose proof (f_equal (@length Z) X) as Y. rewrite skipn_length in Y. cbn [length] in Y. lia.
  - destruct (IH (k - length (utf8_char c))%nat ltac:(lia)) as (p & c' & r & q & Es & Ef & Q). exists (c :: p), c', r, q. split; [rewrite Es; reflexivity|]. split; [|exact Q].
    rewrite firstn_app, firstn_all2 by lia. rewrite Ef. cbn [flat_map]. rewrite app_assoc. reflexivity.
Qed.
Lemma unfinished_lossy q : q <> [] -> unfinished q -> reads_lossily q [65533].
Proof.
  intros N U. rewrite <- (app_nil_r q). apply rl_replaced; [exact N| |left; exact U| |constructor].
  - intros c r S E. destruct U as (c' & r' & S' & N' & E'). rewrite app_nil_r in E. subst q. rewrite <- app_assoc in E'.
    pose proof (char_prefix c' c [] (r ++ r') S' S) as X. rewrite app_nil_r in X. destruct (X E') as (_ & Y). symmetry in Y. apply app_eq_nil in Y as (_ & Y). exact (N' Y).
  - intros q' r E _. pose proof (f_equal (@length Z) E) as Y. rewrite !app_length in Y. cbn [length] in Y. lia.
Qed.
Lemma text_lossy p l s : Forall scalar p -> reads_lossily l s -> reads_lossily (utf8 p ++ l) (p ++ s).
Proof.
  intros S L. induction S as [|c p H _ IH]; [exact L|]. unfold utf8 in *. cbn [flat_map List.app]. rewrite <- app_assoc. apply rl_char; assumption.
Qed.
