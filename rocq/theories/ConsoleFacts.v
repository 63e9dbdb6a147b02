(** Facts about printed numbers and texts. *)
From Coq Require Import String Ascii ZArith List Bool Lia.
From Verif Require Import Base BaseFacts Board Mem Cpu Asm Tools Devices Runner LasmRules Lasm LasmFacts Console SpecMach SpecIsa SpecBus SpecRun SpecConsole.
Import ListNotations.
Open Scope string_scope.
Open Scope Z_scope.
Ltac Zify.zify_post_hook ::= Z.div_mod_to_equations.

Lemma hex_digit_value d : 0 <= d < 16 -> digit_value (hex_digit d) = Some d.
Proof.
  intros H. unfold digit_value, hex_digit. rewrite N_ascii_embedding by (destruct (Z.ltb_spec d 10); lia).
  destruct (Z.ltb_spec d 10); cbv zeta; rewrite Z2N.id by lia.
  - replace ((48 <=? 48 + d) && (48 + d <=? 57)) with true by (symmetry; apply andb_true_iff; split; apply Z.leb_le; lia). f_equal; lia.
  - replace ((48 <=? 55 + d) && (55 + d <=? 57)) with false by (symmetry; apply andb_false_iff; right; apply Z.leb_gt; lia).
    replace ((65 <=? 55 + d) && (55 + d <=? 70)) with true by (symmetry; apply andb_true_iff; split; apply Z.leb_le; lia). f_equal; lia.
Qed.

(** Only digits. *)
Definition digit (c : ascii) : bool := match digit_value c with Some _ => true | None => false end.
Fixpoint all_digits (s : string) : bool := match s with "" => true | String c s => digit c && all_digits s end.

Lemma digits_digits base fuel : 2 <= base <= 16 -> forall n tail, 0 <= n -> all_digits tail = true -> all_digits (digits base fuel n tail) = true.
Proof.
  intros B. induction fuel as [|f IH]; intros n tail Hn H; cbn [digits]; [exact H|].
  destruct (Z.ltb_spec n base) as [L|L].
  - cbn [all_digits]. unfold digit. rewrite hex_digit_value by lia. exact H.
  - apply IH; [apply Z.div_pos; lia|]. cbn [all_digits]. unfold digit. rewrite hex_digit_value by (pose proof (Z.mod_pos_bound n base); lia). exact H.
Qed.
Lemma digits_reads base fuel : 2 <= base <= 16 -> forall n tail, (0 < fuel)%nat -> 0 <= n < base ^ Z.of_nat fuel ->
  exists k, 0 <= k /\ forall acc, digits_value base (digits base fuel n tail) acc = digits_value base tail (acc * base ^ k + n).
Proof.
  intros B. induction fuel as [|f IH]; intros n tail Hf H; [lia|]. cbn [digits]. destruct (Z.ltb_spec n base) as [L|L].
  - exists 1. split; [lia|]. intros acc. cbn [digits_value]. rewrite hex_digit_value by lia. rewrite (proj2 (Z.ltb_lt n base) L). f_equal; lia.
  - assert (Hf' : (0 < f)%nat). { destruct f; [|lia]. change (Z.of_nat 1) with 1 in H. rewrite Z.pow_1_r in H. lia. }
    assert (0 <= n / base < base ^ Z.of_nat f).
    { split; [apply Z.div_pos; lia|]. apply Z.div_lt_upper_bound; [lia|]. rewrite Nat2Z.inj_succ, Z.pow_succ_r in H by lia. lia. }
    destruct (IH (n / base) (String (hex_digit (n mod base)) tail) Hf' H0) as (k & Hk & E). exists (k + 1). split; [lia|]. intros acc. rewrite E.
    pose proof (Z.mod_pos_bound n base ltac:(lia)) as Hm.
    cbn [digits_value]. rewrite hex_digit_value by lia. rewrite (proj2 (Z.ltb_lt (n mod base) base)) by lia. f_equal.
    rewrite Z.pow_add_r, Z.pow_1_r by lia. pose proof (Z.div_mod n base ltac:(lia)). lia.
Qed.
Lemma digits_some base fuel : forall n tail, (0 < fuel)%nat -> digits base fuel n tail <> "".
Proof. induction fuel as [|f IH]; intros n tail H; [lia|]. cbn [digits]. destruct (n <? base); [discriminate|]. destruct f; [discriminate|]. apply IH. lia. Qed.
Lemma digits_length base fuel : 2 <= base -> forall w n tail, (1 <= w)%nat -> 0 <= n < base ^ Z.of_nat w ->
  (String.length (digits base fuel n tail) <= w + String.length tail)%nat.
Proof.
  intros B. induction fuel as [|f IH]; intros w n tail Hw H; cbn [digits]; [lia|]. destruct (Z.ltb_spec n base) as [L|L]; [cbn [String.length]; lia|].
  destruct w as [|[|w]]; [lia| |]. { change (Z.of_nat 1) with 1 in H. rewrite Z.pow_1_r in H. lia. }
  assert (0 <= n / base < base ^ Z.of_nat (S w)).
  { split; [apply Z.div_pos; lia|]. apply Z.div_lt_upper_bound; [lia|]. rewrite (Nat2Z.inj_succ (S w)), Z.pow_succ_r in H by lia. lia. }
  specialize (IH (S w) (n / base) (String (hex_digit (n mod base)) tail) ltac:(lia) H0). cbn [String.length] in IH. lia.
Qed.
Lemma pad_value base k : 0 < base -> forall s, digits_value base (pad k s) 0 = digits_value base s 0.
Proof.
  intros B. induction k; intros s; [reflexivity|]. cbn [pad digits_value]. change (digit_value "0") with (Some 0). cbn [Z.mul Z.add].
  rewrite (proj2 (Z.ltb_lt 0 base)) by lia. apply IHk.
Qed.
Lemma pad_digits k : forall s, all_digits (pad k s) = all_digits s.
Proof. induction k; intros s; [reflexivity|]. cbn [pad all_digits]. change (digit "0") with true. apply IHk. Qed.
Lemma pad_len k : forall s, String.length (pad k s) = (k + String.length s)%nat.
Proof. induction k; intros s; [reflexivity|]. cbn [pad String.length]. rewrite IHk. reflexivity. Qed.
Lemma pad_some k s : s <> "" -> pad k s <> "".
Proof. destruct k; [auto|]. discriminate. Qed.

Section Number.
Context (base : Z) (B : 2 <= base <= 16).
Lemma number_digits w n : 0 <= n -> all_digits (number base w n) = true.
Proof. intros H. unfold number. rewrite pad_digits. apply digits_digits; auto. Qed.
Lemma number_reads w n : 0 <= n < base ^ 64 -> reads base (number base w n) n.
Proof.
  intros H. unfold number. cbv zeta. split; [apply pad_some, digits_some; lia|]. rewrite pad_value by lia.
  destruct (digits_reads base 64 B n "" ltac:(lia) H) as (k & _ & E). rewrite E. cbn [digits_value]. f_equal; lia.
Qed.
Lemma number_least w n : (w <= String.length (number base w n))%nat.
Proof. unfold number. cbv zeta. rewrite pad_len. lia. Qed.
Lemma number_length w n : (1 <= w)%nat -> 0 <= n < base ^ Z.of_nat w -> String.length (number base w n) = w.
Proof. intros Hw H. unfold number. cbv zeta. rewrite pad_len. pose proof (digits_length base 64 ltac:(lia) w n "" Hw H). cbn [String.length] in *. lia. Qed.
Lemma number_inj w n n' : 0 <= n < base ^ 64 -> 0 <= n' < base ^ 64 -> number base w n = number base w n' -> n = n'.
Proof. intros H H' E. pose proof (number_reads w n H) as (_ & A). pose proof (number_reads w n' H') as (_ & A'). rewrite E, A' in A. congruence. Qed.
End Number.

Lemma hex_reads w n : (1 <= w)%nat -> 0 <= n < 2 ^ 256 -> hex_of w ("0x" ++ number 16 w n) n.
Proof.
  intros Hw H. exists (number 16 w n). split; [reflexivity|]. split; [apply number_reads; [lia|exact H]|]. split; [apply number_least|].
  intros L. apply number_length; lia.
Qed.
Lemma reads_inj base s n n' : reads base s n -> reads base s n' -> n = n'.
Proof. intros (_ & A) (_ & A'). congruence. Qed.

(** ** Cancelling parts of texts *)
Lemma cons_eq c c' s s' : String c s = String c' s' -> c = c' /\ s = s'.
Proof. intros H. injection H. auto. Qed.
Lemma append_cancel p : forall s s', p ++ s = p ++ s' -> s = s'.
Proof. induction p as [|c p IH]; intros s s' H; [exact H|]. cbn [String.append] in H. apply cons_eq in H. apply IH, H. Qed.
Lemma append_length s : forall t, String.length (s ++ t) = (String.length s + String.length t)%nat.
Proof. induction s as [|c s IH]; intros t; [reflexivity|]. cbn [String.append String.length]. rewrite IH. reflexivity. Qed.
Lemma append_cancel_same a : forall b s s', String.length a = String.length b -> a ++ s = b ++ s' -> a = b /\ s = s'.
Proof.
  induction a as [|c a IH]; intros [|d b] s s' L H; try discriminate L; [auto|]. cbn [String.append] in H. apply cons_eq in H as (-> & H).
  cbn [String.length] in L. destruct (IH b s s' ltac:(lia) H) as (-> & ->). auto.
Qed.
Lemma append_cancel_r a b s : a ++ s = b ++ s -> a = b.
Proof. intros H. apply (append_cancel_same a b s s); [|exact H]. assert (E : String.length (a ++ s) = String.length (b ++ s)) by congruence. rewrite !append_length in E. lia. Qed.
(** The texts up to the first character that is not a digit. *)
Lemma digits_cancel a : forall b c c' s s', all_digits a = true -> all_digits b = true -> digit c = false -> digit c' = false ->
  a ++ String c s = b ++ String c' s' -> a = b /\ String c s = String c' s'.
Proof.
  induction a as [|x a IH]; intros [|y b] c c' s s' Ha Hb Hc Hc' H; cbn [String.append all_digits] in *; [auto| | |].
  - apply cons_eq in H as (-> & _). apply andb_true_iff in Hb as (Hb & _). congruence.
  - apply cons_eq in H as (-> & _). apply andb_true_iff in Ha as (Ha & _). congruence.
  - apply cons_eq in H as (-> & H). apply andb_true_iff in Ha as (_ & Ha). apply andb_true_iff in Hb as (_ & Hb).
    destruct (IH b c c' s s' Ha Hb Hc Hc' H) as (-> & E). auto.
Qed.

(** ** Texts on one line *)
Lemma one_line_app s t : one_line s -> one_line t -> one_line (s ++ t).
Proof. induction s as [|c s IH]; [auto|]. cbn [String.append one_line]. intros (A & B) C. auto. Qed.
Lemma digits_one_line s : all_digits s = true -> one_line s.
Proof.
  induction s as [|c s IH]; [exact (fun _ => I)|]. cbn [all_digits one_line]. intros H. apply andb_true_iff in H as (A & B). split; [|auto].
  intros E. unfold digit, digit_value in A. rewrite E in A. discriminate.
Qed.
Lemma reg_one_line r : one_line (reg_name r).
Proof. destruct r; cbn; repeat split; discriminate. Qed.
