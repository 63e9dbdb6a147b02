(** Proofs of C95, continued: keyboards and what the examples print. *)
From Coq Require Import String Ascii ZArith List Bool Lia.
From Verif Require Import Base BaseFacts Board Mem Cpu Asm Tools Devices Runner LasmRules Lasm Sources Console Utf8 Examples ExampleText
  SpecMach SpecIsa SpecBus SpecDev SpecText SpecRun SpecObs SpecConsole SpecExample SpecExampleText DevTyped ConsoleFacts
  ProofIo ProofHello ProofConsole ProofDetect ProofTools DetectFacts SpecAsm ProofText.
Import ListNotations.
Open Scope list_scope.
Open Scope Z_scope.
Ltac Zify.zify_post_hook ::= Z.div_mod_to_equations.

(** ** Keyboards *)
Lemma scalar_u32 c : scalar c -> is_u32 c.
Proof. unfold scalar, is_u32. lia. Qed.
(** The buffer of the character keyboard is a character at any time, as its documentation says. *)
Lemma P_C95_keyboard : forall oc c id input n h, scalar c -> (forall k, scalar (input k)) -> Forall (in_range 8) h ->
  exists c' n' xs, serve (dev_ops oc) (DKeyChar (CharKeyboard c id input n)) h = Ret (DKeyChar (CharKeyboard c' id input n'), xs) /\ scalar c' /\
    reads_as (dev_ops oc) (DKeyChar (CharKeyboard c' id input n')) 0 c'.
Proof.
  intros oc c id input n h Hc Hi HF. destruct (P_C62_character oc c id input n h (scalar_u32 _ Hc) (fun k => scalar_u32 _ (Hi k)) HF) as (xs & E & V).
  do 3 eexists. split; [exact E|]. split; [|exact V]. clear E V xs.
  assert (G : forall s, scalar (snd s) -> scalar (snd (typed_char input h s))); [|apply G; exact Hc].
  clear HF Hc. unfold typed_char. induction h as [|r h IH]; intros s Hs; [exact Hs|]. cbn [fold_left]. apply IH.
  assert (Z0 : scalar 0) by (unfold scalar; lia).
  destruct r as [a|a w|]; [exact Hs| |exact Z0].
  assert (X : forall (P : nat * Z -> Prop) x y z, P x -> P y -> P z -> P (match a, w with 4, 1 => x | 4, 2 => y | _, _ => z end)).
  { intros P x y z Px Py Pz. destruct a as [|p|p]; try exact Pz. destruct p as [p|p|]; try exact Pz. destruct p as [p|p|]; try exact Pz. destruct p as [p|p|]; try exact Pz.
    destruct w as [|q|q]; try exact Pz. destruct q as [q|q|]; try exact Pz; try exact Px. destruct q as [q|q|]; try exact Pz; try exact Py. }
  apply (X (fun s => scalar (snd s))); [apply Hi|exact Z0|exact Hs].
Qed.
Lemma E_C95_keyboard : scalar 0 /\ (forall k, scalar ((fun n => match n with O => 128049 | _ => 65 end) k)) /\
  match serve (dev_ops false) (DKeyChar (CharKeyboard 0 1 (fun n => match n with O => 128049 | _ => 65 end) 0)) [Write 4 1; Read 0] with
  | Ret (_, xs) => xs = [Put 0; Got 0 128049] | _ => False end.
Proof. split; [unfold scalar; lia|]. split; [intros [|k]; unfold scalar; lia|reflexivity]. Qed.

Lemma line_word_pad l n i : 0 <= i -> line_word (l ++ repeat 0 n) i = line_word l i.
Proof.
  intros Hi. unfold line_word, file_word. assert (X : forall k, nth k (l ++ repeat 0 n) 0 = nth k l 0).
  { intros k. destruct (Nat.lt_ge_cases k (length l)); [apply app_nth1; assumption|]. rewrite app_nth2 by assumption. rewrite nth_repeat. symmetry. apply nth_overflow. assumption. }
  rewrite !X. reflexivity.
Qed.
Lemma line_bytes n : forall l, Forall is_u8 l -> (4 * n <= length l)%nat -> buffer_bytes (map (line_word l) (zrange n)) = firstn (4 * n) l.
Proof.
  induction n as [|n IH]; intros l HF HL; [reflexivity|].
  destruct l as [|a [|b [|c [|d t]]]]; try (cbn [length] in HL; lia).
  inversion HF as [|? ? Ha HF1]; subst. inversion HF1 as [|? ? Hb HF2]; subst. inversion HF2 as [|? ? Hc HF3]; subst. inversion HF3 as [|? ? Hd HF4]; subst.
  unfold zrange. cbn [seq map]. change (Z.of_nat 0) with 0. rewrite <- seq_shift, !map_map.
  replace (4 * S n)%nat with (S (S (S (S (4 * n))))) by lia. cbn [firstn]. unfold buffer_bytes. cbn [flat_map].
  assert (E0 : line_word (a :: b :: c :: d :: t) 0 = a * 2 ^ 24 + b * 2 ^ 16 + c * 2 ^ 8 + d) by reflexivity.
  rewrite E0. unfold is_u8 in *. change (2 ^ 24) with 16777216. change (2 ^ 16) with 65536. change (2 ^ 8) with 256. cbn [List.app].
  replace ((a * 16777216 + b * 65536 + c * 256 + d) / 16777216) with a by lia.
  replace ((a * 16777216 + b * 65536 + c * 256 + d) / 65536 mod 256) with b by lia.
  replace ((a * 16777216 + b * 65536 + c * 256 + d) / 256 mod 256) with c by lia.
  replace ((a * 16777216 + b * 65536 + c * 256 + d) mod 256) with d by lia. do 4 f_equal.
  rewrite <- IH; [|exact HF4|cbn [length] in HL; lia]. unfold buffer_bytes, zrange. f_equal. rewrite map_map. apply map_ext. intros x.
  rewrite line_word_tail by lia. f_equal. lia.
Qed.
Lemma firstn_zeros j n : (j <= n)%nat -> firstn j (repeat 0 n) = repeat 0 j.
Proof. revert n. induction j as [|j IH]; intros n H; [reflexivity|]. destruct n; [lia|]. cbn [repeat firstn]. f_equal. apply IH. lia. Qed.
Lemma utf8_u8 s : Forall scalar s -> Forall is_u8 (utf8 s).
Proof.
  induction 1 as [|c s H _ IH]; [constructor|]. unfold utf8. cbn [flat_map]. apply Forall_app. split; [|exact IH]. unfold utf8_char, scalar, is_u8 in *.
  destruct (Z.ltb_spec c 128); [repeat constructor; lia|]. destruct (Z.ltb_spec c 2048); [repeat constructor; lia|]. destruct (Z.ltb_spec c 65536); repeat constructor; lia.
Qed.
(** What a cleared line keyboard holds after a request, the line being any text: the text and null characters when it fits; otherwise the
    characters that fit, and U+FFFD (once read with replacements) if a character is cut. *)
Lemma P_C95_line : forall oc l id input k h, Forall is_u32 l -> (forall j, exists s, encodes (input j) s) -> Forall (in_range (4 * zlen l + 4)) h ->
  exists x k' xs words s,
    serve (dev_ops oc) (DKeyLine (LineKeyboard l (zlen l) id input k)) (h ++ [Write (4 * zlen l) 255; Write (4 * zlen l) 170]) = Ret (x, xs) /\
    length words = length l /\ (forall i, 0 <= i < zlen l -> reads_as (dev_ops oc) x (4 * i) (nth (Z.to_nat i) words 0)) /\
    encodes (input k') s /\
    ((length (input k') <= 4 * length l)%nat -> encodes (buffer_bytes words) (s ++ repeat 0 (4 * length l - length (input k')))) /\
    ((4 * length l < length (input k'))%nat -> exists p c r, s = p ++ c :: r /\
       (encodes (buffer_bytes words) p \/ (~ (exists t, encodes (buffer_bytes words) t)) /\ reads_lossily (buffer_bytes words) (p ++ [65533]))).
Proof.
  intros oc l id input k h Hl Hi HF.
  assert (H8 : forall j, Forall is_u8 (input j)). { intros j. destruct (Hi j) as (s & S & ->). apply utf8_u8. exact S. }
  destruct (P_C62_line_cleared oc l id input k h Hl H8 HF) as (l' & k' & xs & E & V). destruct (Hi k') as (s & S & Es).
  set (line := input k' ++ repeat 0 (4 * length l)).
  assert (F8 : Forall is_u8 line). { apply Forall_app. split; [apply H8|]. apply Forall_forall. intros x X. apply repeat_spec in X as ->. unfold is_u8. lia. }
  assert (EB : buffer_bytes (map (line_word line) (zrange (length l))) = firstn (4 * length l) line).
  { apply line_bytes; [exact F8|]. unfold line. rewrite app_length, repeat_length. lia. }
  assert (HB : Forall is_u8 (firstn (4 * length l) line)). { rewrite <- (firstn_skipn (4 * length l) line) in F8. apply Forall_app in F8. apply F8. }
  exists (DKeyLine (LineKeyboard l' (zlen l) id input (Datatypes.S k'))), k', xs, (map (line_word line) (zrange (length l))), s.
  split; [exact E|]. split; [unfold zrange; rewrite !map_length, seq_length; reflexivity|]. split; [|split; [split; assumption|]].
  - intros i Hr. specialize (V i Hr). unfold zlen in Hr. unfold zrange.
    rewrite (nth_indep _ 0 (line_word line (Z.of_nat 0))) by (rewrite !map_length, seq_length; lia).
    rewrite map_map. change (line_word line (Z.of_nat 0)) with ((fun x => line_word line (Z.of_nat x)) O). rewrite map_nth, seq_nth by lia.
    cbn [Nat.add]. rewrite Z2Nat.id by lia. unfold line. rewrite line_word_pad by lia. exact V.
  - rewrite EB. unfold line. split; intros L.
    + rewrite firstn_app, firstn_all2 by lia. rewrite firstn_zeros by lia. split.
      * apply Forall_app. split; [exact S|]. apply Forall_forall. intros x X. apply repeat_spec in X as ->. unfold scalar. lia.
      * rewrite utf8_app, utf8_zeros, <- Es. reflexivity.
    + rewrite firstn_app. replace (4 * length l - length (input k'))%nat with O by lia. cbn [firstn]. rewrite app_nil_r. rewrite Es.
      destruct (cut_text (4 * length l) s S ltac:(rewrite <- Es; exact L)) as (p & c & r & q & E1 & E2 & Q). exists p, c, r. split; [exact E1|].
      assert (Sp : Forall scalar p) by (rewrite E1 in S; apply Forall_app in S; apply S).
      rewrite E2. destruct Q as [->|(N & U)]; [left; split; [exact Sp|apply app_nil_r]|right].
      assert (RL : reads_lossily (utf8 p ++ q) (p ++ [65533])) by (apply text_lossy; [exact Sp|apply unfinished_lossy; assumption]).
      split; [|exact RL]. intros (t & St & Et).
      assert (F : Forall is_u8 (utf8 p ++ q)). { rewrite <- E2. unfold line in HB. rewrite firstn_app in HB. apply Forall_app in HB as (HB & _). rewrite Es in HB. exact HB. }
      pose proof (proj2 (P_C95_lossy _ _ F) RL) as X1. rewrite Et in X1. pose proof (lossy_app t [] St) as X2. rewrite !app_nil_r in X2. rewrite X2 in X1. cbn in X1. rewrite ?app_nil_r in X1. subst t.
      rewrite utf8_app in Et. apply app_inv_head in Et. destruct U as (c' & r' & S' & N' & E'). rewrite Et in E'.
      pose proof (char_prefix c' 65533 [] r' S' ltac:(unfold scalar; lia)) as X. rewrite app_nil_r in X. apply N'. symmetry. apply X. exact E'.
Qed.
Lemma E_C95_line : encodes [97; 97; 97; 195; 169] [97; 97; 97; 233] /\
  match serve (dev_ops false) (DKeyLine (LineKeyboard [7] 1 1 (fun _ => [97; 97; 97; 195; 169]) 0)) [Write 4 255; Write 4 170; Read 0] with
  | Ret (_, xs) => xs = [Put 0; Put 0; Got 0 1633771971] /\ from_utf8_lossy (buffer_bytes [1633771971]) = [97; 97; 97; 65533] | _ => False end.
Proof. split; [split; [repeat constructor; unfold scalar; lia|reflexivity]|]. vm_compute. split; reflexivity. Qed.
(** The documentation of the line keyboard: its buffer is guaranteed to contain valid UTF-8 data. False: a line of 5 bytes, its last character on 2 bytes, in a
    buffer of 4 bytes. *)
Lemma P_C95_line_refuted : ~ (forall oc capacity id input d h, lk_new capacity id input = Some d -> (forall j, exists s, encodes (input j) s) -> Forall (in_range capacity) h ->
  exists x xs words s, serve (dev_ops oc) (DKeyLine d) h = Ret (x, xs) /\ 4 * zlen words + 4 = capacity /\
    (forall i, 0 <= i < zlen words -> reads_as (dev_ops oc) x (4 * i) (nth (Z.to_nat i) words 0)) /\ encodes (buffer_bytes words) s).
Proof.
  intros H. destruct (H false 8 1 (fun _ => [97; 97; 97; 195; 169]) _ [Write 4 170] eq_refl) as (x & xs & words & s & E & L & V & S & EE).
  - intros j. exists [97; 97; 97; 233]. split; [repeat constructor; unfold scalar; lia|reflexivity].
  - repeat constructor; unfold is_u32; lia.
  - vm_compute in E. injection E as <- _. destruct words as [|w [|]]; try (unfold zlen in L; cbn [length] in L; lia).
    destruct (V 0 ltac:(unfold zlen; cbn [length]; lia)) as (d & X). change (nth (Z.to_nat 0) [w] 0) with w in X. vm_compute in X. injection X as _ <-.
    assert (Y : from_utf8 (buffer_bytes [1633771971]) = Some s) by (apply P_C95_strict; [apply words_bytes; repeat constructor; unfold is_u32; lia|split; assumption]).
    vm_compute in Y. discriminate Y.
Qed.

(** ** What the examples print *)
(** The example hello_world prints its greeting, and after it as many null characters as its display has unused bytes. *)
Lemma P_C95_hello : forall oc id0 id1 id2 fuel, 37 < Z.of_nat fuel ->
  exists m calls, hello_main oc fuel id0 id1 id2 = Ret (Some m) /\ hello_shown m = Some calls /\
    hello_stdout calls = ("> Assembling LASM code..." ++ line_feed ++ "> Preparing components and motherboard..." ++ line_feed ++
      "> Running the program..." ++ line_feed ++ "[Display] Hello, world!" ++ line_feed ++ nulls 238 ++ "> CPU halted." ++ line_feed)%string.
Proof.
  intros oc id0 id1 id2 fuel Hf. destruct (P_C74_hello oc id0 id1 id2 fuel Hf) as (m & E & _ & _ & S). exists m. eexists. split; [exact E|]. split; [exact S|].
  vm_compute. reflexivity.
Qed.
Lemma E_C95_hello : 37 < Z.of_nat 38 /\ hello_print (RErr [255]) = "[Display] <invalid input received>"%string.
Proof. split; [lia|reflexivity]. Qed.

Lemma text_app a b : text_of_bytes (a ++ b) = (text_of_bytes a ++ text_of_bytes b)%string.
Proof. unfold text_of_bytes. rewrite map_app. induction (map (fun b0 => ascii_of_N (Z.to_N b0)) a) as [|c t IH]; [reflexivity|]. cbn [List.app string_of_list_ascii String.append]. f_equal. exact IH. Qed.
Lemma text_zeros n : text_of_bytes (repeat 0 n) = nulls n.
Proof. induction n as [|n IH]; [reflexivity|]. cbn [repeat nulls]. unfold text_of_bytes in *. cbn [map string_of_list_ascii]. rewrite IH. reflexivity. Qed.
Lemma lines_at n : forall cs k c i, nth_error cs k = Some c ->
  firstn 8 (skipn (8 * k) (flat_map (fun x => component_lines n (fst x) (snd x)) (combine (map Z.of_nat (seq i (length cs))) cs))) = component_lines n (Z.of_nat (i + k)) c.
Proof.
  induction cs as [|c0 cs IH]; intros k c i E; [destruct k; discriminate E|]. cbn [length seq map combine flat_map fst snd]. destruct k as [|k]; cbn [nth_error] in E.
  - injection E as ->. rewrite Nat.add_0_r. reflexivity.
  - replace (8 * S k)%nat with (8 + 8 * k)%nat by lia. cbn [Nat.add]. unfold component_lines at 1. cbn [List.app skipn]. rewrite (IH k c (S i) E). f_equal. lia.
Qed.
Lemma lines_count n : forall cs i, length (flat_map (fun x => component_lines n (fst x) (snd x)) (combine (map Z.of_nat (seq i (length cs))) cs)) = (8 * length cs)%nat.
Proof. induction cs as [|c0 cs IH]; intros i; [reflexivity|]. cbn [length seq map combine flat_map fst snd]. rewrite app_length, IH. unfold component_lines. cbn [length]. lia. Qed.
Lemma sum_firstn_bound szs k sz : Forall (fun s => 0 <= s) szs -> nth_error szs k = Some sz -> 0 <= sum (firstn k szs) /\ sum (firstn k szs) + sz <= sum szs.
Proof.
  revert k. induction szs as [|s szs IH]; intros k HF E; [destruct k; discriminate E|]. inversion HF as [|? ? Hs HF']; subst. destruct k as [|k]; cbn [nth_error] in E.
  - injection E as ->. clear IH. assert (0 <= sum szs). { clear Hs HF. unfold sum. induction HF' as [|x t Hx _ IHt]; cbn; lia. } unfold sum in *. cbn. lia.
  - destruct (IH k HF' E) as (A & B). unfold sum in *. cbn. lia.
Qed.
(** The example hw_detect, on a board of its three components and any others (as in C75): it prints eight lines per component, which describe it. *)
Lemma P_C95_detect : forall oc words id0 id1 id2 rest szs fuel, assemble_words hw_detect_source = Some words ->
  Forall2 (declares (dev_ops oc)) rest szs -> (forall d, In d rest -> exists d', bo_reset (dev_ops oc) d = Ret d') -> bootable oc (4096 :: 4096 :: 32 :: szs) ->
  (3 + length rest <= 53)%nat -> (9 + 47 * (3 + length rest) < fuel)%nat ->
  exists rom ram stack cs, br_with_size words 4096 id0 = Some rom /\ sm_new 4096 id1 = Some ram /\ sm_new 32 id2 = Some stack /\
    let ds := DRom rom :: DRam ram :: DRam stack :: rest in
    hw_detect_run oc fuel words id0 id1 id2 rest = Ret (Some cs) /\ length (detect_lines cs) = (8 * length ds)%nat /\
    forall k d, nth_error ds k = Some d ->
      described_by (dev_ops oc) (4096 :: 4096 :: 32 :: szs) (length ds) k d (firstn 8 (skipn (8 * k) (detect_lines cs))).
Proof.
  intros oc words id0 id1 id2 rest szs fuel E HD HR HB Hn Hf.
  destruct (P_C75_detect oc words id0 id1 id2 rest szs fuel E HD HR HB Hn Hf) as (rom & ram & stack & cs & Er & Ea & Es & R & L & K).
  exists rom, ram, stack, cs. do 3 (split; [assumption|]). cbv zeta in *. split; [exact R|]. rewrite <- L.
  split; [unfold detect_lines, zrange; rewrite lines_count; reflexivity|]. intros k d Hd.
  destruct (nth_error cs k) as [c|] eqn:Ec. 2:{ apply nth_error_None in Ec. rewrite L in Ec. apply nth_error_None in Ec. congruence. }
  unfold detect_lines, zrange. rewrite (lines_at _ cs k c 0 Ec). cbn [Nat.add].
  destruct (K k d c Hd Ec) as (md & name & sz & M & P & S & U & N & Z0 & C & MO & DA & MP). clear K R Er Ea Es E HD HR.
  destruct HB as (HB & HS & _).
  assert (HP : Forall (fun s => 0 <= s) (4096 :: 4096 :: 32 :: szs)) by (eapply Forall_impl; [|exact HB]; intros x (X & _); cbv beta; lia).
  destruct (sum_firstn_bound _ k sz HP S) as (B1 & B2).
  assert (B0 : 0 < sz). { apply nth_error_In in S. rewrite Forall_forall in HB. apply HB in S. lia. }
  pose proof (ty_meta _ (dev_typed oc) _ _ M) as (T0 & T1 & T2 & T3 & T4 & T5 & T6 & T7). unfold is_u32 in *.
  assert (Hk : (k < length cs)%nat) by (apply nth_error_Some; congruence).
  assert (BN : Z.of_nat (length cs) <= 53). { rewrite L. cbn [length]. lia. }
  assert (SN : Forall scalar name).
  { destruct P as ((r & P) & _). pose proof (ty_name _ (dev_typed oc) d) as X. rewrite P in X. apply Forall_app in X. apply X. }
  assert (BZ : sz < 2 ^ 32).
  { destruct k as [|k]; [cbn [nth_error] in S; injection S as <-; lia|]. pose proof (Forall_inv_tail HP) as HP'. destruct (sum_firstn_bound _ k sz HP' S) as (C1 & C2).
    change (sum (4096 :: 4096 :: 32 :: szs)) with (4096 + sum (4096 :: 32 :: szs)) in HS. lia. }
  unfold described_by. set (start := sum (firstn k (4096 :: 4096 :: 32 :: szs))) in *. set (total := sum (4096 :: 4096 :: 32 :: szs)) in *. clearbody start total.
  exists md, name, sz, (fmt_dec (Z.of_nat k + 1)), (fmt_dec (zlen cs)), (fmt_hex10 (4096 + 4 + Z.of_nat k * 76)), (fmt_hex18 (cp_uid c)), (fmt_hex10 (cp_size c)),
    (match cp_category c with inl cat => category_text cat | inr code => "<unknown> (" ++ fmt_hex18 code ++ ")" end)%string,
    (fmt_hex10 (cp_model c)), (fmt_hex18 (cp_data c)), (fmt_hex10 start), (fmt_hex10 (start + sz - 1)).
  do 3 (split; [assumption|]).
  assert (H8 : forall n, 0 <= n < 2 ^ 32 -> hex_of 8 (fmt_hex10 n) n) by (intros n X; apply hex_reads; lia).
  assert (H16 : forall n, 0 <= n < 2 ^ 64 -> hex_of 16 (fmt_hex18 n) n) by (intros n X; apply hex_reads; lia).
  split.
  { unfold component_lines. rewrite MP, N. rewrite (proj1 (P_C95_padded name _ SN)). rewrite utf8_app, text_app, utf8_zeros, text_zeros. reflexivity. }
  assert (HD : forall n, 0 <= n < 100 -> dec_of (fmt_dec n) n) by (intros n X; apply number_reads; lia).
  split; [apply HD; lia|]. split; [apply HD; unfold zlen; lia|].
  split; [replace (4100 + 76 * Z.of_nat k) with (4096 + 4 + Z.of_nat k * 76) by lia; apply H8; lia|].
  split; [rewrite U; apply H16; lia|]. split; [rewrite Z0; apply H8; lia|]. split.
  { cbv zeta. rewrite C. set (code := w3 md * 2 ^ 32 + w4 md). assert (Hc : is_u64 code) by (unfold is_u64, code; lia).
    destruct (category_decode code) as [cat|] eqn:Ed.
    - apply (proj1 P_C81_named). apply (P_C55_decode code cat Hc Ed).
    - eexists. split; [reflexivity|]. apply H16. exact Hc. }
  split; [rewrite MO; apply H8; lia|]. split; [rewrite DA; apply H16; lia|]. split; apply H8; lia.
Qed.
Lemma E_C95_detect : component_lines 3 2 (Component 171 (utf8 [82; 65; 77] ++ repeat 0 29) 32 (inr 77) 0 0 None) =
  [(line_feed ++ "========== Decoding component n°3/3 (from memory address 0x0000109C) ==========")%string; "> UID      : 0x00000000000000AB"%string;
   ("> Name     : RAM" ++ nulls 29)%string; "> Size     : 0x00000020 (bytes)"%string; "> Category : <unknown> (0x000000000000004D)"%string; "> Model    : 0x00000000"%string;
   "> Data     : 0x0000000000000000"%string; "> Mapping  : <device is not mapped>"%string] /\
  (exists words, assemble_words hw_detect_source = Some words) /\ bootable true [4096; 4096; 32].
Proof.
  split; [vm_compute; reflexivity|]. split; [eexists; exact hw_assembled|]. repeat constructor; try (vm_compute; reflexivity); try (vm_compute; discriminate).
Qed.
