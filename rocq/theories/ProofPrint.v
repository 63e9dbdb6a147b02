(** Proofs of C83 and C84: the printing components, the lines of the preparation. *)
From Coq Require Import String Ascii ZArith List Bool Lia.
From Verif Require Import Base BaseFacts Board Mem Cpu Asm Tools Devices Runner LasmRules Lasm LasmFacts Console
  SpecMach SpecIsa SpecBus SpecMap SpecDev SpecRun SpecAsm RegFacts MapFacts SpecConsole ConsoleFacts ReachFacts Demo DevTyped ProofBoard ProofPanic ProofMap ProofRun ProofLasm ProofConsole.
Import ListNotations.
Open Scope string_scope.
Open Scope Z_scope.
Ltac Zify.zify_post_hook ::= Z.div_mod_to_equations.

(** ** C83: the printing components *)

Lemma concat_snoc l s : String.concat "" (l ++ [s]) = String.concat "" l ++ s.
Proof.
  induction l as [|x l IH]; [reflexivity|]. destruct l as [|y l].
  - cbn [app String.concat]. reflexivity.
  - change ((x :: y :: l) ++ [s])%list with (x :: (y :: l) ++ [s])%list. cbn [String.concat] in *. change (((y :: l) ++ [s])%list) with (y :: (l ++ [s]))%list in *.
    change (x ++ "" ++ String.concat "" (y :: l ++ [s])%list = (x ++ "" ++ String.concat "" (y :: l)) ++ s). rewrite IH. rewrite !append_assoc. reflexivity.
Qed.
Lemma dec_reads n : 0 <= n < 2 ^ 128 -> dec_of (fmt_dec n) n.
Proof. intros H. apply number_reads; lia. Qed.

Lemma shown_number addr w f : is_u32 w -> 0 <= addr ->
  match addr mod 16 with 0 => Ret NHex | 4 => Ret NHexLong | 8 => Ret NDec | 12 => Ret NDecLong | _ => Panic end = Ret f ->
  exists t, (forall nl, number_print w f nl = t ++ (if nl then newline else "")) /\ number_shown addr w t /\ one_line t.
Proof.
  intros Hw Ha. unfold number_shown, is_u32 in *. assert (Hm : 0 <= addr mod 16 < 16) by lia.
  intros H. exists (match f with NHex => fmt_hex w | NHexLong => fmt_hex10 w | NDec => fmt_dec w | NDecLong => fmt_dec10 w end). split; [destruct f; reflexivity|].
  destruct (addr mod 16) as [|p|p]; [|do 4 try (match goal with q : positive |- _ => destruct q as [q|q|]; try discriminate H end)|lia]; injection H as <-.
  all: unfold fmt_hex, fmt_hex10, fmt_dec, fmt_dec10.
  all: split; [|first [apply hex_one_line; lia|apply digits_one_line, number_digits; lia]].
  all: first [apply hex_reads; lia|apply number_reads; lia|split; [apply number_reads; lia|apply number_length; lia]|
    split; [apply hex_reads; lia|cbn [String.append String.length]; rewrite number_length by lia; reflexivity]].
Qed.

(** Each write prints the number once, in the format of the word written, and an end of line for the first four words. *)
Lemma P_C83_number : forall d addr w d' ex, is_u32 w -> 0 <= addr -> nd_write d addr w = Ret (d', ex) ->
  exists t, num_display_printed d' = num_display_printed d ++ t ++ (if addr <? 16 then newline else "") /\ number_shown addr w t /\ one_line t.
Proof.
  intros d addr w d' ex Hw Ha H. unfold nd_write in H. destruct (match addr mod 16 with 0 => _ | _ => _ end) as [f|] eqn:Ef; cbn [obind] in H; [|discriminate H].
  injection H as <- <-. destruct (shown_number addr w f Hw Ha Ef) as (t & A & B & C). exists t. split; [|auto].
  unfold num_display_printed. cbn [nd_calls]. rewrite map_app. cbn [map]. rewrite concat_snoc, A. reflexivity.
Qed.
Lemma E_C83_number : exists d, nd_writes (NumDisplay 0 []) [(0, 255); (4, 255); (8, 255); (28, 255)] = Ret d /\
  num_display_printed d = "0xFF" ++ newline ++ "0x000000FF" ++ newline ++ "255" ++ newline ++ "0000000255".
Proof. eexists. split; reflexivity. Qed.

(** What the lines of the console read as is what was written, when the first four words are used. *)
Lemma P_C83_lines : forall l hw d, Forall (fun p => In (fst p) [0; 4; 8; 12] /\ is_u32 (snd p)) l -> nd_writes (NumDisplay hw []) l = Ret d ->
  exists texts, num_display_printed d = String.concat "" (map (fun t => t ++ newline) texts) /\
    Forall2 (fun p t => number_shown (fst p) (snd p) t /\ one_line t) l texts.
Proof.
  intros l hw d HF H.
  assert (X : forall l d0 d, Forall (fun p => In (fst p) [0; 4; 8; 12] /\ is_u32 (snd p)) l -> nd_writes d0 l = Ret d ->
    exists texts, num_display_printed d = num_display_printed d0 ++ String.concat "" (map (fun t => t ++ newline) texts) /\
      Forall2 (fun p t => number_shown (fst p) (snd p) t /\ one_line t) l texts).
  { clear. induction l as [|(a, w) l IH]; intros d0 d HF H.
    - injection H as <-. exists []. split; [rewrite append_nil; reflexivity|constructor].
    - cbn [nd_writes] in H. inversion HF as [|? ? (Ha & Hw) HF']; subst. cbn [fst snd] in *.
      destruct (nd_write d0 a w) as [[d1 ex]|] eqn:E; cbn [obind] in H; [|discriminate H].
      assert (Ha' : 0 <= a < 16) by (cbn in Ha; lia). destruct (P_C83_number d0 a w d1 ex Hw ltac:(lia) E) as (t & A & B & C).
      replace (a <? 16) with true in A by (symmetry; apply Z.ltb_lt; lia).
      destruct (IH d1 d HF' H) as (ts & A' & B'). exists (t :: ts). split; [|constructor; auto].
      rewrite A', A. cbn [map]. destruct ts as [|t2 ts]; [cbn [map String.concat]; rewrite ?append_nil, ?append_assoc; reflexivity|].
      cbn [map String.concat String.append]. rewrite !append_assoc. reflexivity. }
  destruct (X l (NumDisplay hw []) d HF H) as (ts & A & B). exists ts. split; [exact A|exact B].
Qed.
Lemma E_C83_lines : Forall (fun p => In (fst p) [0; 4; 8; 12] /\ is_u32 (snd p)) [(0, 48879); (12, 7)] /\
  exists d, nd_writes (NumDisplay 3 []) [(0, 48879); (12, 7)] = Ret d /\ num_display_printed d = "0xBEEF" ++ newline ++ "0000000007" ++ newline.
Proof. split; [repeat constructor; cbn; auto; lia|]. eexists. split; reflexivity. Qed.

(** False of the four other words: nothing separates the numbers, and different numbers can read the same. *)
Lemma P_C83_separated_refuted : ~ (forall l l' d d', Forall (fun p => In (fst p) [16; 20; 24; 28] /\ is_u32 (snd p)) l ->
  Forall (fun p => In (fst p) [16; 20; 24; 28] /\ is_u32 (snd p)) l' -> nd_writes (NumDisplay 0 []) l = Ret d -> nd_writes (NumDisplay 0 []) l' = Ret d' ->
  num_display_printed d = num_display_printed d' -> map snd l = map snd l').
Proof.
  intros H. specialize (H [(24, 1); (24, 2)] [(24, 12)] (NumDisplay 0 [(1, NDec, false); (2, NDec, false)]) (NumDisplay 0 [(12, NDec, false)])).
  assert (X : [1; 2] = [12]); [|discriminate X].
  apply H; try reflexivity; repeat constructor; cbn; auto; lia.
Qed.

(** Each write to the character display prints the UTF-8 encoding of the character, or of U+FFFD if the word is no character. *)
Lemma P_C83_char : forall d addr w d' ex, is_u32 w -> cd_write d addr w = Ret (d', ex) ->
  (scalar w -> char_display_printed d' = char_display_printed d ++ text_of_bytes (utf8 [w])) /\
  (~ scalar w -> char_display_printed d' = char_display_printed d ++ "�").
Proof.
  intros d addr w d' ex Hw H. unfold cd_write in H. injection H as <- <-. unfold char_display_printed. cbn [cd_calls]. rewrite map_app. cbn [map]. rewrite concat_snoc.
  unfold char_from_u32, scalar, is_u32 in *. split; intros S.
  - replace ((w <? 55296) || (57344 <=? w) && (w <? 1114112)) with true.
    2:{ symmetry. apply orb_true_iff. rewrite andb_true_iff, !Z.ltb_lt, Z.leb_le. lia. }
    unfold char_print, utf8. cbn [flat_map]. rewrite app_nil_r. reflexivity.
  - replace ((w <? 55296) || (57344 <=? w) && (w <? 1114112)) with false; [reflexivity|].
    symmetry. apply orb_false_iff. rewrite andb_false_iff, !Z.ltb_ge, Z.leb_gt. lia.
Qed.
Lemma E_C83_char : scalar 10003 /\ ~ scalar 55296 /\ char_print (char_from_u32 10003) = "✓" /\ char_print (char_from_u32 55296) = "�".
Proof. unfold scalar. split; [lia|]. split; [lia|]. split; reflexivity. Qed.

Lemma neg_hex_spec oc fmt w least n : (1 <= w)%nat -> 0 < least -> least <= 2 ^ 31 -> - least <= n < least -> (forall k, 0 <= k < 2 ^ 128 -> hex_of w (fmt k) k) ->
  (neg_hex oc fmt least n = Panic <-> oc = true /\ n = - least) /\ (forall t, neg_hex oc fmt least n = Ret t -> signed_of (hex_of w) t n).
Proof.
  intros Hw Hl Hl2 Hn Hf. unfold neg_hex, signed_of. destruct (Z.ltb_spec n 0).
  - destruct (Z.eqb_spec n (- least)) as [->|N].
    + destruct oc; [split; [tauto|discriminate]|]. split; [split; [discriminate|intros (? & _); discriminate]|]. intros t E. injection E as <-.
      exists (fmt least). split; [reflexivity|]. rewrite Z.opp_involutive. apply Hf. lia.
    + split; [split; [discriminate|tauto]|]. intros t E. injection E as <-. exists (fmt (- n)). split; [reflexivity|]. apply Hf. lia.
  - split; [split; [discriminate|lia]|]. intros t E. injection E as <-. apply Hf. lia.
Qed.
Lemma fmt_signed_spec n : - 2 ^ 31 <= n < 2 ^ 31 -> signed_of dec_of (fmt_signed n) n.
Proof. intros H. unfold signed_of, fmt_signed. destruct (Z.ltb_spec n 0); [eexists; split; [reflexivity|]|]; apply dec_reads; lia. Qed.
Lemma signed8 w : i8 w = signed_bits 8 w. Proof. reflexivity. Qed.
Lemma signed16 w : i16 w = signed_bits 16 w. Proof. reflexivity. Qed.
Lemma signed32 w : i32 w = signed_bits 32 w. Proof. reflexivity. Qed.

Definition text_ok oc (k w : Z) (x : outcome string) : Prop := (x = Panic <-> oc = true /\ no_opposite k w) /\ (forall t, x = Ret t -> debug_shown k w t).
Lemma text_ok_ret oc k w t : k <> 3 -> k <> 4 -> k <> 5 -> debug_shown k w t -> text_ok oc k w (Ret t).
Proof. intros. split; [split; [discriminate|unfold no_opposite; lia]|]. intros t' E. injection E as <-. assumption. Qed.
Lemma text_ok_8 oc w : is_u32 w -> text_ok oc 3 w (neg_hex oc fmt_hex4 128 (i8 w)).
Proof.
  intros Hw. unfold is_u32 in Hw. assert (R8 : - 2 ^ 7 <= i8 w < 2 ^ 7) by (unfold i8, u8; destruct (Z.ltb_spec (w mod 256) 128); lia).
  destruct (neg_hex_spec oc fmt_hex4 2 128 (i8 w)) as (A & B); try lia; [intros n Hn; apply hex_reads; lia|].
  split; [|exact B]. rewrite A. apply and_iff_compat_l. unfold i8, u8, no_opposite. destruct (Z.ltb_spec (w mod 256) 128); lia.
Qed.
Lemma text_ok_16 oc w : is_u32 w -> text_ok oc 4 w (neg_hex oc fmt_hex6 32768 (i16 w)).
Proof.
  intros Hw. unfold is_u32 in Hw. assert (R16 : - 2 ^ 15 <= i16 w < 2 ^ 15) by (unfold i16, u16; destruct (Z.ltb_spec (w mod 65536) 32768); lia).
  destruct (neg_hex_spec oc fmt_hex6 4 32768 (i16 w)) as (A & B); try lia; [intros n Hn; apply hex_reads; lia|].
  split; [|exact B]. rewrite A. apply and_iff_compat_l. unfold i16, u16, no_opposite. destruct (Z.ltb_spec (w mod 65536) 32768); lia.
Qed.
Lemma text_ok_32 oc w : is_u32 w -> text_ok oc 5 w (neg_hex oc fmt_hex10 2147483648 (i32 w)).
Proof.
  intros Hw. unfold is_u32 in Hw. assert (R32 : - 2 ^ 31 <= i32 w < 2 ^ 31) by (unfold i32, u32; destruct (Z.ltb_spec (w mod 4294967296) 2147483648); lia).
  destruct (neg_hex_spec oc fmt_hex10 8 2147483648 (i32 w)) as (A & B); try lia; [intros n Hn; apply hex_reads; lia|].
  split; [|exact B]. rewrite A. apply and_iff_compat_l. unfold i32, u32, no_opposite. rewrite Z.mod_small by lia. destruct (Z.ltb_spec w 2147483648); lia.
Qed.
Lemma text_ok_char oc w : is_u32 w -> text_ok oc 13 w (debug_text oc (DbgUtf8Char (char_from_u32 w))).
Proof.
  intros Hw. unfold is_u32 in Hw. unfold char_from_u32. destruct ((w <? 55296) || (57344 <=? w) && (w <? 1114112)) eqn:B; cbn [debug_text]; apply text_ok_ret; try lia; cbn [debug_shown].
  - apply orb_true_iff in B. rewrite andb_true_iff, !Z.ltb_lt, Z.leb_le in B. unfold scalar.
    split; [intros _; unfold utf8; cbn [flat_map]; rewrite app_nil_r; reflexivity|lia].
  - apply orb_false_iff in B. rewrite andb_false_iff, !Z.ltb_ge, Z.leb_gt in B. unfold scalar. split; [lia|]. intros _. eexists. split; [reflexivity|]. apply hex_reads; lia.
Qed.
Lemma debug_text_spec oc k w i : is_u32 w -> dbg_info k w = Some i -> text_ok oc k w (debug_text oc i).
Proof.
  intros Hw H.
  assert (Hi : 0 <= k < 16).
  { destruct k as [|k|k]; [lia| |discriminate H]. do 4 try (match goal with q : positive |- _ => destruct q as [q|q|]; try discriminate H end); try lia. }
  assert (C : k = 0 \/ k = 1 \/ k = 2 \/ k = 3 \/ k = 4 \/ k = 5 \/ k = 6 \/ k = 7 \/ k = 8 \/ k = 9 \/ k = 10 \/ k = 11 \/ k = 12 \/ k = 13 \/ k = 14 \/ k = 15) by lia.
  clear Hi. pose proof Hw as Hw0. unfold is_u32 in Hw0.
  destruct C as [->|[->|[->|[->|[->|[->|[->|[->|[->|[->|[->|[->|[->|[->|[->| ->]]]]]]]]]]]]]]]; injection H as <-.
  4: exact (text_ok_8 oc w Hw).
  4: exact (text_ok_16 oc w Hw).
  4: exact (text_ok_32 oc w Hw).
  11: exact (text_ok_char oc w Hw).
  - apply text_ok_ret; try lia. apply hex_reads; unfold u8; lia.
  - apply text_ok_ret; try lia. apply hex_reads; unfold u16; lia.
  - apply text_ok_ret; try lia. apply hex_reads; lia.
  - apply text_ok_ret; try lia. apply dec_reads; unfold u8; lia.
  - apply text_ok_ret; try lia. apply dec_reads; unfold u16; lia.
  - apply text_ok_ret; try lia. apply dec_reads; lia.
  - apply text_ok_ret; try lia. apply (fmt_signed_spec (i8 w)). unfold i8, u8; destruct (Z.ltb_spec (w mod 256) 128); lia.
  - apply text_ok_ret; try lia. apply (fmt_signed_spec (i16 w)). unfold i16, u16; destruct (Z.ltb_spec (w mod 65536) 32768); lia.
  - apply text_ok_ret; try lia. apply (fmt_signed_spec (i32 w)). unfold i32, u32; destruct (Z.ltb_spec (w mod 4294967296) 2147483648); lia.
  - apply text_ok_ret; try lia. cbn [debug_shown]. destruct (w =? 0); reflexivity.
  - apply text_ok_ret; try lia. eexists. split; [reflexivity|]. apply hex_reads; lia.
  - apply text_ok_ret; try lia. reflexivity.
Qed.

(** Each write to a debug interface that prints shows the word in the format of the word written, on one line of its own (a character may itself be
    an end of line). *)
Lemma P_C83_debug : forall oc d addr w d' ex t, is_u32 w -> 0 <= addr -> dbg_write_println oc d addr w = Ret (d', ex, t) ->
  ex = 0 /\ exists u, t = "[debug:basic] " ++ u ++ newline /\ debug_shown (addr / 4) w u.
Proof.
  intros oc d addr w d' ex t Hw Ha H. unfold dbg_write_println, dbg_write in H. destruct (dbg_info (addr / 4) w) as [i|] eqn:E; cbn [unwrap obind] in H; [|discriminate H].
  unfold debug_println in H. destruct (debug_text oc i) as [u|] eqn:Et; cbn [obind] in H; [|discriminate H]. injection H as <- <- <-. split; [reflexivity|].
  exists u. split; [reflexivity|]. exact (proj2 (debug_text_spec oc (addr / 4) w i Hw E) u Et).
Qed.
Lemma E_C83_debug : exists d, dbg_write_println true (BasicDebug 0 []) 12 200 = Ret (d, 0, "[debug:basic] -0x38" ++ newline) /\ debug_shown 3 200 "-0x38".
Proof.
  eexists. split; [reflexivity|]. destruct (neg_hex_spec true fmt_hex4 2 128 (-56)) as (_ & B); try lia; [intros n Hn; apply hex_reads; lia|]. exact (B "-0x38" eq_refl).
Qed.

(** Writing crashes exactly outside of the sixteen words of the interface, and, in builds with overflow checks, for the least signed number at one of
    the three words that show signed numbers in hexadecimal. *)
Lemma P_C83_debug_panics : forall oc d addr w, is_u32 w -> 0 <= addr ->
  (dbg_write_println oc d addr w = Panic <-> 64 <= addr \/ oc = true /\ no_opposite (addr / 4) w).
Proof.
  intros oc d addr w Hw Ha. unfold dbg_write_println, dbg_write. destruct (dbg_info (addr / 4) w) as [i|] eqn:E; cbn [unwrap obind].
  - assert (L : addr < 64).
    { destruct (Z.ltb_spec addr 64); [assumption|]. assert (Hi : 16 <= addr / 4) by lia. exfalso. revert E Hi. generalize (addr / 4). intros k E Hi.
      destruct k as [|k|k]; try lia. do 4 try (match goal with q : positive |- _ => destruct q as [q|q|]; try discriminate E end); try lia. }
    destruct (debug_text_spec oc (addr / 4) w i Hw E) as (A & _). unfold debug_println. rewrite <- (or_iff_compat_l (64 <= addr) A).
    destruct (debug_text oc i); cbn [obind]; split; try discriminate; try tauto. intros [X|X]; [lia|discriminate X].
  - split; [|reflexivity]. intros _. left. destruct (Z.leb_spec 64 addr); [assumption|]. exfalso.
    assert (Hi : 0 <= addr / 4 < 16) by lia. revert E Hi. generalize (addr / 4). intros k E Hi.
    assert (C : k = 0 \/ k = 1 \/ k = 2 \/ k = 3 \/ k = 4 \/ k = 5 \/ k = 6 \/ k = 7 \/ k = 8 \/ k = 9 \/ k = 10 \/ k = 11 \/ k = 12 \/ k = 13 \/ k = 14 \/ k = 15) by lia.
    destruct C as [->|[->|[->|[->|[->|[->|[->|[->|[->|[->|[->|[->|[->|[->|[->| ->]]]]]]]]]]]]]]]; discriminate E.
Qed.
Lemma E_C83_debug_panics : no_opposite 4 98304 /\ dbg_write_println true (BasicDebug 0 []) 16 98304 = Panic /\
  exists d, dbg_write_println false (BasicDebug 0 []) 16 98304 = Ret (d, 0, "[debug:basic] -0x8000" ++ newline).
Proof. split; [right; left; split; reflexivity|]. split; [reflexivity|]. eexists. reflexivity. Qed.

(** False: printing a number does not crash. *)
Lemma P_C83_debug_total_refuted : ~ (forall oc d addr w, is_u32 w -> 0 <= addr < 64 -> exists d' t, dbg_write_println oc d addr w = Ret (d', 0, t)).
Proof. intros H. destruct (H true (BasicDebug 0 []) 12 128 ltac:(unfold is_u32; lia) ltac:(lia)) as (d' & t & E). discriminate E. Qed.

(** ** C84: the lines of the preparation *)

Lemma snd_sbind A B (x : said A) (k : A -> said B) : snd (sbind x k) = obind (snd x) (fun a => snd (k a)).
Proof. destruct x as (l & [a|]); cbn; [destruct (k a)|]; reflexivity. Qed.

(** The preparation and the execution end as they do without looking at what they print; what is printed during an execution is what is printed by the
    preparation, then by the run. *)
Lemma P_C84_same : forall D (ops : bus_ops D) oc ds, snd (prepare_vm_said ops oc ds) = prepare_vm ops oc ds /\
  forall fuel cfg, snd (exec_vm_said ops oc fuel cfg ds) = exec_vm ops oc fuel cfg ds /\
    fst (exec_vm_said ops oc fuel cfg ds) = (fst (prepare_vm_said ops oc ds) ++
      match prepare_vm ops oc ds with Ret m => fst (run_vm_said ops oc fuel cfg m) | Panic => [] end)%list.
Proof.
  intros D ops oc ds.
  assert (S : snd (prepare_vm_said ops oc ds) = prepare_vm ops oc ds).
  { unfold prepare_vm_said, prepare_vm. rewrite snd_sbind. cbn [snd Console.silent]. destruct (board_new ops ds) as [m|]; [|reflexivity]. cbn [obind]. rewrite snd_sbind. cbn [snd Console.silent].
    destruct (map_contiguous _ _ _ _) as [[[mem res] st]|]; [|reflexivity]. cbn [obind]. rewrite snd_sbind. cbn [snd obind]. destruct res; reflexivity. }
  split; [exact S|]. intros fuel cfg. unfold exec_vm_said, exec_vm. rewrite snd_sbind, S. split.
  - destruct (prepare_vm ops oc ds) as [m|]; [|reflexivity]. cbn [obind]. apply P_C82_same.
  - rewrite <- S. destruct (prepare_vm_said ops oc ds) as (l & [m|]); cbn [sbind fst snd].
    + destruct (run_vm_said ops oc fuel cfg m) as (l' & o). reflexivity.
    + rewrite app_nil_r. reflexivity.
Qed.
Lemma E_C84_same : fst (exec_vm_said words_ops true 3 config_quiet [[240 * 2 ^ 24]]) = ["=> Component 0000 '                                ': ✓ 0x00000000 -> 0x0000003C (HW ID: 0x00 00 00 00 00 00 00 01)"].
Proof. vm_compute. reflexivity. Qed.

(** The bytes of the hardware identifier. *)
Lemma hex_byte_value n rest acc : is_u8 n -> digits_value 16 (fmt_byte n ++ rest) acc = digits_value 16 rest (acc * 256 + n).
Proof.
  intros H. unfold is_u8 in H. rewrite fmt_byte_digits by (unfold is_u8; lia). cbn [String.append digits_value]. rewrite !hex_digit_value by lia.
  destruct (Z.ltb_spec (n / 16) 16); [|lia]. destruct (Z.ltb_spec (n mod 16) 16); [|lia]. f_equal. lia.
Qed.
Lemma bytes_value l : forall acc, Forall is_u8 l -> digits_value 16 (String.concat "" (map fmt_byte l)) acc = Some (fold_left (fun a b => a * 256 + b) l acc).
Proof.
  induction l as [|b l IH]; intros acc H; [reflexivity|]. inversion H as [|? ? Hb Hl]; subst. destruct l as [|c l].
  - cbn [map String.concat fold_left]. rewrite <- (append_nil (fmt_byte b)). rewrite hex_byte_value by exact Hb. reflexivity.
  - change (String.concat "" (map fmt_byte (b :: c :: l))) with (fmt_byte b ++ "" ++ String.concat "" (map fmt_byte (c :: l))). rewrite hex_byte_value by exact Hb. exact (IH _ Hl).
Qed.
Lemma hw_bytes n : 0 <= n < 2 ^ 64 -> Forall (fun x => String.length x = 2%nat) (map fmt_byte (be_bytes64 n)) /\ List.length (map fmt_byte (be_bytes64 n)) = 8%nat /\
  reads 16 (String.concat "" (map fmt_byte (be_bytes64 n))) n.
Proof.
  intros H. pose proof (be64_u8 n) as U. split; [|split; [reflexivity|]].
  - apply Forall_map. revert U. apply Forall_impl. intros b Hb. rewrite fmt_byte_digits by exact Hb. reflexivity.
  - split.
    + assert (N : be_bytes64 n <> []) by discriminate. revert U N. generalize (be_bytes64 n). intros l U N. destruct l as [|b l]; [congruence|]. inversion U as [|? ? Hb Hl]; subst. destruct l as [|c l].
      * cbn [map String.concat]. rewrite fmt_byte_digits by exact Hb. discriminate.
      * change (String.concat "" (map fmt_byte (b :: c :: l))) with (fmt_byte b ++ "" ++ String.concat "" (map fmt_byte (c :: l))). rewrite fmt_byte_digits by exact Hb. discriminate.
    + rewrite bytes_value by exact U. f_equal. unfold be_bytes64, be_bytes32. cbn [app fold_left]. unfold u8. clear U.
      assert (X : forall w, 0 <= w < 2 ^ 32 -> forall acc, (((acc * 256 + w / 16777216 mod 256) * 256 + w / 65536 mod 256) * 256 + w / 256 mod 256) * 256 + w mod 256 = acc * 2 ^ 32 + w) by (clear; intros; lia).
      rewrite X by lia. rewrite X by lia. lia.
Qed.

(** The line of a component. *)
Lemma ok_line i name first last hw : 0 <= i < 2 ^ 128 -> 0 <= first < 2 ^ 128 -> 0 <= last < 2 ^ 128 -> 0 <= hw < 2 ^ 64 ->
  mapped_line i name first last hw (component_line (AuxStatus i hw name (ROk (MappingRange first last)))).
Proof.
  intros Hi Hf Hl Hh. destruct (hw_bytes hw Hh) as (A & B & C).
  exists (fmt_dec4 i), (fmt_hex10 first), (fmt_hex10 last), (map fmt_byte (be_bytes64 hw)).
  split; [unfold component_line, fmt_name32; cbn [as_id as_name as_result as_hw_id mr_start mr_end]; rewrite !append_assoc; reflexivity|].
  split; [apply number_reads; lia|]. split; [apply number_least|]. split; [apply hex_reads; lia|]. split; [apply hex_reads; lia|]. auto.
Qed.
Lemma reason_text e : mapping_error_wf e -> reason_said e (mapping_error_text e).
Proof.
  destruct e; cbn [mapping_error_wf reason_said mapping_error_text]; try reflexivity.
  - intros (A & B & C & E). unfold is_u32 in *. do 4 eexists. split; [reflexivity|]. repeat split; try (apply number_reads; lia).
  - unfold is_u32. intros A. eexists. split; [reflexivity|]. apply number_reads; lia.
Qed.
Lemma err_line i name hw e : 0 <= i < 2 ^ 128 -> 0 <= hw < 2 ^ 64 -> mapping_error_wf e -> refused_line i name hw e (component_line (AuxStatus i hw name (RErr e))).
Proof.
  intros Hi Hh We. destruct (hw_bytes hw Hh) as (A & B & C). exists (fmt_dec4 i), (mapping_error_text e), (map fmt_byte (be_bytes64 hw)).
  split; [unfold component_line, fmt_name32; cbn [as_id as_name as_result as_hw_id]; rewrite !append_assoc; reflexivity|].
  split; [apply reason_text, We|]. split; [apply number_reads; lia|]. split; [apply number_least|]. auto.
Qed.

(** The reasons of refusals when components are mapped from 0 in a fresh memory. *)
Lemma firstn_S A (l : list A) : forall k x, nth_error l k = Some x -> firstn (S k) l = (firstn k l ++ [x])%list.
Proof. induction l as [|y l IH]; intros [|k] x H; try discriminate H; [injection H as ->; reflexivity|]. cbn [nth_error] in H. cbn [firstn app]. f_equal. apply (IH k x H). Qed.
Lemma sum_app l l' : sum (l ++ l') = sum l + sum l'.
Proof. induction l as [|x l IH]; [reflexivity|]. cbn [app]. rewrite !sum_cons, IH. lia. Qed.
Lemma loop_reasons D oc szs : forall n k0 (m : memory D) T mx fl sts m' mx' fl' sts', mem_wf m -> tidy oc m ->
  (forall j, comp_size m (Z.of_nat j) = nth_error szs j) -> (k0 + n = List.length szs)%nat ->
  0 <= T <= sum (firstn k0 szs) -> T mod 4 = 0 -> (T <= 2 ^ 32 -> forall mp, In mp (mm_maps m) -> mp_addr mp + mp_size mp <= T) ->
  (forall mp, In mp (mm_maps m) -> exists j, (j < k0)%nat /\ mp_aux_id mp = Z.of_nat j) ->
  map_contiguous_loop oc m (map Z.of_nat (seq k0 n)) (T mod 2 ^ 32) mx fl sts = Ret (m', mx', fl', sts') ->
  exists new, sts' = (sts ++ new)%list /\ forall k s e, nth_error new k = Some s -> as_result s = RErr e -> refused_because szs (k0 + k) e /\ mapping_error_wf e.
Proof.
  induction n as [|n IH]; intros k0 m T mx fl sts m' mx' fl' sts' W Ht HC HL HT T4 HB HI H; cbn [seq map map_contiguous_loop] in H.
  { injection H as <- <- <- <-. exists []. rewrite app_nil_r. split; [reflexivity|]. intros [|k] s e X; discriminate X. }
  assert (HLa : is_u32 (T mod 2 ^ 32)) by (unfold is_u32; lia).
  pose proof (mem_map_table oc m (T mod 2 ^ 32) (Z.of_nat k0) W Ht HLa) as X.
  destruct (mem_map oc m (T mod 2 ^ 32) (Z.of_nat k0)) as [[m1 r]|] eqn:Em; [|discriminate H]. cbn [obind] in H.
  assert (W1 : mem_wf m1) by (unfold mem_map in Em; eapply internal_map_wf; [| |exact Em]; auto).
  assert (T1 : tidy oc m1) by (eapply mem_map_tidy; [| | |exact Em]; auto).
  assert (Hh : mm_hwb m1 = mm_hwb m) by (eapply internal_map_hwb; exact Em).
  assert (HC1 : forall j, comp_size m1 (Z.of_nat j) = nth_error szs j) by (intros j; rewrite <- HC; unfold comp_size; rewrite Hh; reflexivity).
  destruct (nth_error szs k0) as [sz|] eqn:Esz; [|apply nth_error_None in Esz; lia]. pose proof (firstn_S _ _ _ _ Esz) as HS. pose proof (HC k0) as Ck. rewrite Esz in Ck.
  assert (Hsum : sum (firstn (S k0) szs) = sum (firstn k0 szs) + sz) by (rewrite HS, sum_app; unfold sum at 2; cbn [fold_right]; lia).
  pose proof (comp_size_u32 _ _ _ W Ck) as Hsz. unfold is_u32 in Hsz.
  destruct r as [rg|er].
  - destruct X as (sz' & mp & (V1 & V2 & V3 & V4 & V5 & V6 & V7 & V8) & -> & MA & Ms & ->). rewrite Ck in V1. injection V1 as <-. cbn [mr_end obind] in H.
    destruct (add_u32 oc (T mod 2 ^ 32 + sz - 4) 4) as [la|] eqn:Ea; [|discriminate H]. cbn [obind] in H.
    destruct (hw_id_of _ _) as [hid|]; [|discriminate H]. cbn [unwrap obind] in H. destruct (name_of _ _) as [nm|]; [|discriminate H]. cbn [unwrap obind] in H.
    assert (la = (T + sz) mod 2 ^ 32) as ->.
    { unfold add_u32, u32 in Ea. destruct (Z.ltb_spec (T mod 2 ^ 32 + sz - 4 + 4) 4294967296); [injection Ea as <-; lia|]. destruct oc; [discriminate Ea|]. injection Ea as <-. lia. }
    pose proof (fun a b c d e => IH (S k0) _ (T + sz) _ _ _ _ _ _ _ W1 T1 HC1 a b c d e H) as Y. destruct Y as (new & En & Hn); [lia|lia|lia| | |].
    + cbn [mm_maps]. intros Hle mp' I. apply in_app_or in I. destruct I as [I|[<-|[]]]; [specialize (HB ltac:(lia) mp' I); lia|].
      destruct MA as (e & _ & ->). cbn [mp_size mp_addr] in *. rewrite Z.mod_small by lia. lia.
    + cbn [mm_maps]. intros mp' I. apply in_app_or in I. destruct I as [I|[<-|[]]]; [destruct (HI mp' I) as (j & J1 & J2); exists j; split; [lia|exact J2]|].
      exists k0. split; [lia|]. destruct MA as (e & _ & ->). reflexivity.
    + rewrite <- app_assoc in En. cbn [app] in En. eexists. split; [exact En|]. intros [|k] s e Hk He; cbn [nth_error] in Hk; [injection Hk as <-; discriminate He|].
      rewrite <- Nat.add_succ_comm. eapply Hn; eauto.
  - destruct X as (-> & X & _). cbn [obind] in H.
    destruct (hw_id_of _ _) as [hid|]; [|discriminate H]. cbn [unwrap obind] in H. destruct (name_of _ _) as [nm|]; [|discriminate H]. cbn [unwrap obind] in H.
    pose proof (fun a b c d e => IH (S k0) _ T _ _ _ _ _ _ _ W1 T1 HC1 a b c d e H) as Y. destruct Y as (new & En & Hn); [lia|lia|exact T4|exact HB| |].
    + intros mp' I. destruct (HI mp' I) as (j & J1 & J2). exists j. split; [lia|exact J2].
    + rewrite <- app_assoc in En. cbn [app] in En. eexists. split; [exact En|]. intros [|k] s e Hk He; cbn [nth_error] in Hk.
      2:{ rewrite <- Nat.add_succ_comm. eapply Hn; eauto. }
      injection Hk as <-. cbn [as_result] in He. injection He as ->. rewrite Nat.add_0_r.
      destruct e as [| | | | | | |mp|]; cbn [refusal] in X.
      all: try contradiction.
      * congruence.
      * exfalso. lia.
      * cbn [refused_because mapping_error_wf]. split; [exists sz; split; [exact Esz|]|exact I]. destruct X as (sz' & X1 & X2). congruence.
      * cbn [refused_because mapping_error_wf]. split; [|exact I]. destruct X as (sz' & X1 & X2). rewrite Ck in X1. injection X1 as <-. lia.
      * exfalso. destruct X as (mp & I & E). destruct (HI mp I) as (j & J1 & J2). lia.
      * cbn [refused_because mapping_error_wf]. split; [|exact I]. congruence.
      * destruct X as (sz' & b & X1 & I & O & Hb). rewrite Ck in X1. injection X1 as <-. unfold occupies in O. destruct (HI mp I) as (j & J1 & J2).
        destruct W as (Wc & Wp & Wl). pose proof (proj1 (Forall_forall _ _) Wp mp I) as (P1 & P2 & P3 & P4 & e & P5 & P6 & P7).
        pose proof (proj1 (Forall_forall _ _) Wc e (znth_In _ _ _ P5)) as Pe.
        split.
        -- split. { destruct (Z.le_gt_cases T (2 ^ 32)) as [L|L]; [|lia]. specialize (HB L mp I). destruct (Z.eq_dec T (2 ^ 32)) as [->|]; [lia|]. rewrite Z.mod_small in Hb by lia. lia. }
           exists j. split; [exact J1|]. split; [exact J2|]. rewrite <- HC, <- J2. unfold comp_size. rewrite P5. congruence.
        -- cbn [mapping_error_wf]. unfold is_u32 in *. unfold cache_wf in Pe. destruct Pe as (Q0 & Q1 & Q2 & _ & _ & _ & _ & _ & Q3 & Q4 & _). apply znth_bound in P5. unfold is_u32 in *. repeat split; try lia.
Qed.

(** The statuses when everything fits. *)
Lemma loop_lines D oc : forall ids szs (m : memory D) la mx fl sts, mem_wf m -> tidy oc m -> 0 <= la -> la mod 4 = 0 -> NoDup ids ->
  Forall2 (fun id sz => comp_size m id = Some sz) ids szs -> Forall good szs -> la + sum szs <= 2 ^ 32 -> (oc = true -> la + sum szs < 2 ^ 32) ->
  (forall mp, In mp (mm_maps m) -> mp_addr mp + mp_size mp <= la /\ ~ In (mp_aux_id mp) ids) ->
  exists m' mx' new, map_contiguous_loop oc m ids (la mod 2 ^ 32) mx fl sts = Ret (m', mx', fl, (sts ++ new)%list) /\ List.length new = List.length ids /\
    forall k id sz, nth_error ids k = Some id -> nth_error szs k = Some sz -> exists e, znth (mm_hwb m) id = Some e /\
      nth_error new k = Some (AuxStatus id (ac_hw_id (ae_cache e)) (ac_name (ae_cache e))
        (ROk (MappingRange (la + placed_at szs k) (la + placed_at szs k + sz - 4)))).
Proof.
  induction ids as [|id ids IH]; intros szs m la mx fl sts W Ht H0 Ha ND HF HG HS HO HM; inversion HF as [|? sz ? szs' Hc HF']; subst.
  { do 2 eexists. exists []. rewrite app_nil_r. split; [reflexivity|]. split; [reflexivity|]. intros [|k] ? ? X; discriminate X. }
  inversion HG as [|? ? Hg HG']; subst. inversion ND as [|? ? N1 N2]; subst. rewrite sum_cons in *. pose proof (sum_nonneg _ HG') as Hn. destruct Hg as (G1 & G2).
  cbn [map_contiguous_loop]. rewrite (Z.mod_small la) by lia. pose proof (mem_map_table oc m la id W Ht ltac:(unfold is_u32; lia)) as X.
  assert (V : valid_request oc m la id sz).
  { split; [auto|]. do 3 (split; [auto|]). split; [lia|]. split; [intros E; specialize (HO E); lia|]. split.
    - intros (mp & I & E). apply (proj2 (HM mp I)). left. auto.
    - intros mp b I O. destruct (HM mp I) as (Y & _). unfold occupies in O. lia. }
  destruct (mem_map oc m la id) as [[m1 [rg|e]]|] eqn:Em.
  2:{ destruct X as (_ & _ & X). destruct (X _ V). }
  2:{ destruct X as (E & sz' & Es & B). rewrite Hc in Es. injection Es as <-. specialize (HO E). destruct V as (_ & V1 & _ & V2 & _). lia. }
  destruct X as (sz' & mp & (Vs & _) & -> & MA & Ms & ->). rewrite Hc in Vs. injection Vs as <-. cbn [obind mr_end].
  assert (E4 : add_u32 oc (la + sz - 4) 4 = Ret ((la + sz) mod 2 ^ 32)).
  { unfold add_u32, u32. replace (la + sz - 4 + 4) with (la + sz) by lia. change 4294967296 with (2 ^ 32).
    destruct (Z.ltb_spec (la + sz) (2 ^ 32)); [rewrite Z.mod_small by lia; reflexivity|]. destruct oc; [|reflexivity]. specialize (HO eq_refl). lia. }
  rewrite E4. cbn [obind]. unfold hw_id_of, name_of, cache_of. cbn [mm_hwb]. destruct (comp_in _ _ _ Hc) as (e & Ee). rewrite Ee. cbn [option_map unwrap obind].
  destruct (IH szs' (Memory (mm_hwb m) (mm_maps m ++ [mp])) (la + sz) (if mx <? la + sz - 4 then la + sz - 4 else mx) fl
    (sts ++ [AuxStatus id (ac_hw_id (ae_cache e)) (ac_name (ae_cache e)) (ROk (MappingRange la (la + sz - 4)))])%list) as (m' & mx' & new & El & Ln & Hk); auto; try lia.
  - unfold mem_map in Em. eapply internal_map_wf; [| |exact Em]; auto. unfold is_u32; lia.
  - eapply mem_map_tidy; [| | |exact Em]; auto. unfold is_u32; lia.
  - intros mp' I. apply in_app_or in I. destruct I as [I|[<-|[]]].
    + destruct (HM mp' I) as (Y1 & Y2). split; [lia|]. intros Z0. apply Y2. right. auto.
    + destruct MA as (e' & _ & ->). cbn in *. split; [lia|auto].
  - rewrite <- app_assoc in El. exists m', mx'. eexists. split; [exact El|]. split; [cbn [List.length app]; rewrite Ln; reflexivity|].
    intros [|k] id' sz' X Y; cbn [nth_error app] in *.
    + injection X as <-. injection Y as <-. exists e. split; [exact Ee|]. unfold placed_at. cbn [firstn]. change (sum []) with 0. rewrite Z.add_0_r. reflexivity.
    + destruct (Hk k id' sz' X Y) as (e' & A & B). exists e'. split; [exact A|]. rewrite B. unfold placed_at. cbn [firstn]. rewrite sum_cons. rewrite !Z.add_assoc. reflexivity.
Qed.

(** Components that fit: one line for each, in order, with its number, name, first and last word and hardware identifier, and the machine is ready. *)
Lemma P_C84_mapped : forall D (ops : bus_ops D) oc ds szs, typed ops -> Forall2 (declares ops) ds szs -> (forall d, In d ds -> exists d', bo_reset ops d = Ret d') ->
  bootable oc szs ->
  exists lines m, prepare_vm_said ops oc ds = (lines, Ret m) /\ List.length lines = List.length ds /\
    forall k d md, nth_error ds k = Some d -> bo_metadata ops d = Ret md -> exists s, nth_error lines k = Some s /\
      mapped_line (Z.of_nat k) (cut_name (bo_name ops d)) (placed_at szs k) (placed_at szs k + w2 md - 4) (w0 md * 2 ^ 32 + w1 md) s.
Proof.
  intros D ops oc ds szs T HF HR HB. destruct (P_C66_boots D ops oc ds szs T HF HR HB) as (m & Em & _). pose proof HB as (HG & HS & HO). change (Forall good szs) in HG.
  assert (L : List.length ds = List.length szs) by (clear - HF; induction HF; cbn; auto).
  rewrite <- (proj1 (P_C84_same D ops oc ds)) in Em. unfold prepare_vm_said in *. destruct (board_new ops ds) as [c|] eqn:Ec; [|discriminate Em].
  destruct (board_new_spec ops T ds c Ec) as (W & Emm & Ed & _ & _ & _ & Es).
  assert (HC : Forall2 (fun id sz => comp_size (c_mem c) id = Some sz) (zrange (List.length ds)) szs).
  { apply (range_sizes ops ds szs (c_hwb c)); auto. intros k e Hk. destruct (Es k e Hk) as (md & X & ->). exists md. auto. }
  assert (Ht : tidy oc (c_mem c)). { unfold tidy. rewrite Emm. cbn. split; [constructor|]. split; intros; contradiction. }
  destruct (loop_lines D oc (zrange (List.length ds)) szs (c_mem c) 0 0 [] []) as (mem & mx & new & El & Ln & Hk); auto; try lia.
  { apply W. } { apply zrange_nodup. } { rewrite Emm. intros mp []. }
  change (0 mod 2 ^ 32) with 0 in El. assert (EM : map_contiguous oc (c_mem c) 0 (zrange (List.length ds)) = Ret (mem, ROk (MappingRange 0 mx), new)).
  { unfold map_contiguous. rewrite El. reflexivity. }
  cbn [Console.silent sbind] in *. rewrite EM in *. cbn [sbind] in *. unfold Console.silent in *. cbn [sbind snd] in Em. rewrite Em. rewrite !app_nil_r. cbn [app].
  exists (map component_line new), m. split; [reflexivity|]. rewrite map_length, Ln. unfold zrange at 1. rewrite map_length, seq_length. split; [reflexivity|].
  intros k d md Hd Hmd. assert (Hk' : (k < List.length ds)%nat) by (apply nth_error_Some; congruence).
  destruct (nth_error szs k) as [sz|] eqn:Esz; [|apply nth_error_None in Esz; lia].
  destruct (Hk k (Z.of_nat k) sz (zrange_nth _ _ Hk') Esz) as (e & Ee & En).
  pose proof Hd as Hd'. rewrite <- Ed, nth_error_map in Hd'. change (mm_hwb (c_mem c)) with (c_hwb c) in Ee. pose proof Ee as Ee'. rewrite znth_nth in Ee' by lia. rewrite Nat2Z.id in Ee'. rewrite Ee' in Hd'. cbn in Hd'. injection Hd' as Hd'. subst d.
  destruct (Es (Z.of_nat k) e Ee) as (md' & X & Y). rewrite Hmd in X. injection X as <-.
  assert (Hsz : sz = w2 md).
  { assert (Hz : forall k d sz, nth_error ds k = Some d -> nth_error szs k = Some sz -> declares ops d sz).
    { clear - HF. induction HF as [|a b la lb H HF IH]; intros [|k] d sz Hk Ed; cbn in *; try discriminate; [congruence|eauto]. }
    destruct (Hz k _ sz Hd Esz) as (md2 & X1 & X2). rewrite Hmd in X1. injection X1 as <-. auto. }
  subst sz. rewrite Y in En. cbn [ac_hw_id ac_name] in En. exists (component_line (AuxStatus (Z.of_nat k) (w0 md * 4294967296 + w1 md) (cut_name (bo_name ops (ae_dev e))) (ROk (MappingRange (0 + placed_at szs k) (0 + placed_at szs k + w2 md - 4))))).
  split; [rewrite nth_error_map, En; reflexivity|]. assert (good (w2 md)) as (G1 & G2). { eapply Forall_forall; [exact HG|]. eapply nth_error_In; eauto. }
  pose proof (sum_firstn k szs HG). pose proof (ty_meta ops T _ _ Hmd) as (M0 & M1 & M2 & _). pose proof (sum_zlen _ HG). unfold placed_at. unfold is_u32, zlen in *. apply ok_line; lia.
Qed.
Lemma E_C84_mapped : exists m, prepare_vm_said words_ops true [[1]; [2; 3]] = (
  ["=> Component 0000 '                                ': ✓ 0x00000000 -> 0x0000003C (HW ID: 0x00 00 00 00 00 00 00 01)";
   "=> Component 0001 '                                ': ✓ 0x00000040 -> 0x0000007C (HW ID: 0x00 00 00 00 00 00 00 01)"], Ret m) /\
  Forall2 (declares words_ops) [[1]; [2; 3]] [64; 64] /\ bootable true [64; 64] /\ placed_at [64; 64] 1 = 64.
Proof.
  destruct (prepare_vm_said words_ops true [[1]; [2; 3]]) as (l & [m|]) eqn:E; [|vm_compute in E; discriminate E].
  exists m. split; [vm_compute in E; injection E as <- <-; reflexivity|].
  split. { repeat constructor; eexists; split; reflexivity. } split; [|reflexivity]. split; [repeat constructor|]. cbn. lia.
Qed.

Lemma loop_release D : forall ids (m : memory D) la mx fl sts, mem_wf m -> tidy false m -> is_u32 la -> (forall id, In id ids -> exists e, znth (mm_hwb m) id = Some e) ->
  exists r, map_contiguous_loop false m ids la mx fl sts = Ret r.
Proof.
  induction ids as [|id ids IH]; intros m la mx fl sts W T Hl HK; [eexists; reflexivity|]. cbn [map_contiguous_loop]. pose proof (mem_map_table false m la id W T Hl) as X.
  destruct (mem_map false m la id) as [[m1 r]|] eqn:Em; [|destruct X as (X & _); discriminate X]. cbn [obind].
  assert (W1 : mem_wf m1) by (unfold mem_map in Em; eapply internal_map_wf; [| |exact Em]; auto).
  assert (T1 : tidy false m1) by (eapply mem_map_tidy; [| | |exact Em]; auto).
  assert (Hh : mm_hwb m1 = mm_hwb m) by (eapply internal_map_hwb; exact Em).
  unfold hw_id_of, name_of, cache_of. rewrite Hh. destruct (HK id (or_introl eq_refl)) as (e & ->). cbn [option_map unwrap].
  assert (K1 : forall id', In id' ids -> exists e, znth (mm_hwb m1) id' = Some e) by (intros id' I; rewrite Hh; apply HK; right; exact I).
  destruct r as [rg|er]; cbn [obind].
  - destruct X as (sz & mp & (V1 & V2 & V3 & V4 & V5 & _) & -> & _). cbn [mr_end]. unfold is_u32 in Hl. rewrite add_u32_release by lia. cbn [obind]. apply IH; auto. unfold is_u32, u32. lia.
  - apply IH; auto.
Qed.

Lemma nth_in_forall A (P : A -> Prop) l k x : Forall P l -> nth_error l k = Some x -> P x.
Proof. intros H E. eapply Forall_forall; [exact H|]. eapply nth_error_In; eauto. Qed.

(** In any case, when something is printed, there is one line for each component, in order, that tells its number, name and hardware identifier and
    whether it could be mapped; if the components do not fit together, the preparation crashes after a line that tells the reason. In builds without
    overflow checks the lines are always printed. *)
Lemma P_C84_told : forall D (ops : bus_ops D) oc ds szs lines o, typed ops -> Forall2 (declares ops) ds szs -> prepare_vm_said ops oc ds = (lines, o) ->
  lines <> [] \/ oc = false /\ zlen ds < 2 ^ 32 ->
  List.length lines = List.length ds /\
  (forall k d md, nth_error ds k = Some d -> bo_metadata ops d = Ret md -> exists s, nth_error lines k = Some s /\
    ((exists first last, mapped_line (Z.of_nat k) (cut_name (bo_name ops d)) first last (w0 md * 2 ^ 32 + w1 md) s) \/
     (exists e, refused_because szs k e /\ refused_line (Z.of_nat k) (cut_name (bo_name ops d)) (w0 md * 2 ^ 32 + w1 md) e s))) /\
  (~ bootable oc szs -> o = Panic /\ exists k d md s e, nth_error ds k = Some d /\ bo_metadata ops d = Ret md /\ nth_error lines k = Some s /\
    refused_because szs k e /\ refused_line (Z.of_nat k) (cut_name (bo_name ops d)) (w0 md * 2 ^ 32 + w1 md) e s).
Proof.
  intros D ops oc ds szs lines o T HF HP HL. pose proof (proj1 (P_C84_same D ops oc ds)) as HS. rewrite HP in HS. cbn [snd] in HS.
  assert (HPan : ~ bootable oc szs -> o = Panic) by (intros N; rewrite HS; exact (P_C66_panics D ops oc ds szs T HF N)).
  unfold prepare_vm_said in HP. destruct (board_new ops ds) as [c|] eqn:Ec.
  2:{ exfalso. injection HP as <- <-. destruct HL as [HL|(_ & HL)]; [congruence|]. destruct (board_new_total ops ds szs HF ltac:(lia)) as (c & E). congruence. }
  destruct (board_new_spec ops T ds c Ec) as (W & Emm & Ed & _ & _ & _ & Es). cbn [Console.silent sbind] in HP.
  assert (Ht : tidy oc (c_mem c)). { unfold tidy. rewrite Emm. cbn. split; [constructor|]. split; intros; contradiction. }
  assert (Wm : mem_wf (c_mem c)) by apply W.
  assert (HC : Forall2 (fun id sz => comp_size (c_mem c) id = Some sz) (zrange (List.length ds)) szs).
  { apply (range_sizes ops ds szs (c_hwb c)); auto. intros k e Hk. destruct (Es k e Hk) as (md & X & ->). exists md. auto. }
  assert (HLd : List.length (c_hwb c) = List.length ds) by (rewrite <- Ed, map_length; reflexivity).
  destruct (map_contiguous oc (c_mem c) 0 (zrange (List.length ds))) as [[[mem res] st]|] eqn:EM.
  2:{ exfalso. cbn in HP. injection HP as <- <-. destruct HL as [HL|(-> & HL)]; [congruence|]. unfold map_contiguous in EM.
      destruct (loop_release D (zrange (List.length ds)) (c_mem c) 0 0 [] [] Wm Ht ltac:(unfold is_u32; lia)) as ([[[m' mx] fl] sts'] & E).
      { intros id I. unfold zrange in I. apply in_map_iff in I. destruct I as (k & <- & I). apply in_seq in I. rewrite znth_nth by lia. rewrite Nat2Z.id.
        destruct (nth_error (mm_hwb (c_mem c)) k) eqn:E; [eauto|]. apply nth_error_None in E. change (mm_hwb (c_mem c)) with (c_hwb c) in E. lia. }
      rewrite E in EM. discriminate EM. }
  unfold Console.silent in HP. cbn [sbind] in HP. assert (HP' : map component_line st = lines).
  { destruct res; cbn in HP; [destruct (board_reset ops (with_mem mem c))|]; injection HP as <- _; cbn; rewrite ?app_nil_r; reflexivity. }
  clear HP. pose proof (P_C35_statuses D (c_mem c) oc 0 _ mem res st Wm Ht ltac:(unfold is_u32; lia) EM) as HSt.
  destruct (P_C35_contiguous D (c_mem c) oc 0 _ mem res st Wm Ht ltac:(unfold is_u32; lia) EM) as (l & Ids & _ & _ & Hres & _).
  assert (Lst : List.length st = List.length ds). { rewrite <- (map_length as_id), Ids. unfold zrange. rewrite map_length, seq_length. reflexivity. }
  split; [rewrite <- HP', map_length; exact Lst|].
  assert (Hline : forall k s0, nth_error st k = Some s0 -> exists d md, nth_error ds k = Some d /\ bo_metadata ops d = Ret md /\ 0 <= Z.of_nat k < 2 ^ 33 /\ 0 <= w0 md * 2 ^ 32 + w1 md < 2 ^ 64 /\
     s0 = AuxStatus (Z.of_nat k) (w0 md * 2 ^ 32 + w1 md) (cut_name (bo_name ops d)) (as_result s0) /\
     match as_result s0 with ROk rg => 0 <= mr_start rg < 2 ^ 33 /\ 0 <= mr_end rg < 2 ^ 33 | RErr _ => True end).
  { intros k s0 Hk. assert (Hi : as_id s0 = Z.of_nat k).
    { pose proof (map_nth_error as_id _ _ Hk) as X. rewrite Ids, zrange_nth in X by (rewrite <- Lst; apply nth_error_Some; congruence). congruence. }
    destruct (nth_in_forall _ _ _ _ _ HSt Hk) as (e & E1 & E2 & E3 & E4). rewrite Hi in E1. change (mm_hwb (c_mem c)) with (c_hwb c) in E1.
    destruct (Es _ _ E1) as (md & X & Y). pose proof E1 as E1'. rewrite znth_nth in E1' by lia. rewrite Nat2Z.id in E1'.
    exists (ae_dev e), md. split; [rewrite <- Ed, nth_error_map, E1'; reflexivity|]. split; [exact X|].
    pose proof (ty_meta ops T _ _ X) as (M0 & M1 & M2 & _). unfold is_u32 in *.
    split. { assert (Kn : (k < List.length (c_hwb c))%nat) by (apply nth_error_Some; congruence). assert (Lh : zlen (c_hwb c) <= 4294967295) by apply W. unfold zlen in Lh. lia. }
    split; [lia|]. rewrite Y in E2, E3. cbn in E2, E3. split.
    - destruct s0 as [i h nm rs]. cbn in *. subst. reflexivity.
    - destruct (as_result s0) as [rg|]; [|exact I]. destruct E4 as (mp & I & _ & Q1 & Q2). rewrite Q1, Q2.
      assert (Wm' : mem_wf mem) by (eapply map_contiguous_wf; [exact Wm| |exact EM]; unfold is_u32; lia).
      destruct Wm' as (Wc & Wp & _). pose proof (proj1 (Forall_forall _ _) Wp mp I) as (P1 & P2 & P3 & P4 & e' & P5 & P6 & _).
      pose proof (proj1 (Forall_forall _ _) Wc e' (znth_In _ _ _ P5)) as (_ & _ & P7 & _ & _ & _ & _ & _ & P8 & _). unfold is_u32 in *. lia. }
  assert (Hreason : forall k s0 e, nth_error st k = Some s0 -> as_result s0 = RErr e -> refused_because szs k e /\ mapping_error_wf e).
  { unfold map_contiguous in EM. destruct (map_contiguous_loop _ _ _ _ _ _ _) as [[[[m' mx] fl] st']|] eqn:El; cbn [obind] in EM; [|discriminate]. injection EM as _ _ <-.
    assert (Lz : List.length ds = List.length szs) by (clear - HF; induction HF; cbn; auto).
    destruct (loop_reasons D oc szs (List.length ds) 0 (c_mem c) 0 0 [] [] m' mx fl st' Wm Ht) as (new & -> & Hn); [|lia|unfold sum; cbn; lia|reflexivity| | |exact El|exact Hn].
    - intros j. destruct (nth_error szs j) as [sz|] eqn:Ej.
      + clear - HC Ej Lz. assert (Hj : (j < List.length ds)%nat) by (rewrite Lz; apply nth_error_Some; congruence).
        pose proof (zrange_nth _ _ Hj) as X. revert X Ej. generalize (Z.of_nat j) as i. generalize j. clear - HC. revert HC. generalize (zrange (List.length ds)) as ids. intros ids HC.
        induction HC as [|a b la lb H HC IH]; intros [|j] i X Ej; cbn in *; try discriminate; [congruence|]. eapply IH; eauto.
      + unfold comp_size. change (mm_hwb (c_mem c)) with (c_hwb c). destruct (znth (c_hwb c) (Z.of_nat j)) eqn:Z0; [|reflexivity]. apply znth_bound in Z0. apply nth_error_None in Ej. unfold zlen in Z0. lia.
    - rewrite Emm. intros _ mp [].
    - rewrite Emm. intros mp []. }
  assert (Hcase : forall k s0 d md, nth_error st k = Some s0 -> nth_error ds k = Some d -> bo_metadata ops d = Ret md ->
    match as_result s0 with
    | ROk _ => exists first last, mapped_line (Z.of_nat k) (cut_name (bo_name ops d)) first last (w0 md * 2 ^ 32 + w1 md) (component_line s0)
    | RErr e => refused_because szs k e /\ refused_line (Z.of_nat k) (cut_name (bo_name ops d)) (w0 md * 2 ^ 32 + w1 md) e (component_line s0)
    end).
  { intros k s0 d md Hk Hd Hm. destruct (Hline k s0 Hk) as (d' & md' & A1 & A2 & A3 & A4 & A5 & A6). rewrite Hd in A1. injection A1 as <-. rewrite Hm in A2. injection A2 as <-.
    destruct (as_result s0) as [[a b]|e] eqn:Er; rewrite A5; cbn in A6; [exists a, b; apply ok_line; lia|]. destruct (Hreason k s0 e Hk Er) as (B1 & B2). split; [exact B1|apply err_line; [lia|lia|exact B2]]. }
  split.
  - intros k d md Hd Hm. assert (Kn : (k < List.length ds)%nat) by (apply nth_error_Some; congruence).
    destruct (nth_error st k) as [s0|] eqn:Hk; [|apply nth_error_None in Hk; lia]. exists (component_line s0). split; [rewrite <- HP', nth_error_map, Hk; reflexivity|].
    specialize (Hcase k s0 d md Hk Hd Hm). destruct (as_result s0); eauto.
  - intros N. split; [auto|]. specialize (HPan N). destruct res as [rg|failed].
    + exfalso. apply N. unfold map_contiguous in EM. destruct (map_contiguous_loop _ _ _ _ _ _ _) as [[[[m' mx] fl] st']|] eqn:El; cbn [obind] in EM; [|discriminate].
      destruct fl as [|x fl]; [|discriminate]. destruct (loop_fits oc (zrange (List.length ds)) (c_mem c) 0 _ _ _ _ _ Wm Ht ltac:(unfold is_u32; lia) ltac:(congruence) El) as (szs' & F1 & F2 & F3 & F4).
      assert (szs' = szs) as ->. { clear - HC F1. revert szs' F1. induction HC as [|a b la lb H HC IH]; intros szs' F1; inversion F1; subst; auto. f_equal; [congruence|auto]. }
      split; auto.
    + destruct Hres as (Nf & Ef). destruct failed as [|(i, e) failed]; [congruence|]. assert (I : In (i, e) (ids_refused st)) by (rewrite <- Ef; left; reflexivity).
      unfold ids_refused in I. apply in_flat_map in I. destruct I as (s0 & I & X). apply In_nth_error in I. destruct I as (k & Hk).
      destruct (Hline k s0 Hk) as (d & md & A1 & A2 & _). specialize (Hcase k s0 d md Hk A1 A2). destruct (as_result s0) as [|e0]; [destruct X|]. exists k, d, md, (component_line s0), e0. split; [exact A1|]. split; [exact A2|].
      split; [rewrite <- HP', nth_error_map, Hk; reflexivity|]. exact Hcase.
Qed.
(** A component of the size it is told. *)
Definition sized_ops : bus_ops Z :=
  {| bo_name := fun _ => [82; 79; 77]; bo_metadata := fun d => Ret (W8 0 7 (u32 d) 0 0 0 0 0); bo_read := fun d off => Ret (d, 0, 0); bo_write := fun d _ _ => Ret (d, 0); bo_reset := fun d => Ret d |}.
Lemma sized_typed : typed sized_ops.
Proof.
  split; cbn; intros; repeat match goal with H : Ret _ = Ret _ |- _ => injection H as <- <- <- || injection H as <- <- || injection H as <- end; cbn; unfold is_u32, is_u16, u32; repeat split; try lia.
  repeat constructor; unfold scalar; lia.
Qed.
(** The second component declares a size that is no multiple of 4. *)
Lemma E_C84_told : prepare_vm_said sized_ops false [8; 5; 4] = (
  ["=> Component 0000 'ROM                             ': ✓ 0x00000000 -> 0x00000004 (HW ID: 0x00 00 00 00 00 00 00 07)";
   "=> Component 0001 'ROM                             ': ✗ UnalignedBusSize (HW ID: 0x00 00 00 00 00 00 00 07)";
   "=> Component 0002 'ROM                             ': ✓ 0x00000008 -> 0x00000008 (HW ID: 0x00 00 00 00 00 00 00 07)"], Panic) /\
  typed sized_ops /\ Forall2 (declares sized_ops) [8; 5; 4] [8; 5; 4] /\ ~ bootable false [8; 5; 4].
Proof.
  split; [vm_compute; reflexivity|]. split; [exact sized_typed|]. split; [repeat constructor; eexists; split; reflexivity|]. intros (H & _). inversion H as [|? ? _ H1]; subst. inversion H1 as [|? ? (_ & H2) _]; subst. discriminate H2.
Qed.

(** False of builds with overflow checks: the crash of components that exceed the address space is not announced by any line. *)
Lemma P_C84_announced_refuted : ~ (forall D (ops : bus_ops D) oc ds szs, typed ops -> Forall2 (declares ops) ds szs -> zlen ds < 2 ^ 32 -> ~ bootable oc szs ->
  List.length (fst (prepare_vm_said ops oc ds)) = List.length ds).
Proof.
  intros H. specialize (H Z sized_ops true [2147483648; 2147483648] [2147483648; 2147483648] sized_typed).
  assert (X : List.length (fst (prepare_vm_said sized_ops true [2147483648; 2147483648])) = O) by (vm_compute; reflexivity).
  rewrite X in H. enough (O = 2%nat) by discriminate. apply H.
  - repeat constructor; eexists; split; reflexivity.
  - reflexivity.
  - intros (_ & B & C). specialize (C eq_refl). cbn in C. lia.
Qed.
