(** Proofs about LASM text: printing an instruction and assembling the text. *)
From Coq Require Import String Ascii ZArith List Bool Lia.
From Verif Require Import Base Mem Asm Tools LasmRules Lasm SpecAsm SpecLasm BaseFacts RegFacts ProofAsm.
Import ListNotations.
Open Scope string_scope.
Open Scope Z_scope.
Ltac Zify.zify_post_hook ::= Z.div_mod_to_equations.

(** * Strings *)
Fixpoint all_chars (f : ascii -> bool) (s : string) : bool := match s with "" => true | String c t => f c && all_chars f t end.
Lemma append_assoc (a b c : string) : (a ++ b) ++ c = a ++ (b ++ c).
Proof. induction a; cbn; congruence. Qed.
Lemma append_nil (a : string) : a ++ "" = a.
Proof. induction a; cbn; congruence. Qed.
Lemma all_app f a b : all_chars f (a ++ b) = all_chars f a && all_chars f b.
Proof. induction a; cbn; [reflexivity|]. rewrite IHa, andb_assoc. reflexivity. Qed.
Definition word (w : string) : Prop := all_chars is_word w = true /\ w <> "".
Lemma flush_app w l : w <> "" -> flush w l = TWord w :: l.
Proof. destruct w; [congruence|reflexivity]. Qed.
Lemma lex_word w : forall rest acc, all_chars is_word w = true -> lex (w ++ rest) (LWord acc) = lex rest (LWord (acc ++ w)).
Proof.
  induction w as [|c w IH]; intros rest acc H; cbn [String.append]; [rewrite append_nil; reflexivity|].
  cbn [all_chars] in H. apply andb_prop in H. destruct H as (H1 & H2). cbn [lex]. rewrite H1. rewrite IH by exact H2. rewrite append_assoc. reflexivity.
Qed.
Lemma lex_last w : word w -> lex w (LWord "") = Some [TWord w].
Proof. intros (H & N). rewrite <- (append_nil w) at 1. rewrite lex_word by exact H. cbn [lex String.append]. rewrite flush_app by exact N. reflexivity. Qed.
Lemma lex_space w t : word w -> lex (w ++ " " ++ t) (LWord "") = option_map (cons (TWord w)) (lex t (LWord "")).
Proof. intros (H & N). rewrite lex_word by exact H. cbn [String.append lex]. change (is_word " ") with false. cbn iota. change (" " =? " ")%char with true. cbn iota. destruct (lex t (LWord "")); [|reflexivity]. cbn. rewrite flush_app by exact N. reflexivity. Qed.
Lemma lex_comma w t : word w -> lex (w ++ ", " ++ t) (LWord "") = option_map (fun l => TWord w :: TSym "," :: l) (lex t (LWord "")).
Proof.
  intros (H & N). rewrite lex_word by exact H. cbn [String.append lex]. change (is_word ",") with false. change (is_word " ") with false. cbn iota.
  change ("," =? " ")%char with false. change ("," =? ";")%char with false. change ("," =? """")%char with false. change (" " =? " ")%char with true. cbn iota. destruct (lex t (LWord "")); [|reflexivity]. cbn. rewrite flush_app by exact N. reflexivity.
Qed.
Lemma lex_comment w t : word w -> lex (w ++ " ; " ++ t) (LWord "") = Some [TWord w].
Proof.
  intros (H & N). rewrite lex_word by exact H. cbn [String.append lex]. change (is_word " ") with false. change (is_word ";") with false. cbn iota. change (" " =? " ")%char with true. change (";" =? " ")%char with false. change (";" =? ";")%char with true. cbn.
  rewrite flush_app by exact N. reflexivity.
Qed.

(** * Numbers *)
Lemma hex_digit_word n : 0 <= n < 16 -> is_word (hex_digit n) = true /\ digit_value (hex_digit n) = Some n /\ (hex_digit n =? "_")%char = false.
Proof.
  intros H. assert (E : n = 0 \/ n = 1 \/ n = 2 \/ n = 3 \/ n = 4 \/ n = 5 \/ n = 6 \/ n = 7 \/ n = 8 \/ n = 9 \/ n = 10 \/ n = 11 \/ n = 12 \/ n = 13 \/ n = 14 \/ n = 15) by lia.
  repeat destruct E as [->|E]; try subst n; vm_compute; auto.
Qed.
Lemma digits_word fuel : forall n tail, 0 <= n -> all_chars is_word tail = true -> all_chars is_word (digits 16 fuel n tail) = true.
Proof.
  induction fuel as [|f IH]; intros n tail Hn H; cbn [digits]; [exact H|].
  destruct (Z.ltb_spec n 16); [cbn [all_chars]; rewrite (proj1 (hex_digit_word n ltac:(lia))); exact H|].
  apply IH; [lia|]. cbn [all_chars]. rewrite (proj1 (hex_digit_word (n mod 16) ltac:(lia))). exact H.
Qed.
(** The number a string of digits continues. *)
Lemma digits_parse fuel : forall n tail, (0 < fuel)%nat -> 0 <= n < 16 ^ Z.of_nat fuel -> exists k, 0 <= k /\ forall acc, parse_digits 16 (digits 16 fuel n tail) acc = parse_digits 16 tail (acc * 16 ^ k + n).
Proof.
  induction fuel as [|f IH]; intros n tail Hf H; [lia|]. cbn [digits]. destruct (Z.ltb_spec n 16) as [L|L].
  - exists 1. split; [lia|]. intros acc. cbn [parse_digits]. destruct (hex_digit_word n ltac:(lia)) as (_ & -> & ->). rewrite (proj2 (Z.ltb_lt n 16) L). f_equal; lia.
  - rewrite Nat2Z.inj_succ, Z.pow_succ_r in H by lia. destruct f as [|f]; [cbn in H; lia|].
    destruct (IH (n / 16) (String (hex_digit (n mod 16)) tail) ltac:(lia) ltac:(lia)) as (k & Hk & E). exists (k + 1). split; [lia|]. intros acc. rewrite E. cbn [parse_digits].
    destruct (hex_digit_word (n mod 16) ltac:(lia)) as (_ & -> & ->). assert (n mod 16 < 16) as B by lia. rewrite (proj2 (Z.ltb_lt (n mod 16) 16) B). f_equal. rewrite Z.pow_add_r by lia. change (16 ^ 1) with 16. set (p := 16 ^ k). lia.
Qed.
Lemma pad_parse k : forall s acc, acc = 0 -> parse_digits 16 (pad k s) acc = parse_digits 16 s acc.
Proof. induction k; intros s acc ->; [reflexivity|]. cbn [pad parse_digits]. apply IHk. reflexivity. Qed.
Lemma pad_word k s : all_chars is_word s = true -> all_chars is_word (pad k s) = true.
Proof. induction k; intros H; cbn [pad all_chars]; [exact H|]. rewrite IHk by exact H. reflexivity. Qed.
Lemma digits_nonempty fuel : forall n tail, (0 < fuel)%nat -> digits 16 fuel n tail <> "".
Proof.
  induction fuel as [|f IH]; intros n tail H; [lia|]. cbn [digits]. destruct (n <? 16); [discriminate|]. destruct f; [discriminate|]. apply IH. lia.
Qed.
Lemma number_spec w n : 0 <= n < 2 ^ 64 -> all_chars is_word (number 16 w n) = true /\ parse_digits 16 (number 16 w n) 0 = Some n /\ number 16 w n <> "".
Proof.
  intros H. unfold number. cbv zeta. set (d := digits 16 64 n "").
  assert (D : d <> "") by (apply digits_nonempty; lia).
  split; [apply pad_word, digits_word; [lia|reflexivity]|]. split.
  - rewrite pad_parse by reflexivity. assert (n < 16 ^ Z.of_nat 64) as B by (change (16 ^ Z.of_nat 64) with (2 ^ 256); lia).
    destruct (digits_parse 64 n "" ltac:(lia) ltac:(lia)) as (k & _ & E). unfold d. rewrite E. cbn [parse_digits]. f_equal; lia.
  - destruct (w - String.length d)%nat; [exact D|discriminate].
Qed.
Definition hexes (s : string) (n : Z) : Prop := word s /\ starts_with_digit s = true /\ parse_number s = Some n.
Lemma hexed w n : 0 <= n < 2 ^ 64 -> hexes ("0x" ++ number 16 w n) n.
Proof.
  intros H. destruct (number_spec w n H) as (A & B & C). split; [split; [exact A|discriminate]|]. split; [reflexivity|].
  cbn [String.append parse_number]. destruct (number 16 w n); [congruence|]. exact B.
Qed.
Lemma fmt_hex_spec n : 0 <= n < 2 ^ 64 -> hexes (fmt_hex n) n.
Proof. apply hexed. Qed.
Lemma fmt_hex4_spec n : 0 <= n < 2 ^ 64 -> hexes (fmt_hex4 n) n.
Proof. apply hexed. Qed.
Lemma operand_hex s n : hexes s n -> parse_operand [TWord s] = ONum n.
Proof. intros (_ & A & B). cbn. rewrite A, B. reflexivity. Qed.
Lemma operand_neg s n : hexes s n -> parse_operand [TSym "-"; TWord s] = ONum (- n).
Proof. intros (_ & A & B). cbn. rewrite B. reflexivity. Qed.

(** * Names *)
Lemma reg_word r : word (reg_name r).
Proof. destruct r; (split; [reflexivity|discriminate]). Qed.
Lemma reg_operand r : parse_operand [TWord (reg_name r)] = OName (reg_name r).
Proof. destruct r; reflexivity. Qed.
Lemma named_reg r : named table_reg (OName (reg_name r)) = Some (reg_code r).
Proof. destruct r; reflexivity. Qed.
Lemma named_other r : named table_arflag (OName (reg_name r)) = None /\ named table_div_mode (OName (reg_name r)) = None /\ named table_hw_info (OName (reg_name r)) = None /\ named table_if2_mode (OName (reg_name r)) = None.
Proof. destruct r; repeat split; reflexivity. Qed.
Lemma named_f r : named table_arflag (OName (reg_name r)) = None. Proof. apply named_other. Qed.
Lemma named_d r : named table_div_mode (OName (reg_name r)) = None. Proof. apply named_other. Qed.
Lemma named_h r : named table_hw_info (OName (reg_name r)) = None. Proof. apply named_other. Qed.
Lemma named_i r : named table_if2_mode (OName (reg_name r)) = None. Proof. apply named_other. Qed.
Lemma named_num t n : named t (ONum n) = None. Proof. reflexivity. Qed.
Lemma named_bad t : named t OOther = None. Proof. reflexivity. Qed.
Lemma integer_name s lo hi : integer [] (OName s) lo hi = None. Proof. reflexivity. Qed.
Lemma integer_num n lo hi : integer [] (ONum n) lo hi = range lo hi n. Proof. reflexivity. Qed.
Lemma integer_bad lo hi : integer [] OOther lo hi = None. Proof. reflexivity. Qed.
Lemma range_ok lo hi n : lo <= n < hi -> range lo hi n = Some n.
Proof. intros H. unfold range. destruct (Z.leb_spec lo n), (Z.ltb_spec n hi); try lia. reflexivity. Qed.
Lemma flag_word f : word (ar_flag_short_name f). Proof. destruct f; (split; [reflexivity|discriminate]). Qed.
Lemma flag_operand f : parse_operand [TWord (ar_flag_short_name f)] = OName (ar_flag_short_name f). Proof. destruct f; reflexivity. Qed.
Lemma flag_flag f : named table_arflag (OName (ar_flag_short_name f)) = Some (ar_flag_code f). Proof. destruct f; reflexivity. Qed.
Lemma flag_reg f : named table_reg (OName (ar_flag_short_name f)) = None. Proof. destruct f; reflexivity. Qed.
Lemma info_word f : word (hw_info_to_lasm f). Proof. destruct f; (split; [reflexivity|discriminate]). Qed.
Lemma info_operand f : parse_operand [TWord (hw_info_to_lasm f)] = OName (hw_info_to_lasm f). Proof. destruct f; reflexivity. Qed.
Lemma info_info f : named table_hw_info (OName (hw_info_to_lasm f)) = Some (hw_info_to_code f). Proof. destruct f; reflexivity. Qed.
Lemma info_reg f : named table_reg (OName (hw_info_to_lasm f)) = None. Proof. destruct f; reflexivity. Qed.

(** * Lines *)
Definition no_nl (s : string) : bool := all_chars (fun c => negb (c =? ascii_of_nat 10)%char) s.
Lemma no_nl_app a b : no_nl (a ++ b) = no_nl a && no_nl b. Proof. apply all_app. Qed.
Lemma word_no_nl w : all_chars is_word w = true -> no_nl w = true.
Proof.
  induction w as [|c w IH]; intros H; [reflexivity|]. cbn [all_chars] in H. apply andb_prop in H. destruct H as (H & H2). change (negb (c =? ascii_of_nat 10)%char && no_nl w = true). rewrite (IH H2).
  destruct (Ascii.eqb_spec c (ascii_of_nat 10)) as [->|]; [discriminate|reflexivity].
Qed.
Lemma split_one s : forall acc, no_nl s = true -> split_lines s acc = [acc ++ s].
Proof.
  induction s as [|c s IH]; intros acc H; cbn [split_lines]; [rewrite append_nil; reflexivity|]. unfold no_nl in H; cbn [all_chars] in H; fold (no_nl s) in H. apply andb_prop in H. destruct H as (H & H2).
  apply negb_true_iff in H. change ((if (c =? ascii_of_nat 10)%char then acc :: split_lines s "" else split_lines s (acc ++ String c "")) = [acc ++ String c s]). rewrite H.
  rewrite IH by exact H2. rewrite append_assoc. reflexivity.
Qed.
Lemma split_more s rest : forall acc, no_nl s = true -> split_lines (s ++ newline ++ rest) acc = (acc ++ s) :: split_lines rest "".
Proof.
  induction s as [|c s IH]; intros acc H; [rewrite append_nil; reflexivity|]. unfold no_nl in H; cbn [all_chars] in H; fold (no_nl s) in H. apply andb_prop in H. destruct H as (H & H2).
  apply negb_true_iff in H. change ((if (c =? ascii_of_nat 10)%char then acc :: split_lines (s ++ newline ++ rest) "" else split_lines (s ++ newline ++ rest) (acc ++ String c "")) = (acc ++ String c s) :: split_lines rest ""). rewrite H.
  rewrite IH by exact H2. rewrite append_assoc. reflexivity.
Qed.
Lemma parse0 name : word name -> parse_line name = Some [IInstr name []].
Proof. intros H. unfold parse_line. rewrite lex_last by exact H. reflexivity. Qed.
Lemma parse1 name a : word name -> word a -> parse_line (name ++ " " ++ a) = Some [IInstr name [parse_operand [TWord a]]].
Proof. intros H A. unfold parse_line. rewrite lex_space, lex_last by assumption. reflexivity. Qed.
Lemma parse1c name a t : word name -> word a -> parse_line (name ++ " " ++ a ++ " ; " ++ t) = Some [IInstr name [parse_operand [TWord a]]].
Proof. intros H A. unfold parse_line. rewrite lex_space, lex_comment by assumption. reflexivity. Qed.
Lemma parse2 name a b : word name -> word a -> word b -> parse_line (name ++ " " ++ a ++ ", " ++ b) = Some [IInstr name [parse_operand [TWord a]; parse_operand [TWord b]]].
Proof. intros H A B. unfold parse_line. rewrite lex_space, lex_comma, lex_last by assumption. reflexivity. Qed.
Lemma parse2c name a b t : word name -> word a -> word b -> parse_line (name ++ " " ++ a ++ ", " ++ b ++ " ; " ++ t) = Some [IInstr name [parse_operand [TWord a]; parse_operand [TWord b]]].
Proof. intros H A B. unfold parse_line. rewrite lex_space, lex_comma, lex_comment by assumption. reflexivity. Qed.
Lemma parse3 name a b c : word name -> word a -> word b -> word c -> parse_line (name ++ " " ++ a ++ ", " ++ b ++ ", " ++ c) = Some [IInstr name [parse_operand [TWord a]; parse_operand [TWord b]; parse_operand [TWord c]]].
Proof. intros H A B C. unfold parse_line. rewrite lex_space, lex_comma, lex_comma, lex_last by assumption. reflexivity. Qed.
Lemma parse3c name a b c t : word name -> word a -> word b -> word c -> parse_line (name ++ " " ++ a ++ ", " ++ b ++ ", " ++ c ++ " ; " ++ t) = Some [IInstr name [parse_operand [TWord a]; parse_operand [TWord b]; parse_operand [TWord c]]].
Proof. intros H A B C. unfold parse_line. rewrite lex_space, lex_comma, lex_comma, lex_comment by assumption. reflexivity. Qed.
(** The last operand is made of several tokens. *)
Lemma parse3t name a b t ts : word name -> word a -> word b -> lex t (LWord "") = Some ts -> (forall x, In x ts -> x <> TSym ",") ->
  parse_line (name ++ " " ++ a ++ ", " ++ b ++ ", " ++ t) = Some [IInstr name [parse_operand [TWord a]; parse_operand [TWord b]; parse_operand ts]].
Proof.
  intros H A B C D. unfold parse_line. rewrite lex_space, lex_comma, lex_comma, C by assumption. cbn [option_map].
  assert (X : forall l cur, (forall x, In x l -> x <> TSym ",") -> split_commas l cur = [(cur ++ l)%list]).
  { induction l as [|x l IH]; intros cur HX; cbn [split_commas]; [rewrite app_nil_r; reflexivity|]. pose proof (HX x (or_introl eq_refl)). assert (HL : forall y, In y l -> y <> TSym ",") by (intros; apply HX; right; assumption).
    destruct x as [| |c]; try (rewrite IH by exact HL; rewrite <- app_assoc; reflexivity). destruct (Ascii.eqb_spec c ","); [congruence|]. rewrite IH by exact HL. rewrite <- app_assoc; reflexivity. }
  cbn [split_commas List.app]. change ("," =? ",")%char with true. cbn iota. rewrite X by exact D. reflexivity.
Qed.
Lemma parse1neg name a : word name -> word a -> parse_line (name ++ " " ++ "-" ++ a) = Some [IInstr name [parse_operand [TSym "-"; TWord a]]].
Proof.
  intros H A. unfold parse_line. rewrite lex_space by assumption. assert (lex ("-" ++ a) (LWord "") = Some [TSym "-"; TWord a]) as ->; [|reflexivity].
  cbn [String.append lex]. change (is_word "-") with false. cbn iota. change ("-" =? " ")%char with false. change ("-" =? ";")%char with false. change ("-" =? """")%char with false. cbn iota. rewrite lex_last by exact A. reflexivity.
Qed.

(** * Rules *)
Definition try_rule (os : list operand) (r : rule) : list (list Z) :=
  match match_operands [] (ru_operands r) os with
  | Some vs => match eval_bytes vs (ru_bytes r) with Some bs => [bs] | None => [] end
  | None => []
  end.
Lemma matches_filter m os : all_matches [] m os = flat_map (try_rule os) (filter (fun r => String.eqb (ru_mnemonic r) m) rules).
Proof.
  unfold all_matches. induction rules as [|r l IH]; [reflexivity|]. cbn [flat_map filter]. rewrite IH. unfold apply_rule, try_rule. destruct (String.eqb (ru_mnemonic r) m); reflexivity.
Qed.
(** Line [t] is an item without label whose bytes are [r]. *)
Definition assembles (t : string) (r : option (list Z)) : Prop :=
  no_nl t = true /\ exists it, parse_line t = Some [it] /\
  match it with ILabel _ => False | IInstr m os => assemble_instr [] m os = r | IData bs => r = Some bs end.
Lemma assembles_instr t m os r : no_nl t = true -> parse_line t = Some [IInstr m os] ->
  match flat_map (try_rule os) (filter (fun r => String.eqb (ru_mnemonic r) m) rules) with [bs] => Some bs | _ => None end = r -> assembles t r.
Proof. intros H P E. split; [exact H|]. exists (IInstr m os). split; [exact P|]. unfold assemble_instr. rewrite matches_filter. exact E. Qed.

(** * Instructions, line by line *)
Definition comes_back (t : string) (r : option instr) : Prop :=
  match r with Some j => exists bs, assembles t (Some (list_of_bytes bs)) /\ runs_as bs j | None => assembles t None end.
Lemma nl_reg r : no_nl (reg_name r) = true. Proof. apply word_no_nl, reg_word. Qed.
Lemma nl_flag f : no_nl (ar_flag_short_name f) = true. Proof. apply word_no_nl, flag_word. Qed.
Lemma nl_info f : no_nl (hw_info_to_lasm f) = true. Proof. apply word_no_nl, info_word. Qed.
Lemma nl_hex n : 0 <= n < 2 ^ 64 -> no_nl (fmt_hex n) = true. Proof. intros H. apply word_no_nl. apply (fmt_hex_spec n H). Qed.
Lemma nl_hex4 n : 0 <= n < 2 ^ 64 -> no_nl (fmt_hex4 n) = true. Proof. intros H. apply word_no_nl. apply (fmt_hex4_spec n H). Qed.
Lemma hex_word n : 0 <= n < 2 ^ 64 -> word (fmt_hex n). Proof. intros H. apply (fmt_hex_spec n H). Qed.
Lemma hex4_word n : 0 <= n < 2 ^ 64 -> word (fmt_hex4 n). Proof. intros H. apply (fmt_hex4_spec n H). Qed.
Lemma hex_operand n : 0 <= n < 2 ^ 64 -> parse_operand [TWord (fmt_hex n)] = ONum n. Proof. intros H. apply operand_hex, (fmt_hex_spec n H). Qed.
Lemma hex4_operand n : 0 <= n < 2 ^ 64 -> parse_operand [TWord (fmt_hex4 n)] = ONum n. Proof. intros H. apply operand_hex, (fmt_hex4_spec n H). Qed.
Lemma hex_neg n : 0 <= n < 2 ^ 64 -> parse_operand [TSym "-"; TWord (fmt_hex n)] = ONum (- n). Proof. intros H. apply operand_neg, (fmt_hex_spec n H). Qed.

Ltac side := unfold is_u16, is_u8 in *; lia.
Ltac nl := rewrite ?no_nl_app, ?nl_reg, ?nl_flag, ?nl_info; repeat (first [rewrite nl_hex by side | rewrite nl_hex4 by side]); reflexivity.
Ltac wd := lazymatch goal with
  | |- word (reg_name _) => apply reg_word | |- word (ar_flag_short_name _) => apply flag_word | |- word (hw_info_to_lasm _) => apply info_word
  | |- word (fmt_hex _) => apply hex_word; side | |- word (fmt_hex4 _) => apply hex4_word; side
  | |- word (String _ _) => split; [reflexivity|discriminate] | |- _ => fail end.
Ltac ops := rewrite ?reg_operand, ?flag_operand, ?info_operand; repeat (first [rewrite hex_operand by side | rewrite hex4_operand by side | rewrite hex_neg by side]).
Ltac rls :=
  match goal with |- context [filter (fun r => String.eqb (ru_mnemonic r) ?m) rules] =>
    let l := eval vm_compute in (filter (fun r => String.eqb (ru_mnemonic r) m) rules) in
    let H := fresh in assert (H : filter (fun r => String.eqb (ru_mnemonic r) m) rules = l) by (vm_compute; reflexivity); rewrite H; clear H end;
  cbn [flat_map try_rule match_operands match_operand ru_operands ru_bytes];
  unfold try_rule; cbn [ru_operands ru_bytes match_operands match_operand];
  repeat (rewrite ?named_reg, ?named_f, ?named_d, ?named_h, ?named_i, ?flag_flag, ?flag_reg, ?info_info, ?info_reg, ?named_num, ?named_bad, ?integer_name, ?integer_num, ?integer_bad;
          repeat (rewrite range_ok by side); cbn [eval_bytes eval_byte nth_error option_map List.app]; cbn iota beta).
Ltac line := lazymatch goal with
  | |- parse_line (_ ++ " " ++ "-" ++ _) = _ => eapply parse1neg; wd
  | |- parse_line (_ ++ " " ++ _ ++ ", " ++ _ ++ ", " ++ _ ++ " ; " ++ _) = _ => eapply parse3c; wd
  | |- parse_line (_ ++ " " ++ _ ++ ", " ++ _ ++ ", " ++ _ ++ String " " (String ";" (String " " _))) = _ => eapply parse3c; wd
  | |- parse_line (_ ++ " " ++ _ ++ ", " ++ _ ++ ", " ++ _) = _ => eapply parse3; wd
  | |- parse_line (_ ++ " " ++ _ ++ ", " ++ _ ++ " ; " ++ _) = _ => eapply parse2c; wd
  | |- parse_line (_ ++ " " ++ _ ++ ", " ++ _) = _ => eapply parse2; wd
  | |- parse_line (_ ++ " " ++ _ ++ String " " (String ";" (String " " _))) = _ => eapply parse1c; wd
  | |- parse_line (_ ++ " " ++ _) = _ => eapply parse1; wd
  | |- _ => eapply parse0; wd end.
Ltac asm_ok := eapply assembles_instr; [nl | line | ops; rls].
Lemma flag_codes f : u8 (ar_flag_code f) = ar_flag_code f /\ is_u8 (ar_flag_code f). Proof. destruct f; split; try reflexivity; unfold is_u8; cbn; lia. Qed.
Lemma flag_u8 f : u8 (ar_flag_code f) = ar_flag_code f. Proof. apply flag_codes. Qed.
Lemma info_codes f : u8 (hw_info_to_code f) = hw_info_to_code f /\ is_u8 (hw_info_to_code f). Proof. destruct f; split; try reflexivity; unfold is_u8; cbn; lia. Qed.
Lemma info_u8 f : u8 (hw_info_to_code f) = hw_info_to_code f. Proof. apply info_codes. Qed.
Lemma neg_bytes n : 32768 <= n < 65536 -> u8 (- (65536 - n) / 256) = u8 (n / 256) /\ u8 (- (65536 - n)) = u8 n.
Proof. unfold u8. intros. lia. Qed.
Ltac dec_ok := cbv -[reg_code reg_from_code u8 of_be2 Z.div is_u8 is_u16 ar_flag_code hw_info_to_code];
  rewrite ?u8_reg, ?u8_reg_high, ?flag_u8, ?info_u8; rewrite ?be2_lit by assumption; rewrite ?u8_lit by assumption; rewrite ?reg_from_code_code; try reflexivity.
Lemma u8_bytes x : is_u8 (u8 x). Proof. unfold is_u8, u8; lia. Qed.
Ltac known_byte := repeat match goal with |- context [u8 (Zpos ?p)] => let v := eval vm_compute in (u8 (Zpos p)) in change (u8 (Zpos p)) with v | |- context [u8 Z0] => change (u8 Z0) with Z0 end.
Ltac runs_ok := known_byte; split; [cbn [bytes_wf]; split; [first [apply u8_bytes | side]|split; [first [apply u8_bytes | side]|split; first [apply u8_bytes | side]]]|split; [dec_ok|cbv beta iota zeta delta [assembled encode encode_parts value1 value2 is_reg1 is_reg2 be_bytes8 be_bytes16 List.app nth];
   rewrite ?u8_reg, ?u8_reg_high, ?flag_u8, ?info_u8; rewrite ?u8_lit by assumption; reflexivity ]].
Ltac back := cbn [comes_back]; eexists (_, _, _, _); split; [asm_ok; reflexivity | runs_ok].
Ltac gone := cbn [comes_back]; asm_ok; reflexivity.

(** The cases of a literal. *)
Lemma cpy_view oc a b : a <> R_pc -> to_lasm oc (Cpy a b) = match b with Lit2 n => if n =? 0 then Ret ("zro" ++ " " ++ reg_name a) else Ret ("cpy" ++ " " ++ reg_name a ++ ", " ++ fmt_hex n) | Reg2 r => Ret ("cpy" ++ " " ++ reg_name a ++ ", " ++ reg_name r) end
  /\ reassembled (Cpy a b) = match b with Lit2 n => if n =? 0 then Some (Xor a (Reg2 a)) else Some (Cpy a b) | Reg2 r => Some (Cpy a b) end.
Proof. intros H. destruct b as [|[|p|p]]; destruct a; try congruence; split; reflexivity. Qed.
Lemma mul_view oc a n : to_lasm oc (Mul a (Lit2 n)) = (if n =? 0 then Ret ("zro" ++ " " ++ reg_name a) else Ret ("mul" ++ " " ++ reg_name a ++ ", " ++ fmt_hex n))
  /\ reassembled (Mul a (Lit2 n)) = if n =? 0 then Some (Xor a (Reg2 a)) else Some (Mul a (Lit2 n)).
Proof. destruct n; split; reflexivity. Qed.
Lemma and_view oc a n : to_lasm oc (And a (Lit2 n)) = (if n =? 0 then Ret ("zro" ++ " " ++ reg_name a) else Ret ("and" ++ " " ++ reg_name a ++ ", " ++ fmt_hex n))
  /\ reassembled (And a (Lit2 n)) = if n =? 0 then Some (Xor a (Reg2 a)) else Some (And a (Lit2 n)).
Proof. destruct n; split; reflexivity. Qed.
Lemma add_view oc a n : to_lasm oc (Add a (Lit2 n)) = (if n =? 1 then Ret ("inc" ++ " " ++ reg_name a) else Ret ("add" ++ " " ++ reg_name a ++ ", " ++ fmt_hex n)).
Proof. destruct n as [|[]|]; reflexivity. Qed.
Lemma sub_view oc a n : to_lasm oc (Sub a (Lit2 n)) = (if n =? 1 then Ret ("dec" ++ " " ++ reg_name a) else Ret ("sub" ++ " " ++ reg_name a ++ ", " ++ fmt_hex n)).
Proof. destruct n as [|[]|]; reflexivity. Qed.
Lemma pop_view oc a : to_lasm oc (Pop a) = if reg_eq_dec a R_pc then Ret "ret" else Ret ("pop" ++ " " ++ reg_name a).
Proof. destruct a; reflexivity. Qed.
Lemma flag_view n : is_u8 n -> (exists f, ar_flag_decode n = Some f /\ n = ar_flag_code f /\ (n <=? 6) = true) \/ (ar_flag_decode n = None /\ (n <=? 6) = false).
Proof.
  intros H. destruct (Z.leb_spec n 6) as [L|L].
  - left. assert (E : n = 0 \/ n = 1 \/ n = 2 \/ n = 3 \/ n = 4 \/ n = 5 \/ n = 6) by side. repeat destruct E as [->|E]; try subst n; cbn; eauto.
  - right. split; [|reflexivity]. unfold is_u8 in H. destruct n as [|p|]; try lia. do 3 (destruct p as [p|p|]; try reflexivity; try lia).
Qed.
Lemma cond_view n : is_u8 n -> (exists f, if2_cond_decode n = Some f /\ n = if2_cond_code f /\ ((1 <=? n) && (n <=? 7)) = true) \/ (if2_cond_decode n = None /\ ((1 <=? n) && (n <=? 7)) = false).
Proof.
  intros H. destruct (Z.leb_spec 1 n) as [L|L]; [destruct (Z.leb_spec n 7) as [L2|L2]|].
  - left. assert (E : n = 1 \/ n = 2 \/ n = 3 \/ n = 4 \/ n = 5 \/ n = 6 \/ n = 7) by side. repeat destruct E as [->|E]; try subst n; cbn; eauto.
  - right. split; [|reflexivity]. unfold is_u8 in H. destruct n as [|p|]; try lia. do 3 (destruct p as [p|p|]; try reflexivity; try lia).
  - right. split; [|reflexivity]. unfold is_u8 in H. destruct n as [|p|]; try lia. reflexivity.
Qed.
Definition zcheck (f : Z -> bool) : bool := forallb (fun k => f (Z.of_nat k)) (seq 0 256).
Lemma zcheck_all f : zcheck f = true -> forall n, is_u8 n -> f n = true.
Proof.
  unfold zcheck. intros H n Hn. rewrite forallb_forall in H. specialize (H (Z.to_nat n)). rewrite Z2Nat.id in H by side. apply H. apply in_seq. side.
Qed.
Lemma info_view n : is_u8 n -> (exists f, hw_info_decode n = Some f /\ n = hw_info_to_code f /\ is_info (Lit1 n) = true) \/ (hw_info_decode n = None /\ is_info (Lit1 n) = false).
Proof.
  assert (X : zcheck (fun n => match hw_info_decode n with Some f => (n =? hw_info_to_code f) && is_info (Lit1 n) | None => negb (is_info (Lit1 n)) end) = true) by (vm_compute; reflexivity).
  intros H. apply (zcheck_all _ X) in H. cbv beta in H. destruct (hw_info_decode n) as [f|]; [left; exists f|right]; [apply andb_prop in H; destruct H as (A & B); apply Z.eqb_eq in A; auto|]. apply negb_true_iff in H. auto.
Qed.
(** Division modes. *)
Definition is_comma (t : token) : bool := match t with TSym c => (c =? ",")%char | _ => false end.
Definition opt_eqb (a b : option Z) : bool := match a, b with Some x, Some y => x =? y | None, None => true | _, _ => false end.
Lemma mode_view n : is_u8 n -> exists m ts, div_mode_decode n = Some m /\ no_nl (div_mode_lasm m) = true /\ lex (div_mode_lasm m) (LWord "") = Some ts /\ (forall x, In x ts -> x <> TSym ",") /\
  named table_reg (parse_operand ts) = None /\ named table_div_mode (parse_operand ts) = mode_back n.
Proof.
  assert (X : zcheck (fun n => match div_mode_decode n with
    | Some m => match lex (div_mode_lasm m) (LWord "") with
                | Some ts => no_nl (div_mode_lasm m) && forallb (fun t => negb (is_comma t)) ts && opt_eqb (named table_reg (parse_operand ts)) None && opt_eqb (named table_div_mode (parse_operand ts)) (mode_back n)
                | None => false end
    | None => false end) = true) by (vm_compute; reflexivity).
  intros H. apply (zcheck_all _ X) in H. cbv beta in H. destruct (div_mode_decode n) as [m|]; [|discriminate]. destruct (lex (div_mode_lasm m) (LWord "")) as [ts|] eqn:L; [|discriminate].
  apply andb_prop in H. destruct H as (H & H4). apply andb_prop in H. destruct H as (H & H3). apply andb_prop in H. destruct H as (H1 & H2). exists m, ts. split; [reflexivity|]. split; [exact H1|]. split; [exact L|].
  split; [intros x Hx ->; rewrite forallb_forall in H2; apply H2 in Hx; discriminate|]. split; [destruct (named table_reg (parse_operand ts)); [discriminate|reflexivity]|].
  destruct (named table_div_mode (parse_operand ts)), (mode_back n); cbn in H4; try discriminate; try reflexivity. apply Z.eqb_eq in H4. congruence.
Qed.
Lemma mode_back_u8 n k : mode_back n = Some k -> is_u8 k.
Proof.
  unfold mode_back. assert (Z : forall x, x = 0 \/ x = 1 \/ x = 2 \/ x = 3 \/ True) by auto. clear Z.
  destruct (Z.testbit n 4); [destruct (n / 4 mod 4); [|discriminate|discriminate]; destruct (n mod 4); try discriminate; intros E; injection E as <-; side|].
  destruct (n / 4 mod 4) as [|[[]|[]|]|]; try discriminate; destruct (n mod 4) as [|[[]|[]|]|]; try discriminate; intros E; injection E as <-; side.
Qed.

Lemma ret_eq {A} (a b : A) : Ret a = Ret b -> b = a. Proof. congruence. Qed.
Ltac text E := cbv beta iota zeta delta [to_lasm lasm2 lasm1 lasm1_with] in E; apply ret_eq in E; subst; cbn [reassembled].
Ltac text2 E := apply ret_eq in E; subst.
Lemma back_cpy oc a b t : rl2_wf b -> to_lasm oc (Cpy a b) = Ret t -> comes_back t (reassembled (Cpy a b)).
Proof.
  intros W E. destruct (reg_eq_dec a R_pc) as [->|N].
  - destruct b; cbn [rl2_wf] in W; text E; back.
  - destruct (cpy_view oc a b N) as (V1 & V2). rewrite V1 in E. rewrite V2. destruct b as [r|n]; cbn [rl2_wf] in W; [text2 E; back|]. destruct (n =? 0); text2 E; back.
Qed.
Lemma back_simple oc i t : instr_wf i -> to_lasm oc i = Ret t ->
  match i with Ex _ _ | Add _ _ | Sub _ _ | Mul _ _ | And _ _ | Bor _ _ | Xor _ _ | Shl _ _ | Shr _ _ | Cmp _ _ => True | _ => False end -> comes_back t (reassembled i).
Proof.
  intros W E K. destruct i; try contradiction; clear K; cbn [instr_wf] in W.
  - text E; back.
  - destruct b as [r|n]; cbn [rl2_wf] in W; [text E; back|]. rewrite add_view in E. destruct (Z.eqb_spec n 1) as [->|]; text2 E; cbn [reassembled]; back.
  - destruct b as [r|n]; cbn [rl2_wf] in W; [text E; back|]. rewrite sub_view in E. destruct (Z.eqb_spec n 1) as [->|]; text2 E; cbn [reassembled]; back.
  - destruct b as [r|n]; cbn [rl2_wf] in W; [text E; back|]. destruct (mul_view oc a n) as (V1 & V2). rewrite V1 in E. rewrite V2. destruct (Z.eqb_spec n 0) as [->|]; text2 E; back.
  - destruct b as [r|n]; cbn [rl2_wf] in W; [text E; back|]. destruct (and_view oc a n) as (V1 & V2). rewrite V1 in E. rewrite V2. destruct (Z.eqb_spec n 0) as [->|]; text2 E; back.
  - destruct b as [r|n]; cbn [rl2_wf] in W; text E; back.
  - destruct b as [r|n]; cbn [rl2_wf] in W; text E; back.
  - destruct b as [r|n]; cbn [rl1_wf] in W; text E; back.
  - destruct b as [r|n]; cbn [rl1_wf] in W; text E; back.
  - destruct b as [r|n]; cbn [rl2_wf] in W; text E; back.
Qed.
Ltac bback := cbn [comes_back]; eexists (_, _, _, _); split; [asm_ok; reflexivity|].
Lemma back_jpr oc v t : rl2_wf v -> to_lasm oc (Jpr v) = Ret t -> comes_back t (reassembled (Jpr v)).
Proof.
  intros W E. destruct v as [r|n]; cbn [rl2_wf] in W.
  - text E. back.
  - cbv beta iota zeta delta [to_lasm lasm2_signed obind] in E. destruct (Z.ltb_spec n 32768) as [L|L]; [text2 E; cbn [reassembled]; back|].
    assert (X : t = "jpr" ++ " " ++ "-" ++ fmt_hex (65536 - n)).
    { destruct (Z.eqb_spec n 32768) as [->|]; [destruct oc; [discriminate|]|]; text2 E; reflexivity. }
    clear E. subst t. cbn [reassembled]. destruct (neg_bytes n ltac:(side)) as (N1 & N2).
    cbn [comes_back]. exists (112, u8 (n / 256), u8 n, 0). split; [|runs_ok].
    eapply assembles_instr; [rewrite ?no_nl_app; rewrite nl_hex by side; reflexivity | apply parse1neg; [wd|apply hex_word; side] |].
    rewrite hex_neg by side. rls. rewrite N1, N2. reflexivity.
Qed.
Lemma back_one oc i t : instr_wf i -> to_lasm oc i = Ret t ->
  match i with Lsm _ | Itr _ | Push _ | Pop _ | Call _ | Cycles _ | Halt | Reset _ => True | _ => False end -> comes_back t (reassembled i).
Proof.
  intros W E K. destruct i; try contradiction; clear K; cbn [instr_wf] in W.
  - destruct a as [r|n]; cbn [rl2_wf] in W; text E; back.
  - destruct a as [r|n]; cbn [rl1_wf] in W; text E; gone.
  - destruct a as [r|n]; cbn [rl2_wf] in W; text E; back.
  - rewrite pop_view in E. cbn [reassembled]. destruct (reg_eq_dec a R_pc) as [->|]; text2 E; back.
  - destruct a as [r|n]; cbn [rl2_wf] in W; text E; back.
  - text E; back.
  - text E; back.
  - destruct a as [r|n]; cbn [rl1_wf] in W; text E; back.
Qed.
Lemma back_mem oc i t : instr_wf i -> to_lasm oc i = Ret t ->
  match i with Lsa _ _ _ | Lea _ _ _ | Wsa _ _ _ | Wea _ _ _ | Srm _ _ _ => True | _ => False end -> comes_back t (reassembled i).
Proof.
  intros W E K. destruct i; try contradiction; clear K; cbn [instr_wf] in W.
  - destruct W as (W1 & W2). destruct b as [r|n], c as [s|k]; cbn [rl1_wf] in W1, W2; text E; back.
  - destruct W as (W1 & W2 & W3). destruct a as [r|n], b as [s|k], c as [u|l]; cbn [rl1_wf] in W1, W2, W3; text E; back.
  - destruct W as (W1 & W2 & W3). destruct a as [r|n], b as [s|k], c as [u|l]; cbn [rl1_wf] in W1, W2, W3; text E; back.
  - destruct W as (W1 & W2 & W3). destruct a as [r|n], b as [s|k], c as [u|l]; cbn [rl1_wf] in W1, W2, W3; text E; back.
  - destruct W as (W1 & W2). destruct a as [r|n], b as [s|k]; cbn [rl1_wf] in W1, W2; text E; back.
Qed.
Lemma back_div oc a b c t : instr_wf (Div a b c) -> to_lasm oc (Div a b c) = Ret t -> comes_back t (reassembled (Div a b c)).
Proof.
  intros (W1 & W2) E. destruct c as [s|k].
  - cbv beta iota zeta delta [to_lasm div_lasm lasm1 lasm1_with] in E. destruct b as [r|n]; cbn [rl1_wf] in W1; text2 E; cbn [reassembled]; back.
  - cbn [rl1_wf] in W2. destruct (mode_view k W2) as (m & ts & D & NL & LX & NC & TR & TD). cbv beta iota zeta delta [to_lasm div_lasm lasm1 lasm1_with] in E. rewrite D in E. cbn [reassembled].
    destruct (mode_back k) as [j|] eqn:B; cbn [option_map].
    + pose proof (mode_back_u8 _ _ B) as J. destruct b as [r|n]; cbn [rl1_wf] in W1; text2 E; cbn [comes_back]; eexists (_, _, _, _); (split; [|]).
      * eapply assembles_instr; [rewrite ?no_nl_app, ?nl_reg, NL; reflexivity | eapply parse3t; [wd|wd|wd|exact LX|exact NC] | ops; rls; rewrite ?TR, ?TD; cbn [eval_bytes eval_byte nth_error option_map List.app]; reflexivity].
      * runs_ok.
      * eapply assembles_instr; [rewrite ?no_nl_app, ?nl_reg, NL; rewrite nl_hex by side; reflexivity | eapply parse3t; [wd|wd|wd|exact LX|exact NC] | ops; rls; rewrite ?TR, ?TD; cbn [eval_bytes eval_byte nth_error option_map List.app]; reflexivity].
      * runs_ok.
    + destruct b as [r|n]; cbn [rl1_wf] in W1; text2 E; cbn [comes_back].
      * eapply assembles_instr; [rewrite ?no_nl_app, ?nl_reg, NL; reflexivity | eapply parse3t; [wd|wd|wd|exact LX|exact NC] | ops; rls; rewrite ?TR, ?TD; reflexivity].
      * eapply assembles_instr; [rewrite ?no_nl_app, ?nl_reg, NL; rewrite nl_hex by side; reflexivity | eapply parse3t; [wd|wd|wd|exact LX|exact NC] | ops; rls; rewrite ?TR, ?TD; reflexivity].
Qed.
Lemma back_mod oc a b c t : instr_wf (Mod a b c) -> to_lasm oc (Mod a b c) = Ret t -> comes_back t (reassembled (Mod a b c)).
Proof.
  intros (W1 & W2) E. destruct c as [s|k].
  - cbv beta iota zeta delta [to_lasm div_lasm lasm1 lasm1_with] in E. destruct b as [r|n]; cbn [rl1_wf] in W1; text2 E; cbn [reassembled]; back.
  - cbn [rl1_wf] in W2. destruct (mode_view k W2) as (m & ts & D & NL & LX & NC & TR & TD). cbv beta iota zeta delta [to_lasm div_lasm lasm1 lasm1_with] in E. rewrite D in E. cbn [reassembled].
    destruct (mode_back k) as [j|] eqn:B; cbn [option_map].
    + pose proof (mode_back_u8 _ _ B) as J. destruct b as [r|n]; cbn [rl1_wf] in W1; text2 E; cbn [comes_back]; eexists (_, _, _, _); (split; [|]).
      * eapply assembles_instr; [rewrite ?no_nl_app, ?nl_reg, NL; reflexivity | eapply parse3t; [wd|wd|wd|exact LX|exact NC] | ops; rls; rewrite ?TR, ?TD; cbn [eval_bytes eval_byte nth_error option_map List.app]; reflexivity].
      * runs_ok.
      * eapply assembles_instr; [rewrite ?no_nl_app, ?nl_reg, NL; rewrite nl_hex by side; reflexivity | eapply parse3t; [wd|wd|wd|exact LX|exact NC] | ops; rls; rewrite ?TR, ?TD; cbn [eval_bytes eval_byte nth_error option_map List.app]; reflexivity].
      * runs_ok.
    + destruct b as [r|n]; cbn [rl1_wf] in W1; text2 E; cbn [comes_back].
      * eapply assembles_instr; [rewrite ?no_nl_app, ?nl_reg, NL; reflexivity | eapply parse3t; [wd|wd|wd|exact LX|exact NC] | ops; rls; rewrite ?TR, ?TD; reflexivity].
      * eapply assembles_instr; [rewrite ?no_nl_app, ?nl_reg, NL; rewrite nl_hex by side; reflexivity | eapply parse3t; [wd|wd|wd|exact LX|exact NC] | ops; rls; rewrite ?TR, ?TD; reflexivity].
Qed.
Lemma back_hwd oc a b c t : instr_wf (Hwd a b c) -> to_lasm oc (Hwd a b c) = Ret t -> comes_back t (reassembled (Hwd a b c)).
Proof.
  intros (W1 & W2) E. destruct c as [s|k].
  - destruct b as [r|n]; cbn [rl1_wf] in W1; text E; cbn [is_info]; back.
  - cbn [rl1_wf] in W2. cbv beta iota zeta delta [to_lasm lasm1 lasm1_with] in E. cbn [reassembled]. destruct (info_view k W2) as [(f & D & -> & I)|(D & I)]; rewrite D in E; rewrite I.
    + destruct b as [r|n]; cbn [rl1_wf] in W1; text2 E; back.
    + destruct b as [r|n]; cbn [rl1_wf] in W1; text2 E; gone.
Qed.
Lemma back_if oc v t : rl1_wf v -> to_lasm oc (If v) = Ret t -> comes_back t (reassembled (If v)).
Proof.
  intros W E. destruct v as [r|n]; cbn [rl1_wf] in W.
  - text E. cbn [is_flag]. cbv beta iota zeta delta [if_lasm]. back.
  - cbv beta iota zeta delta [to_lasm if_lasm] in E. cbn [reassembled is_flag]. destruct (flag_view n W) as [(f & D & -> & I)|(D & I)]; rewrite D in E; rewrite I.
    + destruct f; cbv iota in E; text2 E; back.
    + text2 E; gone.
Qed.
Lemma back_ifn oc v t : rl1_wf v -> to_lasm oc (IfN v) = Ret t -> comes_back t (reassembled (IfN v)).
Proof.
  intros W E. destruct v as [r|n]; cbn [rl1_wf] in W.
  - text E. cbn [is_flag]. cbv beta iota zeta delta [if_lasm]. back.
  - cbv beta iota zeta delta [to_lasm if_lasm] in E. cbn [reassembled is_flag]. destruct (flag_view n W) as [(f & D & -> & I)|(D & I)]; rewrite D in E; rewrite I.
    + destruct f; cbv iota in E; text2 E; back.
    + text2 E; gone.
Qed.
(** IF2: the operands. *)
Inductive if2_operand : rl1 -> Prop :=
  | op_reg r : if2_operand (Reg1 r)
  | op_flag f : (ar_flag_code f <=? 6) = true -> ar_flag_decode (ar_flag_code f) = Some f -> if2_operand (Lit1 (ar_flag_code f))
  | op_bad n : is_u8 n -> (n <=? 6) = false -> ar_flag_decode n = None -> if2_operand (Lit1 n).
Lemma if2_operand_all v : rl1_wf v -> if2_operand v.
Proof. intros W. destruct v as [r|n]; [constructor|]. destruct (flag_view n W) as [(f & D & -> & I)|(D & I)]; [constructor|constructor]; assumption. Qed.
Lemma zero_code f : ar_flag_code f = 0 -> f = FZero. Proof. destruct f; cbn; congruence. Qed.
Ltac if2_text E := cbn [if2_flag] in E; repeat match goal with H : ar_flag_decode _ = _ |- _ => rewrite H in E end; cbv iota beta zeta in E; cbn [List.app String.concat] in E; text2 E; rewrite ?append_assoc;
  repeat match goal with |- context [String.append "if2 " ?x] => change (String.append "if2 " x) with (String.append "if2" (String.append " " x)) end;
  cbn [is_flag]; repeat match goal with H : (_ <=? 6) = _ |- _ => rewrite H end; cbn [andb].
Lemma if2_general a b k : if2_operand a -> if2_operand b -> (a <> Lit1 0 \/ b <> Lit1 1 \/ (k <> CNor /\ k <> COr)) ->
  if2_lasm a b (Lit1 (if2_cond_code k)) = (let '(ta, wa) := if2_flag "invalid left flag" a in let '(tb, wb) := if2_flag "invalid right flag" b in
    let text := if2_alias k ++ " " ++ ta ++ ", " ++ tb in match (wa ++ wb)%list with [] => text | _ => text ++ " ; " ++ String.concat ", " (wa ++ wb)%list end).
Proof.
  intros _ _ H. unfold if2_lasm. destruct (if2_flag "invalid left flag" a) as (ta & wa), (if2_flag "invalid right flag" b) as (tb & wb).
  replace (if2_cond_decode (if2_cond_code k)) with (Some k) by (destruct k; reflexivity).
  destruct k; cbv iota; try reflexivity.
  - destruct a as [|[| |]]; try reflexivity. destruct b as [|[|[| |]|]]; try reflexivity. exfalso. destruct H as [H|[H|[H1 H2]]]; congruence.
  - destruct a as [|[| |]]; try reflexivity. destruct b as [|[|[| |]|]]; try reflexivity. exfalso. destruct H as [H|[H|[H1 H2]]]; congruence.
Qed.
Lemma back_if2 oc a b c t : instr_wf (If2 a b c) -> to_lasm oc (If2 a b c) = Ret t -> comes_back t (reassembled (If2 a b c)).
Proof.
  intros (W1 & W2 & W3) E. apply if2_operand_all in W1, W2. cbv beta iota zeta delta [to_lasm] in E. cbn [reassembled]. destruct c as [u|l].
  - cbn [is_cond]. unfold if2_lasm in E. destruct W1 as [r|f I1 D1|n B1 I1 D1]; destruct W2 as [s|g I2 D2|k B2 I2 D2]; if2_text E; try back; gone.
  - cbn [rl1_wf] in W3. cbn [is_cond]. destruct (cond_view l W3) as [(k & D & -> & I)|(D & I)]; rewrite I.
    + assert (S : (a = Lit1 0 /\ b = Lit1 1 /\ (k = CNor \/ k = COr)) \/ (a <> Lit1 0 \/ b <> Lit1 1 \/ (k <> CNor /\ k <> COr))).
      { destruct a as [|[| |]]; try (right; left; discriminate). destruct b as [|[|[| |]|]]; try (right; right; left; discriminate). destruct k; auto; right; right; right; split; discriminate. }
      destruct S as [(-> & -> & [->| ->])|S].
      * text2 E. cbn [is_flag Z.leb Z.compare Pos.compare Pos.compare_cont andb]. change (if2_lasm (Lit1 0) (Lit1 1) (Lit1 (if2_cond_code CNor))) with "ifgt". back.
      * text2 E. cbn [is_flag Z.leb Z.compare Pos.compare Pos.compare_cont andb]. change (if2_lasm (Lit1 0) (Lit1 1) (Lit1 (if2_cond_code COr))) with "ifle". back.
      * rewrite (if2_general a b k W1 W2 S) in E. clear S D I. destruct k; cbn [if2_alias if2_cond_code] in *.
        all: destruct W1 as [r|f I1 D1|n B1 I1 D1]; destruct W2 as [s|g I2 D2|k B2 I2 D2]; if2_text E; try back; gone.
    + rewrite !andb_false_r. unfold if2_lasm in E. rewrite D in E. destruct W1 as [r|f I1 D1|n B1 I1 D1]; destruct W2 as [s|g I2 D2|k B2 I2 D2]; if2_text E; gone.
Qed.

Lemma back_all oc i t : instr_wf i -> to_lasm oc i = Ret t -> comes_back t (reassembled i).
Proof.
  intros W E. destruct i.
  all: first [ eapply back_cpy; [exact W|exact E] | eapply back_simple; [exact W|exact E|exact I] | eapply back_one; [exact W|exact E|exact I] | eapply back_mem; [exact W|exact E|exact I]
    | eapply back_jpr; [exact W|exact E] | eapply back_div; [exact W|exact E] | eapply back_mod; [exact W|exact E] | eapply back_hwd; [exact W|exact E] | eapply back_if; [exact W|exact E]
    | eapply back_ifn; [exact W|exact E] | eapply back_if2; [exact W|exact E] ].
Qed.
