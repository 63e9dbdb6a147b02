(** Facts about LASM sources with labels. *)
From Coq Require Import String Ascii ZArith List Bool Lia.
From Verif Require Import Base Mem Asm Tools LasmRules Lasm SpecAsm SpecLasm SpecLabel BaseFacts RegFacts ProofAsm LasmFacts ProofLasm.
Import ListNotations.
Open Scope string_scope.
Open Scope Z_scope.
Ltac Zify.zify_post_hook ::= Z.div_mod_to_equations.

(** ** Characters and words *)
Lemma letter_word c : letter c = true -> is_word c = true /\ (c =? ".")%char = false /\ is_digit c = false.
Proof. destruct c as [[] [] [] [] [] [] [] []]; vm_compute; auto. Qed.
Lemma digit_word c : digit c = true -> is_word c = true /\ (c =? ".")%char = false.
Proof. destruct c as [[] [] [] [] [] [] [] []]; vm_compute; auto. Qed.
Lemma rest_word s : rest_ok s = true -> all_chars is_word s = true.
Proof.
  induction s as [|c s IH]; cbn [rest_ok all_chars]; intros H; [reflexivity|]. apply andb_prop in H. destruct H as (H & H2). rewrite (IH H2), andb_true_r.
  apply orb_prop in H. destruct H as [H|H]; [apply letter_word in H|apply digit_word in H]; apply H.
Qed.
Lemma identifier_word s : identifier s -> word s /\ starts_with_digit s = false /\ (forall scope, qualify scope s = s) /\ (forall scope, new_scope scope s = s) /\ (forall scope, orphan scope s = false).
Proof.
  destruct s as [|c s]; [contradiction|]. intros (H & H2). destruct (letter_word c H) as (A & B & C). split; [split; [cbn [all_chars]; rewrite A; apply rest_word; exact H2|discriminate]|]. split; [exact C|].
  destruct c as [[] [] [] [] [] [] [] []]; try discriminate B; repeat split; intros scope; try reflexivity; destruct scope; reflexivity.
Qed.
Fixpoint dotless (s : string) : bool := match s with "" => true | String c t => (negb (c =? ".")%char && dotless t)%bool end.
Lemma identifier_dotless s : identifier s -> dotless s = true.
Proof.
  destruct s as [|c s]; [contradiction|]. intros (H & H2). cbn [dotless]. destruct (letter_word c H) as (_ & -> & _). cbn [negb andb]. clear c H.
  induction s as [|c s IH]; [reflexivity|]. cbn [rest_ok dotless] in *. apply andb_prop in H2. destruct H2 as (H & H2). rewrite (IH H2), andb_true_r.
  apply orb_prop in H. destruct H as [H|H]; [apply letter_word in H; destruct H as (_ & -> & _)|apply digit_word in H; destruct H as (_ & ->)]; reflexivity.
Qed.
Lemma local_word s : identifier s -> word ("." ++ s) /\ starts_with_digit ("." ++ s) = false.
Proof. intros H. destruct (identifier_word s H) as ((A & _) & _). split; [split; [exact A|discriminate]|reflexivity]. Qed.
Lemma reserved_words : forallb (fun t => forallb (fun e => all_chars is_word (fst e) && negb (String.eqb (fst e) "") && negb (starts_with_digit (fst e)) && String.eqb (qualify "x" (fst e)) (fst e)) t) [table_reg; table_arflag; table_div_mode; table_hw_info; table_if2_mode] = true.
Proof. vm_compute. reflexivity. Qed.
Lemma qualify_any a b s : qualify a s = s -> a <> "" -> qualify b s = s.
Proof.
  destruct s as [|c s]; [reflexivity|]. intros H N. destruct c as [[] [] [] [] [] [] [] []]; try reflexivity. exfalso. cbn in H. apply (f_equal String.length) in H. 
  assert (X : forall x y, String.length (x ++ y) = (String.length x + String.length y)%nat) by (induction x; intros; cbn; [reflexivity|f_equal; auto]). rewrite X in H. destruct a; [congruence|]. cbn in H. lia.
Qed.
Lemma reserved_word s : reserved s = true -> word s /\ starts_with_digit s = false /\ (forall scope, qualify scope s = s).
Proof.
  unfold reserved. intros H. apply existsb_exists in H. destruct H as (t & It & H). destruct (lookup t s) as [v|] eqn:L; [|discriminate]. clear H.
  pose proof reserved_words as X. rewrite forallb_forall in X. specialize (X t It). rewrite forallb_forall in X.
  assert (I : In (s, v) t). { clear -L. induction t as [|[k w] t IH]; cbn [lookup] in L; [discriminate|]. destruct (String.eqb_spec k s) as [->|]; [injection L as ->; left; reflexivity|right; auto]. }
  apply X in I. cbn [fst] in I. apply andb_prop in I. destruct I as (I & Q). apply andb_prop in I. destruct I as (I & D). apply andb_prop in I. destruct I as (I & N). apply negb_true_iff in D, N. apply String.eqb_neq in N. apply String.eqb_eq in Q.
  split; [split; assumption|]. split; [exact D|]. intros scope. eapply qualify_any; [exact Q|discriminate].
Qed.

(** ** Lines *)
(** The end of a line. *)
Definition ends (t : string) : Prop := forall w, lex t (LWord w) = Some (flush w []).
Lemma ends_nil : ends "". Proof. intros w. reflexivity. Qed.
Lemma ends_comment c : ends (" ; " ++ c).
Proof. intros w. cbn [String.append lex]. change (is_word " ") with false. change (is_word ";") with false. cbn iota. change (" " =? " ")%char with true. change (";" =? " ")%char with false. change (";" =? ";")%char with true. reflexivity. Qed.
Lemma lex_end w t : word w -> ends t -> lex (w ++ t) (LWord "") = Some [TWord w].
Proof. intros (H & N) E. rewrite lex_word by exact H. rewrite E. cbn [String.append]. rewrite flush_app by exact N. reflexivity. Qed.
Fixpoint commas (ws : list string) : list token := match ws with [] => [] | [w] => [TWord w] | w :: t => TWord w :: TSym "," :: commas t end.
Lemma lex_args t : ends t -> forall ws w, Forall word (w :: ws) -> lex (String.concat ", " (w :: ws) ++ t) (LWord "") = Some (commas (w :: ws)).
Proof.
  intros E. induction ws as [|v ws IH]; intros w H; inversion H as [|? ? H1 H2]; subst.
  - cbn [String.concat commas]. apply lex_end; assumption.
  - change (String.concat ", " (w :: v :: ws)) with (w ++ ", " ++ String.concat ", " (v :: ws)). rewrite append_assoc. change ((", " ++ String.concat ", " (v :: ws)) ++ t) with (", " ++ (String.concat ", " (v :: ws) ++ t)).
    rewrite lex_comma by exact H1. rewrite IH by exact H2. reflexivity.
Qed.
Lemma split_words ws : forall w, split_commas (commas (w :: ws)) [] = map (fun x => [TWord x]) (w :: ws).
Proof. induction ws as [|v ws IH]; intros w; [reflexivity|]. change (commas (w :: v :: ws)) with (TWord w :: TSym "," :: commas (v :: ws)). cbn [split_commas List.app]. change ("," =? ",")%char with true. cbn iota. rewrite IH. reflexivity. Qed.
Lemma commas_some w ws : exists x l, commas (w :: ws) = x :: l /\ x = TWord w. Proof. destruct ws; cbn; eauto. Qed.
Lemma lex_spaces k t : lex (spaces k ++ t) (LWord "") = lex t (LWord "").
Proof. induction k as [|k IH]; [reflexivity|]. cbn [spaces String.append lex]. change (is_word " ") with false. cbn iota. change (" " =? " ")%char with true. cbn iota. rewrite IH. destruct (lex t (LWord "")); reflexivity. Qed.
Lemma parse_text m ws t : word m -> Forall word ws -> ends t -> parse_line (instr_text m ws ++ t) = Some [IInstr m (map (fun w => parse_operand [TWord w]) ws)].
Proof.
  intros M W E. unfold parse_line. destruct ws as [|w ws]; cbn [instr_text]; [rewrite lex_end by assumption; reflexivity|].
  rewrite append_assoc. change ((" " ++ String.concat ", " (w :: ws)) ++ t) with (" " ++ (String.concat ", " (w :: ws) ++ t)). rewrite lex_space by exact M. rewrite lex_args by assumption. cbn [option_map].
  destruct (commas_some w ws) as (x & l & EC & ->). rewrite <- (map_map (fun w => [TWord w]) parse_operand). rewrite <- split_words. rewrite EC. destruct l as [|[]]; reflexivity.
Qed.
Lemma parse_spaces k t : parse_line (spaces k ++ t) = parse_line t.
Proof. unfold parse_line. rewrite lex_spaces. reflexivity. Qed.
Lemma lex_colon w t : word w -> ends t -> lex ((w ++ ":") ++ t) (LWord "") = Some [TWord w; TSym ":"].
Proof.
  intros (H & N) E. rewrite append_assoc, lex_word by exact H. cbn [String.append lex]. change (is_word ":") with false. change (":" =? " ")%char with false. change (":" =? ";")%char with false. change (":" =? """")%char with false. cbn iota.
  rewrite E. cbn [option_map flush]. rewrite flush_app by exact N. reflexivity.
Qed.
Lemma lex_hash w t : lex ("#" ++ w ++ " " ++ t) (LWord "") = option_map (cons (TSym "#")) (lex (w ++ " " ++ t) (LWord "")).
Proof. reflexivity. Qed.
Lemma lex_escaped s : forall t w, lex (escaped s ++ String """" t) (LString w) = option_map (cons (TStr (w ++ s))) (lex t (LWord "")).
Proof.
  induction s as [|c s IH]; intros t w.
  - cbn [escaped String.append lex]. change ("""" =? """")%char with true. cbn iota. rewrite append_nil. reflexivity.
  - cbn [escaped]. destruct (Ascii.eqb_spec c (ascii_of_nat 10)) as [->|N1].
    + cbn [String.append lex]. change ("\" =? """")%char with false. change ("\" =? "\")%char with true. change ("n" =? "n")%char with true. cbn iota. rewrite IH. rewrite append_assoc. reflexivity.
    + destruct (Ascii.eqb_spec c """") as [->|N2].
      * cbn [String.append lex]. change ("\" =? """")%char with false. change ("\" =? "\")%char with true. change ("""" =? "n")%char with false. cbn iota. rewrite IH. rewrite append_assoc. reflexivity.
      * destruct (Ascii.eqb_spec c "\") as [->|N3].
        -- cbn [String.append lex]. change ("\" =? """")%char with false. change ("\" =? "\")%char with true. change ("\" =? "n")%char with false. cbn iota. rewrite IH. rewrite append_assoc. reflexivity.
        -- cbn [String.append lex]. apply Ascii.eqb_neq in N2, N3. rewrite N2, N3. rewrite IH. rewrite append_assoc. reflexivity.
Qed.
(** The items of a line. *)
Definition arg_operand (a : arg) : operand := match a with AName w => OName w | ANum n => ONum n | AGlobal l => OName l | ALocal l => OName ("." ++ l) end.
Definition items_of (b : body) : list item :=
  match b with
  | BLabel l => [ILabel l]
  | BLocal l => [ILabel ("." ++ l)]
  | BInstr m args => [IInstr m (map arg_operand args)]
  | BWord n => [IData (be_word n)]
  | BText s => [IData (string_bytes s)]
  | BNothing => []
  end.
Lemma word_operand w : starts_with_digit w = false -> parse_operand [TWord w] = OName w.
Proof. intros H. cbn [parse_operand]. rewrite H. reflexivity. Qed.
Lemma arg_word a : arg_ok a -> word (arg_text a) /\ parse_operand [TWord (arg_text a)] = arg_operand a.
Proof.
  destruct a as [w|n|l|l]; cbn [arg_ok arg_text arg_operand]; intros H.
  - destruct (reserved_word w H) as (A & B & _). split; [exact A|apply word_operand; exact B].
  - split; [apply hex_word; lia|apply hex_operand; lia].
  - destruct H as (H & _). destruct (identifier_word l H) as (A & B & _). split; [exact A|apply word_operand; exact B].
  - destruct (local_word l H) as (A & B). split; [exact A|apply word_operand; exact B].
Qed.
Lemma parse_body b t : body_ok b -> ends t -> parse_line (body_text b ++ t) = Some (items_of b).
Proof.
  destruct b as [l|l|m args|n|s|]; cbn [body_ok body_text items_of]; intros H E.
  - destruct H as (H & _). destruct (identifier_word l H) as (A & B & _). unfold parse_line. rewrite lex_colon by assumption. rewrite B. reflexivity.
  - destruct (local_word l H) as (A & B). unfold parse_line. rewrite <- append_assoc. rewrite lex_colon by assumption. rewrite B. reflexivity.
  - destruct H as (M & H). destruct (identifier_word m M) as (A & _). rewrite parse_text; [|exact A| |exact E].
    + rewrite map_map. do 2 f_equal. f_equal. apply map_ext_in. intros a I. rewrite Forall_forall in H. apply arg_word. auto.
    + apply Forall_forall. intros w I. apply in_map_iff in I. destruct I as (a & <- & I). rewrite Forall_forall in H. apply arg_word. auto.
  - unfold parse_line. change ("#d32 " ++ fmt_hex n) with ("#" ++ "d32" ++ " " ++ fmt_hex n). rewrite append_assoc. change (("d32" ++ " " ++ fmt_hex n) ++ t) with ("d32" ++ " " ++ (fmt_hex n ++ t)).
    rewrite lex_hash, lex_space by (split; [reflexivity|discriminate]). rewrite lex_end by (try apply hex_word; try lia; exact E). cbn [option_map]. change (String.eqb "d32" "d32") with true. cbn iota.
    rewrite hex_operand by lia. destruct (Z.leb_spec (-2147483648) n); [|lia]. destruct (Z.ltb_spec n 4294967296); [|lia]. reflexivity.
  - unfold parse_line. replace (("#d """ ++ escaped s ++ """") ++ t) with ("#" ++ "d" ++ " " ++ String """" (escaped s ++ String """" t)) by (cbn [String.append]; rewrite append_assoc; reflexivity).
    rewrite lex_hash, lex_space by (split; [reflexivity|discriminate]). assert (X : lex (String """" (escaped s ++ String """" t)) (LWord "") = Some [TStr s]).
    { cbn [lex]. change (is_word """") with false. change ("""" =? " ")%char with false. change ("""" =? ";")%char with false. change ("""" =? """")%char with true. cbn iota. rewrite lex_escaped, E. reflexivity. }
    rewrite X. reflexivity.
  - cbn [String.append]. unfold parse_line. rewrite E. reflexivity.
Qed.
Lemma one_line_nl s : one_line s -> no_nl s = true.
Proof. induction s as [|c s IH]; intros H; [reflexivity|]. destruct H as (H & H2). unfold no_nl. cbn [all_chars]. fold (no_nl s). rewrite (IH H2), andb_true_r. apply Ascii.eqb_neq in H. rewrite H. reflexivity. Qed.
Lemma parse_the_line l : line_ok l -> parse_line (line_text l) = Some (items_of (l_body l)).
Proof. intros (H & C). unfold line_text. rewrite parse_spaces. apply parse_body; [exact H|]. destruct (l_comment l); [apply ends_comment|apply ends_nil]. Qed.
Lemma no_nl_cons c s : no_nl (String c s) = negb (c =? ascii_of_nat 10)%char && no_nl s. Proof. reflexivity. Qed.
Lemma escaped_nl s : no_nl (escaped s) = true.
Proof.
  induction s as [|c s IH]; [reflexivity|]. cbn [escaped]. rewrite no_nl_app, IH, andb_true_r. destruct (Ascii.eqb_spec c (ascii_of_nat 10)) as [->|N]; [reflexivity|]. destruct (Ascii.eqb_spec c """") as [->|]; [reflexivity|].
  destruct (Ascii.eqb_spec c "\") as [->|]; [reflexivity|]. rewrite no_nl_cons. apply Ascii.eqb_neq in N. rewrite N. reflexivity.
Qed.
Lemma concat_nl ws : Forall word ws -> no_nl (String.concat ", " ws) = true.
Proof.
  induction ws as [|w ws IH]; intros H; [reflexivity|]. inversion H as [|? ? H1 H2]; subst. destruct ws as [|v ws]; [apply word_no_nl, H1|].
  change (String.concat ", " (w :: v :: ws)) with (w ++ ", " ++ String.concat ", " (v :: ws)). rewrite !no_nl_app, IH by exact H2. rewrite (word_no_nl w) by apply H1. reflexivity.
Qed.
Lemma instr_nl m ws : word m -> Forall word ws -> no_nl (instr_text m ws) = true.
Proof. intros (M & _) W. unfold instr_text. destruct ws as [|w ws]; [apply word_no_nl; exact M|]. rewrite !no_nl_app, concat_nl, (word_no_nl m) by assumption. reflexivity. Qed.
Lemma body_nl b : body_ok b -> no_nl (body_text b) = true.
Proof.
  destruct b as [l|l|m args|n|s|]; cbn [body_ok body_text]; intros H.
  - destruct H as (H & _). destruct (identifier_word l H) as ((A & _) & _). rewrite no_nl_app, word_no_nl by exact A. reflexivity.
  - destruct (identifier_word l H) as ((A & _) & _). rewrite !no_nl_app, (word_no_nl l) by exact A. reflexivity.
  - destruct H as (M & H). destruct (identifier_word m M) as (A & _). apply instr_nl; [exact A|]. apply Forall_forall. intros w I. apply in_map_iff in I. destruct I as (a & <- & I). rewrite Forall_forall in H. apply arg_word. auto.
  - rewrite no_nl_app, nl_hex by lia. reflexivity.
  - rewrite !no_nl_app, escaped_nl. reflexivity.
  - reflexivity.
Qed.
Lemma spaces_nl k : no_nl (spaces k) = true. Proof. induction k as [|k IH]; [reflexivity|]. cbn [spaces]. rewrite no_nl_app, IH. reflexivity. Qed.
Lemma line_nl l : line_ok l -> no_nl (line_text l) = true.
Proof. intros (H & C). unfold line_text. rewrite !no_nl_app, spaces_nl, body_nl by exact H. destruct (l_comment l); [|reflexivity]. rewrite no_nl_app, (one_line_nl s C). reflexivity. Qed.
Lemma parse_source ls : Forall line_ok ls -> parse_lines (split_lines (source ls) "") = Some (flat_map items_of (bodies ls)).
Proof.
  intros H. unfold source. destruct ls as [|l ls]; [reflexivity|].
  assert (N : Forall (fun s => no_nl s = true) (map line_text (l :: ls))). { apply Forall_forall. intros s I. apply in_map_iff in I. destruct I as (k & <- & I). rewrite Forall_forall in H. apply line_nl. auto. }
  cbn [map] in N |- *. rewrite split_concat by exact N. change (line_text l :: map line_text ls) with (map line_text (l :: ls)). clear N. unfold bodies.
  induction H as [|k ks Hk _ IH]; [reflexivity|]. cbn [map parse_lines flat_map]. rewrite parse_the_line, IH by exact Hk. reflexivity.
Qed.

(** ** Labels *)
(** The assembler's name of a label. *)
Definition key_name (k : string * string) : string := match snd k with "" => fst k | x => fst k ++ "." ++ x end.
Definition key_ok (k : string * string) : Prop := dotless (fst k) = true.
Lemma dot_split a b x y : dotless a = true -> dotless b = true -> a ++ String "." x = b ++ String "." y -> a = b /\ x = y.
Proof.
  revert b. induction a as [|c a IH]; intros [|d b] A B E; cbn [String.append dotless] in *.
  - injection E as ->. auto.
  - exfalso. injection E as <- _. discriminate B.
  - exfalso. injection E as -> _. discriminate A.
  - injection E as -> E. apply andb_prop in A, B. destruct (IH b (proj2 A) (proj2 B) E) as (-> & ->). auto.
Qed.
Lemma dotless_app a x : dotless (a ++ String "." x) = false.
Proof. induction a as [|c a IH]; [reflexivity|]. cbn [String.append dotless]. rewrite IH. apply andb_false_r. Qed.
Lemma key_name_inj j k : key_ok j -> key_ok k -> key_name j = key_name k -> j = k.
Proof.
  destruct j as [a x], k as [b y]. unfold key_ok, key_name. cbn [fst snd]. intros A B E. destruct x as [|c x], y as [|d y].
  - congruence.
  - subst a. change ("." ++ String d y) with (String "." (String d y)) in A. rewrite dotless_app in A. discriminate.
  - rewrite <- E in B. change ("." ++ String c x) with (String "." (String c x)) in B. rewrite dotless_app in B. discriminate.
  - change ("." ++ String d y) with (String "." (String d y)) in E. change ("." ++ String c x) with (String "." (String c x)) in E. destruct (dot_split _ _ _ _ A B E) as (-> & ->). reflexivity.
Qed.
Lemma key_eqb_spec j k : reflect (j = k) (key_eqb j k).
Proof. destruct j as [a x], k as [b y]. unfold key_eqb. cbn [fst snd]. destruct (String.eqb_spec a b), (String.eqb_spec x y); cbn; constructor; congruence. Qed.
Lemma address_lookup t k : Forall (fun e => key_ok (fst e)) t -> key_ok k -> lookup (map (fun e => (key_name (fst e), snd e)) t) (key_name k) = address t k.
Proof.
  intros H K. induction H as [|[j a] t J _ IH]; [reflexivity|]. cbn [map lookup address fst snd]. rewrite IH. destruct (key_eqb_spec j k) as [->|N]; [rewrite String.eqb_refl; reflexivity|].
  destruct (String.eqb_spec (key_name j) (key_name k)) as [E|]; [|reflexivity]. destruct N. apply key_name_inj; auto.
Qed.
Lemma identifier_not_empty l : identifier l -> l <> "". Proof. destruct l; [contradiction|discriminate]. Qed.
Lemma local_key scope l : identifier l -> qualify scope ("." ++ l) = key_name (scope, l).
Proof. intros H. unfold key_name. cbn [fst snd]. destruct l as [|c l]; [contradiction|]. reflexivity. Qed.
Lemma padding_aligned pos : pos + padding pos = aligned pos /\ padding pos = aligned pos - pos.
Proof. unfold padding, aligned. lia. Qed.
Lemma string_bytes_length s : zlen (string_bytes s) = Z.of_nat (String.length s).
Proof. unfold zlen. f_equal. induction s; cbn; congruence. Qed.
Lemma symbols_labels bs : Forall body_ok bs -> forall pos scope, symbols pos scope (flat_map items_of bs) = map (fun e => (key_name (fst e), snd e)) (labels pos scope bs).
Proof.
  induction 1 as [|b bs H _ IH]; intros pos scope; [reflexivity|]. cbn [flat_map labels]. destruct (padding_aligned pos) as (P & _).
  destruct b as [l|l|m args|n|s|]; cbn [items_of List.app symbols next_pos next_scope map fst snd body_ok] in *; rewrite ?IH; try reflexivity.
  - destruct H as (H & _). destruct (identifier_word l H) as (_ & _ & Q & N & _). rewrite Q, N, P. reflexivity.
  - rewrite local_key by exact H. change (new_scope scope ("." ++ l)) with scope. rewrite P. reflexivity.
  - rewrite string_bytes_length. reflexivity.
Qed.
Lemma labels_ok bs : Forall body_ok bs -> forall pos scope, dotless scope = true -> Forall (fun e => key_ok (fst e)) (labels pos scope bs).
Proof.
  induction 1 as [|b bs H _ IH]; intros pos scope D; [constructor|]. cbn [labels]. apply Forall_app. split.
  - destruct b as [l|l|m args|n|s|]; cbn [body_ok] in H; try constructor; try constructor; unfold key_ok; cbn [fst]; [apply identifier_dotless; apply H|exact D].
  - apply IH. destruct b as [l|l|m args|n|s|]; cbn [next_scope body_ok] in *; try exact D. apply identifier_dotless. apply H.
Qed.
Lemma distinct_names t : Forall (fun e => key_ok (fst e)) t -> (distinct (map fst (map (fun e : (string * string) * Z => (key_name (fst e), snd e)) t)) = true <-> NoDup (map fst t)).
Proof.
  rewrite map_map. cbn [fst]. induction 1 as [|[k a] t K HT IH]; cbn [map distinct fst] in *; [split; [constructor|reflexivity]|]. rewrite andb_true_iff, IH. rewrite NoDup_cons_iff.
  assert (X : negb (existsb (String.eqb (key_name k)) (map (fun x => key_name (fst x)) t)) = true <-> ~ In k (map fst t)); [|tauto].
  rewrite negb_true_iff. split.
  - intros E I. assert (existsb (String.eqb (key_name k)) (map (fun x => key_name (fst x)) t) = true); [|congruence]. apply existsb_exists. exists (key_name k). split; [|apply String.eqb_refl].
    apply in_map_iff in I. destruct I as (e & <- & I). apply in_map_iff. exists e. auto.
  - intros N. apply Bool.not_true_is_false. intros E. apply existsb_exists in E. destruct E as (s & I & E). apply String.eqb_eq in E. subst s. apply in_map_iff in I. destruct I as (e & E & I).
    rewrite Forall_forall in HT. apply N. apply in_map_iff. exists e. split; [|exact I]. apply key_name_inj; auto.
Qed.

(** ** Instructions with labels *)
(** Two operands the rules take alike, with the labels [syms] and with none. *)
Definition alike (syms : list (string * Z)) (o o' : operand) : Prop := forall p, match_operand syms p o = match_operand [] p o'.
Lemma alike_instr syms m os os' : Forall2 (alike syms) os os' -> assemble_instr syms m os = assemble_instr [] m os'.
Proof.
  intros H. unfold assemble_instr. assert (X : all_matches syms m os = all_matches [] m os'); [|rewrite X; reflexivity]. unfold all_matches. induction rules as [|r l IH]; [reflexivity|]. cbn [flat_map]. rewrite IH. f_equal. unfold apply_rule.
  assert (Y : match_operands syms (ru_operands r) os = match_operands [] (ru_operands r) os'); [|rewrite Y; reflexivity]. generalize (ru_operands r). clear -H. induction H as [|o o' os os' A _ IH]; intros [|p ps]; cbn [match_operands]; try reflexivity. rewrite A, IH. reflexivity.
Qed.
Lemma hopeless_instr syms m os : Exists (fun o => forall p, match_operand syms p o = None) os -> assemble_instr syms m os = None.
Proof.
  intros H. unfold assemble_instr. assert (X : all_matches syms m os = []); [|rewrite X; reflexivity]. unfold all_matches. induction rules as [|r l IH]; [reflexivity|]. cbn [flat_map]. rewrite IH, app_nil_r. unfold apply_rule.
  assert (Y : match_operands syms (ru_operands r) os = None); [|rewrite Y; destruct (String.eqb (ru_mnemonic r) m); reflexivity]. generalize (ru_operands r). clear -H. induction H as [o os A|o os _ IH]; intros [|p ps]; cbn [match_operands]; try reflexivity.
  - rewrite A. reflexivity.
  - rewrite IH. destruct (match_operand syms p o); reflexivity.
Qed.
Lemma not_reserved s : reserved s = false -> lookup table_reg s = None /\ lookup table_arflag s = None /\ lookup table_div_mode s = None /\ lookup table_hw_info s = None /\ lookup table_if2_mode s = None.
Proof.
  unfold reserved. cbn [existsb]. intros H. repeat (apply orb_false_elim in H; let X := fresh in destruct H as (X & H)).
  repeat match goal with X : match lookup ?t s with _ => _ end = false |- _ => destruct (lookup t s) eqn:?; [discriminate|clear X] end. auto.
Qed.
Lemma reserved_dotless s : reserved s = true -> dotless s = true.
Proof.
  unfold reserved. intros H. apply existsb_exists in H. destruct H as (t & It & H). destruct (lookup t s) as [v|] eqn:L; [|discriminate]. clear H.
  assert (X : forallb (fun t => forallb (fun e : string * Z => dotless (fst e)) t) [table_reg; table_arflag; table_div_mode; table_hw_info; table_if2_mode] = true) by (vm_compute; reflexivity).
  rewrite forallb_forall in X. specialize (X t It). rewrite forallb_forall in X.
  assert (I : In (s, v) t). { clear -L. induction t as [|[k w] t IH]; cbn [lookup] in L; [discriminate|]. destruct (String.eqb_spec k s) as [->|]; [injection L as ->; left; reflexivity|right; auto]. }
  apply X in I. exact I.
Qed.
Lemma key_not_reserved k : (snd k = "" -> reserved (fst k) = false) -> reserved (key_name k) = false.
Proof.
  destruct k as [a x]. unfold key_name. cbn [fst snd]. destruct x as [|c x]; [auto|]. intros _. apply Bool.not_true_is_false. intros H. apply reserved_dotless in H.
  change ("." ++ String c x) with (String "." (String c x)) in H. rewrite dotless_app in H. discriminate.
Qed.
Lemma match_label syms s p : reserved s = false -> match_operand syms p (OName s) = match lookup syms s with Some n => match_operand [] p (ONum n) | None => None end.
Proof.
  intros H. destruct (not_reserved s H) as (A & B & C & D & E). destruct p; cbn [match_operand named integer]; rewrite ?A, ?B, ?C, ?D, ?E; destruct (lookup syms s); reflexivity.
Qed.
Lemma match_name syms s p : (forall n, ~ In (s, n) syms) -> match_operand syms p (OName s) = match_operand [] p (OName s).
Proof.
  intros H. assert (L : lookup syms s = None). { clear p. induction syms as [|[k v] t IH]; [reflexivity|]. cbn [lookup]. destruct (String.eqb_spec k s) as [->|]; [destruct (H v); left; reflexivity|]. apply IH. intros n0 I. apply (H n0). right. exact I. }
  destruct p; cbn [match_operand named integer]; rewrite ?L; reflexivity.
Qed.
(** The labels of a source have good names. *)
Lemma labels_names bs : Forall body_ok bs -> forall pos scope e, In e (labels pos scope bs) -> snd (fst e) = "" -> reserved (fst (fst e)) = false.
Proof.
  induction 1 as [|b bs H _ IH]; intros pos scope e I S; [contradiction|]. cbn [labels] in I. apply in_app_or in I. destruct I as [I|I]; [|exact (IH _ _ _ I S)].
  destruct b as [l|l|m args|n|s|]; cbn [In body_ok] in *; try contradiction; destruct I as [<-|[]]; cbn [fst snd] in *; [apply H|]. subst l. contradiction.
Qed.
Section Resolve.
Context (t : list ((string * string) * Z)) (scope : string).
Notation syms := (map (fun e => (key_name (fst e), snd e)) t).
Hypothesis (KO : Forall (fun e => key_ok (fst e)) t) (SO : dotless scope = true).
Hypothesis (NR : forall e, In e t -> snd (fst e) = "" -> reserved (fst (fst e)) = false).
Hypothesis (AB : forall e, In e t -> 0 <= snd e < 2 ^ 64).
Lemma address_in k a : address t k = Some a -> In (k, a) t.
Proof. clear. induction t as [|[j b] l IH]; cbn [address]; [discriminate|]. destruct (key_eqb_spec j k) as [->|]; [intros E; injection E as ->; left; reflexivity|right; auto]. Qed.
Lemma label_case k (o : operand) : key_ok k -> reserved (key_name k) = false -> o = OName (key_name k) ->
  match option_map fmt_hex (address t k) with
  | Some w => word w /\ alike syms o (parse_operand [TWord w])
  | None => forall p, match_operand syms p o = None
  end.
Proof.
  intros K R ->. pose proof (address_lookup t k KO K) as L. destruct (address t k) as [a|] eqn:E; cbn [option_map].
  - apply address_in in E. pose proof (AB _ E) as B. cbn [snd] in B. split; [apply hex_word; exact B|]. intros p. rewrite hex_operand by exact B. rewrite match_label by exact R. rewrite L. reflexivity.
  - intros p. rewrite match_label by exact R. rewrite L. reflexivity.
Qed.
Lemma resolve_one a : arg_ok a ->
  match resolved t scope a with
  | Some w => word w /\ alike syms (qualify_operand scope (arg_operand a)) (parse_operand [TWord w])
  | None => forall p, match_operand syms p (qualify_operand scope (arg_operand a)) = None
  end.
Proof.
  destruct a as [w|n|l|l]; cbn [arg_ok resolved arg_operand qualify_operand]; intros H.
  - destruct (reserved_word w H) as (A & B & Q). split; [exact A|]. rewrite word_operand by exact B. rewrite Q. intros p. apply match_name. intros n I. apply in_map_iff in I. destruct I as (e & E & I). injection E as E _.
    pose proof (key_not_reserved (fst e) (NR e I)) as X. rewrite E in X. congruence.
  - split; [apply hex_word; lia|]. rewrite hex_operand by lia. intros p. destruct p; reflexivity.
  - destruct H as (H & R). destruct (identifier_word l H) as (_ & _ & Q & _). apply (label_case (l, "")); [apply identifier_dotless; exact H|exact R|]. rewrite Q. reflexivity.
  - apply (label_case (scope, l)); [exact SO|apply key_not_reserved; cbn [fst snd]; intros ->; contradiction|]. rewrite local_key by exact H. reflexivity.
Qed.
Lemma resolve_instr m args : identifier m -> Forall arg_ok args ->
  assemble_instr syms m (map (qualify_operand scope) (map arg_operand args)) = match all_resolved t scope args with Some ws => assemble (instr_text m ws) | None => None end.
Proof.
  intros M HA. rewrite map_map.
  assert (X : match all_resolved t scope args with
    | Some ws => Forall word ws /\ Forall2 (alike syms) (map (fun a => qualify_operand scope (arg_operand a)) args) (map (fun w => parse_operand [TWord w]) ws)
    | None => Exists (fun o => forall p, match_operand syms p o = None) (map (fun a => qualify_operand scope (arg_operand a)) args) end).
  { induction HA as [|a args H _ IH]; cbn [all_resolved map]; [split; constructor|]. pose proof (resolve_one a H) as R. destruct (resolved t scope a) as [w|]; [|left; exact R].
    destruct (all_resolved t scope args) as [ws|]; [|right; exact IH]. destruct R as (R1 & R2), IH as (I1 & I2). split; [constructor; assumption|]. cbn [map]. constructor; assumption. }
  destruct (all_resolved t scope args) as [ws|]; [|apply hopeless_instr; exact X]. destruct X as (W & A). rewrite (alike_instr _ m _ _ A).
  destruct (identifier_word m M) as (MW & _). symmetry. apply assemble_line. split; [apply instr_nl; assumption|]. eexists. split; [rewrite <- (append_nil (instr_text m ws)); apply parse_text; [exact MW|exact W|apply ends_nil]|]. reflexivity.
Qed.
Lemma be_word_bytes n : 0 <= n < 2 ^ 32 -> be_word n = [n / 2 ^ 24; n / 2 ^ 16 mod 2 ^ 8; n / 2 ^ 8 mod 2 ^ 8; n mod 2 ^ 8].
Proof. intros H. unfold be_word. change (2 ^ 24) with 16777216. change (2 ^ 16) with 65536. change (2 ^ 8) with 256. f_equal; lia. Qed.
Lemma string_bytes_map s : string_bytes s = map (fun c => Z.of_N (N_of_ascii c)) (list_ascii_of_string s).
Proof. induction s as [|c s IH]; [reflexivity|]. cbn [string_bytes list_ascii_of_string map]. rewrite IH. reflexivity. Qed.
End Resolve.
Lemma emit_meaning t (KO : Forall (fun e => key_ok (fst e)) t) (NR : forall e, In e t -> snd (fst e) = "" -> reserved (fst (fst e)) = false) (AB : forall e, In e t -> 0 <= snd e < 2 ^ 64) bs : Forall body_ok bs ->
  forall pos scope, dotless scope = true -> emit (map (fun e => (key_name (fst e), snd e)) t) pos scope (flat_map items_of bs) = meaning t pos scope bs.
Proof.
  induction 1 as [|b bs H _ IH]; intros pos scope SO; [reflexivity|]. cbn [flat_map meaning]. destruct (padding_aligned pos) as (P & P2).
  destruct b as [l|l|m args|n|s|]; cbn [items_of List.app emit next_pos next_scope body_bytes body_ok] in *.
  - destruct H as (H & _). destruct (identifier_word l H) as (_ & _ & _ & N & O). rewrite O, N, P, P2. rewrite IH by (apply identifier_dotless; exact H). destruct (meaning t (aligned pos) l bs); reflexivity.
  - change (new_scope scope ("." ++ l)) with scope. rewrite P, P2, IH by exact SO. destruct scope as [|c scope]; cbn [orphan String.append String.eqb]; [reflexivity|]. destruct (meaning t (aligned pos) (String c scope) bs); reflexivity.
  - destruct H as (M & H). rewrite (resolve_instr t scope KO SO NR AB m args M H). rewrite IH by exact SO. reflexivity.
  - rewrite be_word_bytes by exact H. rewrite IH by exact SO. change (zlen _) with 4. destruct (meaning t (pos + 4) scope bs); reflexivity.
  - rewrite string_bytes_length, string_bytes_map. rewrite IH by exact SO. destruct (meaning t _ scope bs); reflexivity.
  - rewrite IH by exact SO. destruct (meaning t pos scope bs); reflexivity.
Qed.
