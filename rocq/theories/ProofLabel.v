(** LASM sources with labels. *)
From Coq Require Import String Ascii ZArith List ListDec Bool Lia.
From Verif Require Import Base Mem Asm Tools LasmRules Lasm SpecAsm SpecLasm SpecShort SpecLabel BaseFacts RegFacts ProofAsm LasmFacts ProofLasm ProofShort LabelFacts.
Import ListNotations.
Open Scope string_scope.
Open Scope list_scope.
Open Scope Z_scope.
Ltac Zify.zify_post_hook ::= Z.div_mod_to_equations.

Lemma bodies_ok ls : Forall line_ok ls -> Forall body_ok (bodies ls).
Proof. unfold bodies. induction 1 as [|l ls H _ IH]; constructor; [apply H|exact IH]. Qed.
Lemma next_pos_le b pos : pos <= next_pos pos b.
Proof. destruct b; cbn [next_pos]; unfold aligned; lia. Qed.
Lemma fold_pos_le bs : forall pos, pos <= fold_left next_pos bs pos.
Proof. induction bs as [|b bs IH]; intros pos; cbn [fold_left]; [lia|]. pose proof (next_pos_le b pos). pose proof (IH (next_pos pos b)). lia. Qed.
Lemma labels_bound bs : forall pos scope e, In e (labels pos scope bs) -> pos <= snd e <= fold_left next_pos bs pos.
Proof.
  induction bs as [|b bs IH]; intros pos scope e I; [contradiction|]. cbn [labels fold_left] in *. apply in_app_or in I. destruct I as [I|I].
  - pose proof (fold_pos_le bs (next_pos pos b)). pose proof (next_pos_le b pos). destruct b; cbn [In next_pos] in *; try contradiction; destruct I as [<-|[]]; cbn [snd]; lia.
  - apply IH in I. pose proof (next_pos_le b pos). lia.
Qed.
(** What a source assembles to is what its lines mean: each instruction assembles as it would alone, with every label replaced by the address where
    it is defined. *)
Lemma P_C79_labels : forall ls, Forall line_ok ls -> code_size ls < 2 ^ 60 -> NoDup (map fst (labels_of ls)) ->
  assemble (source ls) = meaning (labels_of ls) 0 "" (bodies ls).
Proof.
  intros ls H S N. pose proof (bodies_ok ls H) as B. unfold assemble. rewrite parse_source by exact H. rewrite symbols_labels by exact B. fold (labels_of ls).
  assert (K : Forall (fun e => key_ok (fst e)) (labels_of ls)) by (apply labels_ok; [exact B|reflexivity]).
  apply (distinct_names _ K) in N. rewrite N. apply emit_meaning; [exact K| | |exact B|reflexivity].
  - intros e I. exact (labels_names _ B 0 "" e I).
  - intros e I. apply labels_bound in I. unfold code_size in S. lia.
Qed.
(** A label defined twice is an error. *)
Lemma P_C79_duplicate : forall ls, Forall line_ok ls -> ~ NoDup (map fst (labels_of ls)) -> assemble (source ls) = None.
Proof.
  intros ls H N. pose proof (bodies_ok ls H) as B. unfold assemble. rewrite parse_source by exact H. rewrite symbols_labels by exact B. fold (labels_of ls).
  assert (K : Forall (fun e => key_ok (fst e)) (labels_of ls)) by (apply labels_ok; [exact B|reflexivity]).
  destruct (distinct _) eqn:E; [|reflexivity]. apply (distinct_names _ K) in E. contradiction.
Qed.
Lemma no_dup_key (l : list (string * string)) : {NoDup l} + {~ NoDup l}.
Proof. apply ListDec.NoDup_dec. decide equality; apply string_dec. Qed.
Lemma assembled_meaning ls code : Forall line_ok ls -> code_size ls < 2 ^ 60 -> assemble (source ls) = Some code ->
  NoDup (map fst (labels_of ls)) /\ meaning (labels_of ls) 0 "" (bodies ls) = Some code.
Proof.
  intros H S A. destruct (no_dup_key (map fst (labels_of ls))) as [N|N]; [|rewrite P_C79_duplicate in A by assumption; discriminate].
  split; [exact N|]. rewrite <- P_C79_labels by assumption. exact A.
Qed.
(** ** Sizes *)
Lemma rules_bytes : forallb (fun r => Nat.eqb (length (ru_bytes r)) 4) rules = true.
Proof. vm_compute. reflexivity. Qed.
Lemma eval_bytes_length vs bs : forall l, eval_bytes vs bs = Some l -> length l = length bs.
Proof.
  induction bs as [|b bs IH]; intros l E; cbn [eval_bytes] in E; [injection E as <-; reflexivity|]. destruct (eval_byte vs b); [|discriminate]. destruct (eval_bytes vs bs); [|discriminate]. injection E as <-. cbn [length]. f_equal. auto.
Qed.
Lemma instr_four syms m os bs : assemble_instr syms m os = Some bs -> zlen bs = 4.
Proof.
  unfold assemble_instr. destruct (all_matches syms m os) as [|x [|y l]] eqn:E; try discriminate. intros I. injection I as ->. assert (I : In bs (all_matches syms m os)) by (rewrite E; left; reflexivity). unfold all_matches in I.
  apply in_flat_map in I. destruct I as (r & I & J). pose proof rules_bytes as X. rewrite forallb_forall in X. apply X in I. apply Nat.eqb_eq in I. unfold apply_rule in J. destruct (String.eqb _ _); [|contradiction].
  destruct (match_operands _ _ _) as [vs|]; [|contradiction]. destruct (eval_bytes vs (ru_bytes r)) as [l|] eqn:Q; [|contradiction]. destruct J as [->|[]]. apply eval_bytes_length in Q. unfold zlen. rewrite Q, I. reflexivity.
Qed.
Lemma arg_words t scope args : (forall e, In e t -> 0 <= snd e < 2 ^ 64) -> Forall arg_ok args -> forall ws, all_resolved t scope args = Some ws -> Forall word ws.
Proof.
  intros AB H. induction H as [|a args H _ IH]; intros ws E; cbn [all_resolved] in E; [injection E as <-; constructor|].
  destruct (resolved t scope a) as [x|] eqn:R; [|discriminate]. destruct (all_resolved t scope args) as [y|]; [|discriminate]. injection E as <-. constructor; [|apply IH; reflexivity].
  assert (Y : forall k, option_map fmt_hex (address t k) = Some x -> word x). { intros k Z. destruct (address t k) as [b|] eqn:D; [|discriminate]. injection Z as <-. apply address_in in D. apply AB in D. apply hex_word. exact D. }
  destruct a as [w|n|l|l]; cbn [resolved arg_ok] in *.
  - injection R as <-. apply reserved_word. exact H.
  - injection R as <-. apply hex_word. lia.
  - eapply Y. exact R.
  - eapply Y. exact R.
Qed.
Lemma text_instr m ws : word m -> Forall word ws -> assemble (instr_text m ws) = assemble_instr [] m (map (fun w => parse_operand [TWord w]) ws).
Proof.
  intros M W. apply assemble_line. split; [apply instr_nl; assumption|]. eexists. split; [rewrite <- (append_nil (instr_text m ws)); apply parse_text; [exact M|exact W|apply ends_nil]|]. reflexivity.
Qed.
Lemma body_length t pos scope b bs : (forall e, In e t -> 0 <= snd e < 2 ^ 64) -> body_ok b -> body_bytes t pos scope b = Some bs -> pos + zlen bs = next_pos pos b.
Proof.
  intros AB H E. assert (A : 0 <= aligned pos - pos) by (unfold aligned; lia). destruct b as [l|l|m args|n|s|]; cbn [body_bytes next_pos body_ok] in *.
  - injection E as <-. unfold zlen. rewrite repeat_length. lia.
  - destruct (String.eqb scope ""); [discriminate|]. injection E as <-. unfold zlen. rewrite repeat_length. lia.
  - destruct H as (M & H). destruct (all_resolved t scope args) as [ws|] eqn:R; [|discriminate]. rewrite text_instr in E; [|apply identifier_word; exact M|exact (arg_words t scope args AB H ws R)]. apply instr_four in E. lia.
  - injection E as <-. reflexivity.
  - injection E as <-. unfold zlen. rewrite map_length. f_equal. f_equal. induction s; cbn; congruence.
  - injection E as <-. unfold zlen. cbn. lia.
Qed.
Lemma meaning_app t a : forall pos scope b, meaning t pos scope (a ++ b) =
  match meaning t pos scope a, meaning t (fold_left next_pos a pos) (fold_left next_scope a scope) b with Some x, Some y => Some (x ++ y) | _, _ => None end.
Proof.
  induction a as [|x a IH]; intros pos scope b; cbn [List.app meaning fold_left]; [destruct (meaning t pos scope b); reflexivity|]. rewrite IH. destruct (body_bytes t pos scope x) as [bx|]; [|reflexivity].
  destruct (meaning t _ _ a) as [ba|]; [|reflexivity]. destruct (meaning t _ _ b); [|reflexivity]. rewrite app_assoc. reflexivity.
Qed.
Lemma meaning_length t bs : (forall e, In e t -> 0 <= snd e < 2 ^ 64) -> Forall body_ok bs -> forall pos scope code, meaning t pos scope bs = Some code -> pos + zlen code = fold_left next_pos bs pos.
Proof.
  intros AB. induction 1 as [|b bs H _ IH]; intros pos scope code E; cbn [meaning fold_left] in *; [injection E as <-; unfold zlen; cbn; lia|].
  destruct (body_bytes t pos scope b) as [x|] eqn:X; [|discriminate]. destruct (meaning t _ _ bs) as [y|] eqn:Y; [|discriminate]. injection E as <-. apply body_length in X; [|assumption..]. apply IH in Y. rewrite zlen_app. lia.
Qed.
Lemma bounded ls : code_size ls < 2 ^ 60 -> forall e, In e (labels_of ls) -> 0 <= snd e < 2 ^ 64.
Proof. intros S e I. apply labels_bound in I. unfold code_size in S. lia. Qed.
(** The code has the size of its lines. *)
Lemma P_C79_size : forall ls code, Forall line_ok ls -> code_size ls < 2 ^ 60 -> assemble (source ls) = Some code -> zlen code = code_size ls.
Proof.
  intros ls code H S A. destruct (assembled_meaning ls code H S A) as (_ & M). apply meaning_length in M; [|apply bounded; exact S|apply bodies_ok; exact H]. unfold code_size. lia.
Qed.
Lemma labels_app a : forall pos scope b, labels pos scope (a ++ b) = labels pos scope a ++ labels (fold_left next_pos a pos) (fold_left next_scope a scope) b.
Proof. induction a as [|x a IH]; intros pos scope b; cbn [List.app labels fold_left]; [reflexivity|]. rewrite IH, app_assoc. reflexivity. Qed.
Lemma address_nodup t : NoDup (map fst t) -> forall k a, In (k, a) t -> address t k = Some a.
Proof.
  induction t as [|[j b] t IH]; intros N k a I; [contradiction|]. cbn [map fst] in N. inversion N as [|? ? X Y]; subst. cbn [address]. destruct (key_eqb_spec j k) as [->|D].
  - destruct I as [I|I]; [congruence|]. destruct X. apply in_map_iff. exists (k, a). auto.
  - destruct I as [I|I]; [congruence|]. auto.
Qed.
(** The address of a label is where the code of the next line starts, the next multiple of four after the code before it, which is followed by
    zeros up to there. *)
Lemma P_C79_address : forall l1 l l2 code k, Forall line_ok (l1 ++ l :: l2) -> code_size (l1 ++ l :: l2) < 2 ^ 60 ->
  assemble (source (l1 ++ l :: l2)) = Some code -> body_key (scope_after l1) (l_body l) = Some k ->
  exists c1 n c2, code = c1 ++ repeat 0 n ++ c2 /\ zlen c1 = code_size l1 /\ (n < 4)%nat /\ address (labels_of (l1 ++ l :: l2)) k = Some (zlen c1 + Z.of_nat n) /\ (zlen c1 + Z.of_nat n) mod 4 = 0.
Proof.
  intros l1 l l2 code k H S A K. destruct (assembled_meaning _ code H S A) as (N & M). pose proof (bounded _ S) as AB. pose proof (bodies_ok _ H) as B. unfold bodies in *. rewrite map_app in M, B. cbn [map] in M, B. rewrite meaning_app in M. cbn [meaning] in M.
  destruct (meaning _ 0 "" (map l_body l1)) as [c1|] eqn:M1; [|discriminate]. apply Forall_app in B. destruct B as (B1 & B2).
  pose proof (meaning_length _ _ AB B1 _ _ _ M1) as L1. cbn [Z.add] in L1. fold (bodies l1) in M, L1. fold (code_size l1) in M, L1. fold (scope_after l1) in M.
  assert (X : exists n y, body_bytes (labels_of (l1 ++ l :: l2)) (code_size l1) (scope_after l1) (l_body l) = Some (repeat 0 n) /\ n = Z.to_nat (aligned (code_size l1) - code_size l1) /\ code = c1 ++ repeat 0 n ++ y).
  { destruct (body_bytes _ _ _ _) as [x|] eqn:BB; [|discriminate]. destruct (meaning _ _ _ (map l_body l2)) as [y|]; [|discriminate]. injection M as <-. destruct (l_body l); cbn [body_key body_bytes] in *; try discriminate.
    - injection BB as <-. eauto.
    - destruct (String.eqb _ _); [discriminate|]. injection BB as <-. eauto. }
  destruct X as (n & y & _ & En & Ec). exists c1, n, y. split; [exact Ec|]. split; [lia|]. assert (En2 : zlen c1 + Z.of_nat n = aligned (code_size l1)) by (rewrite En; unfold aligned; lia).
  split; [rewrite En; unfold aligned; lia|]. rewrite En2. split; [|unfold aligned; lia].
  apply address_nodup; [exact N|]. unfold labels_of, bodies. rewrite map_app. cbn [map]. rewrite labels_app. apply in_or_app. right. cbn [labels]. apply in_or_app. left.
  fold (bodies l1). fold (scope_after l1). fold (code_size l1). destruct (l_body l); cbn [body_key] in K; try discriminate; injection K as <-; left; reflexivity.
Qed.
(** ** Labels as operands *)
Lemma used_key t scope x k : arg_key scope x = Some k -> resolved t scope x = option_map fmt_hex (address t k).
Proof. destruct x; cbn [arg_key resolved]; intros E; try discriminate; injection E as <-; reflexivity. Qed.
Lemma resolved_in t scope args ws : all_resolved t scope args = Some ws -> forall x, In x args -> exists w, resolved t scope x = Some w /\ In w ws.
Proof.
  revert ws. induction args as [|a args IH]; intros ws E x I; [contradiction|]. cbn [all_resolved] in E. destruct (resolved t scope a) as [y|] eqn:R; [|discriminate]. destruct (all_resolved t scope args) as [r|]; [|discriminate]. injection E as <-.
  destruct I as [<-|I]; [exists y; split; [exact R|left; reflexivity]|]. destruct (IH r eq_refl x I) as (w & W & J). exists w. split; [exact W|right; exact J].
Qed.
Lemma big_operand n p : 65536 <= n -> match_operand [] p (ONum n) = None.
Proof. intros H. destruct p; cbn [match_operand named integer]; try reflexivity; unfold range; destruct (Z.leb_spec (-32768) n); destruct (Z.ltb_spec n 65536), (Z.ltb_spec n 256); try lia; rewrite ?andb_false_r; reflexivity. Qed.
(** In a source that assembles, every label named in an instruction is defined and its address is below 65536. *)
Lemma P_C79_reach : forall l1 l l2 code m args x k, Forall line_ok (l1 ++ l :: l2) -> code_size (l1 ++ l :: l2) < 2 ^ 60 ->
  assemble (source (l1 ++ l :: l2)) = Some code -> l_body l = BInstr m args -> In x args -> arg_key (scope_after l1) x = Some k ->
  exists a, address (labels_of (l1 ++ l :: l2)) k = Some a /\ 0 <= a < 65536.
Proof.
  intros l1 l l2 code m args x k H S A EB I K. destruct (assembled_meaning _ code H S A) as (N & M). pose proof (bounded _ S) as AB. pose proof (bodies_ok _ H) as B. unfold bodies in *. rewrite map_app in M, B. cbn [map] in M, B. rewrite meaning_app in M. cbn [meaning] in M.
  destruct (meaning _ 0 "" (map l_body l1)) as [c1|]; [|discriminate]. apply Forall_app in B. destruct B as (_ & B). inversion B as [|? ? B0 _]; subst. rewrite EB in B0, M. cbn [body_bytes body_ok] in *. destruct B0 as (MI & AO). fold (bodies l1) in M. fold (scope_after l1) in M.
  destruct (all_resolved _ _ args) as [ws|] eqn:R; [|discriminate]. destruct (resolved_in _ _ _ _ R x I) as (w & W & J). rewrite (used_key _ _ _ _ K) in W.
  destruct (address _ k) as [a|] eqn:D; [|discriminate]. cbn [option_map] in W. injection W as <-. exists a. split; [reflexivity|]. pose proof (AB _ (address_in _ _ _ D)) as Ba. cbn [snd] in Ba. split; [lia|].
  destruct (Z.lt_ge_cases a 65536) as [|G]; [assumption|]. exfalso. assert (X : assemble (instr_text m ws) = None); [|rewrite X in M; discriminate].
  rewrite text_instr; [|apply identifier_word; exact MI|exact (arg_words _ _ _ AB AO _ R)]. apply hopeless_instr. apply Exists_exists. exists (ONum a). split; [|intros p; apply big_operand; exact G].
  apply in_map_iff. exists (fmt_hex a). split; [apply hex_operand; exact Ba|exact J].
Qed.
(** In a source that assembles, [jp], [call] and [cpy] to a label run as the instruction with its address. *)
Lemma P_C79_jump : forall l1 l l2 code m args x i k, Forall line_ok (l1 ++ l :: l2) -> code_size (l1 ++ l :: l2) < 2 ^ 60 ->
  assemble (source (l1 ++ l :: l2)) = Some code -> l_body l = BInstr m args -> takes x m args i -> arg_key (scope_after l1) x = Some k ->
  exists a c1 bs c2, address (labels_of (l1 ++ l :: l2)) k = Some a /\ code = c1 ++ list_of_bytes bs ++ c2 /\ zlen c1 = code_size l1 /\ runs_as bs (i a).
Proof.
  intros l1 l l2 code m args x i k H S A EB T K. assert (I : In x args) by (destruct T; cbn [In]; auto). destruct (P_C79_reach l1 l l2 code m args x k H S A EB I K) as (a & D & Ba). exists a.
  destruct (assembled_meaning _ code H S A) as (N & M). pose proof (bounded _ S) as AB. pose proof (bodies_ok _ H) as B. unfold bodies in *. rewrite map_app in M, B. cbn [map] in M, B. rewrite meaning_app in M. cbn [meaning] in M.
  destruct (meaning _ 0 "" (map l_body l1)) as [c1|] eqn:M1; [|discriminate]. apply Forall_app in B. destruct B as (B1 & _). pose proof (meaning_length _ _ AB B1 _ _ _ M1) as L1. cbn [Z.add] in L1.
  fold (bodies l1) in M, L1. fold (scope_after l1) in M. fold (code_size l1) in M, L1. rewrite EB in M. cbn [body_bytes] in M.
  assert (X : exists ws, all_resolved (labels_of (l1 ++ l :: l2)) (scope_after l1) args = Some ws /\ exists bs, assemble (instr_text m ws) = Some (list_of_bytes bs) /\ runs_as bs (i a)).
  { pose proof (used_key (labels_of (l1 ++ l :: l2)) _ _ _ K) as U. rewrite D in U. cbn [option_map] in U. destruct T; cbn [all_resolved resolved]; rewrite U; eexists; (split; [reflexivity|]).
    - apply (P_C73_short (SJp (Lit2 a))); [exact Ba|reflexivity].
    - apply P_C69_written; [exact Ba|reflexivity].
    - apply P_C69_written; [exact Ba|reflexivity]. }
  destruct X as (ws & R & bs & E & RA). rewrite R, E in M. destruct (meaning _ _ _ (map l_body l2)) as [y|]; [|discriminate]. injection M as <-. exists c1, bs, y. auto.
Qed.
(** A local label before any global one is an error. *)
Lemma P_C79_orphan : forall l1 l l2 n, Forall line_ok (l1 ++ l :: l2) -> code_size (l1 ++ l :: l2) < 2 ^ 60 -> l_body l = BLocal n -> scope_after l1 = "" -> assemble (source (l1 ++ l :: l2)) = None.
Proof.
  intros l1 l l2 n H S EB SC. destruct (assemble (source (l1 ++ l :: l2))) as [code|] eqn:A; [|reflexivity]. exfalso. destruct (assembled_meaning _ code H S A) as (N & M). unfold bodies in M. rewrite map_app in M. cbn [map] in M. rewrite meaning_app in M. cbn [meaning] in M.
  destruct (meaning _ 0 "" (map l_body l1)) as [c1|]; [|discriminate]. fold (bodies l1) in M. fold (scope_after l1) in M. rewrite EB, SC in M. discriminate.
Qed.
Definition a_source : list line :=
  [Line 0 (BLabel "start") None; Line 4 (BInstr "cpy" [AName "a0"; AGlobal "msg"]) (Some "take it"); Line 4 (BInstr "jp" [ALocal "end"]) None;
   Line 0 (BLocal "end") None; Line 4 (BInstr "call" [AGlobal "go"]) None; Line 0 BNothing None;
   Line 0 (BLabel "msg") None; Line 2 (BText "Hi!""") None; Line 2 (BText "?") None; Line 0 (BLabel "go") (Some ": here"); Line 0 (BLocal "end") None; Line 1 (BInstr "jp" [ALocal "end"]) None; Line 0 (BWord 305419896) None].
Lemma a_source_ok : Forall line_ok a_source.
Proof. repeat constructor; try discriminate; vm_compute; intuition discriminate. Qed.
Lemma E_C79_labels : source (firstn 3 a_source) = ("start:" ++ newline ++ "    cpy a0, msg ; take it" ++ newline ++ "    jp .end")%string /\ Forall line_ok a_source /\ code_size a_source < 2 ^ 60 /\ NoDup (map fst (labels_of a_source)) /\
  meaning (labels_of a_source) 0 "" (bodies a_source) = Some [12; 0; 0; 12; 12; 22; 0; 8; 216; 0; 20; 0; 72; 105; 33; 34; 63; 0; 0; 0; 12; 22; 0; 20; 18; 52; 86; 120].
Proof.
  split; [reflexivity|]. split; [exact a_source_ok|]. split; [vm_compute; reflexivity|]. split; [|vm_compute; reflexivity].
  vm_compute. repeat constructor; cbn; intuition discriminate.
Qed.
Lemma E_C79_duplicate : let ls := a_source ++ [Line 0 (BLocal "end") None] in Forall line_ok ls /\ ~ NoDup (map fst (labels_of ls)).
Proof.
  split; [apply Forall_app; split; [exact a_source_ok|repeat constructor]|]. vm_compute. intros N. do 4 (inversion N as [|? ? _ N0]; clear N; rename N0 into N; subst). inversion N as [|? ? X _]. apply X. left. reflexivity.
Qed.
Lemma E_C79_size : assemble (source a_source) = Some [12; 0; 0; 12; 12; 22; 0; 8; 216; 0; 20; 0; 72; 105; 33; 34; 63; 0; 0; 0; 12; 22; 0; 20; 18; 52; 86; 120] /\ code_size a_source = 28.
Proof. split; vm_compute; reflexivity. Qed.
Lemma E_C79_address : a_source = firstn 9 a_source ++ Line 0 (BLabel "go") (Some ": here") :: skipn 10 a_source /\ code_size (firstn 9 a_source) = 17 /\ address (labels_of a_source) ("go", "") = Some 20.
Proof. split; [reflexivity|]. split; vm_compute; reflexivity. Qed.
Lemma E_C79_reach : a_source = firstn 2 a_source ++ Line 4 (BInstr "jp" [ALocal "end"]) None :: skipn 3 a_source /\ arg_key (scope_after (firstn 2 a_source)) (ALocal "end") = Some ("start", "end") /\ address (labels_of a_source) ("start", "end") = Some 8.
Proof. split; [reflexivity|]. split; vm_compute; reflexivity. Qed.
Lemma E_C79_jump : a_source = firstn 1 a_source ++ Line 4 (BInstr "cpy" [AName "a0"; AGlobal "msg"]) (Some "take it") :: skipn 2 a_source /\ takes (AGlobal "msg") "cpy" [AName (reg_name R_a0); AGlobal "msg"] (fun a => Cpy R_a0 (Lit2 a)) /\ address (labels_of a_source) ("msg", "") = Some 12.
Proof. split; [reflexivity|]. split; [apply takes_cpy|vm_compute; reflexivity]. Qed.
Lemma E_C79_orphan : Forall line_ok [Line 0 (BInstr "halt" []) None; Line 0 (BLocal "end") None] /\ code_size [Line 0 (BInstr "halt" []) None; Line 0 (BLocal "end") None] < 2 ^ 60 /\ scope_after [Line 0 (BInstr "halt" []) None] = "".
Proof. split; [repeat constructor|]. split; vm_compute; reflexivity. Qed.
