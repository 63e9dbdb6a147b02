(** C69: LASM text. *)
From Coq Require Import String Ascii ZArith List Bool Lia.
From Verif Require Import Base Mem Asm Tools LasmRules Lasm SpecAsm SpecLasm BaseFacts RegFacts ProofAsm LasmFacts.
From Verif Require Import Cpu Board SpecMach SpecIsa SpecBus SpecObs SpecExt.
Import ListNotations.
Open Scope string_scope.
Open Scope Z_scope.
Ltac Zify.zify_post_hook ::= Z.div_mod_to_equations.

(** ** From lines to texts *)
Fixpoint all_some {A} (l : list (option (list A))) : option (list A) :=
  match l with [] => Some [] | Some x :: t => option_map (fun r => x ++ r)%list (all_some t) | None :: _ => None end.
Definition item_result (it : item) : option (list Z) :=
  match it with ILabel _ => None | IInstr m os => assemble_instr [] m os | IData bs => Some bs end.
Definition no_label (it : item) : Prop := match it with ILabel _ => False | _ => True end.
Lemma qualify_none os : map (qualify_operand "") os = os.
Proof. rewrite <- (map_id os) at 2. apply map_ext. intros [s| |]; try reflexivity. destruct s as [|c s]; [reflexivity|]. cbn. destruct c as [[] [] [] [] [] [] [] []]; reflexivity. Qed.
Lemma symbols_none l : Forall no_label l -> forall pos, symbols pos "" l = [].
Proof. induction 1 as [|it l H _ IH]; intros pos; [reflexivity|]. destruct it; cbn [symbols]; [contradiction|apply IH|apply IH]. Qed.
Lemma emit_none l : Forall no_label l -> forall pos, emit [] pos "" l = all_some (map item_result l).
Proof.
  induction 1 as [|it l H _ IH]; intros pos; [reflexivity|]. destruct it as [s|m os|bs]; [contradiction| |]; cbn [emit map item_result all_some].
  - rewrite qualify_none, IH. destruct (assemble_instr [] m os), (all_some (map item_result l)); reflexivity.
  - rewrite IH. reflexivity.
Qed.
Lemma split_concat : forall ts t, Forall (fun s => no_nl s = true) (t :: ts) -> split_lines (String.concat newline (t :: ts)) "" = t :: ts.
Proof.
  induction ts as [|u ts IH]; intros t H; inversion H as [|? ? H1 H2]; subst.
  - cbn [String.concat]. rewrite split_one by exact H1. reflexivity.
  - change (String.concat newline (t :: u :: ts)) with (t ++ newline ++ String.concat newline (u :: ts)). rewrite split_more by exact H1. rewrite IH by exact H2. reflexivity.
Qed.
Lemma parse_all ts rs : Forall2 assembles ts rs -> exists its, parse_lines ts = Some its /\ Forall no_label its /\ map item_result its = rs.
Proof.
  induction 1 as [|t r ts rs H _ IH]; [exists []; auto|]. destruct H as (_ & it & P & R). destruct IH as (its & E & N & M). exists (it :: its). cbn [parse_lines]. rewrite P, E. split; [reflexivity|].
  destruct it as [s|m os|bs]; [contradiction| |]; (split; [constructor; [exact I|exact N]|]); cbn [map item_result]; congruence.
Qed.
Lemma assemble_lines ts rs : Forall2 assembles ts rs -> assemble (String.concat newline ts) = all_some rs.
Proof.
  intros H. destruct ts as [|t ts]; [inversion H; reflexivity|]. unfold assemble.
  assert (N : Forall (fun s => no_nl s = true) (t :: ts)). { revert H. generalize (t :: ts). clear. induction 1; constructor; [apply H|assumption]. }
  rewrite split_concat by exact N. destruct (parse_all _ _ H) as (its & -> & L & <-). rewrite symbols_none by exact L. cbn [map distinct]. apply emit_none. exact L.
Qed.
Lemma assemble_line t r : assembles t r -> assemble t = r.
Proof.
  intros H. change t with (String.concat newline [t]). rewrite (assemble_lines [t] [r]) by (constructor; [exact H|constructor]). destruct r; cbn [all_some option_map]; [rewrite app_nil_r; reflexivity|reflexivity].
Qed.

(** ** Raw words *)
Lemma fmt_byte_digits n : is_u8 n -> fmt_byte n = String (hex_digit (n / 16)) (String (hex_digit (n mod 16)) "").
Proof.
  assert (X : zcheck (fun n => String.eqb (fmt_byte n) (String (hex_digit (n / 16)) (String (hex_digit (n mod 16)) ""))) = true) by (vm_compute; reflexivity).
  intros H. apply (zcheck_all _ X) in H. apply String.eqb_eq in H. exact H.
Qed.
Lemma fmt_byte_word n : is_u8 n -> all_chars is_word (fmt_byte n) = true.
Proof. intros H. rewrite fmt_byte_digits by exact H. cbn [all_chars]. rewrite (proj1 (hex_digit_word (n / 16) ltac:(side))), (proj1 (hex_digit_word (n mod 16) ltac:(side))). reflexivity. Qed.
Lemma fmt_byte_parse n rest acc : is_u8 n -> parse_digits 16 (fmt_byte n ++ rest) acc = parse_digits 16 rest (acc * 256 + n).
Proof.
  intros H. rewrite fmt_byte_digits by exact H. cbn [String.append parse_digits].
  destruct (hex_digit_word (n / 16) ltac:(side)) as (_ & -> & ->). destruct (hex_digit_word (n mod 16) ltac:(side)) as (_ & -> & ->).
  rewrite (proj2 (Z.ltb_lt (n / 16) 16) ltac:(side)), (proj2 (Z.ltb_lt (n mod 16) 16) ltac:(side)). f_equal. lia.
Qed.
Lemma raw_line oc bs t : bytes_wf bs -> pw_to_lasm oc (PRaw bs) = Ret t -> assembles t (Some (list_of_bytes bs)).
Proof.
  destruct bs as [[[a b] c] d]. intros (A & B & C & D) E. cbv beta iota zeta delta [pw_to_lasm] in E. apply ret_eq in E. subst t.
  set (w := "0x" ++ fmt_byte a ++ "_" ++ fmt_byte b ++ "_" ++ fmt_byte c ++ "_" ++ fmt_byte d).
  change ("#d32 0x" ++ fmt_byte a ++ "_" ++ fmt_byte b ++ "_" ++ fmt_byte c ++ "_" ++ fmt_byte d) with ("#" ++ "d32" ++ " " ++ w).
  assert (W : word w). { split; [|discriminate]. unfold w. rewrite !all_app, !fmt_byte_word by assumption. reflexivity. }
  split; [rewrite !no_nl_app, (word_no_nl w) by apply W; reflexivity|]. exists (IData (be_word (of_be4 a b c d))). split.
  - assert (L : lex ("#" ++ "d32" ++ " " ++ w) (LWord "") = Some [TSym "#"; TWord "d32"; TWord w]).
    { change (lex ("#" ++ "d32" ++ " " ++ w) (LWord "")) with (option_map (fun l => TSym "#" :: l) (lex ("d32" ++ " " ++ w) (LWord ""))). rewrite lex_space by (split; [reflexivity|discriminate]). rewrite lex_last by exact W. reflexivity. }
    unfold parse_line. rewrite L. change (String.eqb "d32" "d32") with true. cbv iota.
    assert (P : parse_operand [TWord w] = ONum (of_be4 a b c d)).
    { unfold w. cbn [parse_operand starts_with_digit]. change (is_digit "0") with true. cbv iota.
      assert (Q : parse_number ("0x" ++ fmt_byte a ++ "_" ++ fmt_byte b ++ "_" ++ fmt_byte c ++ "_" ++ fmt_byte d) = parse_digits 16 (fmt_byte a ++ "_" ++ fmt_byte b ++ "_" ++ fmt_byte c ++ "_" ++ fmt_byte d) 0).
      { rewrite (fmt_byte_digits a A). reflexivity. }
      cbn [String.append] in Q |- *. rewrite Q. rewrite fmt_byte_parse by exact A. cbn [parse_digits]. change ("_" =? "_")%char with true. cbv iota. rewrite fmt_byte_parse by exact B. cbn [parse_digits]. change ("_" =? "_")%char with true. cbv iota. rewrite fmt_byte_parse by exact C. cbn [parse_digits]. change ("_" =? "_")%char with true. cbv iota.
      rewrite <- (append_nil (fmt_byte d)). rewrite fmt_byte_parse by exact D. cbn [parse_digits]. cbn [starts_with_digit]. change (is_digit "0") with true. cbv iota. f_equal. unfold of_be4. clear; lia. }
    rewrite P. unfold of_be4 in *. destruct (Z.leb_spec (-2147483648) (a * 16777216 + b * 65536 + c * 256 + d)); [|side]. destruct (Z.ltb_spec (a * 16777216 + b * 65536 + c * 256 + d) 4294967296); [|side]. reflexivity.
  - cbn [list_of_bytes]. unfold be_word, of_be4, is_u8 in *. f_equal. f_equal; [lia|f_equal; [lia|f_equal; [lia|f_equal; lia]]].
Qed.

(** ** Instructions and programs *)
(** The text of an instruction assembles to an instruction the CPU runs as the [reassembled] one, or to nothing. *)
Lemma P_C69_instr : forall oc i t, instr_wf i -> to_lasm oc i = Ret t ->
  match reassembled i with
  | Some j => exists bs, assemble t = Some (list_of_bytes bs) /\ runs_as bs j
  | None => assemble t = None
  end.
Proof.
  intros oc i t W E. pose proof (back_all oc i t W E) as H. destruct (reassembled i) as [j|]; cbn [comes_back] in H.
  - destruct H as (bs & H & R). exists bs. split; [apply assemble_line; exact H|exact R].
  - apply assemble_line. exact H.
Qed.
Lemma word_line oc w t : word_wf w -> pw_to_lasm oc w = Ret t -> exists r, assembles t r /\ match r with Some l => exists bs, l = list_of_bytes bs /\ word_back w bs | None => word_rejected w end.
Proof.
  intros W E. destruct w as [i|bs].
  - pose proof (back_all oc i t W E) as H. cbn [word_back word_rejected]. destruct (reassembled i) as [j|]; cbn [comes_back] in H.
    + destruct H as (bs & H & R). exists (Some (list_of_bytes bs)). split; [exact H|]. exists bs. split; [reflexivity|]. exists j. auto.
    + exists None. auto.
  - exists (Some (list_of_bytes bs)). split; [exact (raw_line oc bs t W E)|]. exists bs. split; [reflexivity|]. reflexivity.
Qed.
Lemma lines_back oc : forall p ts, Forall word_wf p -> to_lasm_lines oc p = Ret ts -> exists rs, Forall2 assembles ts rs /\ Forall2 (fun w r => match r with Some l => exists bs, l = list_of_bytes bs /\ word_back w bs | None => word_rejected w end) p rs.
Proof.
  induction p as [|w p IH]; intros ts H E; cbn [to_lasm_lines] in E.
  - apply ret_eq in E. subst. exists []. split; constructor.
  - inversion H as [|? ? H1 H2]; subst. destruct (pw_to_lasm oc w) as [t|] eqn:T; try discriminate. cbn [obind] in E. destruct (to_lasm_lines oc p) as [us|] eqn:L; try discriminate. cbn [obind] in E. apply ret_eq in E. subst ts.
    destruct (word_line oc w t H1 T) as (r & A & B). destruct (IH us H2 eq_refl) as (rs & C & D). exists (r :: rs). split; constructor; assumption.
Qed.
Lemma all_back p rs : Forall2 (fun w r => match r with Some l => exists bs, l = list_of_bytes bs /\ word_back w bs | None => word_rejected w end) p rs ->
  match all_some rs with Some l => exists bss, l = flat_map list_of_bytes bss /\ Forall2 word_back p bss | None => Exists word_rejected p end.
Proof.
  induction 1 as [|w r p rs H _ IH]; cbn [all_some]; [exists []; split; [reflexivity|constructor]|]. destruct r as [l|]; [|constructor; exact H].
  destruct (all_some rs) as [k|]; cbn [option_map]; [|right; exact IH]. destruct H as (bs & -> & B), IH as (bss & -> & F). exists (bs :: bss). split; [reflexivity|constructor; assumption].
Qed.
(** Word by word, the text of a program assembles to [word_back]; it is rejected exactly when the text of some instruction is. *)
Lemma P_C69_program : forall oc p t, Forall word_wf p -> prog_to_lasm oc p false = Ret t ->
  match assemble t with
  | Some code => exists bss, code = flat_map list_of_bytes bss /\ Forall2 word_back p bss
  | None => Exists word_rejected p
  end.
Proof.
  intros oc p t W E. unfold prog_to_lasm in E. destruct (to_lasm_lines oc p) as [ts|] eqn:L; try discriminate. cbn [obind] in E. apply ret_eq in E. subst t.
  destruct (lines_back oc p ts W L) as (rs & A & B). rewrite (assemble_lines ts rs A). apply all_back. exact B.
Qed.
Lemma back_not_rejected p bss : Forall2 word_back p bss -> ~ Exists word_rejected p.
Proof. induction 1 as [|w bs p bss H _ IH]; intros X; inversion X; subst; [|auto]. destruct w as [i|r]; cbn in *; [|contradiction]. destruct H as (j & E & _). congruence. Qed.
(** The assembler rejects the listing of a program exactly when one of its words is of the kinds it cannot read. *)
Lemma P_C69_rejected : forall oc p t, Forall word_wf p -> prog_to_lasm oc p false = Ret t -> (assemble t = None <-> Exists word_rejected p).
Proof.
  intros oc p t W E. pose proof (P_C69_program oc p t W E) as H. destruct (assemble t) as [code|]; split; try discriminate; try tauto. intros X. destruct H as (bss & _ & F). destruct (back_not_rejected _ _ F X).
Qed.
(** Printing never fails in release builds, and in debug builds only on JPR -0x8000. *)
Lemma P_C69_prints : forall oc i, instr_wf i -> (exists t, to_lasm oc i = Ret t) \/ (to_lasm oc i = Panic /\ oc = true /\ i = Jpr (Lit2 32768)).
Proof.
  intros oc i W. destruct i; try (left; eexists; reflexivity).
  - left. destruct a; try (eexists; reflexivity); destruct b as [|[| |]]; eexists; reflexivity.
  - left. destruct b as [|[|[]|]]; eexists; reflexivity.
  - left. destruct b as [|[|[]|]]; eexists; reflexivity.
  - left. destruct b as [|[| |]]; eexists; reflexivity.
  - left. destruct b as [|[| |]]; eexists; reflexivity.
  - left. destruct b; eexists; reflexivity.
  - destruct a as [r|n]; [left; eexists; reflexivity|]. cbv beta iota zeta delta [to_lasm lasm2_signed obind]. destruct (n <? 32768); [left; eexists; reflexivity|]. destruct (Z.eqb_spec n 32768) as [->|]; [|left; eexists; reflexivity]. destruct oc; [right; auto|left; eexists; reflexivity].
  - left. destruct a; eexists; reflexivity.
Qed.
(** Listing a program succeeds, except in debug builds on a JPR of the literal 32768. *)
Lemma P_C69_prints_program : forall oc p ann, Forall word_wf p -> (exists t, prog_to_lasm oc p ann = Ret t) \/ (prog_to_lasm oc p ann = Panic /\ oc = true /\ In (PInstr (Jpr (Lit2 32768))) p).
Proof.
  assert (X : forall oc w, word_wf w -> (exists t, pw_to_lasm oc w = Ret t) \/ (pw_to_lasm oc w = Panic /\ oc = true /\ w = PInstr (Jpr (Lit2 32768)))).
  { intros oc w W. destruct w as [i|[[[a b] c] d]]; [|left; eexists; reflexivity]. destruct (P_C69_prints oc i W) as [H|(H & O & ->)]; [left|right]; auto. }
  assert (Y : forall oc p, Forall word_wf p -> (exists t, to_lasm_lines oc p = Ret t) \/ (to_lasm_lines oc p = Panic /\ oc = true /\ In (PInstr (Jpr (Lit2 32768))) p)).
  { intros oc p. induction p as [|w p IH]; intros H; [left; eexists; reflexivity|]. inversion H as [|? ? H1 H2]; subst. cbn [to_lasm_lines]. destruct (X oc w H1) as [(t & ->)|(-> & O & ->)]; cbn [obind]; [|right; split; [reflexivity|split; [exact O|left; reflexivity]]].
    destruct (IH H2) as [(ts & ->)|(-> & O & J)]; cbn [obind]; [left; eexists; reflexivity|right; split; [reflexivity|split; [exact O|right; exact J]]]. }
  assert (Z : forall oc p n, Forall word_wf p -> (exists t, to_lasm_annotated oc n p = Ret t) \/ (to_lasm_annotated oc n p = Panic /\ oc = true /\ In (PInstr (Jpr (Lit2 32768))) p)).
  { intros oc p. induction p as [|w p IH]; intros n H; [left; eexists; reflexivity|]. inversion H as [|? ? H1 H2]; subst. cbn [to_lasm_annotated]. destruct (X oc w H1) as [(t & ->)|(-> & O & ->)]; cbn [obind]; [|right; split; [reflexivity|split; [exact O|left; reflexivity]]].
    destruct (IH (n + 4) H2) as [(ts & ->)|(-> & O & J)]; cbn [obind]; [left; eexists; reflexivity|right; split; [reflexivity|split; [exact O|right; exact J]]]. }
  intros oc p ann W. unfold prog_to_lasm. destruct ann; [destruct (Z oc p 0 W) as [(ts & ->)|(-> & H)]|destruct (Y oc p W) as [(ts & ->)|(-> & H)]]; cbn [obind]; [left; eexists; reflexivity|right; auto|left; eexists; reflexivity|right; auto].
Qed.
(** ** Disassembling and assembling again *)
Lemma word_back_faithful w bs : faithful w -> word_back w bs -> match w with PInstr i => decode bs = ROk i /\ bs = assembled i | PRaw r => bs = r end.
Proof. destruct w as [i|r]; cbn; [|auto]. intros F (j & E & (_ & D & A)). rewrite F in E. injection E as <-. auto. Qed.
Lemma quads_flat bss : quads (flat_map list_of_bytes bss) = bss.
Proof. induction bss as [|bs t IH]; [reflexivity|]. cbn [flat_map]. rewrite quads_app4, IH. reflexivity. Qed.
Lemma flat_len bss : zlen (flat_map list_of_bytes bss) = 4 * zlen bss.
Proof. induction bss as [|[[[a b] c] d] t IH]; [reflexivity|]. unfold zlen in *. cbn [flat_map list_of_bytes List.app length] in *. lia. Qed.
Lemma quads_wf l : Forall is_u8 l -> Forall bytes_wf (quads l).
Proof.
  induction l using list4_ind; cbn [quads]; intros H; try (constructor; fail).
  rewrite !Forall_cons_iff in H. destruct H as (?&?&?&?&?). constructor; [repeat split; try apply H; try apply H0; try apply H1; try apply H2|auto].
Qed.
Lemma decoded_wf code p : Forall is_u8 code -> prog_decode code false = ROk p -> zlen code mod 4 = 0 /\ p = map pw_decode (quads code) /\ Forall word_wf p.
Proof.
  intros H E. assert (M : zlen code mod 4 = 0). { unfold prog_decode in E. destruct (Z.eqb_spec (zlen code mod 4) 0); [assumption|discriminate]. }
  split; [exact M|]. destruct (P_C44_raw code M) as (E1 & _). rewrite E1 in E. injection E as <-. split; [reflexivity|].
  apply quads_wf in H. revert H. generalize (quads code). induction 1 as [|bs l H _ IH]; [constructor|]. cbn [map]. constructor; [|exact IH]. unfold pw_decode. pose proof (P_C42_decode bs H) as D. destruct (decode bs); cbn [word_wf]; [apply D|exact H].
Qed.
(** Any code whose text is accepted comes back, word by word: other bytes than instructions unchanged, instructions as said by [reassembled]. *)
Lemma P_C69_disassemble : forall oc code t, Forall is_u8 code -> disassemble oc code false = Ret (ROk t) ->
  match assemble t with
  | Some code' => zlen code' = zlen code /\
      Forall2 (fun bs bs' => match decode bs with ROk i => exists j, reassembled i = Some j /\ runs_as bs' j | RErr _ => bs' = bs end) (quads code) (quads code')
  | None => exists bs i, In bs (quads code) /\ decode bs = ROk i /\ reassembled i = None
  end.
Proof.
  intros oc code t H E. unfold disassemble in E. destruct (prog_decode code false) as [p|e] eqn:P; [|discriminate]. destruct (prog_to_lasm oc p false) as [u|] eqn:T; [|discriminate]. cbn [obind] in E. apply ret_eq in E. injection E as ->.
  destruct (decoded_wf code p H P) as (M & -> & W). pose proof (P_C69_program oc _ u W T) as X. destruct (assemble u) as [code'|].
  - destruct X as (bss & -> & F). rewrite quads_flat. split.
    + rewrite flat_len. assert (L : zlen bss = zlen (quads code)). { clear - F. unfold zlen. f_equal. revert F. generalize (quads code). induction bss; intros l F; destruct l; inversion F; subst; cbn [length]; [reflexivity|f_equal; auto]. }
      rewrite L. rewrite <- flat_len. destruct (P_C44_raw code M) as (_ & ->). reflexivity.
    + revert F. generalize (quads code). intros l F. remember (map pw_decode l) as q eqn:Q. revert l Q. induction F as [|w bs q bss B _ IH]; intros l Q; destruct l as [|a l]; cbn [map] in Q; try discriminate; [constructor|].
      injection Q as -> ->. constructor; [|apply IH; reflexivity]. unfold pw_decode in B. destruct (decode a); exact B.
  - rewrite Exists_exists in X. destruct X as (w & I & R). apply in_map_iff in I. destruct I as (bs & <- & I). exists bs. unfold pw_decode in R. destruct (decode bs) as [i|]; [|contradiction]. exists i. auto.
Qed.
(** Code all of whose instructions are faithful: the code that comes back decodes to the same program, is disassembled to the same text, and is the
    same if every instruction is in its normal form. *)
Lemma P_C69_roundtrip : forall oc code p t, Forall is_u8 code -> prog_decode code false = ROk p -> Forall faithful p -> disassemble oc code false = Ret (ROk t) ->
  exists code', assemble t = Some code' /\ prog_decode code' false = ROk p /\ disassemble oc code' false = Ret (ROk t) /\
    (Forall (fun bs => forall i, decode bs = ROk i -> bs = assembled i) (quads code) -> code' = code).
Proof.
  intros oc code p t H P FF E. pose proof (P_C69_disassemble oc code t H E) as X. destruct (decoded_wf code p H P) as (M & -> & W). destruct (assemble t) as [code'|] eqn:A.
  - exists code'. split; [reflexivity|]. destruct X as (L & X). assert (M' : zlen code' mod 4 = 0) by lia.
    assert (Q : prog_decode code' false = ROk (map pw_decode (quads code))).
    { destruct (P_C44_raw code' M') as (-> & _). f_equal. clear - X FF. revert FF. induction X as [|a b l l' B _ IH]; intros FF; [reflexivity|]. cbn [map] in *. inversion FF as [|? ? F1 F2]; subst. rewrite IH by exact F2. f_equal.
      unfold pw_decode in *. destruct (decode a) as [i|e] eqn:D; [|subst; rewrite D; reflexivity]. destruct B as (j & R & _ & -> & _). cbn [faithful] in F1. congruence. }
    split; [exact Q|]. split.
    + unfold disassemble in *. rewrite P in E. rewrite Q. exact E.
    + intros N. destruct (P_C44_raw code M) as (_ & <-). destruct (P_C44_raw code' M') as (_ & <-). f_equal. clear - X FF N. revert FF N. induction X as [|a b l l' B _ IH]; intros FF N; [reflexivity|]. cbn [map] in *. inversion FF as [|? ? F1 F2]; subst. inversion N as [|? ? N1 N2]; subst. rewrite IH by assumption. f_equal.
      unfold pw_decode in *. destruct (decode a) as [i|e] eqn:D; [|auto]. destruct B as (j & R & _ & _ & ->). cbn [faithful] in F1. rewrite F1 in R. injection R as <-. symmetry. apply N1. reflexivity.
  - destruct X as (bs & i & I & D & R). exfalso. rewrite Forall_forall in FF. specialize (FF (PInstr i)). cbn [faithful] in FF. rewrite FF in R; [discriminate|]. apply in_map_iff. exists bs. split; [unfold pw_decode; rewrite D; reflexivity|exact I].
Qed.
(** On the CPU. *)
Lemma P_C69_runs : forall D (ops : bus_ops D) oc m bs j mem1 m', runs_as bs j -> executes_word ops oc m (word_of_bytes bs) mem1 m' -> executes ops oc m j mem1 m'.
Proof.
  intros D ops oc m [[[a b] c] d] j mem1 m' ((A & B & C & E) & R & _) (H1 & H2 & H3). split; [exact H1|]. split; [|exact H3]. exists (word_of_bytes (a, b, c, d)). split; [exact H2|].
  assert (X : bytes_of_word (word_of_bytes (a, b, c, d)) = (a, b, c, d)). { unfold bytes_of_word, word_of_bytes, of_be4, u8, is_u8 in *. f_equal; [f_equal; [f_equal|]|]; lia. }
  rewrite X. exact R.
Qed.
(** The instructions printed as ZRO: MUL and AND by 0 do the same as what comes back ... *)
Lemma P_C69_zro : forall B (bs : @bus B) a s, step bs (Mul a (Lit2 0)) s = step bs (Xor a (Reg2 a)) s /\ step bs (And a (Lit2 0)) s = step bs (Xor a (Reg2 a)) s.
Proof.
  intros B bs a s. cbn [step read2]. unfold arith, read. destruct (can_read (sup s) a); [|auto]. cbn [alu_spec]. rewrite Z.mul_0_r, Z.land_0_r, Z.lxor_nilpotent, Z.mul_0_r. split; reflexivity.
Qed.
(** ... but a copy of 0 comes back as an instruction that changes the flags, *)
Lemma P_C69_zro_copy : forall B (bs : @bus B) a s s', length (s_reg s) = 32%nat -> can_read (sup s) a = true -> can_write (sup s) a = true -> a <> R_pc -> a <> R_af -> step bs (Cpy a (Lit2 0)) s = Ret s' ->
  step bs (Xor a (Reg2 a)) s = Ret (put s' R_af 140).
Proof.
  intros B bs a s s' LN CR CW N1 N2 E. cbn [step read2] in *. unfold arith, read, write_end, write in *. rewrite CR. rewrite CW in E. cbn [alu_spec]. rewrite Z.lxor_nilpotent.
  assert (F : flags_spec 0 false false = 140) by reflexivity. rewrite F. assert (S : sup (put s R_af 140) = sup s). { unfold sup, get, put. cbn [s_reg]. rewrite rg_rs_other by (exact LN || discriminate). reflexivity. }
  rewrite S, CW. assert (X : advance 4 (put s a 0) = Ret s') by (destruct a; try congruence; exact E). assert (Y : (match a with R_pc => Ret (put (put s R_af 140) a 0) | _ => advance 4 (put (put s R_af 140) a 0) end) = advance 4 (put (put s R_af 140) a 0)) by (destruct a; congruence || reflexivity).
  rewrite Y. unfold advance in *. apply ret_eq in X. subst s'. unfold put, get. cbn [s_reg s_bus s_cyc s_halt]. f_equal. f_equal.
  rewrite (rs_rs_comm (s_reg s) R_af a 140 0) by congruence. rewrite rg_rs_other by (rewrite ?rs_length; exact LN || discriminate). rewrite (rs_rs_comm (rs (s_reg s) a 0) R_af R_pc) by discriminate. reflexivity.
Qed.

(** ** The rules *)
(** Two kinds of operands nothing matches both. *)
Definition table_of (p : pat) : option (list (string * Z)) :=
  match p with PReg => Some table_reg | PFlag => Some table_arflag | PDivMode => Some table_div_mode | PHwInfo => Some table_hw_info | PIf2Mode => Some table_if2_mode | _ => None end.
Definition exclusive (p q : pat) : bool :=
  match table_of p, table_of q with
  | Some t, Some u => forallb (fun e => match lookup u (fst e) with None => true | Some _ => false end) t
  | None, None => false
  | _, _ => true
  end.
Lemma lookup_in t s n : lookup t s = Some n -> In (s, n) t.
Proof. induction t as [|[k v] t IH]; cbn [lookup]; [discriminate|]. destruct (String.eqb_spec k s) as [->|]; intros E; [injection E as ->; left; reflexivity|right; auto]. Qed.
Lemma match_table syms p t : table_of p = Some t -> forall o, match_operand syms p o = named t o.
Proof. destruct p; cbn; try discriminate; intros E o; injection E as <-; reflexivity. Qed.
Lemma match_int syms p : table_of p = None -> exists lo hi, forall o, match_operand syms p o = integer syms o lo hi.
Proof. destruct p; cbn; try discriminate; intros _; eauto. Qed.
Lemma reserved_table p t s n : table_of p = Some t -> lookup t s = Some n -> reserved s = true.
Proof. intros H L. unfold reserved. apply existsb_exists. exists t. split; [destruct p; cbn in H; try discriminate; injection H as <-; cbn; auto 10|rewrite L; reflexivity]. Qed.
Lemma exclusive_ok syms p q o v : (forall s n, In (s, n) syms -> reserved s = false) -> exclusive p q = true -> match_operand syms p o = Some v -> match_operand syms q o = None.
Proof.
  intros NR E M. unfold exclusive in E. destruct (table_of p) as [t|] eqn:P, (table_of q) as [u|] eqn:Q; try discriminate.
  - rewrite (match_table syms p t P) in M. rewrite (match_table syms q u Q). destruct o as [s| |]; try reflexivity. cbn [named] in *. apply lookup_in in M. rewrite forallb_forall in E. apply E in M. cbn [fst] in M. destruct (lookup u s); [discriminate|reflexivity].
  - rewrite (match_table syms p t P) in M. destruct (match_int syms q Q) as (lo & hi & ->). destruct o as [s| |]; try discriminate. cbn [named integer] in *. apply (reserved_table _ _ _ _ P) in M. destruct (lookup syms s) as [n|] eqn:L; [|reflexivity]. apply lookup_in, NR in L. congruence.
  - destruct (match_int syms p P) as (lo & hi & X). rewrite X in M. rewrite (match_table syms q u Q). destruct o as [s| |]; try reflexivity. cbn [named integer] in *. destruct (lookup u s) as [k|] eqn:L; [|reflexivity]. apply (reserved_table _ _ _ _ Q) in L. destruct (lookup syms s) as [n|] eqn:K; [|discriminate]. apply lookup_in, NR in K. congruence.
Qed.
Fixpoint apart (ps qs : list pat) : bool :=
  match ps, qs with [], [] => false | p :: ps, q :: qs => exclusive p q || apart ps qs | _, _ => true end.
Lemma apart_ok syms : (forall s n, In (s, n) syms -> reserved s = false) -> forall ps qs os vs, apart ps qs = true -> match_operands syms ps os = Some vs -> match_operands syms qs os = None.
Proof.
  intros NR. induction ps as [|p ps IH]; intros [|q qs] [|o os] vs A M; cbn [apart match_operands] in *; try discriminate; try reflexivity.
  destruct (match_operand syms p o) as [v|] eqn:E; [|discriminate]. destruct (match_operands syms ps os) as [ws|] eqn:F; [|discriminate]. destruct (exclusive p q) eqn:X.
  - rewrite (exclusive_ok syms p q o v NR X E). reflexivity.
  - cbn [orb] in A. rewrite (IH qs os ws A F). destruct (match_operand syms q o); reflexivity.
Qed.
Definition rules_apart (r q : rule) : bool := negb (String.eqb (ru_mnemonic r) (ru_mnemonic q)) || apart (ru_operands r) (ru_operands q).
Fixpoint all_apart (l : list rule) : bool := match l with [] => true | r :: t => forallb (rules_apart r) t && all_apart t end.
(** No instruction matches two rules, whatever the labels, if no label is the name of a register, a flag, a mode... *)
Lemma P_C69_unambiguous : forall syms m os, (forall s n, In (s, n) syms -> reserved s = false) ->
  (length (all_matches syms m os) <= 1)%nat.
Proof.
  intros syms m os NR. unfold all_matches. assert (X : all_apart rules = true) by (vm_compute; reflexivity). revert X. generalize rules. induction l as [|r l IH]; intros X; cbn [flat_map]; [cbn; lia|].
  cbn [all_apart] in X. apply andb_prop in X. destruct X as (X & Y). specialize (IH Y). rewrite app_length. unfold apply_rule at 1. destruct (String.eqb_spec (ru_mnemonic r) m) as [E|]; [|exact IH].
  destruct (match_operands syms (ru_operands r) os) as [vs|] eqn:M; [|exact IH]. destruct (eval_bytes vs (ru_bytes r)); [|exact IH].
  assert (Z : flat_map (apply_rule syms m os) l = []).
  { clear IH Y. induction l as [|q l IH]; [reflexivity|]. cbn [forallb] in X. apply andb_prop in X. destruct X as (X1 & X2). cbn [flat_map]. rewrite IH by exact X2. rewrite app_nil_r. unfold apply_rule. destruct (String.eqb_spec (ru_mnemonic q) m) as [F|]; [|reflexivity].
    unfold rules_apart in X1. rewrite E, F, String.eqb_refl in X1. cbn [negb orb] in X1. rewrite (apart_ok syms NR _ _ _ _ X1 M). reflexivity. }
  rewrite Z. cbn. lia.
Qed.
(** Whatever the assembler emits for an instruction is four bytes the CPU and the disassembler know as an instruction. *)
Definition reg_source (ps : list pat) (e : byte_expr) : bool :=
  match e with BConst n => (0 <=? n) && (n <? 32) | BLow k => match nth_error ps k with Some PReg => true | _ => false end | _ => false end.
Definition needs_reg (c : Z) (k : nat) : bool :=
  match format (u8 c / 8) with
  | Some ks => match nth_error ks k with Some KReg => true | Some _ => Z.testbit (u8 c) (2 - Z.of_nat k) | None => false end
  | None => false
  end.
Definition rule_ok (r : rule) : bool :=
  match ru_bytes r with
  | [BConst c; e0; e1; e2] => negb (u8 c / 8 =? 0) && (negb (needs_reg c 0) || reg_source (ru_operands r) e0) && (negb (needs_reg c 1) || reg_source (ru_operands r) e1) && (negb (needs_reg c 2) || reg_source (ru_operands r) e2)
     || existsb (fun e => match e with BUnknown => true | _ => false end) [e0; e1; e2]
  | _ => false
  end.
Lemma eval_u8 vs e x : eval_byte vs e = Some x -> is_u8 x.
Proof. destruct e; cbn; try discriminate; [intros E; injection E as <-; apply u8_bytes| |]; destruct (nth_error vs k); cbn; try discriminate; intros E; injection E as <-; apply u8_bytes. Qed.
Lemma source_reg syms ps os vs e x : match_operands syms ps os = Some vs -> reg_source ps e = true -> eval_byte vs e = Some x -> x < 32.
Proof.
  intros M S E. destruct e as [n|k|k|]; cbn in S; try discriminate.
  - cbn in E. injection E as <-. unfold u8. lia.
  - cbn in E. revert k os vs M S E. induction ps as [|p ps IH]; intros k os vs M S E; [destruct k; discriminate|]. destruct os as [|o os]; [discriminate|]. cbn [match_operands] in M.
    destruct (match_operand syms p o) as [v|] eqn:P; [|discriminate]. destruct (match_operands syms ps os) as [ws|] eqn:Q; [|discriminate]. injection M as <-. destruct k as [|k]; cbn [nth_error] in *; [|exact (IH k os ws Q S E)].
    destruct p; try discriminate. change (named table_reg o = Some v) in P. cbn in E. injection E as <-. destruct o as [s| |]; try discriminate. change (lookup table_reg s = Some v) in P. apply lookup_in in P. assert (Y : forallb (fun e => snd e <? 32) table_reg = true) by (vm_compute; reflexivity). rewrite forallb_forall in Y. pose proof P as P2. apply Y in P. cbn [snd] in P.
    assert (Y2 : forallb (fun e => 0 <=? snd e) table_reg = true) by (vm_compute; reflexivity). rewrite forallb_forall in Y2. apply Y2 in P2. cbn [snd] in P2. unfold u8. lia.
Qed.
(** What the assembler makes of an instruction is four bytes that decode. *)
Lemma P_C69_valid : forall syms m os bs, assemble_instr syms m os = Some bs -> exists a b c d i, bs = [a; b; c; d] /\ bytes_wf (a, b, c, d) /\ decode (a, b, c, d) = ROk i.
Proof.
  intros syms m os bs A. unfold assemble_instr in A. assert (I : In bs (all_matches syms m os)). { destruct (all_matches syms m os) as [|x [|]]; try discriminate. injection A as <-. left. reflexivity. }
  clear A. unfold all_matches in I. apply in_flat_map in I. destruct I as (r & R & I). unfold apply_rule in I. destruct (String.eqb (ru_mnemonic r) m); [|contradiction]. destruct (match_operands syms (ru_operands r) os) as [vs|] eqn:M; [|contradiction].
  destruct (eval_bytes vs (ru_bytes r)) as [l|] eqn:V; [|contradiction]. destruct I as [->|[]]. assert (K : forallb rule_ok rules = true) by (vm_compute; reflexivity). rewrite forallb_forall in K. apply K in R. clear K. unfold rule_ok in R.
  destruct (ru_bytes r) as [|[c| | |] [|e0 [|e1 [|e2 [|]]]]]; try discriminate. cbn [eval_bytes] in V. change (eval_byte vs (BConst c)) with (Some (u8 c)) in V. cbv iota in V.
  destruct (eval_byte vs e0) as [x0|] eqn:V0; [|discriminate]. destruct (eval_byte vs e1) as [x1|] eqn:V1; [|discriminate]. destruct (eval_byte vs e2) as [x2|] eqn:V2; [|discriminate]. injection V as <-.
  assert (NU : existsb (fun e => match e with BUnknown => true | _ => false end) [e0; e1; e2] = false). { destruct e0, e1, e2; try discriminate; reflexivity. }
  rewrite NU, orb_false_r in R. apply andb_prop in R. destruct R as (R & R2). apply andb_prop in R. destruct R as (R & R1). apply andb_prop in R. destruct R as (R & R0).
  assert (WF : bytes_wf (u8 c, x0, x1, x2)). { split; [apply u8_bytes|]. split; [exact (eval_u8 _ _ _ V0)|]. split; [exact (eval_u8 _ _ _ V1)|exact (eval_u8 _ _ _ V2)]. }
  pose proof (P_C42_decode _ WF) as D. destruct (decode (u8 c, x0, x1, x2)) as [i|[|o|k0 c0]] eqn:E; [exists (u8 c), x0, x1, x2, i; auto| | |]; exfalso.
  - exact D.
  - destruct D as (D1 & D2). rewrite D1 in D2. unfold opcode_of in D2. change (byte_at (u8 c, x0, x1, x2) 0) with (u8 c) in D2. rewrite D2 in R. discriminate.
  - destruct D as (n & _ & ((ks & F & B1) & B2) & _ & _). unfold opcode_of in F. change (byte_at (u8 c, x0, x1, x2) 0) with (u8 c) in F.
    assert (N : needs_reg c n = true). { unfold needs_reg. rewrite F. destruct (nth_error ks n) as [[]|]; try reflexivity; try contradiction; exact B1. }
    assert (N3 : (n < 3)%nat). { destruct (nth_error ks n) eqn:NE; [|contradiction]. assert (n < length ks)%nat by (apply nth_error_Some; congruence). assert (length ks <= 3)%nat; [|lia]. clear - F. unfold format in F. destruct (u8 c / 8) as [|p|p]; try discriminate. do 5 (try destruct p as [p|p|]; try discriminate); injection F as <-; cbn; lia. }
    destruct n as [|[|[|n]]]; [| | |lia]; rewrite N in *; cbn [negb orb] in *.
    + pose proof (source_reg _ _ _ _ _ _ M R0 V0). unfold operand_byte in B2. change (byte_at (u8 c, x0, x1, x2) (Z.of_nat 0 + 1)) with x0 in B2. lia.
    + pose proof (source_reg _ _ _ _ _ _ M R1 V1). unfold operand_byte in B2. change (byte_at (u8 c, x0, x1, x2) (Z.of_nat 1 + 1)) with x1 in B2. lia.
    + pose proof (source_reg _ _ _ _ _ _ M R2 V2). unfold operand_byte in B2. change (byte_at (u8 c, x0, x1, x2) (Z.of_nat 2 + 1)) with x2 in B2. lia.
Qed.

(** ** Instructions written by hand *)
Definition named_as (tbl : list (string * Z)) (t : string) (n : Z) : Prop :=
  word t /\ parse_operand [TWord t] = OName t /\ named table_reg (OName t) = None /\ named tbl (OName t) = Some n.
Definition named_asb (tbl : list (string * Z)) (t : string) (n : Z) : bool :=
  all_chars is_word t && negb (String.eqb t "") && match parse_operand [TWord t] with OName u => String.eqb u t | _ => false end
  && opt_eqb (named table_reg (OName t)) None && opt_eqb (named tbl (OName t)) (Some n).
Lemma named_asb_ok tbl t n : named_asb tbl t n = true -> named_as tbl t n.
Proof.
  unfold named_asb. intros H. apply andb_prop in H. destruct H as (H & H5). apply andb_prop in H. destruct H as (H & H4). apply andb_prop in H. destruct H as (H & H3). apply andb_prop in H. destruct H as (H1 & H2). split; [split; [exact H1|]|split; [|split]].
  - intros ->. discriminate.
  - destruct (parse_operand [TWord t]) as [u| |]; try discriminate. apply String.eqb_eq in H3. congruence.
  - destruct (named table_reg (OName t)); [discriminate|reflexivity].
  - destruct (named tbl (OName t)); [|discriminate]. cbn in H5. apply Z.eqb_eq in H5. congruence.
Qed.
Lemma text_view (F : rl1 -> option string) tbl : (forall r, F (Reg1 r) = Some (reg_name r)) -> zcheck (fun n => match F (Lit1 n) with Some t => named_asb tbl t n | None => true end) = true ->
  forall v t, rl1_wf v -> F v = Some t -> (exists r, v = Reg1 r /\ t = reg_name r) \/ (exists n, v = Lit1 n /\ is_u8 n /\ named_as tbl t n).
Proof.
  intros FR C v t W E. destruct v as [r|n].
  - left. exists r. rewrite FR in E. injection E as <-. auto.
  - right. exists n. split; [reflexivity|]. cbn [rl1_wf] in W. split; [exact W|]. apply (zcheck_all _ C) in W. cbv beta in W. rewrite E in W. apply named_asb_ok. exact W.
Qed.
Lemma flag_text_view v t : rl1_wf v -> flag_text v = Some t -> (exists r, v = Reg1 r /\ t = reg_name r) \/ (exists n, v = Lit1 n /\ is_u8 n /\ named_as table_arflag t n).
Proof. apply text_view; [reflexivity|vm_compute; reflexivity]. Qed.
Lemma cond_text_view v t : rl1_wf v -> cond_text v = Some t -> (exists r, v = Reg1 r /\ t = reg_name r) \/ (exists n, v = Lit1 n /\ is_u8 n /\ named_as table_if2_mode t n).
Proof. apply text_view; [reflexivity|vm_compute; reflexivity]. Qed.
Lemma mode_text_view v t : rl1_wf v -> mode_text v = Some t -> (exists r, v = Reg1 r /\ t = reg_name r) \/ (exists n, v = Lit1 n /\ is_u8 n /\ named_as table_div_mode t n).
Proof. apply text_view; [reflexivity|vm_compute; reflexivity]. Qed.
Lemma info_text_view v t : rl1_wf v -> info_text v = Some t -> (exists r, v = Reg1 r /\ t = reg_name r) \/ (exists n, v = Lit1 n /\ is_u8 n /\ named_as table_hw_info t n).
Proof. apply text_view; [reflexivity|vm_compute; reflexivity]. Qed.
Ltac nlw := repeat match goal with H : word ?t |- context [no_nl ?t] => rewrite (word_no_nl t (proj1 H)) end.
Ltac wdw := first [assumption | wd].
Ltac linew := lazymatch goal with
  | |- parse_line (_ ++ " " ++ _ ++ ", " ++ _ ++ ", " ++ _) = _ => eapply parse3; wdw
  | |- parse_line (_ ++ " " ++ _ ++ ", " ++ _) = _ => eapply parse2; wdw
  | |- parse_line (_ ++ " " ++ _) = _ => eapply parse1; wdw
  | |- _ => eapply parse0; wdw end.
Ltac hyps := repeat match goal with H : parse_operand [TWord ?t] = _ |- context [parse_operand [TWord ?t]] => rewrite H | H : named ?a ?b = _ |- context [named ?a ?b] => rewrite H end.
Ltac written := cbn [comes_back]; eexists (_, _, _, _); split;
  [eapply assembles_instr; [rewrite ?no_nl_app; nlw; nl | linew | hyps; ops; rls; hyps; cbn [eval_bytes eval_byte nth_error option_map List.app]; cbn iota beta; reflexivity] | runs_ok].
Ltac ptext E := cbv beta iota zeta delta [plain textr text1 Verif.SpecLasm.text2 lasm1 lasm2 lasm1_with option_map] in E; injection E as <-.
Lemma some_eq {A} (a b : A) : Some a = Some b -> b = a. Proof. congruence. Qed.
Ltac plain_text E := cbv beta iota zeta delta [plain textr text1 Verif.SpecLasm.text2 lasm1 lasm2 lasm1_with option_map] in E; apply some_eq in E; subst.
Lemma written_two i t : instr_wf i -> plain i = Some t -> match i with Cpy _ _ | Ex _ _ | Add _ _ | Sub _ _ | Mul _ _ | And _ _ | Bor _ _ | Xor _ _ | Shl _ _ | Shr _ _ | Cmp _ _ | Jpr _ | Lsm _ | Push _ | Pop _ | Call _ | Cycles _ | Halt | Reset _ => True | _ => False end -> comes_back t (Some i).
Proof.
  intros W E K. destruct i; try contradiction; clear K; cbn [instr_wf] in W; try (destruct b as [r|n]; cbn [rl1_wf rl2_wf] in W; plain_text E; written); try (destruct a as [r|n]; cbn [rl1_wf rl2_wf] in W; plain_text E; written); plain_text E; written.
Qed.
Lemma written_mem i t : instr_wf i -> plain i = Some t -> match i with Lsa _ _ _ | Lea _ _ _ | Wsa _ _ _ | Wea _ _ _ => True | _ => False end -> comes_back t (Some i).
Proof.
  intros W E K. destruct i; try contradiction; clear K; cbn [instr_wf] in W.
  - destruct W as (W1 & W2). destruct b as [r|n], c as [s|k]; cbn [rl1_wf] in W1, W2; plain_text E; written.
  - destruct W as (W1 & W2 & W3). destruct a as [r|n], b as [s|k], c as [u|l]; cbn [rl1_wf] in W1, W2, W3; plain_text E; written.
  - destruct W as (W1 & W2 & W3). destruct a as [r|n], b as [s|k], c as [u|l]; cbn [rl1_wf] in W1, W2, W3; plain_text E; written.
  - destruct W as (W1 & W2 & W3). destruct a as [r|n], b as [s|k], c as [u|l]; cbn [rl1_wf] in W1, W2, W3; plain_text E; written.
Qed.
Ltac known H := destruct H as [(? & -> & ->)|(? & -> & ? & (? & ? & ? & ?))].
Lemma written_named i t : instr_wf i -> plain i = Some t -> match i with Div _ _ _ | Mod _ _ _ | If _ | IfN _ | If2 _ _ _ | Hwd _ _ _ => True | _ => False end -> comes_back t (Some i).
Proof.
  intros W E K. destruct i; try contradiction; clear K; cbn [instr_wf] in W; cbv beta iota zeta delta [plain textr text1 lasm1 lasm1_with] in E.
  - destruct W as (W1 & W2). destruct (mode_text c) as [u|] eqn:M; [|discriminate]. apply mode_text_view in M; [|exact W2]. apply some_eq in E. subst t. destruct b as [r|n]; cbn [rl1_wf] in W1; known M; written.
  - destruct W as (W1 & W2). destruct (mode_text c) as [u|] eqn:M; [|discriminate]. apply mode_text_view in M; [|exact W2]. apply some_eq in E. subst t. destruct b as [r|n]; cbn [rl1_wf] in W1; known M; written.
  - destruct (flag_text a) as [u|] eqn:M; [|discriminate]. apply flag_text_view in M; [|exact W]. cbn [option_map] in E. apply some_eq in E. subst t. known M; written.
  - destruct (flag_text a) as [u|] eqn:M; [|discriminate]. apply flag_text_view in M; [|exact W]. cbn [option_map] in E. apply some_eq in E. subst t. known M; written.
  - destruct W as (W1 & W2 & W3). destruct (flag_text a) as [u|] eqn:M; [|discriminate]. destruct (flag_text b) as [v|] eqn:N; [|discriminate]. destruct (cond_text c) as [w|] eqn:O; [|discriminate]. apply flag_text_view in M; [|exact W1]. apply flag_text_view in N; [|exact W2]. apply cond_text_view in O; [|exact W3]. apply some_eq in E. subst t. known M; known N; known O; written.
  - destruct W as (W1 & W2). destruct (info_text c) as [u|] eqn:M; [|discriminate]. apply info_text_view in M; [|exact W2]. apply some_eq in E. subst t. destruct b as [r|n]; cbn [rl1_wf] in W1; known M; written.
Qed.
(** Text written by hand is assembled to the instruction it names. *)
Lemma P_C69_written : forall i t, instr_wf i -> plain i = Some t -> exists bs, assemble t = Some (list_of_bytes bs) /\ runs_as bs i.
Proof.
  intros i t W E. assert (H : comes_back t (Some i)).
  { destruct i; try discriminate; first [eapply written_two; [exact W|exact E|exact I] | eapply written_mem; [exact W|exact E|exact I] | eapply written_named; [exact W|exact E|exact I]]. }
  cbn [comes_back] in H. destruct H as (bs & H & R). exists bs. split; [apply assemble_line; exact H|exact R].
Qed.

(** ** Annotated listings *)
Lemma no_mnemonic syms os : assemble_instr syms "0x00000000" os = None.
Proof.
  unfold assemble_instr, all_matches. assert (X : forallb (fun r => negb (String.eqb (ru_mnemonic r) "0x00000000")) rules = true) by (vm_compute; reflexivity). revert X. generalize rules. intros l X.
  assert (Y : flat_map (apply_rule syms "0x00000000" os) l = []); [|rewrite Y; reflexivity]. induction l as [|r l IH]; [reflexivity|]. cbn [forallb] in X. apply andb_prop in X. destruct X as (X1 & X2). cbn [flat_map]. rewrite (IH X2). unfold apply_rule. apply negb_true_iff in X1. rewrite X1. reflexivity.
Qed.
Lemma annotated_line t ts : lex t (LWord "") = Some ts -> ts <> [] -> exists os, parse_line ("0x00000000" ++ ": " ++ t) = Some [IInstr "0x00000000" os].
Proof.
  intros L N. assert (X : lex ("0x00000000" ++ ": " ++ t) (LWord "") = Some (TWord "0x00000000" :: TSym ":" :: ts)).
  { rewrite lex_word by reflexivity. cbn [String.append lex]. change (is_word ":") with false. change (is_word " ") with false. change (":" =? " ")%char with false. change (":" =? ";")%char with false. change (":" =? """")%char with false. change (" " =? " ")%char with true. cbv iota. rewrite L. reflexivity. }
  unfold parse_line. rewrite X. destruct ts as [|x ts]; [congruence|]. eexists. reflexivity.
Qed.
Lemma assembles_lex t r : assembles t r -> exists ts, lex t (LWord "") = Some ts /\ ts <> [].
Proof. intros (_ & it & P & _). unfold parse_line in P. destruct (lex t (LWord "")) as [[|x ts]|]; try discriminate. exists (x :: ts). split; [reflexivity|discriminate]. Qed.
Lemma hex10_no_nl n : 0 <= n < 2 ^ 64 -> no_nl (fmt_hex10 n) = true.
Proof. intros H. apply word_no_nl. apply (hexed 8 n H). Qed.
(** An annotated listing is not accepted by the assembler (programs of less than 2^60 words). *)
Lemma P_C69_annotated : forall oc p t, Forall word_wf p -> p <> [] -> zlen p < 2 ^ 60 -> prog_to_lasm oc p true = Ret t -> assemble t = None.
Proof.
  intros oc p t W N L E. unfold prog_to_lasm in E. destruct (to_lasm_annotated oc 0 p) as [ts|] eqn:T; [|discriminate]. cbn [obind] in E. apply ret_eq in E. subst t.
  assert (NL : forall p k us, Forall word_wf p -> 0 <= k -> k + 4 * zlen p < 2 ^ 64 -> to_lasm_annotated oc k p = Ret us -> Forall (fun s => no_nl s = true) us).
  { clear. induction p as [|w p IH]; intros k us H K1 K2 E; cbn [to_lasm_annotated] in E; [apply ret_eq in E; subst; constructor|]. inversion H as [|? ? H1 H2]; subst. destruct (pw_to_lasm oc w) as [u|] eqn:P; [|discriminate]. cbn [obind] in E. destruct (to_lasm_annotated oc (k + 4) p) as [vs|] eqn:Q; [|discriminate]. cbn [obind] in E. apply ret_eq in E. subst us.
    unfold zlen in K2. cbn [length] in K2. constructor; [|apply (IH (k + 4) vs); [exact H2|lia|unfold zlen; lia|exact Q]]. destruct (word_line oc w u H1 P) as (r & (A & _) & _). rewrite !no_nl_app, A, hex10_no_nl by lia. reflexivity. }
  assert (NLp : Forall (fun s => no_nl s = true) ts) by (apply (NL p 0 ts W); [lia|unfold zlen in *; lia|exact T]).
  destruct p as [|w p]; [congruence|]. cbn [to_lasm_annotated] in T. inversion W as [|? ? W1 W2]; subst. destruct (pw_to_lasm oc w) as [u|] eqn:P; [|discriminate]. cbn [obind] in T. destruct (to_lasm_annotated oc (0 + 4) p) as [vs|]; [|discriminate]. cbn [obind] in T. apply ret_eq in T. subst ts.
  unfold assemble. rewrite split_concat by exact NLp. change (fmt_hex10 0) with "0x00000000". destruct (word_line oc w u W1 P) as (r & A & _). destruct (assembles_lex u r A) as (toks & LX & LN). destruct (annotated_line u toks LX LN) as (os & PL).
  cbn [parse_lines]. rewrite PL. destruct (parse_lines vs) as [its|]; [|reflexivity]. cbn [List.app]. destruct (distinct _); [|reflexivity]. cbn [emit]. rewrite no_mnemonic. reflexivity.
Qed.

(** ** Claims that fail *)
(** Disassembling and assembling again does not give the program back, even when it is accepted: XOR a1, a2 comes back as XOR a2, a2, *)
Lemma P_C69_roundtrip_refuted : ~ (forall oc code p t code', Forall is_u8 code -> prog_decode code false = ROk p -> disassemble oc code false = Ret (ROk t) -> assemble t = Some code' -> prog_decode code' false = ROk p).
Proof.
  intros H. assert (X : prog_decode [86; 2; 2; 0] false = ROk [PInstr (Xor R_a1 (Reg2 R_a2))]); [|vm_compute in X; discriminate].
  apply (H false [86; 1; 2; 0] _ "zro a2"); [repeat constructor; unfold is_u8; lia| | |]; vm_compute; reflexivity.
Qed.
(** it is not always accepted: the default division mode is not, *)
Lemma P_C69_accepted_refuted : ~ (forall oc code t, Forall is_u8 code -> disassemble oc code false = Ret (ROk t) -> exists code', assemble t = Some code').
Proof.
  intros H. destruct (H false [54; 0; 1; 0] "div a0, a1, 0") as (c & E); [repeat constructor; unfold is_u8; lia|vm_compute; reflexivity|]. vm_compute in E. discriminate.
Qed.
(** and what comes back does not always have the same effect. *)
Lemma P_C69_effect_refuted : ~ (forall B (bs : @bus B) i j s, instr_wf i -> reassembled i = Some j -> step bs j s = step bs i s).
Proof.
  intros H. set (b := Bus (B := unit) (fun _ _ => Panic) (fun _ _ _ => Panic) (fun _ => 0) (fun _ _ _ => inr 0) (fun _ _ => Panic)).
  specialize (H unit b (Cpy R_a0 (Lit2 0)) (Xor R_a0 (Reg2 R_a0)) (St (repeat 0 31 ++ [1])%list tt 0 false)). assert (X : instr_wf (Cpy R_a0 (Lit2 0))) by (cbn; unfold is_u16; lia). specialize (H X eq_refl). vm_compute in H. discriminate.
Qed.
(** In a debug build printing may panic. *)
Lemma P_C69_prints_refuted : ~ (forall oc i, instr_wf i -> exists t, to_lasm oc i = Ret t).
Proof. intros H. destruct (H true (Jpr (Lit2 32768))) as (t & E); [cbn; unfold is_u16; lia|]. vm_compute in E. discriminate. Qed.

(** ** Witnesses *)
Lemma E_C69_instr : instr_wf (Lea (Reg1 R_a1) (Lit1 250) (Reg1 R_c0)) /\ to_lasm true (Lea (Reg1 R_a1) (Lit1 250) (Reg1 R_c0)) = Ret "lea a1, 0xFA, c0" /\
  reassembled (Lea (Reg1 R_a1) (Lit1 250) (Reg1 R_c0)) = Some (Lea (Reg1 R_a1) (Lit1 250) (Reg1 R_c0)) /\ assemble "lea a1, 0xFA, c0" = Some [173; 1; 250; 8] /\
  to_lasm false (Jpr (Lit2 32768)) = Ret "jpr -0x8000" /\ assemble "jpr -0x8000" = Some [112; 128; 0; 0] /\
  to_lasm false (If2 (Lit1 1) (Lit1 9) (Lit1 2)) = Ret "ifand CF, 0x09 ; invalid right flag" /\ reassembled (If2 (Lit1 1) (Lit1 9) (Lit1 2)) = None.
Proof. split; [cbn; unfold is_u8; lia|]. repeat split; vm_compute; reflexivity. Qed.
Definition listing : string := "cpy a0, 0x1234" ++ newline ++ "#d32 0x01_02_03_04" ++ newline ++ "jp a0".
Lemma E_C69_roundtrip : let code := [12; 0; 18; 52; 1; 2; 3; 4; 14; 22; 0; 0] in let p := [PInstr (Cpy R_a0 (Lit2 4660)); PRaw (1, 2, 3, 4); PInstr (Cpy R_pc (Reg2 R_a0))] in
  Forall is_u8 code /\ prog_decode code false = ROk p /\ Forall faithful p /\ disassemble true code false = Ret (ROk listing) /\ assemble listing = Some code /\
  Forall (fun bs => forall i, decode bs = ROk i -> bs = assembled i) (quads code).
Proof.
  cbv zeta. split; [repeat constructor; unfold is_u8; lia|]. split; [vm_compute; reflexivity|]. split; [repeat constructor|]. split; [vm_compute; reflexivity|]. split; [vm_compute; reflexivity|].
  cbn [quads]. constructor; [|constructor; [|constructor; [|constructor]]]; intros i E; vm_compute in E; try discriminate; injection E as <-; reflexivity.
Qed.
Lemma E_C69_program : word_rejected (PInstr (Itr (Lit1 3))) /\ prog_to_lasm true [PInstr Halt; PInstr (Itr (Lit1 3))] false = Ret ("halt" ++ newline ++ "itr 0x3") /\ assemble ("halt" ++ newline ++ "itr 0x3") = None /\
  prog_to_lasm true [PInstr Halt] true = Ret "0x00000000: halt" /\ assemble "0x00000000: halt" = None.
Proof. repeat split; vm_compute; reflexivity. Qed.
Lemma E_C69_written : plain (If2 (Lit1 0) (Reg1 R_a0) (Lit1 4)) = Some "if2 ZF, a0, CMP_NOR" /\ instr_wf (If2 (Lit1 0) (Reg1 R_a0) (Lit1 4)) /\ assemble "if2 ZF, a0, CMP_NOR" = Some [154; 0; 0; 4] /\
  plain (Xor R_a1 (Reg2 R_a2)) = Some "xor a1, a2" /\ assemble "xor a1, a2" = Some [86; 1; 2; 0].
Proof. split; [reflexivity|]. split; [cbn; unfold is_u8; lia|]. repeat split; vm_compute; reflexivity. Qed.
Lemma E_C69_valid : assemble_instr [("loop", 64)] "jp" [OName "loop"] = Some [12; 22; 0; 64] /\ reserved "loop" = false /\ all_matches [("a0", 64)] "jp" [OName "a0"] = [[14; 22; 0; 0]; [12; 22; 0; 64]] /\ reserved "a0" = true.
Proof. repeat split; vm_compute; reflexivity. Qed.
(** The names the assembler gives to flags and conditions, written in a source, stand for the codes of these flags and of this condition. *)
Lemma P_C52_condition_names : forall f g c,
  assemble ("if2 " ++ ar_flag_short_name f ++ ", " ++ ar_flag_short_name g ++ ", " ++ if2_cond_to_lasm c)%string =
    Some (list_of_bytes (encode (If2 (Lit1 (ar_flag_code f)) (Lit1 (ar_flag_code g)) (Lit1 (if2_cond_code c))))).
Proof. intros [] [] []; vm_compute; reflexivity. Qed.
Lemma E_C52_condition_names : assemble "if2 ZF, CF, CMP_NAND" = Some [152; 0; 1; 5].
Proof. vm_compute. reflexivity. Qed.

(* Concrete cases for the theorems above that have none beside them. *)
Lemma E_C69_rejected : let p := [PInstr Halt; PInstr (Itr (Lit1 3))] in Forall word_wf p /\ prog_to_lasm true p false = Ret ("halt" ++ newline ++ "itr 0x3") /\
  Exists word_rejected p /\ assemble ("halt" ++ newline ++ "itr 0x3") = None.
Proof.
  cbv zeta. split; [repeat constructor; cbn; unfold is_u8; lia|]. split; [vm_compute; reflexivity|]. split; [apply Exists_cons_tl; apply Exists_cons_hd; reflexivity|]. vm_compute. reflexivity.
Qed.
Lemma E_C69_prints : instr_wf (Jpr (Lit2 32768)) /\ to_lasm true (Jpr (Lit2 32768)) = Panic /\ to_lasm false (Jpr (Lit2 32768)) = Ret "jpr -0x8000" /\
  instr_wf (Jpr (Lit2 32769)) /\ to_lasm true (Jpr (Lit2 32769)) = Ret "jpr -0x7FFF".
Proof. split; [cbn; unfold is_u16; lia|]. split; [vm_compute; reflexivity|]. split; [vm_compute; reflexivity|]. split; [cbn; unfold is_u16; lia|]. vm_compute; reflexivity. Qed.
Lemma E_C69_prints_program : let p := [PInstr Halt; PInstr (Jpr (Lit2 32768))] in Forall word_wf p /\ prog_to_lasm true p true = Panic /\
  prog_to_lasm false p true = Ret ("0x00000000: halt" ++ newline ++ "0x00000004: jpr -0x8000").
Proof. cbv zeta. split; [repeat constructor; cbn; unfold is_u16; lia|]. split; vm_compute; reflexivity. Qed.
(** The second word is not an instruction; the third is not the code the assembler produces for its text. *)
Lemma E_C69_disassemble : let code := [12; 0; 18; 52; 1; 2; 3; 4; 14; 22; 0; 7] in Forall is_u8 code /\ disassemble true code false = Ret (ROk listing) /\
  assemble listing = Some [12; 0; 18; 52; 1; 2; 3; 4; 14; 22; 0; 0].
Proof. cbv zeta. split; [repeat constructor; unfold is_u8; lia|]. split; vm_compute; reflexivity. Qed.
From Verif Require Import Devices Demo.
Lemma E_C69_runs : exists m mem1 m', demo_run false (asm [Cpy R_a1 (Lit2 4); Cpy R_c0 (Lit2 0); Lea (Reg1 R_a1) (Lit1 250) (Reg1 R_c0)]) 2 = Ret m /\
  runs_as (173, 1, 250, 8) (Lea (Reg1 R_a1) (Lit1 250) (Reg1 R_c0)) /\ executes_word (dev_ops false) false m (word_of_bytes (173, 1, 250, 8)) mem1 m' /\ R m' R_avr <> R m R_avr.
Proof.
  match goal with |- exists m _ _, demo_run false ?q 2 = _ /\ _ => set (p := q) end.
  assert (C : match demo_run false p 2 with Ret m => match mem_read (dev_ops false) false (c_mem m) (R m R_pc), next (dev_ops false) false m with
     | Ret (mem1, ex, w), Ret m' => c_halted m = false /\ R m R_mtt = 0 /\ R m R_pc = 8 /\ ex = 0 /\ w = word_of_bytes (173, 1, 250, 8) /\ R m' R_avr <> R m R_avr
     | _, _ => False end | Panic => False end) by (vm_compute; repeat split; discriminate).
  destruct (demo_run false p 2) as [m|] eqn:E; [|destruct C]. destruct (mem_read _ _ _ _) as [[[mem1 ex] w]|] eqn:Er; [|destruct C].
  destruct (next _ _ m) as [m'|] eqn:En; [|destruct C]. destruct C as (Hh & Ht & Hpc & -> & -> & H). exists m, mem1, m'. split; auto.
  split; [split; [unfold bytes_wf, is_u8; lia|split; reflexivity]|]. split; [|exact H]. split; auto. split; [|exact En]. split; [rewrite Hpc; reflexivity|].
  exists (c_mem m). split; [unfold passes; rewrite Ht; reflexivity|exact Er].
Qed.
(** A processor with 9 in a0, on memory that answers 0. *)
Definition zro_bus : @bus unit := @Bus unit (fun b _ => Ret (b, 0, 0)) (fun b _ _ => Ret (b, 0)) (fun _ => 0) (fun _ _ _ => inr 0) (fun b _ => Ret b).
Definition zro_state : @st unit := @St unit (9 :: repeat 0 30 ++ [1])%list tt 0 false.
Lemma E_C69_zro : match step zro_bus (Mul R_a0 (Lit2 0)) zro_state with Ret s' => @s_reg unit s' = (0 :: repeat 0 21 ++ [4; 140] ++ repeat 0 7 ++ [1])%list | Panic => False end.
Proof. vm_compute. reflexivity. Qed.
Lemma E_C69_zro_copy : length (@s_reg unit zro_state) = 32%nat /\ can_read (sup zro_state) R_a0 = true /\ can_write (sup zro_state) R_a0 = true /\
  match step zro_bus (Cpy R_a0 (Lit2 0)) zro_state with Ret s' => get s' R_a0 = 0 /\ get s' R_af = 0 | Panic => False end.
Proof. vm_compute. repeat split. Qed.
Lemma E_C69_unambiguous : (forall s n, In (s, n) [("loop", 64)] -> reserved s = false) /\ all_matches [("loop", 64)] "jp" [OName "loop"] = [[12; 22; 0; 64]] /\
  reserved "a0" = true /\ all_matches [("a0", 64)] "jp" [OName "a0"] = [[14; 22; 0; 0]; [12; 22; 0; 64]].
Proof. split; [intros s n [E|[]]; injection E as <- <-; reflexivity|]. repeat split; vm_compute; reflexivity. Qed.
Lemma E_C69_annotated : let p := [PInstr Halt; PRaw (1, 2, 3, 4)] in Forall word_wf p /\ p <> [] /\ zlen p < 2 ^ 60 /\
  prog_to_lasm true p true = Ret ("0x00000000: halt" ++ newline ++ "0x00000004: #d32 0x01_02_03_04").
Proof. cbv zeta. split; [repeat constructor; cbn; unfold is_u8; lia|]. split; [discriminate|]. split; [reflexivity|]. vm_compute. reflexivity. Qed.
