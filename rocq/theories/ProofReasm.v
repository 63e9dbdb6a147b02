(** Assembling, decoding and printing back. *)
From Coq Require Import String Ascii ZArith List Bool Lia.
From Verif Require Import Base Mem Asm Tools LasmRules Lasm Sources Examples SpecAsm SpecLasm SpecShort SpecLabel SpecReasm BaseFacts RegFacts ProofAsm LasmFacts ProofLasm ProofShort LabelFacts ProofLabel.
Import ListNotations.
Open Scope string_scope.
Open Scope list_scope.
Open Scope Z_scope.
Ltac Zify.zify_post_hook ::= Z.div_mod_to_equations.

(** ** Bytes *)
Lemma string_bytes_u8 s : Forall is_u8 (string_bytes s).
Proof. induction s as [|c s IH]; cbn [string_bytes]; constructor; [|exact IH]. unfold is_u8. pose proof (N_ascii_bounded c). lia. Qed.
Definition item_u8 (it : item) : Prop := match it with IData bs => Forall is_u8 bs | _ => True end.
Lemma be_word_u8 n : Forall is_u8 (be_word n).
Proof. unfold be_word. repeat constructor; unfold is_u8; lia. Qed.
Lemma parse_line_u8 l its : parse_line l = Some its -> Forall item_u8 its.
Proof.
  unfold parse_line. destruct (lex l (LWord "")) as [ts|]; [|discriminate].
  assert (X : forall it r, Some [it] = Some r -> item_u8 it -> Forall item_u8 r) by (intros it r E H; injection E as <-; repeat constructor; exact H).
  repeat match goal with
  | |- Some [] = Some its -> _ => intros E; injection E as <-; constructor
  | |- Some [IData (be_word _)] = Some its -> _ => intros E; apply (X _ _ E); apply be_word_u8
  | |- Some [IData (string_bytes _)] = Some its -> _ => intros E; apply (X _ _ E); apply string_bytes_u8
  | |- Some [_] = Some its -> _ => intros E; apply (X _ _ E); exact I
  | |- None = Some its -> _ => discriminate
  | |- context [match ?x with _ => _ end] => destruct x
  end.
Qed.
Lemma parse_lines_u8 ls : forall its, parse_lines ls = Some its -> Forall item_u8 its.
Proof.
  induction ls as [|l ls IH]; intros its E; cbn [parse_lines] in E; [injection E as <-; constructor|]. destruct (parse_line l) as [a|] eqn:P; [|discriminate]. destruct (parse_lines ls) as [b|]; [|discriminate]. injection E as <-.
  apply Forall_app. split; [apply (parse_line_u8 _ _ P)|auto].
Qed.
Lemma emit_u8 syms its : Forall item_u8 its -> forall pos scope code, emit syms pos scope its = Some code -> Forall is_u8 code.
Proof.
  induction 1 as [|it its H _ IH]; intros pos scope code E; cbn [emit] in E; [injection E as <-; constructor|]. destruct it as [l|m os|bs]; cbn [item_u8] in H.
  - destruct (orphan scope l); [discriminate|]. destruct (emit syms _ _ its) as [r|] eqn:R; [|discriminate]. cbn [option_map] in E. injection E as <-. apply Forall_app. split; [|eapply IH; exact R].
    apply Forall_forall. intros x I. apply repeat_spec in I. subst. unfold is_u8. lia.
  - destruct (assemble_instr _ _ _) as [bs|] eqn:A; [|discriminate]. destruct (emit syms _ _ its) as [r|] eqn:R; [|discriminate]. injection E as <-. apply Forall_app. split; [|eapply IH; exact R].
    destruct (P_C69_valid _ _ _ _ A) as (a & b & c & d & i & -> & (Ha & Hb & Hc & Hd) & _). repeat constructor; first [apply Ha|apply Hb|apply Hc|apply Hd].
  - destruct (emit syms _ _ its) as [r|] eqn:R; [|discriminate]. cbn [option_map] in E. injection E as <-. apply Forall_app. split; [exact H|eapply IH; exact R].
Qed.
(** What the assembler gives is a string of bytes. *)
Lemma P_C80_bytes : forall s code, assemble s = Some code -> Forall is_u8 code.
Proof.
  intros s code E. unfold assemble in E. destruct (parse_lines _) as [its|] eqn:P; [|discriminate]. destruct (distinct _); [|discriminate]. apply parse_lines_u8 in P. eapply emit_u8; [exact P|exact E].
Qed.
(** ** assemble_prog *)
(** Assembling to a program: an error message when the source is wrong or its size is not a multiple of four bytes; otherwise every word of the
    code is there, as the instruction it decodes to, or raw. *)
Lemma P_C80_prog : forall s,
  match assemble s with
  | None => assemble_prog s = None
  | Some code =>
      if zlen code mod 4 =? 0
      then exists bss p, flat_map list_of_bytes bss = code /\ assemble_prog s = Some (ROk p) /\ Forall2 read_word bss p
      else assemble_prog s = Some (RErr (0, SourceNotMultipleOf4Bytes))
  end.
Proof.
  intros s. unfold assemble_prog. destruct (assemble s) as [code|]; [|reflexivity]. cbn [option_map]. destruct (Z.eqb_spec (zlen code mod 4) 0) as [M|M].
  - destruct (P_C44_raw code M) as (E & Q). exists (quads code), (map pw_decode (quads code)). split; [exact Q|]. split; [rewrite E; reflexivity|]. generalize (quads code). induction l as [|bs l IH]; cbn [map]; constructor; [|exact IH].
    unfold read_word, pw_decode. destruct (decode bs); reflexivity.
  - rewrite P_C44_length_rejected by exact M. reflexivity.
Qed.
(** ** re_assemble *)
Lemma strict_wf code p : Forall is_u8 code -> prog_decode code true = ROk p -> exists is, p = from_instr is /\ map decode (quads code) = map ROk is /\ Forall instr_wf is /\ zlen code mod 4 = 0.
Proof.
  intros H E. assert (M : zlen code mod 4 = 0). { unfold prog_decode in E. destruct (Z.eqb_spec (zlen code mod 4) 0); [assumption|discriminate]. }
  pose proof (P_C44_strict code M) as X. rewrite E in X. destruct X as (is & -> & D). exists is. split; [reflexivity|]. split; [exact D|]. split; [|exact M].
  apply quads_wf in H. revert is D E. intros is D _. revert is D. generalize (quads code) H. clear. induction 1 as [|bs l B _ IH]; intros is D; destruct is as [|i is]; cbn [map] in D; try discriminate; constructor.
  - injection D as D _. pose proof (P_C42_decode bs B) as X. rewrite D in X. apply X.
  - injection D as _ D. apply (IH is D).
Qed.
Lemma from_wf is : Forall instr_wf is -> Forall word_wf (from_instr is).
Proof. unfold from_instr. induction 1; constructor; assumption. Qed.
(** The example panics exactly when the source does not assemble, when its code is not made of whole valid instructions, or, with overflow checks,
    when one of these is JPR -0x8000. *)
Lemma P_C80_panics : forall oc s, re_assemble oc s = Panic <->
  match assemble s with
  | None => True
  | Some code => zlen code mod 4 <> 0 \/ (exists bs e, In bs (quads code) /\ decode bs = RErr e) \/ (oc = true /\ exists bs, In bs (quads code) /\ decode bs = ROk (Jpr (Lit2 32768)) /\ ~ exists bs e, In bs (quads code) /\ decode bs = RErr e)
  end.
Proof.
  intros oc s. unfold re_assemble. destruct (assemble s) as [code|] eqn:A; cbn [unwrap obind]; [|tauto]. apply P_C80_bytes in A. destruct (Z.eq_dec (zlen code mod 4) 0) as [M|M].
  2:{ rewrite P_C44_length_rejected by exact M. tauto. }
  pose proof (P_C44_strict code M) as X. destruct (prog_decode code true) as [p|[k e]] eqn:E.
  - destruct (strict_wf code p A E) as (is & -> & D & W & _). assert (NE : ~ exists bs e, In bs (quads code) /\ decode bs = RErr e).
    { intros (bs & e & I & Q). apply (in_map decode) in I. rewrite D, Q in I. apply in_map_iff in I. destruct I as (? & ? & _). discriminate. }
    destruct (P_C69_prints_program oc _ false (from_wf is W)) as [(t & T)|(T & O & I)]; rewrite T; split; try discriminate.
    + intros [H|[H|(O & bs & I & J & _)]]; [contradiction|contradiction|]. exfalso. apply (in_map decode) in I. rewrite D, J in I. apply in_map_iff in I. destruct I as (i & Q & I). injection Q as ->. subst oc.
      assert (P : forall l, In (Jpr (Lit2 32768)) l -> to_lasm_lines true (from_instr l) = Panic).
      { induction l as [|y l IH]; intros J2; [contradiction|]. cbn [from_instr map to_lasm_lines pw_to_lasm]. destruct J2 as [->|J2]; [reflexivity|]. destruct (to_lasm true y); [|reflexivity]. cbn [obind]. unfold from_instr in IH. rewrite IH by exact J2. reflexivity. }
      unfold prog_to_lasm in T. rewrite (P is I) in T. discriminate.
    + intros _. right. right. split; [exact O|]. unfold from_instr in I. apply in_map_iff in I. destruct I as (i & Q & I). injection Q as ->. apply (in_map (@ROk instr decode_error)) in I. rewrite <- D in I. apply in_map_iff in I. destruct I as (bs & Q & I). exists bs. auto.
    + reflexivity.
  - split; [|reflexivity]. intros _. right. left. destruct X as (pre & bs & post & is & Q & _ & D & _). exists bs, e. split; [rewrite Q; apply in_or_app; right; left; reflexivity|exact D].
Qed.
Lemma lines_all oc : forall is ts, to_lasm_lines oc (from_instr is) = Ret ts <-> Forall2 (fun i l => to_lasm oc i = Ret l) is ts.
Proof.
  induction is as [|i is IH]; intros ts; cbn [from_instr map to_lasm_lines].
  - split; [intros E; apply ret_eq in E; subst; constructor|intros E; inversion E; reflexivity].
  - cbn [pw_to_lasm]. split.
    + intros E. destruct (to_lasm oc i) as [l|] eqn:T; [|discriminate]. cbn [obind] in E. fold (from_instr is) in E. destruct (to_lasm_lines oc (from_instr is)) as [us|] eqn:U; [|discriminate]. cbn [obind] in E. apply ret_eq in E. subst ts. constructor; [exact T|]. apply IH. reflexivity.
    + intros E. inversion E as [|? l ? us T U]; subst. rewrite T. cbn [obind]. fold (from_instr is). apply IH in U. rewrite U. reflexivity.
Qed.
Lemma decode_all_strict bss is : Forall2 (fun bs i => decode bs = ROk i) bss is -> map decode bss = map ROk is.
Proof. induction 1 as [|bs i bss is H _ IH]; [reflexivity|]. cbn [map]. rewrite H, IH. reflexivity. Qed.
Lemma strict_ok bss is : map decode bss = map ROk is -> prog_decode (flat_map list_of_bytes bss) true = ROk (from_instr is).
Proof.
  intros D. assert (M : zlen (flat_map list_of_bytes bss) mod 4 = 0) by (rewrite flat_len; lia). pose proof (P_C44_strict _ M) as X. rewrite quads_flat in X. destruct (prog_decode _ true) as [p|[k e]].
  - destruct X as (is' & -> & D'). rewrite D in D'. f_equal. f_equal. revert is' D'. clear. induction is as [|x t IH]; destruct is'; cbn [map]; intros E; try discriminate; [reflexivity|]. injection E as -> E. f_equal. auto.
  - destruct X as (pre & bs & post & is' & E & _ & Q & _). exfalso. assert (I : In (RErr e) (map decode bss)) by (rewrite E, map_app; apply in_or_app; right; left; exact Q). rewrite D in I. apply in_map_iff in I. destruct I as (? & ? & _). discriminate.
Qed.
(** The text: one line for each instruction of the code, its own; assembled again it gives, instruction by instruction, what [reassembled] says. *)
Lemma P_C80_text : forall oc s t, re_assemble oc s = Ret t ->
  exists bss is lines, assemble s = Some (flat_map list_of_bytes bss) /\ Forall2 (fun bs i => decode bs = ROk i) bss is /\ Forall2 (fun i l => to_lasm oc i = Ret l) is lines /\ t = String.concat newline lines /\
    match assemble t with
    | Some code' => exists bss', code' = flat_map list_of_bytes bss' /\ Forall2 (fun i bs => exists j, reassembled i = Some j /\ runs_as bs j) is bss'
    | None => exists i, In i is /\ reassembled i = None
    end.
Proof.
  intros oc s t E. unfold re_assemble in E. destruct (assemble s) as [code|] eqn:A; [|discriminate]. cbn [unwrap obind] in E. destruct (prog_decode code true) as [p|] eqn:P; [|discriminate]. pose proof (P_C80_bytes s code A) as U.
  destruct (strict_wf code p U P) as (is & -> & D & W & M). pose proof (P_C69_program oc _ t (from_wf is W) E) as X. unfold prog_to_lasm in E. destruct (to_lasm_lines oc (from_instr is)) as [lines|] eqn:L; [|discriminate]. cbn [obind] in E. apply ret_eq in E.
  exists (quads code), is, lines. destruct (P_C44_raw code M) as (_ & Q). split; [rewrite Q; reflexivity|]. split; [|split; [apply lines_all; exact L|split; [exact E|]]].
  - revert is D W L E X P. intros is D _ _ _ _ _. revert is D. generalize (quads code). induction l as [|bs l IH]; intros is D; destruct is as [|i is]; cbn [map] in D; try discriminate; constructor; [injection D as D _; exact D|injection D as _ D; auto].
  - destruct (assemble t) as [code'|].
    + destruct X as (bss & -> & F). exists bss. split; [reflexivity|]. clear -F. unfold from_instr in F. revert bss F. induction is as [|i is IH]; intros bss F; inversion F; subst; constructor; [assumption|auto].
    + apply Exists_exists in X. destruct X as (w & I & R). unfold from_instr in I. apply in_map_iff in I. destruct I as (i & <- & I). exists i. auto.
Qed.
(** ** It settles *)
Lemma back_idem i j : reassembled i = Some j -> reassembled j = Some j.
Proof.
  assert (MB : forall m k, mode_back m = Some k -> mode_back k = Some k).
  { intros m k. unfold mode_back at 1. destruct (Z.testbit m 4), (m / 4 mod 4) as [|[[]|[]|]|], (m mod 4) as [|[[]|[]|]|]; try discriminate; intros E; injection E as <-; reflexivity. }
  intros E. destruct i; cbn [reassembled] in E; try (injection E as <-; reflexivity); try discriminate.
  - destruct a; destruct b as [|[| |]]; injection E as <-; reflexivity.
  - destruct b as [|[| |]]; injection E as <-; reflexivity.
  - destruct c as [|m]; [injection E as <-; reflexivity|]. destruct (mode_back m) as [k|] eqn:K; [|discriminate]. injection E as <-. cbn [reassembled]. rewrite (MB _ _ K). reflexivity.
  - destruct c as [|m]; [injection E as <-; reflexivity|]. destruct (mode_back m) as [k|] eqn:K; [|discriminate]. injection E as <-. cbn [reassembled]. rewrite (MB _ _ K). reflexivity.
  - destruct b as [|[| |]]; injection E as <-; reflexivity.
  - destruct b; injection E as <-; reflexivity.
  - destruct (is_flag a) eqn:F; [|discriminate]. injection E as <-. cbn [reassembled]. rewrite F. reflexivity.
  - destruct (is_flag a) eqn:F; [|discriminate]. injection E as <-. cbn [reassembled]. rewrite F. reflexivity.
  - destruct (is_flag a && is_flag b && is_cond c) eqn:F; [|discriminate]. injection E as <-. cbn [reassembled]. rewrite F. reflexivity.
  - destruct (is_info c) eqn:F; [|discriminate]. injection E as <-. cbn [reassembled]. rewrite F. reflexivity.
Qed.
Lemma back_text oc i j : instr_wf i -> (forall a b c, i <> Srm a b c) -> reassembled i = Some j -> to_lasm oc j = to_lasm oc i.
Proof.
  intros W NS E.
  assert (MB : forall m k, is_u8 m -> mode_back m = Some k -> exists x y, div_mode_decode k = Some x /\ div_mode_decode m = Some y /\ div_mode_lasm x = div_mode_lasm y).
  { intros m k U. assert (X : forallb (fun n => match mode_back (Z.of_nat n) with Some k => match div_mode_decode k, div_mode_decode (Z.of_nat n) with Some x, Some y => String.eqb (div_mode_lasm x) (div_mode_lasm y) | _, _ => false end | None => true end) (seq 0 256) = true) by (vm_compute; reflexivity).
    rewrite forallb_forall in X. specialize (X (Z.to_nat m)). rewrite Z2Nat.id in X by (unfold is_u8 in U; lia). intros K. rewrite K in X. unfold is_u8 in U. specialize (X ltac:(apply in_seq; lia)). destruct (div_mode_decode k) as [x|], (div_mode_decode m) as [y|]; try discriminate. apply String.eqb_eq in X. eauto. }
  assert (DV : forall name a b m k, is_u8 m -> mode_back m = Some k -> div_lasm name a b (Lit1 k) = div_lasm name a b (Lit1 m)).
  { intros name a b m k U K. destruct (MB m k U K) as (x & y & EX & EY & Q). unfold div_lasm. rewrite EX, EY, Q. reflexivity. }
  destruct i; cbn [reassembled] in E; try (injection E as <-; reflexivity); try discriminate.
  - destruct a; destruct b as [|[| |]]; injection E as <-; reflexivity.
  - destruct b as [|[| |]]; injection E as <-; reflexivity.
  - destruct c as [|m]; [injection E as <-; reflexivity|]. destruct (mode_back m) as [k|] eqn:K; [|discriminate]. injection E as <-. cbn [to_lasm]. f_equal. apply DV; [apply W|exact K].
  - destruct c as [|m]; [injection E as <-; reflexivity|]. destruct (mode_back m) as [k|] eqn:K; [|discriminate]. injection E as <-. cbn [to_lasm]. f_equal. apply DV; [apply W|exact K].
  - destruct b as [|[| |]]; injection E as <-; reflexivity.
  - destruct b; injection E as <-; reflexivity.
  - destruct (is_flag a) eqn:F; [|discriminate]. injection E as <-. reflexivity.
  - destruct (is_flag a) eqn:F; [|discriminate]. injection E as <-. reflexivity.
  - destruct (is_flag a && is_flag b && is_cond c) eqn:F; [|discriminate]. injection E as <-. reflexivity.
  - exfalso. apply (NS a b c). reflexivity.
  - destruct (is_info c) eqn:F; [|discriminate]. injection E as <-. reflexivity.
Qed.
Lemma prints_back oc i l j : to_lasm oc i = Ret l -> reassembled i = Some j -> exists l', to_lasm oc j = Ret l'.
Proof.
  intros T E. assert (X : (exists l', to_lasm oc j = Ret l') \/ (exists n, i = Jpr (Lit2 n) /\ j = i)).
  { destruct i; cbn [reassembled] in E; try discriminate; try (injection E as <-; left; eexists; exact T).
    - left. destruct a; destruct b as [|[| |]]; injection E as <-; eexists; try exact T; reflexivity.
    - left. destruct b as [|[| |]]; injection E as <-; eexists; try exact T; reflexivity.
    - left. destruct c as [|m]; [injection E as <-; eexists; exact T|]. destruct (mode_back m) as [k|]; [|discriminate]. injection E as <-. eexists. reflexivity.
    - left. destruct c as [|m]; [injection E as <-; eexists; exact T|]. destruct (mode_back m) as [k|]; [|discriminate]. injection E as <-. eexists. reflexivity.
    - left. destruct b as [|[| |]]; injection E as <-; eexists; try exact T; reflexivity.
    - left. destruct b; injection E as <-; eexists; try exact T; reflexivity.
    - left. destruct (is_flag a); [|discriminate]. injection E as <-. eexists; exact T.
    - left. destruct (is_flag a); [|discriminate]. injection E as <-. eexists; exact T.
    - left. destruct (is_flag a && is_flag b && is_cond c); [|discriminate]. injection E as <-. eexists; exact T.
    - left. injection E as <-. eexists. reflexivity.
    - left. destruct (is_info c); [|discriminate]. injection E as <-. eexists; exact T. }
  destruct X as [X|(n & -> & ->)]; [exact X|eexists; exact T].
Qed.
Lemma decoded_instr_wf bss is : Forall bytes_wf bss -> Forall2 (fun bs i => decode bs = ROk i) bss is -> Forall instr_wf is.
Proof. intros H F. induction F as [|bs i bss is D _ IH]; inversion H as [|? ? B H2]; subst; constructor; [|auto]. pose proof (P_C42_decode bs B) as X. rewrite D in X. apply X. Qed.
Lemma again oc is lines bss : Forall instr_wf is -> Forall2 (fun i l => to_lasm oc i = Ret l) is lines -> Forall2 (fun i bs => exists j, reassembled i = Some j /\ runs_as bs j) is bss ->
  exists js lines', Forall2 (fun i j => reassembled i = Some j) is js /\ Forall2 (fun bs j => runs_as bs j) bss js /\ Forall2 (fun j l => to_lasm oc j = Ret l) js lines' /\ (Forall (fun i => forall a b c, i <> Srm a b c) is -> lines' = lines).
Proof.
  intros W L. revert bss W. induction L as [|i l is lines T _ IH]; intros bss W B; inversion B as [|? bs ? bss' (j & E & R) B2]; subst.
  - exists [], []. repeat split; constructor.
  - inversion W as [|? ? W1 W2]; subst. destruct (IH bss' W2 B2) as (js & ls & F1 & F2 & F3 & F4). destruct (prints_back oc i l j T E) as (l' & T'). exists (j :: js), (l' :: ls).
    split; [constructor; assumption|]. split; [constructor; assumption|]. split; [constructor; assumption|]. intros NS. inversion NS as [|? ? N1 N2]; subst. rewrite (F4 N2). f_equal. rewrite (back_text oc i j W1 N1 E) in T'. congruence.
Qed.
(** Printing back settles: the text, when it is accepted again, is printed back as a text that stays the same from then on, and its code too; unless
    there is an SRM, it is the first text already. *)
Lemma P_C80_settles : forall oc s t code', re_assemble oc s = Ret t -> assemble t = Some code' ->
  exists t', re_assemble oc t = Ret t' /\ re_assemble oc t' = Ret t' /\ assemble t' = Some code' /\
    ((forall code bs a b c, assemble s = Some code -> In bs (quads code) -> decode bs <> ROk (Srm a b c)) -> t' = t).
Proof.
  intros oc s t code' E A. destruct (P_C80_text oc s t E) as (bss & is & lines & A0 & D & L & Et & X). rewrite A in X. destruct X as (bss' & -> & B).
  assert (W : Forall instr_wf is). { apply (decoded_instr_wf bss); [|exact D]. rewrite <- (quads_flat bss). apply quads_wf. eapply P_C80_bytes. exact A0. }
  destruct (again oc is lines bss' W L B) as (js & lines' & J & RA & L' & NS). exists (String.concat newline lines').
  assert (W' : Forall instr_wf js). { clear -RA. induction RA as [|bs j bss js (B & D & _) _ IH]; constructor; [|exact IH]. pose proof (P_C42_decode bs B) as X. rewrite D in X. apply X. }
  assert (E1 : re_assemble oc t = Ret (String.concat newline lines')).
  { unfold re_assemble. rewrite A. cbn [unwrap obind]. rewrite (strict_ok bss' js). 2:{ clear -RA. induction RA as [|bs j bss js (_ & D & _) _ IH]; [reflexivity|]. cbn [map]. rewrite D, IH. reflexivity. }
    unfold prog_to_lasm. apply lines_all in L'. rewrite L'. reflexivity. }
  assert (F : Forall2 (fun i bs => exists j, reassembled i = Some j /\ runs_as bs j) js bss').
  { clear -J RA. revert bss' RA. induction J as [|i j is js E _ IH]; intros bss' RA; inversion RA as [|bs ? bss ? R RA2]; subst; constructor; [|apply IH; exact RA2]. exists j. split; [eapply back_idem; exact E|exact R]. }
  assert (A1 : assemble (String.concat newline lines') = Some (flat_map list_of_bytes bss')).
  { assert (P : prog_to_lasm oc (from_instr js) false = Ret (String.concat newline lines')) by (unfold prog_to_lasm; apply lines_all in L'; rewrite L'; reflexivity).
    pose proof (P_C69_program oc _ _ (from_wf js W') P) as X. destruct (assemble (String.concat newline lines')) as [c|].
    - destruct X as (b2 & -> & G). f_equal. f_equal. clear -F G. unfold from_instr in G. revert b2 G. induction F as [|i bs js bss' (j & E & (_ & _ & R)) _ IH]; intros b2 G; inversion G as [|? bs2 ? b3 K G2]; subst; [reflexivity|]. cbn [word_back] in K. destruct K as (j2 & E2 & (_ & _ & R2)). f_equal; [congruence|auto].
    - exfalso. apply Exists_exists in X. destruct X as (w & I & R). unfold from_instr in I. apply in_map_iff in I. destruct I as (i & <- & I). cbn [word_rejected] in R. clear -F I R. induction F as [|i2 bs js bss' (j & E & _) _ IH]; [contradiction|]. destruct I as [->|I]; [congruence|auto]. }
  assert (E2 : re_assemble oc (String.concat newline lines') = Ret (String.concat newline lines')) by (unfold re_assemble in *; rewrite A1; rewrite A in E1; exact E1).
  split; [exact E1|]. split; [exact E2|]. split; [exact A1|]. intros N. rewrite Et. f_equal. apply NS. apply Forall_forall. intros i I a b c ->. assert (Y : exists bs, In bs bss /\ decode bs = ROk (Srm a b c)). { clear -D I. induction D as [|bs i bss is D _ IH]; [contradiction|]. destruct I as [->|I]; [exists bs; split; [left; reflexivity|exact D]|]. destruct (IH I) as (x & Ix & Dx). exists x. split; [right; exact Ix|exact Dx]. }
  destruct Y as (bs & J1 & J2). apply (N (flat_map list_of_bytes bss) bs a b c A0); [rewrite quads_flat; exact J1|exact J2].
Qed.
(** ** Sources of instructions *)
Lemma code_decodes t bs : (forall e, In e t -> 0 <= snd e < 2 ^ 64) -> Forall body_ok bs -> Forall only_code bs -> forall pos scope code, pos mod 4 = 0 -> meaning t pos scope bs = Some code ->
  exists is bss, code = flat_map list_of_bytes bss /\ Forall2 (fun b i => decode b = ROk i) bss is.
Proof.
  intros AB H. induction H as [|b bs H _ IH]; intros C pos scope code P E; cbn [meaning] in E; [injection E as <-; exists [], []; split; [reflexivity|constructor]|]. inversion C as [|? ? C1 C2]; subst.
  destruct (body_bytes t pos scope b) as [x|] eqn:X; [|discriminate]. destruct (meaning t _ _ bs) as [y|] eqn:Y; [|discriminate]. injection E as <-.
  assert (NP : next_pos pos b mod 4 = 0) by (destruct b; cbn [next_pos only_code] in *; try contradiction; unfold aligned; lia).
  destruct (IH C2 _ _ _ NP Y) as (is & bss & -> & F). assert (Z : aligned pos - pos = 0) by (unfold aligned; lia).
  destruct b as [l|l|m args|n|s|]; cbn [body_bytes only_code body_ok] in *; try contradiction.
  - rewrite Z in X. injection X as <-. exists is, bss. auto.
  - destruct (String.eqb scope ""); [discriminate|]. rewrite Z in X. injection X as <-. exists is, bss. auto.
  - destruct H as (MI & H). destruct (all_resolved t scope args) as [ws|] eqn:R; [|discriminate]. rewrite text_instr in X; [|apply identifier_word; exact MI|exact (arg_words t scope args AB H ws R)].
    destruct (P_C69_valid _ _ _ _ X) as (a & b & c & d & i & -> & _ & D). exists (i :: is), ((a, b, c, d) :: bss). split; [reflexivity|]. constructor; assumption.
  - injection X as <-. exists is, bss. auto.
Qed.
(** A source of labels and instructions that assembles is printed back, in a release build. *)
Lemma P_C80_instructions : forall ls code, Forall line_ok ls -> code_size ls < 2 ^ 60 -> Forall only_code (bodies ls) -> assemble (source ls) = Some code -> exists t, re_assemble false (source ls) = Ret t.
Proof.
  intros ls code H S C A. destruct (re_assemble false (source ls)) as [t|] eqn:E; [eauto|]. exfalso. apply P_C80_panics in E. rewrite A in E. destruct (assembled_meaning ls code H S A) as (_ & M).
  destruct (code_decodes _ _ (bounded ls S) (bodies_ok ls H) C 0 "" code eq_refl M) as (is & bss & -> & F). rewrite flat_len, quads_flat in E. destruct E as [E|[(bs & e & I & D)|(O & _)]]; [lia| |discriminate].
  clear -F I D. induction F as [|b i bss is X _ IH]; [contradiction|]. destruct I as [->|I]; [congruence|auto].
Qed.
(** The example prints what its test expects. *)
Lemma P_C80_example : forall oc, re_assemble oc disassemble_source = Ret (String.concat newline expected_lasm) /\ disassemble_main oc = Ret (newline ++ String.concat newline expected_lasm)%string.
Proof. intros [|]; split; vm_compute; reflexivity. Qed.
(** ** Witnesses *)
Lemma E_C80_bytes : exists code, assemble disassemble_source = Some code /\ zlen code = 100.
Proof. eexists. split; vm_compute; reflexivity. Qed.
Lemma E_C80_prog : assemble_prog ("halt" ++ newline ++ "#d32 0x12345678") = Some (ROk [PInstr Halt; PRaw (18, 52, 86, 120)]) /\ assemble_prog ("halt" ++ newline ++ "#d ""Hi""") = Some (RErr (0, SourceNotMultipleOf4Bytes)).
Proof. split; vm_compute; reflexivity. Qed.
Lemma E_C80_panics : re_assemble true "jpr -0x8000" = Panic /\ re_assemble false "jpr -0x8000" <> Panic /\ re_assemble false "#d32 0xFFFFFFFF" = Panic.
Proof. split; [vm_compute; reflexivity|]. split; [vm_compute; discriminate|vm_compute; reflexivity]. Qed.
Lemma E_C80_text : re_assemble true ("start:" ++ newline ++ " xor a0, a1" ++ newline ++ " jp start") = Ret ("zro a1" ++ newline ++ "jp 0x0")%string.
Proof. vm_compute. reflexivity. Qed.
Lemma E_C80_settles : re_assemble true "#d32 0xC7000102" = Ret "srm a0, a1, a2" /\ assemble "srm a0, a1, a2" = Some [191; 0; 1; 2] /\ re_assemble true "srm a0, a1, a2" = Ret "wea a0, a1, a2".
Proof. repeat split; vm_compute; reflexivity. Qed.
Lemma E_C80_instructions : Forall only_code (bodies (firstn 6 a_source ++ [Line 0 (BLabel "msg") None; Line 0 (BLabel "go") None])).
Proof. repeat constructor. Qed.
Lemma E_C80_example : hd "" expected_lasm = "zro a0".
Proof. reflexivity. Qed.
