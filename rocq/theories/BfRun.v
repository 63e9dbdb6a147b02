(** The brainfuck example's program follows the interpreter of SpecBf.v. *)
From Coq Require Import String ZArith List Bool Lia.
From Verif Require Import Base BaseFacts Board Mem Cpu Asm Tools Devices Runner LasmRules Lasm Sources Examples SpecMach SpecIsa SpecBus SpecObs SpecMap SpecDev SpecRun SpecPanic SpecBf.
From Verif Require Import Counter RegFacts MemFacts MapFacts CycleFacts CyclePost ReachFacts InvFacts DevTyped ProofMap ProofBoard ProofReg ProofRun ProofCrash ProofRom ProofDev ProofIo SymFacts BfFacts.
Import ListNotations.
Open Scope list_scope.
Open Scope Z_scope.
Ltac Zify.zify_post_hook ::= Z.div_mod_to_equations.

Section Run.
Context (oc : bool) (id0 id1 id2 id3 id4 id5 id6 id7 : Z) (sz1 sz2 : Z) (typed_lines : nat -> list Z) (typed_keys : nat -> Z).
Context (L : list Z).
Hypothesis (HL8 : Forall is_u8 L) (HLlen : zlen L <= 4092) (Hkeys : forall k, is_u32 (typed_keys k)).
Notation leads := (leads oc).
Notation Main := (Main id0 id1 id2 id3 id4 id5 id6 id7 sz1 sz2 typed_lines typed_keys).
Notation Got := (Got id0 id1 id2 id3 id4 id5 id6 id7 sz1 sz2 typed_lines typed_keys).
Notation Skip := (Skip id0 id1 id2 id3 id4 id5 id6 id7 sz1 sz2 typed_lines typed_keys).
Notation Skipped := (Skipped id0 id1 id2 id3 id4 id5 id6 id7 sz1 sz2 typed_lines typed_keys).
Notation Unclosed := (Unclosed id0 id1 id2 id3 id4 id5 id6 id7 sz1 sz2 typed_lines typed_keys).
Notation Halted := (Halted id0 id1 id2 id3 id4 id5 id6 id7 sz1 sz2 typed_lines typed_keys).

(** The line in the keyboard's buffer, the components, and the state of the interpreter. *)
Definition line_ok (w : bfw) : Prop :=
  zlen (w_line w) = 1023 /\ forall p, 0 <= p < 4096 -> is_u32 (nth (Z.to_nat (p / 4)) (w_line w) 0) /\ line_byte (w_line w) p = char_at L p.
Definition rel (s : bf_state) (w : bfw) : Prop :=
  (forall i, 0 <= i < 1024 -> znth (w_cells w) i = Some (b_tape s i)) /\ (forall i, is_u32 (b_tape s i)) /\ w_keys w = b_keys s /\ line_ok w /\ w_buf w = zeros 1023 /\
  zlen (b_loops s) <= 1021 /\ Forall (fun q => 0 <= q < 4092) (b_loops s) /\ 0 <= b_pos s <= 4092.
Definition Sim (s : bf_state) (w : bfw) : st (memory device) -> Prop := Main (b_pos s) (m32 (8192 + b_ptr s)) (b_loops s ++ [36]) w.

Lemma char_8 p : 0 <= char_at L p < 256.
Proof. unfold char_at. destruct (nth_in_or_default (Z.to_nat p) L 0) as [I| ->]; [|lia]. rewrite Forall_forall in HL8. apply HL8 in I. unfold is_u8 in I. lia. Qed.
Lemma char_end p : 0 <= p -> char_at L p <> 0 -> p < 4092.
Proof. intros Hp H. destruct (Z.lt_ge_cases p 4092); auto. exfalso. apply H. unfold char_at. apply nth_overflow. unfold zlen in HLlen. lia. Qed.
Lemma loops_len s w : rel s w -> 0 < zlen (b_loops s ++ [36]) < 1023.
Proof. intros (_ & _ & _ & _ & _ & H & _). rewrite zlen_app. change (zlen [36]) with 1. assert (0 <= zlen (b_loops s)) by (unfold zlen; lia). lia. Qed.
Lemma rel_cell s w v : rel s w -> cell_of s = Some v -> cell w (m32 (8192 + b_ptr s)) (b_ptr s / 4) v.
Proof.
  intros (H1 & H2 & _) E. unfold cell_of in E. destruct ((b_ptr s mod 4 =? 0) && (0 <=? b_ptr s) && (b_ptr s <? 4096)) eqn:C; [|discriminate]. injection E as <-.
  split; [unfold m32; lia|]. split; [lia|]. split; [apply H1; lia|apply H2].
Qed.
Lemma sim_fetch s w : rel s w -> leads (Sim s w) (Got 184 (char_at L (b_pos s)) (b_pos s) (m32 (8192 + b_ptr s)) (b_loops s ++ [36]) w).
Proof.
  intros H. pose proof (loops_len s w H). destruct H as (_ & _ & _ & (H1 & H2) & _ & _ & _ & H3). destruct (H2 (b_pos s) ltac:(lia)) as (U & <-).
  apply bf_fetch; auto; lia.
Qed.
Lemma tape_put s w v l : rel s w -> is_u32 v -> cell_of s <> None -> zset (w_cells w) (b_ptr s / 4) v = Some l ->
  (forall i, 0 <= i < 1024 -> znth l i = Some (set_tape s v i)) /\ forall i, is_u32 (set_tape s v i).
Proof.
  intros (H1 & H2 & _) U C E. split.
  - intros i Hi. rewrite (zset_get _ _ _ _ _ E) by (unfold cell_of in C; destruct ((b_ptr s mod 4 =? 0) && (0 <=? b_ptr s) && (b_ptr s <? 4096)) eqn:X; [lia|congruence]).
    unfold set_tape. destruct (i =? b_ptr s / 4); auto.
  - intros i. unfold set_tape. destruct (i =? b_ptr s / 4); auto.
Qed.
Lemma rel_next s w t w' : rel s w -> (forall i, 0 <= i < 1024 -> znth (w_cells w') i = Some (b_tape t i)) -> (forall i, is_u32 (b_tape t i)) -> w_keys w' = b_keys t -> w_line w' = w_line w ->
  w_buf w' = w_buf w -> zlen (b_loops t) <= 1021 -> Forall (fun q => 0 <= q < 4092) (b_loops t) -> 0 <= b_pos t <= 4092 -> rel t w'.
Proof.
  intros (H1 & H2 & H3 & (H4 & H4') & H5 & H6 & H7 & H8) A1 A2 A3 A4 A5 A6 A7 A8. split; auto. split; auto. split; auto. split; [|split; [congruence|auto]].
  unfold line_ok. rewrite A4. auto.
Qed.
Lemma m32_u32 x : is_u32 (m32 x). Proof. unfold is_u32, m32. lia. Qed.
Ltac goes E t := unfold after in E; match type of E with Goes ?x = Goes t => assert (t = x) as -> by congruence end; clear E.
Ltac same w := split; [reflexivity|]; split; [reflexivity|]; exists []; cbn [map b_out]; rewrite !app_nil_r; split; reflexivity.

(** A step of the interpreter is followed by the program; [rest] says what the components have shown. *)
Lemma sim_step s w t : rel s w -> bf_step L typed_keys s = Goes t ->
  exists w', leads (Sim s w) (Sim t w') /\ rel t w' /\ w_shown w' = w_shown w /\ w_num w' = w_num w /\ exists o, b_out t = b_out s ++ o /\ w_out w' = w_out w ++ map char_from_u32 o.
Proof.
  intros HR E. pose proof (sim_fetch s w HR) as F. pose proof (loops_len s w HR) as LL. pose proof (char_8 (b_pos s)) as C8. pose proof (char_end (b_pos s)) as CE.
  pose proof HR as (Q1 & Q2 & Q3 & QL & Q4 & Q5 & Q6 & (P0 & _)). unfold bf_step in E. cbv zeta in E.
  destruct ((char_at L (b_pos s) =? 0) || (char_at L (b_pos s) =? 13) || (char_at L (b_pos s) =? 10)) eqn:X0. { destruct (b_loops s); discriminate. }
  assert (NE : ~ ends (char_at L (b_pos s))) by (unfold ends; lia). specialize (CE P0 ltac:(lia)). assert (P1 : 0 <= b_pos s < 4096) by lia.
  pose proof (leads_trans oc _ _ _ F (bf_go oc _ _ _ _ _ _ _ _ _ _ _ _ _ _ _ _ _ NE C8)) as G. clear F.
  destruct (Z.eqb_spec (char_at L (b_pos s)) 62) as [E1|_].
  { rewrite E1 in G. exists w. goes E t. split.
    - eapply leads_trans; [exact G|]. eapply leads_trans; [apply (bf_dispatch oc) with (h := 500); cbn; auto|]. 
      unfold Sim. cbn [b_pos b_ptr b_loops]. replace (m32 (8192 + (b_ptr s + 1))) with (m32 (m32 (8192 + b_ptr s) + 1)) by (unfold m32; lia). apply bf_right. lia.
    - split; [apply (rel_next s w); auto; cbn [b_pos]; lia|]. same w. }
  destruct (Z.eqb_spec (char_at L (b_pos s)) 60) as [E1|_].
  { rewrite E1 in G. exists w. goes E t. split.
    - eapply leads_trans; [exact G|]. eapply leads_trans; [apply (bf_dispatch oc) with (h := 508); cbn; auto|]. 
      unfold Sim. cbn [b_pos b_ptr b_loops]. replace (m32 (8192 + (b_ptr s - 1))) with (m32 (m32 (8192 + b_ptr s) - 1)) by (unfold m32; rewrite Zminus_mod_idemp_l; f_equal; lia). apply bf_left. lia.
    - split; [apply (rel_next s w); auto; cbn [b_pos]; lia|]. same w. }
  destruct (Z.eqb_spec (char_at L (b_pos s)) 43) as [E1|_].
  { rewrite E1 in G. destruct (cell_of s) as [v|] eqn:Ev; [|discriminate]. pose proof (rel_cell s w v HR Ev) as C. goes E t.
    destruct (bf_plus oc id0 id1 id2 id3 id4 id5 id6 id7 sz1 sz2 typed_lines typed_keys 43 (b_pos s) _ (b_loops s ++ [36]) w _ _ P1 C) as (l & El & X).
    destruct (tape_put s w _ l HR (m32_u32 _) ltac:(congruence) El) as (T1 & T2). exists (set_cells w l). split.
    - eapply leads_trans; [exact G|]. eapply leads_trans; [apply (bf_dispatch oc) with (h := 516); cbn; auto|exact X].
    - split; [apply (rel_next s w); auto; cbn [b_pos]; lia|]. same w. }
  destruct (Z.eqb_spec (char_at L (b_pos s)) 45) as [E1|_].
  { rewrite E1 in G. destruct (cell_of s) as [v|] eqn:Ev; [|discriminate]. pose proof (rel_cell s w v HR Ev) as C. goes E t.
    destruct (bf_minus oc id0 id1 id2 id3 id4 id5 id6 id7 sz1 sz2 typed_lines typed_keys 45 (b_pos s) _ (b_loops s ++ [36]) w _ _ P1 C) as (l & El & X).
    destruct (tape_put s w _ l HR (m32_u32 _) ltac:(congruence) El) as (T1 & T2). exists (set_cells w l). split.
    - eapply leads_trans; [exact G|]. eapply leads_trans; [apply (bf_dispatch oc) with (h := 532); cbn; auto|exact X].
    - split; [apply (rel_next s w); auto; cbn [b_pos]; lia|]. same w. }
  destruct (Z.eqb_spec (char_at L (b_pos s)) 46) as [E1|_].
  { rewrite E1 in G. destruct (cell_of s) as [v|] eqn:Ev; [|discriminate]. pose proof (rel_cell s w v HR Ev) as C. goes E t.
    exists (set_out w (w_out w ++ [char_from_u32 v])). split.
    - eapply leads_trans; [exact G|]. eapply leads_trans; [apply (bf_dispatch oc) with (h := 548); cbn; auto 10|]. unfold Sim; cbn [b_pos b_ptr b_loops]; eapply bf_dot; [lia|lia|exact C].
    - split; [apply (rel_next s w); auto; cbn [b_pos]; lia|]. split; [reflexivity|]. split; [reflexivity|]. exists [v]. split; reflexivity. }
  destruct (Z.eqb_spec (char_at L (b_pos s)) 44) as [E1|_].
  { rewrite E1 in G. destruct (cell_of s) as [v|] eqn:Ev; [|discriminate]. pose proof (rel_cell s w v HR Ev) as C. goes E t.
    destruct (bf_comma oc id0 id1 id2 id3 id4 id5 id6 id7 sz1 sz2 typed_lines typed_keys 44 (b_pos s) _ (b_loops s ++ [36]) w _ _ P1 ltac:(lia) C (Hkeys _)) as (l & El & X).
    destruct (tape_put s w _ l HR (Hkeys _) ltac:(congruence) El) as (T1 & T2). rewrite Q3 in *. eexists. split.
    - eapply leads_trans; [exact G|]. eapply leads_trans; [apply (bf_dispatch oc) with (h := 560); cbn; auto 10|exact X].
    - split; [apply (rel_next s w); auto; cbn [b_pos]; lia|]. same w. }
  destruct (Z.eqb_spec (char_at L (b_pos s)) 91) as [E1|_].
  { rewrite E1 in G. destruct (cell_of s) as [v|] eqn:Ev; [|discriminate]. pose proof (rel_cell s w v HR Ev) as C. 
    pose proof (leads_trans oc _ _ _ G (bf_dispatch oc id0 id1 id2 id3 id4 id5 id6 id7 sz1 sz2 typed_lines typed_keys 91 572 _ _ _ _ ltac:(cbn; auto 10))) as G'. clear G.
    destruct (Z.eq_dec v 0) as [->|Nv].
    - destruct (Z.eqb_spec (char_at L (b_pos s + 1)) 93) as [E2|]; [|discriminate]. goes E t. exists w. pose proof (char_end (b_pos s + 1)) as CE2. split.
      + eapply leads_trans; [exact G'|]. eapply leads_trans; [eapply bf_open_zero; [lia|lia|exact C]|]. destruct QL as (QL1 & QL2). destruct (QL2 (b_pos s + 1) ltac:(lia)) as (U & EB).
        eapply leads_trans; [apply bf_skip; [exact QL1|lia|exact U]|]. rewrite EB, E2. unfold Sim. cbn [b_pos b_ptr b_loops]. replace (b_pos s + 2) with (b_pos s + 1 + 1) by lia. apply bf_skip_close; lia.
      + split; [apply (rel_next s w); auto; cbn [b_pos]; lia|]. same w.
    - assert (E' : (if zlen (b_loops s) <? 1021 then Goes (BfState (b_pos s + 1) (b_ptr s) (b_tape s) (b_pos s :: b_loops s) (b_keys s) (b_out s)) else Unspecified) = Goes t) by (destruct v; [congruence|exact E|exact E]).
      clear E. destruct (Z.ltb_spec (zlen (b_loops s)) 1021); [|discriminate]. goes E' t. exists w. split.
      + eapply leads_trans; [exact G'|]. unfold Sim; cbn [b_pos b_ptr b_loops app]; eapply bf_open; [lia|lia|exact C|exact Nv].
      + split; [apply (rel_next s w); auto; cbn [b_pos b_loops]; [rewrite zlen_cons; lia|constructor; [lia|auto]|lia]|]. same w. }
  destruct (Z.eqb_spec (char_at L (b_pos s)) 93) as [E1|_]; [|discriminate].
  rewrite E1 in G. destruct (b_loops s) as [|q rest] eqn:El; [discriminate|]. cbn [app] in *. destruct (cell_of s) as [v|] eqn:Ev; [|discriminate]. pose proof (rel_cell s w v HR Ev) as C.
  pose proof (leads_trans oc _ _ _ G (bf_dispatch oc id0 id1 id2 id3 id4 id5 id6 id7 sz1 sz2 typed_lines typed_keys 93 648 _ _ _ _ ltac:(cbn; auto 10))) as G'. clear G.
  rewrite zlen_cons in *. assert (0 <= zlen rest) by (unfold zlen; lia). assert (0 < zlen (rest ++ [36])) by (rewrite zlen_app; change (zlen [36]) with 1; lia). inversion Q6; subst.
  destruct (Z.eq_dec v 0) as [->|Nv].
  - goes E t. exists w. split; [eapply leads_trans; [exact G'|]; unfold Sim; cbn [b_pos b_ptr b_loops]; eapply bf_close_zero; [lia|lia|exact C]|]. split; [apply (rel_next s w); auto; cbn [b_pos b_loops]; lia|]. same w.
  - assert (E' : Goes (BfState q (b_ptr s) (b_tape s) rest (b_keys s) (b_out s)) = Goes t) by (destruct v; [congruence|exact E|exact E]). goes E' t.
    exists w. split; [eapply leads_trans; [exact G'|]; unfold Sim; cbn [b_pos b_ptr b_loops]; eapply bf_close_again; [lia|lia|exact C|exact Nv]|]. split; [apply (rel_next s w); auto; cbn [b_pos b_loops]; lia|]. same w.
Qed.
Lemma sim_finishes s w : rel s w -> bf_step L typed_keys s = Finishes -> leads (Sim s w) (Halted (show_message 283 w)).
Proof.
  intros HR E. pose proof (sim_fetch s w HR) as F. pose proof HR as (_ & _ & _ & _ & Q4 & _). unfold bf_step in E. cbv zeta in E.
  destruct ((char_at L (b_pos s) =? 0) || (char_at L (b_pos s) =? 13) || (char_at L (b_pos s) =? 10)) eqn:X0.
  - assert (NE : ends (char_at L (b_pos s))) by (unfold ends; lia). destruct (b_loops s) as [|q rest] eqn:El; [|discriminate]. cbn [app] in *.
    eapply leads_trans; [exact F|]. eapply leads_trans; [apply bf_end; exact NE|]. apply bf_end_ok. exact Q4.
  - unfold after in E. repeat (match type of E with context [if ?b then _ else _] => destruct b end; try discriminate).
    all: try (destruct (cell_of s) as [[| |]|]; discriminate).
    all: try (destruct (b_loops s); [discriminate|]; destruct (cell_of s) as [[| |]|]; discriminate).
Qed.
Definition failed (p : Z) (e : bf_error) (w : bfw) : bfw :=
  match e with
  | UnknownSymbol b => unknown_error p b w
  | NoLoopOpened => show_message 237 (header p 250 w)
  | NotClosed n q => unclosed_error p n q w
  end.
Lemma sim_fails s w p e : rel s w -> bf_step L typed_keys s = Fails p e -> leads (Sim s w) (Halted (failed p e w)).
Proof.
  intros HR E. pose proof (sim_fetch s w HR) as F. pose proof (loops_len s w HR) as LL. pose proof (char_8 (b_pos s)) as C8. pose proof (char_end (b_pos s)) as CE.
  pose proof HR as (Q1 & Q2 & Q3 & QL & Q4 & Q5 & Q6 & (P0 & P2)). unfold bf_step in E. cbv zeta in E.
  destruct ((char_at L (b_pos s) =? 0) || (char_at L (b_pos s) =? 13) || (char_at L (b_pos s) =? 10)) eqn:X0.
  { assert (NE : ends (char_at L (b_pos s))) by (unfold ends; lia). destruct (b_loops s) as [|q rest] eqn:El; [discriminate|]. 
    assert (p = b_pos s /\ e = NotClosed (zlen (q :: rest)) q) as (-> & ->) by (split; congruence). cbn [app] in *. assert (0 <= zlen rest) by (unfold zlen; lia).
    rewrite zlen_cons, zlen_app in LL. rewrite zlen_cons in Q5. change (zlen [36]) with 1 in LL. inversion Q6; subst.
    eapply leads_trans; [exact F|]. eapply leads_trans; [apply bf_end; exact NE|]. cbn [failed].
    replace (zlen (q :: rest)) with (zlen (q :: rest ++ [36]) - 1) by (rewrite !zlen_cons, zlen_app; change (zlen [36]) with 1; lia).
    apply (bf_unclosed oc id0 id1 id2 id3 id4 id5 id6 id7 sz1 sz2 typed_lines typed_keys); [lia| | |lia|exact Q4]; rewrite ?zlen_cons, zlen_app; change (zlen [36]) with 1; lia. }
  assert (NE : ~ ends (char_at L (b_pos s))) by (unfold ends; lia). specialize (CE P0 ltac:(lia)). assert (P1 : 0 <= b_pos s < 4096) by lia.
  pose proof (leads_trans oc _ _ _ F (bf_go oc _ _ _ _ _ _ _ _ _ _ _ _ _ _ _ _ _ NE C8)) as G. clear F. unfold after in E.
  destruct (Z.eqb_spec (char_at L (b_pos s)) 62) as [E1|N1]; [discriminate|].
  destruct (Z.eqb_spec (char_at L (b_pos s)) 60) as [E1|N2]; [discriminate|].
  destruct (Z.eqb_spec (char_at L (b_pos s)) 43) as [E1|N3]; [destruct (cell_of s); discriminate|].
  destruct (Z.eqb_spec (char_at L (b_pos s)) 45) as [E1|N4]; [destruct (cell_of s); discriminate|].
  destruct (Z.eqb_spec (char_at L (b_pos s)) 46) as [E1|N5]; [destruct (cell_of s); discriminate|].
  destruct (Z.eqb_spec (char_at L (b_pos s)) 44) as [E1|N6]; [destruct (cell_of s); discriminate|].
  destruct (Z.eqb_spec (char_at L (b_pos s)) 91) as [E1|N7].
  { rewrite E1 in G. destruct (cell_of s) as [v|] eqn:Ev; [|discriminate]. pose proof (rel_cell s w v HR Ev) as C.
    pose proof (leads_trans oc _ _ _ G (bf_dispatch oc id0 id1 id2 id3 id4 id5 id6 id7 sz1 sz2 typed_lines typed_keys 91 572 _ _ _ _ ltac:(cbn; auto 10))) as G'. clear G.
    destruct v; [|destruct (zlen (b_loops s) <? 1021); discriminate|destruct (zlen (b_loops s) <? 1021); discriminate].
    destruct (Z.eqb_spec (char_at L (b_pos s + 1)) 93) as [E2|N]; [discriminate|].
    assert (p = b_pos s + 1 /\ e = NotClosed (zlen (b_loops s) + 1) (hd 36 (b_loops s))) as (-> & ->) by (split; congruence). clear E.
    eapply leads_trans; [exact G'|]. eapply leads_trans; [eapply bf_open_zero; [lia|lia|exact C]|]. destruct QL as (QL1 & QL2). destruct (QL2 (b_pos s + 1) ltac:(lia)) as (U & EB).
    eapply leads_trans; [apply bf_skip; [exact QL1|lia|exact U]|]. rewrite EB. eapply leads_trans; [apply bf_skip_error; [exact N|apply char_8]|]. cbn [failed].
    replace (zlen (b_loops s) + 1) with (zlen (b_loops s ++ [36])) by (rewrite zlen_app; reflexivity).
    assert (X : exists K, b_loops s ++ [36] = hd 36 (b_loops s) :: K /\ 0 <= hd 36 (b_loops s) < 4096). { destruct (b_loops s) as [|q rest]; cbn [app hd]; eexists; (split; [reflexivity|]); [lia|]. inversion Q6; subst. lia. }
    destruct X as (K & EK & HK). rewrite EK. rewrite EK in LL. assert (0 <= zlen K) by (unfold zlen; lia). rewrite zlen_cons in LL. apply (bf_unclosed oc id0 id1 id2 id3 id4 id5 id6 id7 sz1 sz2 typed_lines typed_keys); auto; rewrite ?zlen_cons; lia. }
  destruct (Z.eqb_spec (char_at L (b_pos s)) 93) as [E1|N8].
  { rewrite E1 in G. destruct (b_loops s) as [|q rest] eqn:El; [|destruct (cell_of s) as [[| |]|]; discriminate]. assert (p = b_pos s /\ e = NoLoopOpened) as (-> & ->) by (split; congruence). clear E.
    eapply leads_trans; [exact G|]. eapply leads_trans; [apply (bf_dispatch oc) with (h := 648); cbn; auto 10|]. apply bf_close_error; auto. }
  assert (p = b_pos s /\ e = UnknownSymbol (char_at L (b_pos s))) as (-> & ->) by (split; congruence). clear E.
  eapply leads_trans; [exact G|]. apply bf_unknown; auto; [|lia]. unfold known. cbn [In]. lia.
Qed.
(** Several steps. *)
Lemma sim_steps n : forall s w t, rel s w -> bf_steps L typed_keys n s t ->
  exists w', rel t w' /\ w_shown w' = w_shown w /\ w_num w' = w_num w /\ (exists o, b_out t = b_out s ++ o /\ w_out w' = w_out w ++ map char_from_u32 o) /\
    forall m, Sim s w m -> exists k m', (n <= k)%nat /\ quiet (dev_ops oc) bf_words k m m' /\ Sim t w' m'.
Proof.
  induction n as [|n IH]; intros s w t HR E; cbn [bf_steps] in E.
  - subst t. exists w. split; [exact HR|]. split; [reflexivity|]. split; [reflexivity|]. split; [exists []; cbn [map]; rewrite !app_nil_r; auto|]. intros m Hm. exists 0%nat, m. split; [lia|]. split; [apply quiet_0|exact Hm].
  - destruct E as (t1 & E1 & E2). destruct (sim_step s w t1 HR E1) as (w1 & X1 & R1 & A1 & A2 & o1 & A3 & A4).
    destruct (IH t1 w1 t R1 E2) as (w2 & R2 & B1 & B2 & (o2 & B3 & B4) & X2). exists w2. split; [exact R2|]. split; [congruence|]. split; [congruence|].
    split. { exists (o1 ++ o2). rewrite B3, B4, A3, A4, map_app, <- !app_assoc. auto. }
    intros m Hm. destruct (X1 m Hm) as (k1 & m1 & K1 & S1). destruct (X2 m1 S1) as (k2 & m2 & L2 & K2 & S2). exists (S k1 + k2)%nat, m2. split; [lia|]. split; [eapply quiet_app; eauto|exact S2].
Qed.
End Run.
