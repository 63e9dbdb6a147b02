(** Proof that machines whose components answer alike stay alike, for every history of calls. *)
From Coq Require Import ZArith List Bool Lia.
From Verif Require Import Base Board Mem Cpu Asm Tools Runner SpecMach SpecObs SpecSim SpecRun BaseFacts Demo ProofPanic.
Import ListNotations.
Open Scope Z_scope.
Ltac Zify.zify_post_hook ::= Z.div_mod_to_equations.

Lemma both_bind {A B A' B'} (P : A -> B -> Prop) (Q : A' -> B' -> Prop) x y f g :
  both P x y -> (forall a b, P a b -> both Q (f a) (g b)) -> both Q (obind x f) (obind y g).
Proof. destruct x, y; cbn; intros H K; try contradiction; auto. Qed.
Lemma both_same {A A' B'} (Q : A' -> B' -> Prop) (x : outcome A) f g : (forall a, both Q (f a) (g a)) -> both Q (obind x f) (obind x g).
Proof. destruct x; cbn; auto. Qed.

Section Sim.
Context {D1 D2 : Type} (o1 : bus_ops D1) (o2 : bus_ops D2) (Rel : D1 -> D2 -> Prop) (AA : answer_alike o1 o2 Rel) (oc : bool).

Definition ent (e1 : aux_entry D1) (e2 : aux_entry D2) : Prop := Rel (ae_dev e1) (ae_dev e2) /\ ae_cache e1 = ae_cache e2.
Definition hs : hwb D1 -> hwb D2 -> Prop := Forall2 ent.
Inductive ms : memory D1 -> memory D2 -> Prop := ms_intro h1 h2 maps : hs h1 h2 -> ms (Memory h1 maps) (Memory h2 maps).
Inductive same : cpu D1 -> cpu D2 -> Prop :=
  same_intro r m1 m2 cy ha ch : ms m1 m2 -> same (Cpu r m1 cy ha ch) (Cpu r m2 cy ha ch).

Definition crel {A} (x : cres D1 A) (y : cres D2 A) : Prop :=
  match x, y with COk a m, COk b m' => a = b /\ same m m' | CErr m, CErr m' => same m m' | CPanic, CPanic => True | _, _ => False end.
Lemma cbind_rel {A B} (x : cres D1 A) (y : cres D2 A) (f : A -> cpu D1 -> cres D1 B) g :
  crel x y -> (forall a m1 m2, same m1 m2 -> crel (f a m1) (g a m2)) -> crel (cbind x f) (cbind y g).
Proof. destruct x, y; cbn; intros H K; try contradiction; auto. destruct H as (-> & H). auto. Qed.
Lemma cpure_rel {A B} (x : outcome A) (f : A -> cres D1 B) (g : A -> cres D2 B) : (forall a, crel (f a) (g a)) -> crel (cpure x f) (cpure x g).
Proof. destruct x; cbn; auto. Qed.
Lemma cpure_both {A A' B} (P : A -> A' -> Prop) x y (f : A -> cres D1 B) (g : A' -> cres D2 B) : both P x y -> (forall a b, P a b -> crel (f a) (g b)) -> crel (cpure x f) (cpure y g).
Proof. destruct x, y; cbn; intros H K; try contradiction; auto. Qed.

Lemma hs_length h1 h2 : hs h1 h2 -> length h1 = length h2. Proof. induction 1; cbn; auto. Qed.
Lemma hs_znth h1 h2 : hs h1 h2 -> forall k, match znth h1 k, znth h2 k with Some e1, Some e2 => ent e1 e2 | None, None => True | _, _ => False end.
Proof.
  intros H k. destruct (Z.lt_ge_cases k 0). { rewrite !znth_neg by auto. exact I. }
  rewrite !znth_nth by auto. generalize (Z.to_nat k). induction H; intros [|n]; cbn; auto. apply IHForall2.
Qed.
Lemma hs_set h1 h2 : hs h1 h2 -> forall k d1 d2, Rel d1 d2 -> hs (set_dev h1 k d1) (set_dev h2 k d2).
Proof.
  induction 1 as [|e1 e2 h1 h2 (E1 & E2) H IH]; intros k d1 d2 HR; cbn [set_dev]; [constructor|].
  destruct (k =? 0); constructor; auto; [split; auto|split; auto|]. apply IH; auto.
Qed.
Lemma cache_same h1 h2 : hs h1 h2 -> forall k, cache_of h1 k = cache_of h2 k.
Proof. intros H k. unfold cache_of. pose proof (hs_znth _ _ H k) as X. destruct (znth h1 k), (znth h2 k); cbn; try contradiction; auto. destruct X as (_ & ->). auto. Qed.

Lemma mem_read_sim m1 m2 a : ms m1 m2 -> both (fun x y => ms (fst (fst x)) (fst (fst y)) /\ snd (fst x) = snd (fst y) /\ snd x = snd y) (mem_read o1 oc m1 a) (mem_read o2 oc m2 a).
Proof.
  intros [h1 h2 maps H]. unfold mem_read. destruct (a mod 4 =? 0); [|exact I]. cbn [mm_maps mm_hwb]. apply both_same. intros [mp|].
  2:{ cbn. repeat split; auto. }
  unfold hwb_read. destruct ((a - mp_addr mp) mod 4 =? 0); [|exact I]. pose proof (hs_znth _ _ H (mp_aux_id mp)) as X.
  destruct (znth h1 (mp_aux_id mp)) as [e1|], (znth h2 (mp_aux_id mp)) as [e2|]; try contradiction; [|exact I]. destruct X as (X & _).
  pose proof (aa_read _ _ _ AA _ _ (a - mp_addr mp) X) as Y. destruct (bo_read o1 _ _) as [[[d1 x1] v1]|], (bo_read o2 _ _) as [[[d2 x2] v2]|]; cbn in *; try contradiction; auto.
  destruct Y as (Y & -> & ->). repeat split; auto. apply hs_set; auto.
Qed.
Lemma mem_write_sim m1 m2 a w : ms m1 m2 -> both (fun x y => ms (fst x) (fst y) /\ snd x = snd y) (mem_write o1 oc m1 a w) (mem_write o2 oc m2 a w).
Proof.
  intros [h1 h2 maps H]. unfold mem_write. destruct (a mod 4 =? 0); [|exact I]. cbn [mm_maps mm_hwb]. apply both_same. intros [mp|].
  2:{ cbn. repeat split; auto. }
  unfold hwb_write. destruct ((a - mp_addr mp) mod 4 =? 0); [|exact I]. pose proof (hs_znth _ _ H (mp_aux_id mp)) as X.
  destruct (znth h1 (mp_aux_id mp)) as [e1|], (znth h2 (mp_aux_id mp)) as [e2|]; try contradiction; [|exact I]. destruct X as (X & _).
  pose proof (aa_write _ _ _ AA _ _ (a - mp_addr mp) w X) as Y. destruct (bo_write o1 _ _ _) as [[d1 x1]|], (bo_write o2 _ _ _) as [[d2 x2]|]; cbn in *; try contradiction; auto.
  destruct Y as (Y & ->). repeat split; auto. apply hs_set; auto.
Qed.
Lemma hwb_reset_sim h1 h2 k : hs h1 h2 -> both (fun x y => match x, y with Some a, Some b => hs a b | None, None => True | _, _ => False end) (hwb_reset o1 h1 k) (hwb_reset o2 h2 k).
Proof.
  intros H. unfold hwb_reset. pose proof (hs_znth _ _ H k) as X. destruct (znth h1 k) as [e1|], (znth h2 k) as [e2|]; try contradiction; [|exact I]. destruct X as (X & _).
  pose proof (aa_reset _ _ _ AA _ _ X) as Y. destruct (bo_reset o1 _), (bo_reset o2 _); cbn in *; try contradiction; auto. apply hs_set; auto.
Qed.
Lemma reset_loop_sim t ids : forall h1 h2, hs h1 h2 -> both hs (reset_loop o1 t ids h1) (reset_loop o2 t ids h2).
Proof.
  induction ids as [|i ids IH]; intros h1 h2 H; cbn [reset_loop]; [exact H|]. destruct (t i); [|auto].
  eapply both_bind; [apply hwb_reset_sim; eauto|]. intros [a|] [b|] X; try contradiction; [|exact I]. cbn. apply IH; auto.
Qed.
Lemma reset_where_sim t h1 h2 : hs h1 h2 -> both hs (reset_where o1 t h1) (reset_where o2 t h2).
Proof. intros H. unfold reset_where. rewrite (hs_length _ _ H). apply reset_loop_sim; auto. Qed.
Lemma internal_map_sim m1 m2 a e i : ms m1 m2 -> both (fun x y => ms (fst x) (fst y) /\ snd x = snd y) (internal_map oc m1 a e i) (internal_map oc m2 a e i).
Proof.
  intros [h1 h2 maps H]. unfold internal_map. cbn [mm_hwb mm_maps]. unfold size_of, hw_id_of. rewrite (cache_same _ _ H i).
  assert (B : ms (Memory h1 maps) (Memory h2 maps)) by (constructor; auto).
  destruct (option_map ac_size (cache_of h2 i)) as [sz|]; [|split; auto]. apply both_same; intros s1. apply both_same; intros df.
  repeat match goal with |- both _ (if ?b then _ else _) (if ?b then _ else _) => destruct b; [split; auto|] end. apply both_same; intros e4.
  repeat match goal with |- both _ (if ?b then _ else _) (if ?b then _ else _) => destruct b; [split; auto|] end. apply both_same; intros [mp|]; [split; auto|].
  apply both_same; intros hid. cbn. split; auto. constructor; auto.
Qed.
Lemma contiguous_sim ids : forall m1 m2 la mx fl st, ms m1 m2 ->
  both (fun x y => ms (fst (fst (fst x))) (fst (fst (fst y))) /\ snd (fst (fst x)) = snd (fst (fst y)) /\ snd (fst x) = snd (fst y) /\ snd x = snd y)
    (map_contiguous_loop oc m1 ids la mx fl st) (map_contiguous_loop oc m2 ids la mx fl st).
Proof.
  induction ids as [|i ids IH]; intros m1 m2 la mx fl st H; cbn [map_contiguous_loop]; [cbn; auto|].
  eapply both_bind; [apply internal_map_sim; eauto|]. intros [ma ra] [mb rb] (X & Y). cbn in X, Y. subst rb. apply both_same. intros [[la' mx'] fl'].
  destruct X as [h1 h2 maps X]. cbn [mm_hwb]. unfold hw_id_of, name_of. rewrite (cache_same _ _ X i). apply both_same; intros hid. apply both_same; intros nm. apply IH. constructor; auto.
Qed.
Lemma map_contiguous_sim m1 m2 a ids : ms m1 m2 -> both (fun x y => ms (fst (fst x)) (fst (fst y)) /\ snd (fst x) = snd (fst y) /\ snd x = snd y) (map_contiguous oc m1 a ids) (map_contiguous oc m2 a ids).
Proof.
  intros H. unfold map_contiguous. eapply both_bind; [apply contiguous_sim; eauto|]. intros [[[ma xa] fa] sa] [[[mb xb] fb] sb] (X & Y1 & Y2 & Y3). cbn in *. subst. auto.
Qed.

Ltac done := solve [constructor; auto | split; [reflexivity|constructor; auto] | auto].
Lemma exception_sim c a m1 m2 : same m1 m2 -> same (exception c a m1) (exception c a m2).
Proof. intros []. constructor; auto. Qed.
Lemma sv_sim m1 m2 : same m1 m2 -> sv_mode m1 = sv_mode m2. Proof. intros []. reflexivity. Qed.
Lemma regs_sim m1 m2 : same m1 m2 -> c_regs m1 = c_regs m2. Proof. intros []. reflexivity. Qed.
Lemma with_regs_sim f m1 m2 : same m1 m2 -> same (with_regs f m1) (with_regs f m2). Proof. intros []. constructor; auto. Qed.
Lemma with_chg_sim f m1 m2 : same m1 m2 -> same (with_chg f m1) (with_chg f m2). Proof. intros []. constructor; auto. Qed.
Lemma with_halted_sim f m1 m2 : same m1 m2 -> same (with_halted f m1) (with_halted f m2). Proof. intros []. constructor; auto. Qed.
Lemma with_cycles_sim f m1 m2 : same m1 m2 -> same (with_cycles f m1) (with_cycles f m2). Proof. intros []. constructor; auto. Qed.
Lemma with_mem_sim x y m1 m2 : ms x y -> same m1 m2 -> same (with_mem x m1) (with_mem y m2). Proof. intros H []. constructor; auto. Qed.
Lemma cpu_reset_sim m1 m2 : same m1 m2 -> same (cpu_reset m1) (cpu_reset m2). Proof. intros []. constructor; auto. Qed.
Lemma set_sp_sim v m1 m2 : same m1 m2 -> same (set_sp v m1) (set_sp v m2).
Proof. intros H. unfold set_sp. rewrite (sv_sim _ _ H). destruct (sv_mode m2); apply with_regs_sim; auto. Qed.
Lemma sp_sim m1 m2 : same m1 m2 -> sp m1 = sp m2. Proof. intros H. unfold sp. rewrite (sv_sim _ _ H), (regs_sim _ _ H). reflexivity. Qed.
Lemma mem_sim m1 m2 : same m1 m2 -> ms (c_mem m1) (c_mem m2). Proof. intros []. auto. Qed.
Lemma hwb_sim m1 m2 : same m1 m2 -> hs (c_hwb m1) (c_hwb m2). Proof. intros [? ? ? ? ? ? []]. auto. Qed.
Lemma maps_sim m1 m2 : same m1 m2 -> mm_maps (c_mem m1) = mm_maps (c_mem m2). Proof. intros [? ? ? ? ? ? []]. auto. Qed.
Lemma cyc_sim m1 m2 : same m1 m2 -> c_cycles m1 = c_cycles m2. Proof. intros []. auto. Qed.
Lemma chg_sim m1 m2 : same m1 m2 -> c_chg m1 = c_chg m2. Proof. intros []. auto. Qed.
Lemma hal_sim m1 m2 : same m1 m2 -> c_halted m1 = c_halted m2. Proof. intros []. auto. Qed.

Ltac ifs := repeat match goal with
  | |- crel (if ?b then _ else _) (if ?b then _ else _) => destruct b
  | |- crel (cpure ?x _) (cpure ?x _) => apply cpure_rel; intros ?
  | |- crel (COk _ _) (COk _ _) => split; [reflexivity|]
  | |- crel (CErr _) (CErr _) => cbn [crel]
  | |- same (exception _ _ _) (exception _ _ _) => apply exception_sim
  | |- same (with_regs _ _) (with_regs _ _) => apply with_regs_sim
  | |- same (with_chg _ _) (with_chg _ _) => apply with_chg_sim
  | |- same (with_halted _ _) (with_halted _ _) => apply with_halted_sim
  | |- same (set_sp _ _) (set_sp _ _) => apply set_sp_sim
  | |- same (cpu_reset _) (cpu_reset _) => apply cpu_reset_sim
  | |- same (if ?b then _ else _) (if ?b then _ else _) => destruct b
  | H : same ?a ?b |- same ?a ?b => exact H
  end.
Lemma read_reg_sim c m1 m2 : same m1 m2 -> crel (read_reg c m1) (read_reg c m2).
Proof.
  intros H. unfold read_reg. rewrite (sv_sim _ _ H), (regs_sim _ _ H). ifs.
  destruct c as [|p|p]; ifs. repeat (match goal with |- crel (match ?p with _ => _ end) _ => destruct p end; ifs).
Qed.
Lemma write_reg_sim c w m1 m2 : same m1 m2 -> crel (write_reg c w m1) (write_reg c w m2).
Proof.
  intros H. unfold write_reg. rewrite (sv_sim _ _ H), (regs_sim _ _ H). cbv zeta. ifs;
  (destruct c as [|p|p]; ifs; repeat (match goal with |- crel (match ?p with _ => _ end) _ => destruct p end; ifs)).
Qed.
Lemma compute_sim a b o m1 m2 : same m1 m2 -> crel (compute a b o m1) (compute a b o m2).
Proof. intros H. unfold compute. destruct (compute_core a b o) as [[[r c] v]|e]; ifs. Qed.
Lemma decode_entry_sim m1 m2 r a act : ms m1 m2 -> both (fun x y => ms (fst x) (fst y) /\ snd x = snd y) (decode_entry o1 oc m1 r a act) (decode_entry o2 oc m2 r a act).
Proof.
  intros H. unfold decode_entry. eapply both_bind; [apply mem_read_sim; eauto|]. intros [[ma xa] va] [[mb xb] vb] (X & Y1 & Y2). cbn in *. subst.
  repeat match goal with |- both _ (if ?b then _ else _) _ => destruct b end; split; auto.
Qed.
Lemma translate_sim m1 m2 r a act : ms m1 m2 -> both (fun x y => ms (fst x) (fst y) /\ snd x = snd y) (translate o1 oc m1 r a act) (translate o2 oc m2 r a act).
Proof.
  intros H. unfold translate. destruct (r_mtt r =? 0); [split; auto|]. apply both_same; intros off. apply both_same; intros ad.
  eapply both_bind; [apply decode_entry_sim; eauto|]. intros [ma ea] [mb eb] (X & Y). cbn in *. subst. destruct eb; try (split; auto; fail).
  apply both_same; intros ?. apply both_same; intros ?. apply both_same; intros ?. eapply both_bind; [apply decode_entry_sim; eauto|]. intros [mc ec] [md ed] (X' & Y). cbn in *. subst.
  destruct ed; try (split; auto; fail). apply both_same; intros ?. apply both_same; intros ?. split; auto.
Qed.
Lemma mem_do_sim {A} act a (f : memory D1 -> Z -> outcome (memory D1 * Z * A)) g m1 m2 : same m1 m2 ->
  (forall x y p, ms x y -> both (fun x y => ms (fst (fst x)) (fst (fst y)) /\ snd (fst x) = snd (fst y) /\ snd x = snd y) (f x p) (g y p)) ->
  crel (mem_do o1 oc act a f m1) (mem_do o2 oc act a g m2).
Proof.
  intros H K. unfold mem_do. apply cbind_rel. { unfold ensure_aligned. ifs. }
  intros v n1 n2 H'. rewrite (regs_sim _ _ H'). eapply cpure_both; [apply translate_sim; apply mem_sim; auto|].
  intros [ma ta] [mb tb] (X & Y). cbn in X, Y. subst. assert (Hn : same (with_mem ma n1) (with_mem mb n2)) by (apply with_mem_sim; auto).
  destruct tb; ifs; auto. eapply cpure_both; [apply K; apply mem_sim; auto|]. intros [[mc xc] vc] [[md xd] vd] (X' & Y1 & Y2). cbn [fst snd] in *. subst.
  assert (Hn' : same (with_mem mc (with_mem ma n1)) (with_mem md (with_mem mb n2))) by (apply with_mem_sim; auto). ifs; auto.
Qed.
Lemma cpu_mem_read_sim a m1 m2 : same m1 m2 -> crel (cpu_mem_read o1 oc a m1) (cpu_mem_read o2 oc a m2).
Proof. intros H. apply mem_do_sim; auto. intros. apply mem_read_sim; auto. Qed.
Lemma cpu_mem_exec_sim a m1 m2 : same m1 m2 -> crel (cpu_mem_exec o1 oc a m1) (cpu_mem_exec o2 oc a m2).
Proof. intros H. apply mem_do_sim; auto. intros. apply mem_read_sim; auto. Qed.
Lemma cpu_mem_write_sim a w m1 m2 : same m1 m2 -> crel (cpu_mem_write o1 oc a w m1) (cpu_mem_write o2 oc a w m2).
Proof.
  intros H. apply mem_do_sim; auto. intros x y p X. eapply both_bind; [apply mem_write_sim; eauto|]. intros [ma xa] [mb xb] (Y1 & Y2). cbn in *. auto.
Qed.
Lemma get_hw_info_sim h a m1 m2 : same m1 m2 -> crel (get_hw_info oc h a m1) (get_hw_info oc h a m2).
Proof.
  intros H. unfold get_hw_info. rewrite (cache_same _ _ (hwb_sim _ _ H)), (maps_sim _ _ H). destruct (cache_of (c_hwb m2) a) as [c|]; ifs.
  destruct h as [|p|p]; ifs. repeat (match goal with |- crel (match ?p with _ => _ end) _ => destruct p end; ifs).
Qed.
Lemma rl1_sim b p m1 m2 : same m1 m2 -> crel (reg_or_lit1 b p m1) (reg_or_lit1 b p m2).
Proof. intros H. unfold reg_or_lit1. destruct b; [apply read_reg_sim; auto|ifs]. Qed.
Lemma rl2_sim b p q m1 m2 : same m1 m2 -> crel (reg_or_lit2 b p q m1) (reg_or_lit2 b p q m2).
Proof. intros H. unfold reg_or_lit2. destruct b; [apply read_reg_sim; auto|ifs]. Qed.

Ltac eqs := repeat match goal with H : same ?a ?b |- _ =>
  progress (rewrite ?(sv_sim a b H), ?(regs_sim a b H), ?(sp_sim a b H), ?(cyc_sim a b H)) end.
Ltac go := repeat first
  [ progress ifs
  | match goal with |- crel (cbind _ _) (cbind _ _) => apply cbind_rel; [|let a := fresh "a" in intros a ? ? ?; eqs] end
  | apply rl1_sim; assumption | apply rl2_sim; assumption | apply read_reg_sim; assumption | apply write_reg_sim; assumption
  | apply compute_sim; assumption | apply cpu_mem_read_sim; assumption | apply cpu_mem_write_sim; assumption | apply get_hw_info_sim; assumption ].
Lemma af_test_sim f m1 m2 : same m1 m2 -> af_test oc f m1 = af_test oc f m2.
Proof. intros H. unfold af_test. rewrite (regs_sim _ _ H). reflexivity. Qed.
Lemma with_hwb_sim h1 h2 m1 m2 : hs h1 h2 -> same m1 m2 -> same (with_mem (Memory h1 (mm_maps (c_mem m1))) m1) (with_mem (Memory h2 (mm_maps (c_mem m2))) m2).
Proof. intros H K. rewrite (maps_sim _ _ K). apply with_mem_sim; auto. constructor; auto. Qed.

Lemma run_instr_sim opc b0 b1 b2 p0 p1 p2 m1 m2 : same m1 m2 -> crel (run_instr o1 oc opc b0 b1 b2 p0 p1 p2 m1) (run_instr o2 oc opc b0 b1 b2 p0 p1 p2 m2).
Proof.
  intros H. assert (C : 0 <= opc < 32 \/ ~ (0 <= opc < 32)) by lia. destruct C as [C|C].
  2:{ assert (E : forall D (o : bus_ops D) m, run_instr o oc opc b0 b1 b2 p0 p1 p2 m = CPanic).
      { intros D o m. unfold run_instr. destruct opc as [|p|p]; try reflexivity; [lia|]. do 5 (destruct p as [p|p|]; try reflexivity; try lia). }
      rewrite !E. exact I. }
  assert (X : exists n, (n < 32)%nat /\ opc = Z.of_nat n) by (exists (Z.to_nat opc); lia). destruct X as (n & Hn & ->). clear C.
  do 32 (try (destruct n as [|n])); [..|lia].
  all: cbn [Z.of_nat Pos.of_succ_nat Pos.succ]; unfold run_instr; cbv zeta; eqs.
  all: try (solve [go]).
  - (* IF2 *) go. rewrite !(af_test_sim _ _ _ H2). go. match goal with |- crel (match ?r with _ => _ end) _ => destruct r as [[]|] end; go.
  - (* HWD *) go. assert (E : hwb_count (c_hwb m4) = hwb_count (c_hwb m5)). { unfold hwb_count, zlen. rewrite (hs_length _ _ (hwb_sim _ _ H1)). reflexivity. } rewrite E. go.
  - (* RESET *) apply cbind_rel; [apply rl1_sim; auto|]. intros mode n1 n2 Hn'. cbv beta zeta. rewrite (regs_sim _ _ Hn'). pose proof (hwb_sim _ _ Hn') as Hh.
    apply cbind_rel; [|intros; ifs]. set (k := u8 (Z.land mode 15)).
    assert (RW : forall t, crel (dop h <- reset_where o1 t (c_hwb n1); COk tt (with_mem (Memory h (mm_maps (c_mem n1))) n1)) (dop h <- reset_where o2 t (c_hwb n2); COk tt (with_mem (Memory h (mm_maps (c_mem n2))) n2))).
    { intros t. eapply cpure_both; [apply reset_where_sim; auto|]. intros a b X. split; auto. apply with_hwb_sim; auto. }
    assert (K : k = 0 \/ k = 1 \/ k = 2 \/ k = 3 \/ k = 4 \/ ~ (0 <= k <= 4)) by lia.
    destruct K as [-> | [-> | [-> | [-> | [-> | K]]]]]; try apply RW.
    + eapply cpure_both; [apply hwb_reset_sim; auto|]. intros [a|] [b|] X; try contradiction; [split; auto; apply with_hwb_sim; auto|ifs].
    + replace (match k with 0 => _ | _ => _ end) with (@COk D1 unit tt n1).
      2:{ destruct k as [|p|p]; try reflexivity; [lia|]. do 3 (destruct p as [p|p|]; try reflexivity; try lia). }
      replace (match k with 0 => _ | _ => _ end) with (@COk D2 unit tt n2).
      2:{ destruct k as [|p|p]; try reflexivity; [lia|]. do 3 (destruct p as [p|p|]; try reflexivity; try lia). }
      ifs.
Qed.
Lemma next_sim m1 m2 : same m1 m2 -> both same (next o1 oc m1) (next o2 oc m2).
Proof.
  intros H. unfold next. rewrite (hal_sim _ _ H). destruct (c_halted m2); [exact H|]. rewrite (cyc_sim _ _ H). cbv zeta.
  set (n1 := with_cycles _ m1). set (n2 := with_cycles _ m2). assert (Hn : same n1 n2) by (apply with_cycles_sim; auto). rewrite (regs_sim _ _ Hn).
  pose proof (cpu_mem_exec_sim (r_pc (c_regs n2)) _ _ Hn) as X. destruct (cpu_mem_exec o1 _ _ _) as [w q1|q1|], (cpu_mem_exec o2 _ _ _) as [w' q2|q2|]; cbn [crel] in X; try contradiction; auto.
  destruct X as (-> & X). match goal with |- both _ (match run_instr _ _ ?a ?b ?c ?d ?e ?f ?g _ with _ => _ end) _ => pose proof (run_instr_sim a b c d e f g _ _ (with_chg_sim false _ _ X)) as Y end.
  destruct (run_instr o1 _ _ _ _ _ _ _ _ _) as [u1 s1|s1|], (run_instr o2 _ _ _ _ _ _ _ _ _) as [u2 s2|s2|]; cbn [crel] in Y; try contradiction; auto.
  destruct Y as (_ & Y). rewrite (chg_sim _ _ Y), (regs_sim _ _ Y). destruct (c_chg s2); [exact Y|]. apply with_regs_sim; auto.
Qed.
Lemma board_reset_sim m1 m2 : same m1 m2 -> both same (board_reset o1 m1) (board_reset o2 m2).
Proof.
  intros H. unfold board_reset. pose proof (cpu_reset_sim _ _ H) as H'. eapply both_bind; [apply reset_where_sim; apply hwb_sim; eauto|].
  intros a b X. apply with_hwb_sim; auto.
Qed.
Lemma api_call_sim c m1 m2 : same m1 m2 -> both same (api_call o1 oc c m1) (api_call o2 oc c m2).
Proof.
  intros H. pose proof (mem_sim _ _ H) as HM. destruct c as [| |a i|a e i|a ids|a|a w]; cbn [api_call].
  - apply next_sim; auto.
  - apply board_reset_sim; auto.
  - pose proof (internal_map_sim _ _ a None i HM) as X. unfold mem_map. destruct (internal_map _ _ _ _ _) as [[ma ra]|], (internal_map oc (c_mem m2) _ _ _) as [[mb rb]|]; cbn in *; try contradiction; auto. apply with_mem_sim; tauto.
  - pose proof (internal_map_sim _ _ a (Some e) i HM) as X. unfold mem_map_abs. destruct (internal_map _ _ _ _ _) as [[ma ra]|], (internal_map oc (c_mem m2) _ _ _) as [[mb rb]|]; cbn in *; try contradiction; auto. apply with_mem_sim; tauto.
  - pose proof (map_contiguous_sim _ _ a ids HM) as X. destruct (map_contiguous _ _ _ _) as [[[ma ra] sa]|], (map_contiguous oc (c_mem m2) _ _) as [[[mb rb] sb]|]; cbn in *; try contradiction; auto. apply with_mem_sim; tauto.
  - pose proof (mem_read_sim _ _ a HM) as X. destruct (mem_read _ _ _ _) as [[[ma ra] sa]|], (mem_read o2 oc (c_mem m2) _) as [[[mb rb] sb]|]; cbn in *; try contradiction; auto. apply with_mem_sim; tauto.
  - pose proof (mem_write_sim _ _ a w HM) as X. destruct (mem_write _ _ _ _ _) as [[ma ra]|], (mem_write o2 oc (c_mem m2) _ _) as [[mb rb]|]; cbn in *; try contradiction; auto. apply with_mem_sim; tauto.
Qed.
Lemma api_run_sim cs : forall m1 m2, same m1 m2 -> both same (api_run o1 oc cs m1) (api_run o2 oc cs m2).
Proof.
  induction cs as [|c cs IH]; intros m1 m2 H; cbn [api_run]; [exact H|]. pose proof (api_call_sim c _ _ H) as X.
  destruct (api_call o1 oc c m1), (api_call o2 oc c m2); cbn in X; try contradiction; auto.
Qed.
Lemma board_new_sim ds1 ds2 : Forall2 Rel ds1 ds2 -> both same (board_new o1 ds1) (board_new o2 ds2).
Proof.
  intros H. unfold board_new. apply both_bind with (P := hs).
  - unfold hwb_new. generalize 0. induction H as [|d1 d2 ds1 ds2 H HF IH]; intros id; cbn [hwb_new_from]; [constructor|]. destruct (id <? 4294967295); [|exact I].
    apply both_bind with (P := ent).
    + unfold create_from_aux. rewrite (aa_meta _ _ _ AA _ _ H), (aa_name _ _ _ AA _ _ H). apply both_same. intros md. split; auto.
    + intros e1 e2 E. eapply both_bind; [apply IH|]. intros h1 h2 X. constructor; auto.
  - intros h1 h2 X. constructor. constructor. auto.
Qed.
Lemma same_look m1 m2 : same m1 m2 -> look_alike Rel m1 m2.
Proof.
  intros H. destruct H as [r m1 m2 cy ha ch [h1 h2 maps H]]. unfold look_alike, c_hwb. cbn. do 4 (split; auto). split.
  - induction H as [|e1 e2 ? ? (E1 & E2) H IH]; cbn; congruence.
  - induction H as [|e1 e2 ? ? (E1 & E2) H IH]; cbn; constructor; auto.
Qed.
Lemma run_loop_sim fuel cfg : forall a m1 m2, same m1 m2 ->
  both (fun x y => match x, y with Some (n1, a1, e1), Some (n2, a2, e2) => same n1 n2 /\ a1 = a2 /\ e1 = e2 | None, None => True | _, _ => False end)
    (run_loop o1 oc fuel cfg a m1) (run_loop o2 oc fuel cfg a m2).
Proof.
  induction fuel as [|f IH]; intros a m1 m2 H; cbn [run_loop]; [exact I|]. rewrite (hal_sim _ _ H), (cyc_sim _ _ H). destruct (c_halted m2); [cbn; auto|].
  destruct (match cf_limit cfg with Some l => l <? c_cycles m2 | None => false end); [cbn; auto|]. eapply both_bind; [apply next_sim; eauto|]. intros n1 n2 Hn. cbv zeta.
  rewrite (regs_sim _ _ Hn), (regs_sim _ _ H). destruct (negb (r_et (c_regs n2) =? 0)); [|auto]. apply both_same. intros _. destruct (cf_halt_on_ex cfg); [cbn; auto|auto].
Qed.
Lemma run_vm_sim fuel cfg m1 m2 : same m1 m2 ->
  both (fun x y => match x, y with Some (n1, s1), Some (n2, s2) => same n1 n2 /\ s1 = s2 | None, None => True | _, _ => False end) (run_vm o1 oc fuel cfg m1) (run_vm o2 oc fuel cfg m2).
Proof.
  intros H. unfold run_vm. rewrite (regs_sim _ _ H). eapply both_bind; [apply run_loop_sim; eauto|].
  intros [[[n1 a1] e1]|] [[[n2 a2] e2]|] X; try contradiction; [|exact I]. destruct X as (X & -> & ->). apply both_same. intros _. cbn. rewrite (cyc_sim _ _ X). auto.
Qed.
Lemma prepare_sim ds1 ds2 : Forall2 Rel ds1 ds2 -> both same (prepare_vm o1 oc ds1) (prepare_vm o2 oc ds2).
Proof.
  intros H. unfold prepare_vm. assert (L : length ds1 = length ds2) by (clear - H; induction H; cbn; auto). rewrite L.
  eapply both_bind; [apply board_new_sim; eauto|]. intros m1 m2 X. eapply both_bind; [apply map_contiguous_sim; apply mem_sim; eauto|].
  intros [[ma ra] sa] [[mb rb] sb] (Y1 & Y2 & Y3). cbn in *. subst. destruct rb; [|exact I]. apply board_reset_sim. apply with_mem_sim; auto.
Qed.
End Sim.
