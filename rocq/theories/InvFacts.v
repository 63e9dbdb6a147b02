(** Invariants preserved by every API call. *)
From Coq Require Import ZArith List Bool Lia.
From Verif Require Import Base Board Mem Cpu Asm SpecMach SpecIsa SpecBus SpecObs BaseFacts RegFacts MemFacts
  AluFacts IsaFacts IsaStep MonoFacts CycleFacts UndFacts HoareFacts CyclePost.
Import ListNotations.
Open Scope Z_scope.
Ltac Zify.zify_post_hook ::= Z.div_mod_to_equations.

(** The arrays of the register file keep their lengths. *)
Section Shape.
Context {D : Type} (ops : bus_ops D) (oc : bool).
Implicit Type m : cpu D.

Definition shape (r : regs) : Prop :=
  length (r_a r) = 8%nat /\ length (r_c r) = 2%nat /\ length (r_ac r) = 3%nat /\ length (r_rr r) = 8%nat.
Definition SH {A} (x : cres D A) : Prop :=
  match x with COk _ m | CErr m => shape (c_regs m) | CPanic => True end.

Lemma SH_bind {A B} (x : cres D A) (f : A -> cpu D -> cres D B) :
  SH x -> (forall a m, shape (c_regs m) -> SH (f a m)) -> SH (cbind x f).
Proof. destruct x; cbn; auto. Qed.
Lemma SH_pure {A B} (x : outcome A) (f : A -> cres D B) : (forall a, SH (f a)) -> SH (cpure x f).
Proof. destruct x; cbn; auto. Qed.
Lemma SH_pure' {A B} (x : outcome A) (f : A -> cres D B) : (forall a, x = Ret a -> SH (f a)) -> SH (cpure x f).
Proof. destruct x; cbn; auto. Qed.
Lemma shape_exc c a m : shape (c_regs m) -> shape (c_regs (exception c a m)).
Proof. intros H. exact H. Qed.
Lemma zset_len {A} (l l' : list A) i v : zset l i v = Some l' -> length l' = length l.
Proof.
  revert l' i; induction l as [|x t IH]; intros l' i; cbn; [discriminate|].
  destruct (i =? 0). { intros E; injection E as <-; reflexivity. }
  destruct (zset t (i - 1) v) eqn:E; [|discriminate]. intros E'; injection E' as <-. cbn. f_equal. eauto.
Qed.
Lemma SH_read c m : shape (c_regs m) -> SH (read_reg c m).
Proof.
  intros H. unfold read_reg. destruct (_ && _); [exact H|].
  repeat match goal with |- SH (if ?b then _ else _) => destruct b end;
    try (apply SH_pure; intros; exact H).
  repeat match goal with |- SH (match ?x with _ => _ end) => destruct x end; exact H.
Qed.
Lemma SH_write c v m : shape (c_regs m) -> SH (write_reg c v m).
Proof.
  intros H. unfold write_reg. destruct (_ && _); [exact H|]. destruct (_ || _); [exact H|]. cbv zeta.
  assert (G : shape (c_regs (if c =? 22 then with_chg true m else m))) by (destruct (c =? 22); exact H).
  assert (Ec : c_regs (if c =? 22 then with_chg true m else m) = c_regs m) by (destruct (c =? 22); reflexivity).
  set (m1 := if c =? 22 then with_chg true m else m) in *. clearbody m1.
  destruct (c <=? 7); [|destruct (c <=? 9); [|destruct (c <=? 12); [|destruct (c <=? 20)]]];
    try (apply SH_pure'; intros l E; destruct (zset _ _ _) eqn:Z in E; [|discriminate]; injection E as <-;
      apply zset_len in Z; rewrite <- Ec in Z; destruct G as (? & ? & ? & ?); cbn; unfold shape; cbn; intuition congruence).
  repeat match goal with |- SH (match ?x with _ => _ end) => destruct x end; exact G.
Qed.
Lemma SH_compute a b o m : shape (c_regs m) -> SH (compute a b o m).
Proof. intros H. unfold compute. destruct (compute_core _ _ _) as [[[? ?] ?]|]; exact H. Qed.
Lemma SH_mem {A} act a (h : memory D -> Z -> outcome (memory D * Z * A)) m :
  shape (c_regs m) -> SH (mem_do ops oc act a h m).
Proof.
  intros H. unfold mem_do. apply SH_bind.
  - unfold ensure_aligned. destruct (_ =? 0); exact H.
  - intros ? m' H'. apply SH_pure. intros [mem' t]. destruct t; cbn; auto.
    destruct (h mem' _) as [[[? ex] ?]|]; cbn; auto. destruct (negb _); exact H'.
Qed.
Lemma SH_cr a m : shape (c_regs m) -> SH (cpu_mem_read ops oc a m). Proof. apply SH_mem. Qed.
Lemma SH_cw a w m : shape (c_regs m) -> SH (cpu_mem_write ops oc a w m). Proof. apply SH_mem. Qed.
Lemma SH_info i id m : shape (c_regs m) -> SH (get_hw_info oc i id m).
Proof.
  intros H. unfold get_hw_info. destruct (cache_of _ _); [|exact H]. cbv zeta. destruct (_ && _); [exact H|].
  repeat match goal with |- SH (match ?x with _ => _ end) => destruct x end;
  try (apply SH_pure; intros); exact H.
Qed.
Lemma SH_rl1 b p m : shape (c_regs m) -> SH (reg_or_lit1 b p m).
Proof. intros. destruct b; cbn; auto using SH_read. Qed.
Lemma SH_rl2 b p q m : shape (c_regs m) -> SH (reg_or_lit2 b p q m).
Proof. intros. destruct b; cbn; auto using SH_read. Qed.
Lemma shape_sp v m : shape (c_regs m) -> shape (c_regs (set_sp v m)).
Proof. intros H. unfold set_sp. destruct (sv_mode m); exact H. Qed.
Lemma SH_ok {A} (a : A) m : shape (c_regs m) -> SH (COk a m). Proof. auto. Qed.

Lemma SH_run op b0 b1 b2 p0 p1 p2 m : shape (c_regs m) -> SH (run_instr ops oc op b0 b1 b2 p0 p1 p2 m).
Proof.
  intros H. unfold run_instr.
  repeat match goal with |- SH (match ?x with _ => _ end) => is_var x; destruct x end; cbv zeta;
  try exact I; try exact H;
  repeat first
  [ assumption | exact I | progress intros
  | apply SH_cr | apply SH_cw | apply SH_bind | apply SH_rl1 | apply SH_rl2 | apply SH_read | apply SH_write | apply SH_compute
  | apply SH_info | apply SH_pure | apply SH_ok; apply shape_sp; assumption
  | match goal with |- SH (if ?b then _ else _) => destruct b end
  | match goal with |- SH (match ?x with _ => _ end) => destruct x end
  | (apply SH_ok; apply shape_sp) 
  | match goal with H : shape _ |- SH (COk _ _) => first [exact H | destruct H as (?&?&?&?); repeat split; fail] end
  | match goal with H : shape _ |- SH (CErr _) => exact H end
  | (apply SH_ok; repeat split) ].
Qed.

Lemma next_shape m m' : shape (c_regs m) -> next ops oc m = Ret m' -> shape (c_regs m').
Proof.
  intros H. unfold next. destruct (c_halted m). { intros E; injection E as <-; auto. }
  cbv zeta.
  pose proof (SH_mem ActExec (r_pc (c_regs (with_cycles ((c_cycles m + 1) mod two128) m))) (mem_read ops oc)
     (with_cycles ((c_cycles m + 1) mod two128) m) H) as H1. unfold cpu_mem_exec.
  destruct (mem_do _ _ _ _ _ _) as [w m1|m1|]; [| |discriminate].
  2:{ intros E; injection E as <-; auto. }
  match goal with |- context [run_instr _ _ ?a ?b ?c ?d ?e ?f ?g ?h] =>
    pose proof (SH_run a b c d e f g h H1) as H2; destruct (run_instr ops oc a b c d e f g h) as [u m2|m2|] end;
    [|intros E; injection E as <-; auto|discriminate].
  destruct (c_chg m2); intros E; injection E as <-; auto.
Qed.
End Shape.

(** Well-formed architectural states. *)
Section Wf.
Context {D : Type} (ops : bus_ops D) (T : typed ops).
Implicit Type m : cpu D.
Notation bs := (board_bus ops false).

Definition wfs (s : st (memory D)) : Prop :=
  length (s_reg s) = 32%nat /\ Forall is_u32 (s_reg s) /\ mem_wf (s_bus s) /\ 0 <= s_cyc s < two128.

Lemma wfs_put s r v : wfs s -> is_u32 v -> wfs (put s r v).
Proof.
  intros (H1 & H2 & H3 & H4) Hv. split; [|split; [|split]]; auto; cbn [put s_reg].
  - rewrite rs_length; auto.
  - apply upd_Forall; auto.
Qed.
Lemma wfs_bus s mem : wfs s -> mem_ext (s_bus s) mem -> wfs (with_bus s mem).
Proof.
  intros (H1 & H2 & H3 & H4) E. split; [|split; [|split]]; auto. eapply mem_wf_ext; eauto.
Qed.
Lemma wfs_get s r : wfs s -> is_u32 (get s r).
Proof. intros (? & ? & _). apply rg_u32; auto. Qed.
Lemma et_u32 (b : bool) code data : ex_code code -> ex_data code data -> is_u32 ((if b then 16777216 else 0) + code * 65536 + data).
Proof. destruct b; exn. Qed.
Lemma wfs_raise s code data : wfs s -> ex_code code -> ex_data code data -> wfs (raise_st code data s).
Proof.
  intros. unfold raise_st. repeat apply wfs_put; auto using wfs_get, et_u32. unfold is_u32; lia.
Qed.
Lemma flags_u32 r c o : is_u32 (flags_spec r c o).
Proof. pose proof (flags_range r c o). unfold is_u32; lia. Qed.
Lemma info_typed s id info v : wfs s -> info_spec (s_bus s) id info = inr v -> is_u32 v.
Proof.
  intros (_ & _ & (HC & HM & _) & _). unfold info_spec. destruct (znth (mm_hwb (s_bus s)) id) as [e|] eqn:E; [|discriminate].
  apply znth_In in E. rewrite Forall_forall in HC. specialize (HC _ E).
  destruct HC as (?&?&?&?&?&?&?&?&?&?&?&?).
  destruct (info =? 1). { intros X; injection X as <-; auto. }
  destruct (info =? 2). { intros X; injection X as <-; auto. }
  destruct (info =? 16). { intros X; injection X as <-. unfold str_len in *. unfold zlen in *. unfold is_u32; lia. }
  destruct (Z.leb_spec 17 info); cbn [andb]; [destruct (Z.leb_spec info 24)|].
  { intros X; injection X as <-. rewrite <- name_word_eq by lia. apply name_word_u32; auto. }
  all: repeat match goal with |- context [if ?x =? ?y then _ else _] => destruct (x =? y) end;
    try discriminate; try (intros X; injection X as <-; auto; fail).
  all: destruct (find _ _) as [mp|] eqn:F; try discriminate;
    intros X; injection X as <-; try (unfold is_u32; lia); try apply u32_range;
    apply find_some in F; destruct F as [F _]; rewrite Forall_forall in HM; apply HM in F; apply F.
Qed.
Lemma info_err_typed (mem : memory D) id info c d : info_spec mem id info = inl (c, d) -> ex_code c /\ ex_data c d.
Proof.
  unfold info_spec.
  assert (G : forall c' x, (c', x mod 65536) = (c, d) -> c' = 16 \/ c' = 17 \/ c' = 18 -> ex_code c /\ ex_data c d).
  { intros c' x X; injection X as <- <-. intros; split; [exn|apply u16_ex; lia]. }
  destruct (znth _ _); repeat match goal with |- context [if ?b then _ else _] => destruct b end;
    try destruct (find _ _); try discriminate;
    intros H; apply (f_equal (fun z => match z with inl p => p | inr _ => (0, 0) end)) in H; cbv beta iota in H;
    eapply G; eauto.
Qed.

Lemma count_u32 s : wfs s -> is_u32 (zlen (mm_hwb (s_bus s))).
Proof. intros (_ & _ & (_ & _ & H) & _). unfold is_u32, zlen in *. lia. Qed.

(** Inductive conditions for a predicate [Q] on intermediate states and [P] on final ones, on top of
    well-formedness. *)
Lemma closed_intro i (Q P : st (memory D) -> Prop) :
  (forall s a b ex v, wfs s -> Q s -> is_u32 a -> mem_read ops false (s_bus s) a = Ret (b, ex, v) -> Q (with_bus s b)) ->
  (forall s a w b ex, wfs s -> Q s -> is_u32 a -> is_u32 w -> mem_write ops false (s_bus s) a w = Ret (b, ex) -> Q (with_bus s b)) ->
  (forall s r v, wfs s -> Q s -> can_write (sup s) r = true -> is_u32 v -> Q (put s r v)) ->
  (forall s r c o, wfs s -> Q s -> is_u32 r -> Q (put s R_af (flags_spec r c o))) ->
  (forall s v, wfs s -> Q s -> is_u32 v -> Q (put s (sp_reg s) v)) ->
  (forall s code data, wfs s -> Q s -> ex_code code -> ex_data code data -> P (raise_st code data s)) ->
  (forall s, wfs s -> Q s -> P s) ->
  (forall s v, wfs s -> Q s -> is_u32 v -> P (put s R_pc v)) ->
  (forall s x v w, i = Lsm v -> wfs s -> Q s -> sup s = true -> is_u32 x -> is_u32 w ->
      P (put (put (put s R_pc x) R_smt 0) R_pc w)) ->
  (forall s v, i = Halt -> wfs s -> Q s -> is_u32 v -> P (put (St (s_reg s) (s_bus s) (s_cyc s) true) R_pc v)) ->
  (forall s v sel b, i = Reset v -> wfs s -> Q s -> bus_reset bs (s_bus s) sel = Ret b -> mem_ext (s_bus s) b ->
      P (St reset_file b 0 false) /\ forall w, is_u32 w -> P (put (with_bus s b) R_pc w)) ->
  closed bs i (fun s => wfs s /\ Q s) P.
Proof.
  intros Hload Hstore Hw Haf Hsp Hraise Hfin Hpc Hlsm Hhalt Hreset. constructor.
  - intros s [(? & ? & _) _]. auto.
  - intros s a b ex v [H1 H2] Ha E. cbn [bus_load board_bus] in E.
    pose proof (mem_read_typed _ _ _ _ _ _ _ T E) as [? ?]. split; [auto|]. split; [auto|].
    split; [apply wfs_bus; auto; eapply mem_read_ext; eauto|eauto].
  - intros s a w b ex [H1 H2] Ha Hwd E. cbn [bus_store board_bus] in E.
    pose proof (mem_write_typed _ _ _ _ _ _ _ T E). split; [auto|].
    split; [apply wfs_bus; auto; eapply mem_write_ext; eauto|eauto].
  - intros s id info v [H _]. apply info_typed; auto.
  - intros s id info c d _. apply info_err_typed.
  - intros s [H _]. apply count_u32; auto.
  - intros s r v [? ?] ? ?. split; [apply wfs_put; auto|auto].
  - intros s r c o [? ?] ?. split; [apply wfs_put; auto using flags_u32|auto].
  - intros s v [? ?] ?. split; [apply wfs_put; auto|auto].
  - intros s c d [? ?]. auto.
  - intros s [? ?]. auto.
  - intros s v [? ?]. auto.
  - intros s x v w Ei [? ?]. eapply Hlsm; eauto.
  - intros s v Ei [? ?]. eapply Hhalt; eauto.
  - intros s v sel b Ei [? ?] E. eapply Hreset; eauto.
    cbn [bus_reset board_bus] in E. destruct (reset_sel _ _ _ _) eqn:R in E; [|discriminate].
    injection E as <-. apply reset_sel_caches in R. split; auto.
Qed.

Lemma wfs_abs m : wf m -> wfs (abs m).
Proof. intros ((? & ? & ? & ? & ?) & ? & ?). split; [apply file_length; repeat split; auto|]. auto. Qed.
Lemma wfs_ticked m : wf m -> wfs (ticked m).
Proof.
  intros H. destruct (wfs_abs m H) as (? & ? & ? & ?). split; [|split; [|split]]; auto.
  cbn [ticked s_cyc]. change two128 with (2 ^ 128). apply Z.mod_pos_bound. reflexivity.
Qed.
Lemma reset_file_ok : length reset_file = 32%nat /\ Forall is_u32 reset_file.
Proof. split; [reflexivity|]. repeat constructor; unfold is_u32; lia. Qed.
Lemma wfs_closed i : closed bs i (fun s => wfs s /\ True) wfs.
Proof.
  apply closed_intro; auto.
  - intros. apply wfs_raise; auto.
  - intros. apply wfs_put; auto.
  - intros. repeat apply wfs_put; auto. unfold is_u32; lia.
  - intros s v _ (? & ? & ? & ?) _ ?. apply wfs_put; auto. split; auto.
  - intros s v sel b _ Hs _ _ E. split.
    + destruct Hs as (? & ? & ? & ?). split; [apply reset_file_ok|]. split; [apply reset_file_ok|].
      split; [eapply mem_wf_ext; eauto|]. cbn. unfold two128. lia.
    + intros. apply wfs_put; auto. apply wfs_bus; auto.
Qed.
Lemma next_wf oc m m' : wf m -> next ops oc m = Ret m' -> wf m'.
Proof.
  intros Hwf Hn.
  destruct (c_halted m) eqn:Hh. { unfold next in Hn. rewrite Hh in Hn. injection Hn as <-. auto. }
  assert (Hs : shape (c_regs m')).
  { eapply next_shape; eauto. destruct Hwf as ((?&?&?&?&?)&_). repeat split; auto. }
  apply next_oc in Hn.
  assert (X : wfs (abs m')).
  { eapply (cycle_post ops T (fun s => wfs s /\ True) wfs m m'); eauto using wfs_ticked, wfs_closed. }
  destruct X as (? & ? & ? & ?), Hs as (? & ? & ? & ?). split; [|split]; auto. repeat split; auto.
Qed.
End Wf.
