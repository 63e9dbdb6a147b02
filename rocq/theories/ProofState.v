(** Proofs about whole cycles and histories of the machine. *)
From Coq Require Import ZArith List Bool Lia.
From Verif Require Import Base Board Mem Cpu Asm Tools Devices DevTyped SpecMach SpecIsa SpecBus SpecObs SpecMap BaseFacts RegFacts MemFacts
  AluFacts IsaFacts IsaStep MonoFacts CycleFacts UndFacts HoareFacts CyclePost InvFacts MapFacts ReachFacts ExecFacts StepCases ProofAlu Demo.
Import ListNotations.
Open Scope Z_scope.
Ltac Zify.zify_post_hook ::= Z.div_mod_to_equations.

(** * C01 *)
Section C01.
Context {D : Type} (ops : bus_ops D) (T : typed ops).
Implicit Type m : cpu D.
Notation bs := (board_bus ops false).

Definition tame (s : st (memory D)) : Prop :=
  0 <= get s R_af < 256 /\ get s R_af mod 2 = 0 /\ get s R_et < 2 ^ 25 /\ get s R_era = 0.
Lemma tame_put s r v : wfs s -> tame s -> r <> R_af -> r <> R_et -> r <> R_era -> tame (put s r v).
Proof.
  intros Hw (H1 & H2 & H3 & H4) N1 N2 N3. unfold tame. rewrite !get_put by apply Hw.
  repeat match goal with |- context [reg_eq_dec ?a ?b] => destruct (reg_eq_dec a b); [congruence|] end. auto.
Qed.
Lemma flags_even r c o : flags_spec r c o mod 2 = 0.
Proof.
  unfold flags_spec, flag_bit.
  destruct (r =? 0), c, o, (2147483648 <=? r), (Z.even r), (r <? 65536), (Z.testbit r 16); reflexivity.
Qed.
Lemma tame_af s r c o : wfs s -> tame s -> tame (put s R_af (flags_spec r c o)).
Proof.
  intros Hw (H1 & H2 & H3 & H4). unfold tame. rewrite !get_put by apply Hw.
  pose proof (flags_range r c o). pose proof (flags_even r c o).
  repeat match goal with |- context [reg_eq_dec ?a ?b] => destruct (reg_eq_dec a b); try congruence end. auto.
Qed.
Lemma tame_raise s code data : wfs s -> tame s -> ex_code code -> ex_data code data -> tame (raise_st code data s).
Proof.
  intros Hw Ht Hc Hd. unfold raise_st. set (e := _ + _).
  assert (E : e < 2 ^ 25). { unfold e, ex_code, ex_data in *. change (2 ^ 25) with 33554432. destruct (sup s); lia. }
  assert (Hw1 : wfs (put s R_et e)). { apply wfs_put; auto. apply et_u32; auto. }
  assert (Ht1 : tame (put s R_et e)).
  { destruct Ht as (H1 & H2 & H3 & H4). unfold tame. rewrite !get_put by apply Hw.
    repeat match goal with |- context [reg_eq_dec ?a ?b] => destruct (reg_eq_dec a b); try congruence end. auto. }
  apply tame_put; try discriminate.
  - apply wfs_put; auto. apply wfs_get; auto.
  - apply tame_put; auto; discriminate.
Qed.
Lemma tame_reset b : tame (St reset_file b 0 false).
Proof. vm_compute. repeat split; discriminate. Qed.
Lemma tame_closed i : closed bs i (fun s => wfs s /\ tame s) tame.
Proof.
  apply closed_intro; auto.
  - intros s r v Hw Ht Hc _. apply tame_put; auto; intros ->; cbn in Hc; discriminate.
  - intros. apply tame_af; auto.
  - intros s v Hw Ht _. apply tame_put; auto; unfold sp_reg; destruct (sup s); discriminate.
  - intros. apply tame_raise; auto.
  - intros s v Hw Ht _. apply tame_put; auto; discriminate.
  - intros s x v w _ Hw Ht _ Hx Hv.
    apply tame_put; try discriminate. { apply wfs_put; [apply wfs_put; auto|unfold is_u32; lia]. }
    apply tame_put; try discriminate. { apply wfs_put; auto. } apply tame_put; auto; discriminate.
  - intros s v _ Hw Ht Hv. apply (tame_put (St (s_reg s) (s_bus s) (s_cyc s) true)); auto; discriminate.
  - intros s v sel b _ Hw Ht E Hx. split; [apply tame_reset|].
    intros w Hv. apply tame_put; auto; try discriminate. apply wfs_bus; auto.
Qed.
Definition tame_m m : Prop := tame (abs m).
Lemma tame_mem m mem : tame_m m -> tame_m (with_mem mem m).
Proof. auto. Qed.
Lemma tame_api oc c m m' : wf m -> tame_m m -> api_wf c -> api_call ops oc c m = Ret m' -> tame_m m'.
Proof.
  intros Hw Ht Hc. destruct c; cbn [api_call]; intros E;
  try (match type of E with (match ?x with _ => _ end) = _ => destruct x as [[? ?]|]; [|discriminate]; injection E as <-; apply tame_mem; auto end; fail);
  try (match type of E with (match ?x with _ => _ end) = _ => destruct x as [[[? ?] ?]|]; [|discriminate]; injection E as <-; apply tame_mem; auto end; fail).
  - destruct (c_halted m) eqn:Hh.
    { unfold next in E. rewrite Hh in E. injection E as <-. auto. }
    apply next_oc in E. apply (cycle_post ops T (fun s => wfs s /\ tame s) tame m m'); auto using tame_closed.
    split; [apply wfs_ticked; auto|exact Ht].
  - apply board_reset_inv in E. destruct E as (h & _ & ->). apply tame_reset.
Qed.
Lemma tame_reachable oc m : reachable ops oc m -> wf m /\ tame_m m.
Proof.
  apply reachable_ind; auto.
  - intros ds m0 E _. apply board_new_spec in E; auto. destruct E as (_ & _ & _ & E & _). unfold tame_m, tame, get. cbn [abs s_reg]. rewrite E.
    vm_compute. repeat split; discriminate.
  - intros. eapply tame_api; eauto.
Qed.
End C01.

(** Over every history of API calls: 32-bit registers, [af] a set of flags, [et] an exception code, [era] never
    written, a 128-bit counter. *)
Lemma P_C01_registers : forall D (ops : bus_ops D) oc m, typed ops -> reachable ops oc m ->
  (forall r, 0 <= R m r < 2 ^ 32) /\ (forall n, flag m n = true -> 1 <= n <= 7) /\ R m R_et < 2 ^ 25 /\ R m R_era = 0 /\
  0 <= c_cycles m < 2 ^ 128.
Proof.
  intros D ops oc m T Hr. destruct (tame_reachable ops T oc m Hr) as [Hw (H1 & H2 & H3 & H4)].
  split. { intros r. apply R_u32, Hw. }
  split; [|split; [exact H3|split; [exact H4|apply Hw]]].
  intros n. unfold flag. change (R m R_af) with (get (abs m) R_af). intros Hn.
  destruct (Z.ltb_spec n 0). { rewrite Z.testbit_neg_r in Hn by lia. discriminate. }
  destruct (Z.eq_dec n 0) as [->|]. { rewrite Z.bit0_odd in Hn. rewrite Zodd_mod in Hn. rewrite H2 in Hn. discriminate. }
  destruct (Z.leb_spec n 7); [lia|]. destruct (Z.eq_dec (get (abs m) R_af) 0) as [E0|].
  { rewrite E0, Z.bits_0 in Hn. discriminate. }
  rewrite Z.bits_above_log2 in Hn; [discriminate|lia|]. apply Z.log2_lt_pow2; [lia|].
  assert (2 ^ 8 <= 2 ^ n) by (apply Z.pow_le_mono_r; lia). lia.
Qed.
Lemma E_C01_registers : demo_case (asm [Sub R_a0 (Lit2 1); Div R_a0 (Lit1 0) (Lit1 0)]) 1 (fun m i mem1 m' =>
  R m' R_a0 = 4294967295 /\ R m' R_af = 82 /\ R m' R_et = 16777216 + 655360 /\ c_cycles m' = 2).
Proof. demo_tac. Qed.

(** * C04 *)
(** While halted, cycles change nothing; a new board is halted; no API call but a reset leaves the state. *)
Lemma P_C04_halted : forall D (ops : bus_ops D) oc m, c_halted m = true ->
  (forall n, run ops oc n m = Ret m) /\
  (forall c m', c <> AReset -> api_call ops oc c m = Ret m' -> c_halted m' = true /\ c_regs m' = c_regs m /\ c_cycles m' = c_cycles m).
Proof.
  intros D ops oc m H.
  assert (N : next ops oc m = Ret m) by (unfold next; rewrite H; reflexivity).
  split. { intros n. induction n as [|n IH]; cbn [run]; [reflexivity|]. rewrite N. exact IH. }
  intros c m' Nc E. destruct c; cbn [api_call] in E; try congruence;
  try (match type of E with (match ?x with _ => _ end) = _ => destruct x as [[? ?]|]; [|discriminate]; injection E as <-; cbn; auto end; fail);
  try (match type of E with (match ?x with _ => _ end) = _ => destruct x as [[[? ?] ?]|]; [|discriminate]; injection E as <-; cbn; auto end; fail).
  rewrite N in E. injection E as <-. auto.
Qed.
(** A new board is halted. *)
Lemma P_C04_new_halted : forall D (ops : bus_ops D) ds m, typed ops -> board_new ops ds = Ret m -> c_halted m = true.
Proof. intros D ops ds m T E. apply board_new_spec in E; auto. tauto. Qed.
(** HALT halts the processor. *)
Lemma P_C04_halt_instruction : forall D (ops : bus_ops D) oc m mem1 m', typed ops -> wf m ->
  executes ops oc m Halt mem1 m' -> c_halted m' = true.
Proof.
  intros D ops oc m mem1 m' T Hw He. pose proof (exec_step ops T _ _ _ _ _ Hw He) as E. cbn [step] in E.
  apply Ret_inj in E. apply (f_equal (@s_halt (memory D))) in E. cbn in E. auto.
Qed.
(** Nothing but HALT stops a running processor: no exception, no reset, no word that is no instruction. *)
Lemma P_C04_only_halt : forall D (ops : bus_ops D) oc m m', typed ops -> wf m -> c_halted m = false -> next ops oc m = Ret m' -> c_halted m' = true ->
  exists mem1, fetches ops m Halt mem1.
Proof.
  intros D ops oc m m' T Hw Hh Hn Hh'. apply next_oc in Hn.
  assert (G : s_halt (abs m') = false \/ exists mem1, fetches ops m Halt mem1); [|destruct G as [G|G]; [cbn in G; congruence|exact G]].
  apply (cycle_post ops T (fun x => wfs x /\ s_halt x = false) (fun x => s_halt x = false \/ exists mem1, fetches ops m Halt mem1) m m'); auto.
  { split; [apply wfs_ticked; auto|exact Hh]. }
  intros i Hi. apply closed_intro; auto.
  intros s v -> _ _ _. right. destruct Hi as [Hi|Hi]; [exact Hi|discriminate Hi].
Qed.
Lemma E_C04_halted : demo_case (asm [Cpy R_a0 (Lit2 7); Halt]) 1 (fun m i mem1 m' => i = Halt /\ c_halted m' = true /\ R m' R_a0 = 7).
Proof. demo_tac. Qed.

Lemma E_C04_only_halt : demo_case (asm [Cpy R_a0 (Lit2 7); Halt]) 1 (fun m i mem1 m' => i = Halt /\ c_halted m = false /\ c_halted m' = true).
Proof. demo_tac. Qed.

(** * Cycles *)
Section Cycles.
Context {D : Type} (ops : bus_ops D) (T : typed ops).
Implicit Type m : cpu D.
Lemma raise_gets s code data r : length (s_reg s) = 32%nat -> get (@raise_st (memory D) code data s) r =
  if reg_eq_dec r R_smt then 1 else if reg_eq_dec r R_pc then get s R_ev
  else if reg_eq_dec r R_et then et_value (sup s) code data else get s r.
Proof.
  intros H. unfold raise_st. rewrite !get_put; auto. 2:{ unfold put; cbn [s_reg]; rewrite !rs_length; auto. }
  unfold put; cbn [s_reg]; rewrite !rs_length; auto.
Qed.
End Cycles.

(** * C05 *)
(** A cycle of a running processor counts for one, modulo 2^128, or sets the count to 0 when its instruction reset the processor. *)
Lemma P_C05_one_cycle : forall D (ops : bus_ops D) oc m m', typed ops -> wf m -> c_halted m = false ->
  next ops oc m = Ret m' ->
  c_cycles m' = (c_cycles m + 1) mod 2 ^ 128 \/
  (c_cycles m' = 0 /\ exists i mem1, fetches ops m i mem1 /\ resets_cpu m i).
Proof.
  intros D ops oc m m' T Hw Hh Hn. apply next_oc in Hn.
  destruct (cycle_cases ops T m m' Hw Hh Hn) as [(s1 & code & data & _ & _ & E & _ & _ & Hc & _)|(i & mem1 & Hf & _ & HN)].
  - left. apply (f_equal (@s_cyc (memory D))) in E. cbn in E. congruence.
  - destruct HN as [(Hr & _ & Hc & _)|(_ & _ & Hc & _)].
    + right. split; [exact Hc|]. eauto.
    + left. exact Hc.
Qed.
(** Hence [n] cycles that neither start halted nor execute a CPU-resetting RESET add [n]. *)
Lemma P_C05_run : forall D (ops : bus_ops D) oc n m m', typed ops -> wf m -> run ops oc n m = Ret m' ->
  (forall k mk, (k < n)%nat -> run ops oc k m = Ret mk ->
     c_halted mk = false /\ ~ exists i mem1, fetches ops mk i mem1 /\ resets_cpu mk i) ->
  c_cycles m' = (c_cycles m + Z.of_nat n) mod 2 ^ 128.
Proof.
  intros D ops oc n. induction n as [|n IH]; intros m m' T Hw.
  - cbn [run]. intros E _. injection E as <-. rewrite Z.add_0_r, Z.mod_small; [reflexivity|apply Hw].
  - cbn [run]. destruct (next ops oc m) as [m1|] eqn:E1; [|discriminate]. intros Hr HK.
    destruct (HK O m) as [Hh Hnr]; [lia|reflexivity|].
    destruct (P_C05_one_cycle D ops oc m m1 T Hw Hh E1) as [Hc|[_ X]]; [|tauto].
    assert (Hw1 : wf m1) by (eapply next_wf; eauto).
    rewrite (IH m1 m' T Hw1 Hr).
    + rewrite Hc. rewrite Zplus_mod_idemp_l. f_equal. lia.
    + intros k mk Hk Ek. apply (HK (S k)); [lia|]. cbn [run]. rewrite E1. exact Ek.
Qed.
Lemma E_C05_run : demo_case (asm [Cpy R_a0 (Lit2 7); Add R_a0 (Lit2 1)]) 1 (fun m i mem1 m' =>
  c_halted m = false /\ i = Add R_a0 (Lit2 1) /\ c_cycles m = 1 /\ c_cycles m' = 2).
Proof. demo_tac. Qed.

(** * C15 *)
(** A cycle either raises an exception - then pc is ev, supervisor mode is on, et encodes the mode, the code and the
    data, and no other register changed except those the interrupted instruction had already changed - or it ends
    normally, leaving et alone and changing only the registers its instruction is about, or it resets the CPU. The
    recorded mode is the mode of the cycle, unless EX had just replaced smt. *)
Lemma P_C15_entry : forall D (ops : bus_ops D) oc m m', typed ops -> wf m -> c_halted m = false ->
  next ops oc m = Ret m' ->
  (exists code data sup, ex_code code /\ ex_data code data /\
     R m' R_et = et_value sup code data /\ R m' R_smt = 1 /\ R m' R_pc = R m' R_ev /\
     (sup = sup_mode m \/ exists b mem1, fetches ops m (Ex R_smt b) mem1) /\
     c_halted m' = false /\
     forall r, R m' r <> R m r -> In r [R_et; R_smt; R_pc] \/ maybe_changed ops m r)
  \/
  (exists i mem1, fetches ops m i mem1 /\
     (resets_cpu m i /\ (forall r, R m' r = match r with R_smt => 1 | _ => 0 end) \/
      R m' R_et = R m R_et /\ forall r, R m' r <> R m r -> In r (R_pc :: targets m i))).
Proof.
  intros D ops oc m m' T Hw Hh Hn. apply next_oc in Hn.
  destruct (cycle_cases ops T m m' Hw Hh Hn) as [(s1 & code & data & Hc & Hd & E & Hw1 & _ & _ & Hh1 & _ & Hch)|(i & mem1 & Hf & _ & HN)].
  - left. exists code, data, (sup s1). split; [exact Hc|]. split; [exact Hd|].
    assert (G : forall r, R m' r = get (raise_st code data s1) r) by (intros r; rewrite <- E; reflexivity).
    split. { rewrite G, raise_gets by apply Hw1. reflexivity. }
    split. { rewrite G, raise_gets by apply Hw1. reflexivity. }
    split. { rewrite !G, !raise_gets by apply Hw1. reflexivity. }
    split.
    { destruct (Z.eq_dec (get s1 R_smt) (R m R_smt)) as [Es|Ns]. { left. unfold sup, sup_mode. rewrite Es. reflexivity. }
      destruct (Hch _ Ns) as [(i & mem1 & Hf & Hi)|[_ X]].
      - right. destruct i; cbn in Hi; try tauto; try (destruct Hi as [X|[]]; discriminate X).
        + destruct Hi as [<-|[]]. eauto.
        + destruct Hi as [X|[]]. unfold sp_of in X. destruct (sup_mode m); discriminate X.
      - unfold sp_of in X. destruct (sup_mode m); discriminate X. }
    split. { apply (f_equal (@s_halt (memory D))) in E. cbn in E. congruence. }
    intros r Nr. rewrite G, raise_gets in Nr by apply Hw1.
    destruct (reg_eq_dec r R_smt); [left; cbn; auto|]. destruct (reg_eq_dec r R_pc); [left; cbn; auto|].
    destruct (reg_eq_dec r R_et); [left; cbn; auto|]. right. auto.
  - right. exists i, mem1. split; auto. destruct HN as [(Hr & Ef & _)|(_ & _ & _ & _ & _ & Hok & Hfr & _)].
    + left. split; auto. unfold R. cbn [abs s_reg] in Ef. rewrite Ef. intros []; reflexivity.
    + right. split.
      * change (R m' R_et) with (get (abs m') R_et). destruct (Hok R_et) as [X|[X|[[_ X]|(_ & X & _)]]]; auto; try discriminate X.
        unfold sp_reg in X. destruct (sup (start m mem1)); discriminate X.
      * intros r Nr. destruct (in_dec reg_eq_dec r (R_pc :: targets m i)) as [I|NI]; auto. destruct Nr. apply (Hfr r NI).
Qed.
Lemma E_C15_entry : demo_case (asm [Cpy R_ev (Lit2 64); Div R_a0 (Lit1 0) (Lit1 0)]) 1 (fun m i mem1 m' =>
  c_halted m = false /\ R m' R_et = et_value true 10 0 /\ R m' R_pc = 64 /\ R m' R_smt = 1).
Proof. demo_tac. Qed.

(** * C17 *)
(** What a userland cycle can change among the supervisor registers. *)
Lemma P_C17_confined : forall D (ops : bus_ops D) oc m m', typed ops -> wf m -> c_halted m = false -> sup_mode m = false ->
  next ops oc m = Ret m' ->
  (exists i mem1, fetches ops m i mem1 /\ resets_cpu m i) \/
  ((forall r, In r [R_ssp; R_ev; R_mtt; R_pda; R_era] -> R m' r = R m r) /\
   (R m' R_smt = 0 /\ R m' R_et = R m R_et \/ R m' R_smt = 1 /\ R m' R_pc = R m R_ev) /\
   (R m' R_usp = R m R_usp \/
    (R m' R_usp = (R m R_usp - 4) mod 2 ^ 32 \/ R m' R_usp = (R m R_usp + 4) mod 2 ^ 32) /\
    (pops ops m \/ exists v mem1, fetches ops m (Push v) mem1 \/ fetches ops m (Call v) mem1))).
Proof.
  intros D ops oc m m' T Hw Hh Hu Hn. apply next_oc in Hn.
  assert (Hsp : sp_of m = R_usp) by (unfold sp_of; rewrite Hu; reflexivity).
  assert (Hsmt : R m R_smt = 0). { unfold sup_mode in Hu. apply negb_false_iff, Z.eqb_eq in Hu. exact Hu. }
  destruct (cycle_cases ops T m m' Hw Hh Hn) as [(s1 & code & data & Hc & Hd & E & Hw1 & _ & _ & Hh1 & Hlk & Hch)|(i & mem1 & Hf & _ & HN)].
  - right.
    assert (G : forall r, R m' r = get (raise_st code data s1) r) by (intros r; rewrite <- E; reflexivity).
    assert (K : forall r, can_write (sup_mode m) r = false -> r <> R_af -> r <> R_usp -> get s1 r = R m r).
    { intros r H1 H2 H3. destruct (Z.eq_dec (get s1 r) (R m r)); auto. destruct (Hlk r H1) as [[X _]|[X _]]; auto; congruence. }
    assert (Kev : get s1 R_ev = R m R_ev) by (apply K; [rewrite Hu; reflexivity|discriminate|discriminate]).
    split.
    { intros r Hr. rewrite G, raise_gets by apply Hw1.
      destruct Hr as [<-|[<-|[<-|[<-|[<-|[]]]]]]; cbn [reg_eq_dec]; (destruct (reg_eq_dec _ R_smt) as [X|_]; [discriminate X|]);
      (destruct (reg_eq_dec _ R_pc) as [X|_]; [discriminate X|]); (destruct (reg_eq_dec _ R_et) as [X|_]; [discriminate X|]);
      apply K; try discriminate; rewrite Hu; reflexivity. }
    split. { right. rewrite !G, !raise_gets by apply Hw1. split; [reflexivity|exact Kev]. }
    rewrite !G, !raise_gets by apply Hw1.
    destruct (reg_eq_dec R_usp R_smt) as [X|_]; [discriminate X|]. destruct (reg_eq_dec R_usp R_pc) as [X|_]; [discriminate X|].
    destruct (reg_eq_dec R_usp R_et) as [X|_]; [discriminate X|].
    destruct (Z.eq_dec (get s1 R_usp) (R m R_usp)) as [|Ne]; auto. right.
    destruct (Hlk R_usp) as [[X _]|(_ & X1 & X2)]; auto; try discriminate. rewrite Hu; reflexivity.
  - destruct HN as [(Hr & _)|(_ & _ & _ & _ & _ & Hok & Hfr & _ & Hls)]; [left; eauto|]. right.
    assert (K : forall r, can_write (sup_mode m) r = false -> r <> R_af -> r <> R_usp -> R m' r = R m r).
    { intros r H1 H2 H3. destruct (Hok r) as [X|[X|[[_ X]|(_ & X & _)]]]; auto; try congruence.
      - change (sup (start m mem1)) with (sup_mode m) in X. congruence.
      - change (sp_reg (start m mem1)) with (sp_of m) in X. congruence. }
    split. { intros r Hr. apply K; rewrite ?Hu; destruct Hr as [<-|[<-|[<-|[<-|[<-|[]]]]]]; try discriminate; reflexivity. }
    split. { left. rewrite !K; auto; try discriminate; rewrite Hu; reflexivity. }
    destruct (Hok R_usp) as [X|[X|[[_ X]|(Hk & _ & X)]]]; auto; try discriminate X.
    + change (sup (start m mem1)) with (sup_mode m) in X. rewrite Hu in X. discriminate X.
    + right. split; [exact X|]. destruct i; try discriminate Hk; [right; eauto|left; left; eauto|right; eauto].
Qed.
(** LSM 28, then (at 32) POP into ssp, from userland: the exception is the only effect. *)
Lemma E_C17_confined : demo_case (asm [Cpy R_usp (Lit2 256); Cpy R_ev (Lit2 64); Lsm (Lit2 8); Pop R_ssp]) 3 (fun m i mem1 m' =>
  c_halted m = false /\ sup_mode m = false /\ i = Pop R_ssp /\ R m' R_usp = 260 /\ R m' R_ssp = 0 /\ R m' R_smt = 1 /\ R m' R_pc = 64).
Proof. demo_tac. Qed.

(** * C20 *)
(** An instruction that ends normally and is not about pc moves to the next one; failing conditionals skip one. *)
Lemma P_C20_pc : forall D (ops : bus_ops D) oc m i mem1 m', typed ops -> wf m -> executes ops oc m i mem1 m' ->
  ~ In R_pc (targets m i) -> ~ jumps i ->
  (R m' R_pc = R m' R_ev /\ R m' R_smt = 1 /\ exists code data sup, R m' R_et = et_value sup code data) \/
  R m' R_pc = (R m R_pc + 4) mod 2 ^ 32 \/ conditional i /\ R m' R_pc = (R m R_pc + 8) mod 2 ^ 32.
Proof.
  intros D ops oc m i mem1 m' T Hw He Hp Hj. destruct He as (Hh & (w & Hl & Ed) & Hn).
  pose proof (exec_step ops T oc m i mem1 m' Hw (conj Hh (conj (ex_intro _ w (conj Hl Ed)) Hn))) as Es.
  assert (M1 : mem_wf mem1).
  { destruct Hl as (_ & mem0 & Hps & Hr). eapply mem_wf_ext; [eapply mem_read_ext; eauto|].
    unfold passes in Hps. destruct (_ =? 0); [subst; apply Hw|]. destruct Hps as (e & Hr0 & _). eapply mem_wf_ext; [eapply mem_read_ext; eauto|apply Hw]. }
  pose proof (step_cases ops T m mem1 i Hw M1 (decode_ok_instr _ _ Ed)) as HC. rewrite Es in HC.
  destruct HC as [(s1 & code & data & (Hw1 & _) & Hc & Hd & E)|HN].
  - left. assert (G : forall r, R m' r = get (raise_st code data s1) r) by (intros r; rewrite <- E; reflexivity).
    rewrite !G, !raise_gets by apply Hw1. split; [reflexivity|]. split; [reflexivity|]. exists code, data, (sup s1). reflexivity.
  - right. destruct HN as [((v & mode & -> & _) & _)|(_ & _ & _ & _ & _ & _ & _ & X & _)].
    + destruct Hj. exact I.
    + exact (X Hp Hj).
Qed.
Lemma E_C20_pc : demo_case (asm [Cmp R_a0 (Lit2 1); If (Lit1 0)]) 1 (fun m i mem1 m' =>
  i = If (Lit1 0) /\ ~ In R_pc (targets m i) /\ ~ jumps i /\ R m' R_pc = R m R_pc + 8).
Proof. demo_tac. Qed.

(* Concrete cases for the theorems above that have none beside them. *)
Lemma E_C04_new_halted : exists m, board_new (dev_ops false) (demo_devs [1; 2; 3]) = Ret m /\ zlen (c_hwb m) = 2.
Proof. eexists. split; vm_compute; reflexivity. Qed.
Lemma E_C04_halt_instruction : demo_case (asm [Cpy R_a0 (Lit2 7); Halt]) 1 (fun m i mem1 m' => i = Halt /\ wf m /\ R m R_a0 = 7).
Proof.
  assert (X : demo_case (asm [Cpy R_a0 (Lit2 7); Halt]) 1 (fun m i mem1 m' => i = Halt /\ R m R_a0 = 7)) by demo_tac.
  destruct X as (m & i & mem1 & m' & Hr & He & Ei & Hs). exists m, i, mem1, m'. split; auto. split; auto. split; auto. split; auto.
  eapply reachable_wf; [|exact Hr]. apply dev_typed.
Qed.
Lemma E_C05_one_cycle : demo_case (asm [Cpy R_a0 (Lit2 7); Reset (Lit1 0)]) 1 (fun m i mem1 m' => c_halted m = false /\ i = Reset (Lit1 0) /\ c_cycles m = 1 /\ c_cycles m' = 0).
Proof. demo_tac. Qed.
