(** Symbolic execution of programs held in a boot ROM: auxiliary facts for the example programs. *)
From Coq Require Import ZArith List Bool Lia.
From Verif Require Import Base BaseFacts Board Mem Cpu Asm Tools Devices Runner SpecMach SpecIsa SpecBus SpecObs SpecMap SpecDev SpecRun SpecPanic.
From Verif Require Import Counter RegFacts MemFacts MapFacts CycleFacts CyclePost ReachFacts InvFacts DevTyped ProofMap ProofBoard ProofReg ProofRun ProofCrash ProofRom.
Import ListNotations.
Open Scope Z_scope.

(** A word whose execution cannot make a debug build overflow (translation off): not SRM, not IF2 on flags above 7. *)
Definition safe_word (w : Z) : bool :=
  if word_op w =? 24 then false
  else if word_op w =? 19 then negb (word_isreg w 0) && negb (word_isreg w 1) && (word_byte w 0 <=? 7) && (word_byte w 1 <=? 7)
  else true.

(** Like [follows], through states without exception and words that are safe in debug builds. *)
Inductive quiet {D} (ops : bus_ops D) (prog : list Z) : nat -> st (memory D) -> st (memory D) -> Prop :=
| quiet_0 s : quiet ops prog 0 s s
| quiet_S n j w i s s1 s' : s_halt s = false -> get s R_mtt = 0 -> get s R_et = 0 -> get s R_pc = 4 * Z.of_nat j -> nth_error prog j = Some w ->
    decode (bytes_of_word w) = ROk i -> safe_word w = true ->
    step (board_bus ops false) i (St (s_reg s) (s_bus s) ((s_cyc s + 1) mod 2 ^ 128) false) = Ret s1 ->
    quiet ops prog n s1 s' -> quiet ops prog (S n) s s'.

Lemma quiet_app D (ops : bus_ops D) prog n1 : forall n2 s1 s2 s3, quiet ops prog n1 s1 s2 -> quiet ops prog n2 s2 s3 -> quiet ops prog (n1 + n2) s1 s3.
Proof. induction n1; intros n2 s1 s2 s3 H1 H2; inversion H1; subst; [exact H2|]. cbn [Nat.add]. econstructor; eauto. Qed.

Lemma safe_no_overflow D (m : cpu D) w : safe_word w = true -> R m R_mtt = 0 -> ~ word_overflows m w.
Proof.
  intros S M [(O & f & g & c & F & G & _ & L)|[(O & _)|(a & _ & _ & X & _)]].
  - unfold safe_word in S. rewrite O in S. change (19 =? 24) with false in S. change (19 =? 19) with true in S. cbn iota in S. unfold word_arg in F, G.
    destruct (word_isreg w 0); [discriminate S|]. destruct (word_isreg w 1); [discriminate S|]. cbn [negb andb] in S.
    assert (f = word_byte w 0) by congruence. assert (g = word_byte w 1) by congruence. apply andb_prop in S. lia.
  - unfold safe_word in S. rewrite O in S. discriminate.
  - congruence.
Qed.

(** Booting is a history of calls. *)
Lemma boot_history D (ops : bus_ops D) oc ds m : prepare_vm ops oc ds = Ret m ->
  exists m0 cs, board_new ops ds = Ret m0 /\ Forall api_wf cs /\ Forall no_map_abs cs /\ api_run ops oc cs m0 = Ret m.
Proof.
  intros H. unfold prepare_vm in H. destruct (board_new ops ds) as [c|] eqn:Ec; cbn [obind] in H; [|discriminate].
  destruct (map_contiguous oc (c_mem c) 0 (zrange (length ds))) as [[[mem [rg|e]] sts]|] eqn:EM; cbn [obind] in H; try discriminate.
  exists c, [AMapContiguous 0 (zrange (length ds)); AReset]. split; auto. split; [|split].
  - constructor; [split|constructor; [exact I|constructor]]. { unfold is_u32; lia. } apply Forall_forall. intros x I. unfold zrange in I. apply in_map_iff in I. destruct I as (k & <- & I). apply in_seq in I. lia.
  - repeat constructor.
  - cbn [api_run api_call]. rewrite EM. cbn [obind]. rewrite H. reflexivity.
Qed.
Section Sym.
Context (oc : bool) (prog : list Z) (Hp : Forall is_u32 prog) (s id : Z).
Notation ops := (dev_ops oc).

Lemma quiet_run : forall n sz m s', romed prog s id sz m -> wf m -> (oc = true -> ends_below (c_mem m)) -> zlen prog * 4 <= sz -> quiet ops prog n (abs m) s' ->
  exists m', run ops oc n m = Ret m' /\ abs m' = s' /\ wf m' /\ forall k mk, (k < n)%nat -> run ops oc k m = Ret mk -> c_halted mk = false /\ R mk R_et = 0.
Proof.
  induction n as [|n IH]; intros sz m s' HR W HB Hs H; inversion H as [|? j w i ? s1 ? F1 F2 F0 F3 F4 F5 Fs F6 F7]; subst.
  { exists m. split; [reflexivity|]. split; [reflexivity|]. split; [exact W|]. intros; lia. }
  assert (Lj : (j < length prog)%nat) by (apply nth_error_Some; congruence).
  assert (Ls : 4 * Z.of_nat j < sz) by (unfold zlen in Hs; lia).
  pose proof (romed_loads oc prog Hp s id sz m j w HR F2 F4 Ls) as HL. rewrite <- F3 in HL.
  assert (HF : fetches ops m i (c_mem m)). { exists w. split; auto. }
  pose proof (P_C06_conformance _ ops m i (c_mem m) (dev_typed oc) W F1 HF) as X. cbn [abs s_reg s_bus s_cyc] in F6. rewrite F6 in X.
  destruct (next ops false m) as [m1|] eqn:En0; cbn [omap] in X; [|discriminate]. apply Ret_inj in X. subst s1.
  assert (En : next ops oc m = Ret m1).
  { destruct oc eqn:Eo; [|exact En0]. rewrite <- En0. apply (P_C03_exact _ (dev_ops true) m (dev_typed true) W (HB eq_refl)).
    intros (_ & _ & [(X & _)|(w' & mem1 & L' & O')]). { apply X. exact F2. }
    assert (w' = w) as ->. { unfold loads in HL, L'. destruct HL as (_ & q & Pq & HL). destruct L' as (_ & q' & Pq' & L'). unfold passes in Pq, Pq'.
      change (R m R_mtt = 0) in F2. rewrite F2 in Pq, Pq'. cbn in Pq, Pq'. subst q q'. change (get (abs m) R_pc) with (R m R_pc) in HL. congruence. }
    exact (safe_no_overflow _ m w Fs F2 O'). }
  assert (R1 : romed prog s id sz m1). { apply (romed_run oc prog Hp s id sz 1 m m1 HR W). cbn [run]. rewrite En. reflexivity. }
  assert (W1 : wf m1) by (eapply next_wf; [apply dev_typed|exact W|exact En]).
  destruct (IH sz m1 s' R1 W1) as (m' & E' & A' & W' & K'); auto.
  { intros Ho mp I. rewrite (run_maps _ ops oc 1 (dev_typed oc) m m1 W) in I. { apply (HB Ho mp I). } cbn [run]. rewrite En. reflexivity. }
  exists m'. cbn [run]. rewrite En. cbn [obind]. split; auto. split; auto. split; auto.
  intros [|k] mk Hk Ek. { injection Ek as <-. auto. }
  cbn [run] in Ek. rewrite En in Ek. cbn [obind] in Ek. eapply K'; [|exact Ek]. lia.
Qed.

(** A program that runs quietly to its end, from the boot of the board: what [exec_vm] returns. *)
Lemma quiet_exec : forall n rest sz m0 s' cfg fuel, let rom := DRom (BootRom prog (zlen prog) s id) in
  declares ops rom sz -> zlen prog * 4 <= sz ->
  prepare_vm ops oc (rom :: rest) = Ret m0 -> cf_limit cfg = None ->
  quiet ops prog n (abs m0) s' -> s_halt s' = true -> get s' R_et = 0 -> (n < fuel)%nat ->
  exists m' a, exec_vm ops oc fuel cfg (rom :: rest) = Ret (Some (m', Stopped (s_cyc s') a None)) /\ abs m' = s' /\ run ops oc n m0 = Ret m'.
Proof.
  intros n rest sz m0 s' cfg fuel rom D0 Hs Hm Hl Hq Hh He Hf.
  destruct (romed_boot oc prog s id rest sz m0 D0 Hm) as (HR & W & Hreach).
  assert (HB : oc = true -> ends_below (c_mem m0)).
  { intros Ho. destruct (boot_history _ _ _ _ _ Hm) as (c & cs & Ec & Hc & Hn & Er). subst oc. eapply P_C03_mappings; [apply dev_typed|exact Hc|exact Hn|exact Ec|exact Er]. }
  destruct (quiet_run n sz m0 s' HR W HB Hs Hq) as (m' & E & A & W' & K).
  assert (HS : stops_after ops oc cfg m0 n m').
  { split; auto. split. { left. subst s'. exact Hh. }
    intros k mk Hk Ek [X|[(l & X & _)|(_ & _ & X)]]; destruct (K k mk Hk Ek); congruence. }
  destruct (P_C65_returns _ ops oc cfg m0 n m' (dev_typed oc) W HS) with (fuel := fuel) as (st & Er); auto.
  { right. intros k mk Hk Ek. assert (R mk R_et = 0) as ->. { destruct (Nat.eq_dec k n) as [->|]; [|eapply K; [|exact Ek]; lia]. assert (mk = m') by congruence. subst. exact He. }
    intros ([X|X] & _); discriminate. }
  destruct (P_C65_stops _ ops oc fuel cfg m0 m' st (dev_typed oc) W Er) as (n' & HS' & Hc & _ & Hx).
  exists m', (sp_addr st). split; [|auto]. unfold exec_vm. rewrite Hm. cbn [obind]. rewrite Er. f_equal. f_equal. f_equal.
  destruct st as [c a x]. cbn in *. subst c. f_equal. { subst s'. reflexivity. }
  unfold reported in Hx. replace (R m' R_et) with 0 in Hx by (subst s'; symmetry; exact He). rewrite andb_false_r in Hx. exact Hx.
Qed.
End Sym.

(** ** Tactics *)
Lemma cyc_add c k : ((c + k) mod 2 ^ 128 + 1) mod 2 ^ 128 = (c + (k + 1)) mod 2 ^ 128.
Proof. rewrite Zplus_mod_idemp_l. f_equal. lia. Qed.
Lemma flag_Z r c o : Z.testbit (flags_spec r c o) (7 - 0) = (r =? 0).
Proof. pose proof (ProofAlu.flags_bits r c o) as H. cbv zeta in H. apply H. Qed.
Lemma flag_C r c o : Z.testbit (flags_spec r c o) (7 - 1) = c.
Proof. pose proof (ProofAlu.flags_bits r c o) as H. cbv zeta in H. apply H. Qed.

(** Compute an instruction on a file of 32 explicit registers, in supervisor mode, translation off. *)
Ltac redst := lazy beta iota zeta delta [step read2 read1 read write_end write arith get put rg rs upd nth reg_code sup can_read can_write user_reg read_only negb andb orb s_reg s_bus s_cyc s_halt advance alu_spec
   Z.to_nat Pos.to_nat Pos.iter_op Nat.add with_bus sp_reg flag_of flag_of_unchecked load store access bus_load bus_store bus_count bus_info board_bus cond_spec].
Ltac sym1 := redst; repeat (change (1 =? 0) with false; change (0 =? 0) with true; change (7 <? 0) with false; change (7 <? 1) with false; redst).
Ltac cst t := lazymatch t with Z0 => idtac | Zpos ?p => cstp p | Zneg ?p => cstp p end
with cstp p := lazymatch p with xH => idtac | xO ?q => cstp q | xI ?q => cstp q end.
Ltac norm :=
  repeat match goal with |- context [m32 (?a + ?b)] => cst a; cst b; let v := eval vm_compute in (m32 (a + b)) in change (m32 (a + b)) with v end;
  repeat match goal with |- context [m32 (?a - ?b)] => cst a; cst b; let v := eval vm_compute in (m32 (a - b)) in change (m32 (a - b)) with v end;
  repeat match goal with |- context [((?c + ?k) mod 2 ^ 128 + 1) mod 2 ^ 128] => cst k; rewrite (cyc_add c k); let v := eval vm_compute in (k + 1) in change (k + 1) with v end.
Ltac istep_with tac :=
  match goal with |- quiet _ _ _ ?s _ => let j := eval vm_compute in (Z.to_nat (get s R_pc / 4)) in eapply (quiet_S _ _ _ j) end;
  [reflexivity|reflexivity|reflexivity|reflexivity|reflexivity|vm_compute; reflexivity|reflexivity|sym1; tac; reflexivity|norm].
Ltac istep := istep_with idtac.
(** The same for a test of the zero flag, which is known to be [b]. *)
Ltac iftac b := rewrite flag_Z; match goal with |- context [if ?t =? 0 then _ else _] => replace (t =? 0) with b by (symmetry; unfold m32; lia) end; cbn iota.

(** The machine after booting, as a state. *)
Lemma file_ext r r' : regs_wf r -> regs_wf r' -> (forall x, rg (file r) x = rg (file r') x) -> file r = file r'.
Proof.
  intros (A1 & A2 & A3 & A4 & _) (B1 & B2 & B3 & B4 & _) H.
  destruct r as [a c ac rr avr pc af ssp usp et era ev mtt pda smt], r' as [a' c' ac' rr' avr' pc' af' ssp' usp' et' era' ev' mtt' pda' smt'].
  cbn [r_a r_c r_ac r_rr] in *.
  do 9 (destruct a as [|? a]; try discriminate). do 9 (destruct a' as [|? a']; try discriminate).
  do 3 (destruct c as [|? c]; try discriminate). do 3 (destruct c' as [|? c']; try discriminate).
  do 4 (destruct ac as [|? ac]; try discriminate). do 4 (destruct ac' as [|? ac']; try discriminate).
  do 9 (destruct rr as [|? rr]; try discriminate). do 9 (destruct rr' as [|? rr']; try discriminate).
  rename H into K. clear A1 A2 A3 A4 B1 B2 B3 B4.
  pose proof (K R_a0). pose proof (K R_a1). pose proof (K R_a2). pose proof (K R_a3). pose proof (K R_a4). pose proof (K R_a5). pose proof (K R_a6). pose proof (K R_a7).
  pose proof (K R_c0). pose proof (K R_c1). pose proof (K R_ac0). pose proof (K R_ac1). pose proof (K R_ac2).
  pose proof (K R_rr0). pose proof (K R_rr1). pose proof (K R_rr2). pose proof (K R_rr3). pose proof (K R_rr4). pose proof (K R_rr5). pose proof (K R_rr6). pose proof (K R_rr7).
  pose proof (K R_avr). pose proof (K R_pc). pose proof (K R_af). pose proof (K R_ssp). pose proof (K R_usp). pose proof (K R_et). pose proof (K R_era). pose proof (K R_ev). pose proof (K R_mtt). pose proof (K R_pda). pose proof (K R_smt).
  clear K. repeat match goal with H : rg _ _ = rg _ _ |- _ => lazy in H; subst end. reflexivity.
Qed.
Lemma booted_file D (m : cpu D) : wf m -> (forall r, R m r = match r with R_smt => 1 | _ => 0 end) ->
  file (c_regs m) = reset_file.
Proof.
  intros (W & _) H. change reset_file with (file (set_smt 1 regs_new)). apply file_ext; auto.
  - repeat split; try reflexivity. unfold file. cbn. repeat constructor; unfold is_u32; lia.
  - intros x. etransitivity; [exact (H x)|]. destruct x; reflexivity.
Qed.
Lemma booted D (ops : bus_ops D) oc ds szs : typed ops -> Forall2 (declares ops) ds szs -> (forall d, In d ds -> exists d', bo_reset ops d = Ret d') ->
  bootable oc szs -> exists m, prepare_vm ops oc ds = Ret m /\ wf m /\ abs m = St reset_file (c_mem m) 0 false.
Proof.
  intros T Hd Hr Hb. destruct (P_C66_boots D ops oc ds szs T Hd Hr Hb) as (m & E & RE & HR & Hc & Hh & _). exists m. split; auto.
  assert (W : wf m) by (eapply reachable_wf; eauto). split; auto. unfold abs. rewrite (booted_file _ m W HR), Hc, Hh. reflexivity.
Qed.

(** ** Boards: the components [ds], mapped one after the other with sizes [szs] from address 0 *)
Definition board {D} (szs : list Z) (ds : list D) (mem : memory D) : Prop :=
  mem_wf mem /\ tidy false mem /\ map ae_dev (mm_hwb mem) = ds /\
  forall k sz, nth_error szs k = Some sz -> exists mp, nth_error (mm_maps mem) k = Some mp /\ mp_aux_id mp = Z.of_nat k /\
    mp_addr mp = sum (firstn k szs) /\ mp_size mp = sz.
(** Mappings and caches are not touched. *)
Definition frame {D} (mem mem' : memory D) : Prop :=
  mm_maps mem' = mm_maps mem /\ map ae_cache (mm_hwb mem') = map ae_cache (mm_hwb mem).
Lemma frame_refl D (mem : memory D) : frame mem mem. Proof. split; reflexivity. Qed.
Lemma frame_trans D (a b c : memory D) : frame a b -> frame b c -> frame a c.
Proof. intros (H1 & H2) (H3 & H4). split; congruence. Qed.

Lemma devs_znth D (h : hwb D) ds k d : map ae_dev h = ds -> nth_error ds k = Some d -> exists e, znth h (Z.of_nat k) = Some e /\ ae_dev e = d.
Proof.
  intros <- H. rewrite nth_error_map in H. destruct (nth_error h k) as [e|] eqn:E; [|discriminate]. injection H as <-. exists e.
  rewrite znth_nth by lia. rewrite Nat2Z.id. auto.
Qed.
Lemma set_dev_devs D (h : hwb D) : forall k d, map ae_dev (set_dev h (Z.of_nat k) d) = set_nth (map ae_dev h) k d.
Proof.
  induction h as [|e t IH]; intros k d; [destruct k; reflexivity|]. cbn [set_dev].
  destruct k as [|k]; [reflexivity|]. destruct (Z.eqb_spec (Z.of_nat (S k)) 0); [lia|]. cbn [map set_nth]. f_equal. rewrite <- IH. do 2 f_equal. lia.
Qed.
Lemma board_set D szs ds (mem : memory D) k d d0 : board szs ds mem -> nth_error ds k = Some d0 ->
  let mem' := Memory (set_dev (mm_hwb mem) (Z.of_nat k) d) (mm_maps mem) in board szs (set_nth ds k d) mem' /\ frame mem mem'.
Proof.
  intros (W & T & E & L) Hk mem'. split; [|split; [reflexivity|apply set_dev_caches]]. split; [|split; [|split]].
  - eapply mem_wf_ext; [|exact W]. split; [reflexivity|apply set_dev_caches].
  - exact T.
  - cbn [mem' mm_hwb]. rewrite set_dev_devs, E. reflexivity.
  - exact L.
Qed.

(** The component at address [a]. *)
Definition at_slot {D} (szs : list Z) (ds : list D) (a : Z) (k : nat) (d : D) (off : Z) : Prop :=
  exists sz, nth_error szs k = Some sz /\ nth_error ds k = Some d /\ off = a - sum (firstn k szs) /\ 0 <= off < sz /\ a mod 4 = 0.
Lemma board_read D (ops : bus_ops D) szs ds mem a k d off d' ex w : board szs ds mem -> at_slot szs ds a k d off -> bo_read ops d off = Ret (d', ex, w) ->
  exists mem', mem_read ops false mem a = Ret (mem', ex, w) /\ board szs (set_nth ds k d') mem' /\ frame mem mem'.
Proof.
  intros B (sz & Hs & Hd & -> & Ho & Ha) HR. pose proof B as (W & T & E & L). destruct (L k sz Hs) as (mp & Hm & H1 & H2 & H3).
  destruct (P_C33_dispatch _ ops false mem a mp W T Ha (nth_error_In _ _ Hm)) as (e & En & _ & _ & X & _). { unfold occupies. lia. }
  destruct (devs_znth _ _ _ _ _ E Hd) as (e' & En' & Ed). rewrite H1 in En. assert (e' = e) by congruence. subst e'. rewrite Ed, H2, HR in X.
  eexists. split; [exact X|]. rewrite H1. eapply board_set; eauto.
Qed.
Lemma board_read_oc D (ops : bus_ops D) oc szs ds mem a k d off d' ex w : board szs ds mem -> tidy oc mem -> at_slot szs ds a k d off -> bo_read ops d off = Ret (d', ex, w) ->
  exists mem', mem_read ops oc mem a = Ret (mem', ex, w) /\ board szs (set_nth ds k d') mem' /\ frame mem mem'.
Proof.
  intros B T (sz & Hs & Hd & -> & Ho & Ha) HR. pose proof B as (W & _ & E & L). destruct (L k sz Hs) as (mp & Hm & H1 & H2 & H3).
  destruct (P_C33_dispatch _ ops oc mem a mp W T Ha (nth_error_In _ _ Hm)) as (e & En & _ & _ & X & _). { unfold occupies. lia. }
  destruct (devs_znth _ _ _ _ _ E Hd) as (e' & En' & Ed). rewrite H1 in En. assert (e' = e) by congruence. subst e'. rewrite Ed, H2, HR in X.
  eexists. split; [exact X|]. rewrite H1. eapply board_set; eauto.
Qed.
Lemma board_write D (ops : bus_ops D) szs ds mem a k d off d' ex w : board szs ds mem -> at_slot szs ds a k d off -> bo_write ops d off w = Ret (d', ex) ->
  exists mem', mem_write ops false mem a w = Ret (mem', ex) /\ board szs (set_nth ds k d') mem' /\ frame mem mem'.
Proof.
  intros B (sz & Hs & Hd & -> & Ho & Ha) HR. pose proof B as (W & T & E & L). destruct (L k sz Hs) as (mp & Hm & H1 & H2 & H3).
  destruct (P_C33_dispatch _ ops false mem a mp W T Ha (nth_error_In _ _ Hm)) as (e & En & _ & _ & _ & X). { unfold occupies. lia. }
  destruct (devs_znth _ _ _ _ _ E Hd) as (e' & En' & Ed). rewrite H1 in En. assert (e' = e) by congruence. subst e'. specialize (X w). rewrite Ed, H2, HR in X.
  eexists. split; [exact X|]. rewrite H1. eapply board_set; eauto.
Qed.
(** Booting gives such a board, with all components reset. *)
Definition described {D} (ops : bus_ops D) (k : nat) (d : D) (e : aux_entry D) : Prop :=
  exists md, bo_metadata ops d = Ret md /\
    ae_cache e = AuxCache (Z.of_nat k) (w0 md * 4294967296 + w1 md) (cut_name (bo_name ops d)) md (w2 md).
Lemma booted_board D (ops : bus_ops D) oc ds szs : typed ops -> Forall2 (declares ops) ds szs -> (forall d, In d ds -> exists d', bo_reset ops d = Ret d') ->
  bootable oc szs -> exists m ds', prepare_vm ops oc ds = Ret m /\ wf m /\ abs m = St reset_file (c_mem m) 0 false /\
    Forall2 (fun d d' => bo_reset ops d = Ret d') ds ds' /\ board szs ds' (c_mem m) /\ length (mm_maps (c_mem m)) = length ds /\ tidy oc (c_mem m) /\
    forall k d e, nth_error ds k = Some d -> znth (c_hwb m) (Z.of_nat k) = Some e -> described ops k d e.
Proof.
  intros T Hd Hr Hb. destruct (booted D ops oc ds szs T Hd Hr Hb) as (m & E & W & A).
  destruct (P_C66_boots D ops oc ds szs T Hd Hr Hb) as (m1 & E1 & _ & _ & _ & _ & Lm & HK). assert (m1 = m) by congruence. subst m1.
  destruct (boot_history _ _ _ _ _ E) as (c & cs & Ec & Hc & Hn & Er).
  exists m, (map ae_dev (c_hwb m)). do 3 (split; auto).
  assert (X : map ae_cache (c_hwb m) = map ae_cache (c_hwb c)).
  { pose proof E as E'. unfold prepare_vm in E'. rewrite Ec in E'. cbn [obind] in E'.
    destruct (map_contiguous oc (c_mem c) 0 (zrange (length ds))) as [[[mem [rg|er]] sts]|] eqn:EM; cbn [obind] in E'; try discriminate.
    destruct (board_new_spec _ T _ c Ec) as (Wc & Em & _).
    assert (Ht : tidy oc (c_mem c)). { unfold tidy. rewrite Em. cbn. split; [constructor|]. split; intros; contradiction. }
    destruct (P_C35_contiguous _ (c_mem c) oc 0 _ mem _ sts (proj1 (proj2 Wc)) Ht ltac:(unfold is_u32; lia) EM) as (l & _ & _ & -> & _).
    destruct (P_C38_reset_state _ _ _ m E') as (_ & _ & _ & _ & Y). rewrite Y. reflexivity. }
  destruct (board_new_spec ops T ds c Ec) as (_ & _ & Q & _ & _ & _ & Es).
  assert (LH : length (c_hwb m) = length ds). { apply (f_equal (@length _)) in X. rewrite !map_length in X. rewrite X, <- Q, map_length. reflexivity. }
  assert (LS : length szs = length ds) by (clear - Hd; induction Hd; cbn; congruence).
  split; [|split; [|split; [exact Lm|split; [apply (P_C31_tidy _ ops oc ds cs c m T Hc Hn Ec Er)|]]]].
  - assert (K : forall k d, nth_error ds k = Some d -> exists d', nth_error (map ae_dev (c_hwb m)) k = Some d' /\ bo_reset ops d = Ret d').
    { intros k d Hk. destruct (nth_error szs k) as [sz|] eqn:Ez. 2:{ apply nth_error_None in Ez. assert (k < length ds)%nat by (apply nth_error_Some; congruence). lia. }
      destruct (HK k d sz Hk Ez) as (_ & d' & e & R1 & R2 & R3). exists d'. split; auto. rewrite nth_error_map.
      rewrite znth_nth in R2 by lia. rewrite Nat2Z.id in R2. rewrite R2. cbn. congruence. }
    assert (L2 : length (map ae_dev (c_hwb m)) = length ds) by (rewrite map_length; exact LH).
    revert K L2. clear. generalize (map ae_dev (c_hwb m)) as l. induction ds as [|d t IH]; intros [|d' l] K L; try discriminate; constructor.
    + destruct (K O d eq_refl) as (x & Hx & Hr). injection Hx as <-. exact Hr.
    + apply IH; [|cbn in L; lia]. intros k x Hk. apply (K (S k) x Hk).
  - split; [apply W|]. split. { destruct (P_C31_tidy _ ops oc ds cs c m T Hc Hn Ec Er) as ((T1 & T2 & T3) & _). split; auto. split; auto.
      intros mp I. destruct (T2 mp I) as (?&?&?&?&F&_). do 4 (split; auto). split; auto. discriminate. }
    split; [reflexivity|]. intros k sz Hk. destruct (nth_error ds k) as [d|] eqn:Ed.
    + apply (HK k d sz Ed Hk).
    + apply nth_error_None in Ed. assert (k < length szs)%nat by (apply nth_error_Some; congruence). lia.
  - intros k d e Hk He. rewrite <- Q, nth_error_map in Hk. destruct (nth_error (c_hwb c) k) as [e0|] eqn:E0; [|discriminate]. injection Hk as <-.
    assert (Z0 : znth (c_hwb c) (Z.of_nat k) = Some e0) by (rewrite znth_nth by lia; rewrite Nat2Z.id; exact E0).
    destruct (Es (Z.of_nat k) e0 Z0) as (md & M1 & M2). exists md. split; auto. rewrite <- M2.
    rewrite znth_nth in He by lia. rewrite Nat2Z.id in He. apply (f_equal (fun l => nth_error l k)) in X. rewrite !nth_error_map, E0, He in X. cbn in X. congruence.
Qed.

(** Appending words to a store filled from its beginning. *)
Lemma zset_app (l : list Z) x y t : zset (l ++ x :: t) (zlen l) y = Some (l ++ y :: t).
Proof.
  induction l as [|a l IH]; cbn [app zset]; [reflexivity|]. rewrite zlen_cons. assert (0 <= zlen l) by (unfold zlen; lia). destruct (Z.eqb_spec (zlen l + 1) 0); [lia|].
  replace (zlen l + 1 - 1) with (zlen l) by lia. rewrite IH. reflexivity.
Qed.
Lemma zeros_S n : 0 < n -> zeros n = 0 :: zeros (n - 1).
Proof. intros H. unfold zeros. replace (Z.to_nat n) with (S (Z.to_nat (n - 1))) by lia. reflexivity. Qed.
Definition filled (total : Z) (done : list Z) : list Z := done ++ zeros (total - zlen done).
Lemma filled_put total done w : zlen done < total -> zset (filled total done) (zlen done) w = Some (filled total (done ++ [w])).
Proof.
  intros H. unfold filled. rewrite (zeros_S (total - zlen done)) by lia. rewrite zset_app. rewrite <- app_assoc. cbn [app].
  replace (zlen (done ++ [w])) with (zlen done + 1) by (unfold zlen; rewrite app_length; cbn; lia). replace (total - (zlen done + 1)) with (total - zlen done - 1) by lia. reflexivity.
Qed.
Lemma filled_get total done k w : nth_error done k = Some w -> znth (filled total done) (Z.of_nat k) = Some w.
Proof. intros H. rewrite znth_nth by lia. rewrite Nat2Z.id. unfold filled. rewrite nth_error_app1; auto. apply nth_error_Some. congruence. Qed.
Lemma zlen_snoc (l : list Z) w : zlen (l ++ [w]) = zlen l + 1.
Proof. unfold zlen. rewrite app_length. cbn. lia. Qed.

(** ** The same for any component that holds the program and never changes *)
Section GSym.
Context {D : Type} (ops : bus_ops D) (oc : bool) (T : typed ops) (prog : list Z) (d0 : D) (szs : list Z) (sz0 : Z).
Hypothesis (Hread : forall j w, nth_error prog j = Some w -> bo_read ops d0 (4 * Z.of_nat j) = Ret (d0, 0, w))
  (Hfix : forall r d' xs, serve ops d0 [r] = Ret (d', xs) -> d' = d0) (Hs : nth_error szs 0 = Some sz0) (Hl : zlen prog * 4 <= sz0).
Definition holds (m : cpu D) : Prop := exists ds, board szs ds (c_mem m) /\ nth_error ds 0 = Some d0.
Lemma mem_same (a b : memory D) : mm_maps a = mm_maps b -> map ae_dev (mm_hwb a) = map ae_dev (mm_hwb b) -> map ae_cache (mm_hwb a) = map ae_cache (mm_hwb b) -> a = b.
Proof.
  destruct a as [h p], b as [h' p']. cbn. intros -> E1 E2. f_equal. revert h' E1 E2. induction h as [|[x c] h IH]; intros [|[x' c'] h'] E1 E2; try discriminate; auto.
  cbn in *. injection E1 as -> E1. injection E2 as -> E2. f_equal. auto.
Qed.
Lemma set_nth_same {A} : forall (l : list A) k x, nth_error l k = Some x -> set_nth l k x = l.
Proof. induction l as [|a l IH]; intros [|k] x H; try discriminate; cbn in *; [congruence|]. f_equal. auto. Qed.
Lemma holds_fetch m j w : holds m -> nth_error prog j = Some w -> mem_read ops false (c_mem m) (4 * Z.of_nat j) = Ret (c_mem m, 0, w).
Proof.
  intros (ds & B & Hd) Hj. assert (Lj : (j < length prog)%nat) by (apply nth_error_Some; congruence).
  destruct (board_read _ ops szs ds (c_mem m) (4 * Z.of_nat j) 0 d0 (4 * Z.of_nat j) d0 0 w B) as (mem' & E & B' & F).
  - exists sz0. split; auto. split; auto. cbn [firstn sum fold_right]. unfold zlen in Hl. split; [lia|]. split; [lia|]. rewrite Z.mul_comm. apply Z.mod_mul. lia.
  - apply Hread. exact Hj.
  - rewrite E. f_equal. f_equal. f_equal. rewrite (set_nth_same _ _ _ Hd) in B'. destruct B as (_ & _ & B & _), B' as (_ & _ & B' & _), F as (F1 & F2). apply mem_same; congruence.
Qed.
Lemma holds_run n m m' : holds m -> wf m -> run ops oc n m = Ret m' -> holds m'.
Proof.
  intros (ds & B & Hd) W E. pose proof (run_maps _ ops oc n T m m' W E) as M. pose proof (run_wf ops T oc n m m' W E) as W'.
  assert (X : exists e, znth (c_hwb m) 0 = Some e /\ ae_dev e = d0). { destruct B as (_ & _ & B & _). apply (devs_znth _ _ _ 0 _ B Hd). }
  destruct X as (e & He & Ed).
  rewrite <- run_api in E. assert (F : Forall api_wf (repeat ANext n)) by (apply Forall_forall; intros x I; apply repeat_spec in I; subst; exact Logic.I).
  destruct (ProofHist.P_C71_invariant _ ops oc (fun d => d = d0) _ m m' 0 e T W F E He Ed) as (d & -> & X). { intros d r d' xs -> _ S. eapply Hfix; eauto. }
  exists (map ae_dev (c_hwb m')). split.
  - destruct B as (_ & B2 & _ & B4). split; [apply W'|]. split. { unfold tidy in *. rewrite M. exact B2. } split; [reflexivity|]. rewrite M. exact B4.
  - rewrite nth_error_map. rewrite znth_nth in X by lia. cbn in X. cbn. rewrite X. reflexivity.
Qed.
Lemma gquiet_run : forall n m s', holds m -> wf m -> (oc = true -> ends_below (c_mem m)) -> quiet ops prog n (abs m) s' ->
  exists m', run ops oc n m = Ret m' /\ abs m' = s' /\ wf m' /\ forall k mk, (k < n)%nat -> run ops oc k m = Ret mk -> c_halted mk = false /\ R mk R_et = 0.
Proof.
  induction n as [|n IH]; intros m s' HR W HB H; inversion H as [|? j w i ? s1 ? F1 F2 F0 F3 F4 F5 Fs F6 F7]; subst.
  { exists m. split; [reflexivity|]. split; [reflexivity|]. split; [exact W|]. intros; lia. }
  pose proof (holds_fetch m j w HR F4) as HL0.
  assert (HL : loads ops m (c_mem m) (4 * Z.of_nat j) w (c_mem m)).
  { split; [rewrite Z.mul_comm; apply Z.mod_mul; lia|]. exists (c_mem m). split; [|exact HL0]. unfold passes. change (R m R_mtt = 0) in F2. rewrite F2. reflexivity. }
  rewrite <- F3 in HL.
  assert (HF : fetches ops m i (c_mem m)). { exists w. split; auto. }
  pose proof (P_C06_conformance _ ops m i (c_mem m) T W F1 HF) as X. cbn [abs s_reg s_bus s_cyc] in F6. rewrite F6 in X.
  destruct (next ops false m) as [m1|] eqn:En0; cbn [omap] in X; [|discriminate]. apply Ret_inj in X. subst s1.
  assert (En : next ops oc m = Ret m1).
  { destruct oc eqn:Eo; [|exact En0]. rewrite <- En0. apply (P_C03_exact _ ops m T W (HB eq_refl)).
    intros (_ & _ & [(X & _)|(w' & mem1 & L' & O')]). { apply X. exact F2. }
    assert (w' = w) as ->. { unfold loads in HL, L'. destruct HL as (_ & q & Pq & HL). destruct L' as (_ & q' & Pq' & L'). unfold passes in Pq, Pq'.
      change (R m R_mtt = 0) in F2. rewrite F2 in Pq, Pq'. cbn in Pq, Pq'. subst q q'. change (get (abs m) R_pc) with (R m R_pc) in HL. congruence. }
    exact (safe_no_overflow _ m w Fs F2 O'). }
  assert (R1 : holds m1). { apply (holds_run 1 m m1 HR W). cbn [run]. rewrite En. reflexivity. }
  assert (W1 : wf m1) by (eapply next_wf; [exact T|exact W|exact En]).
  destruct (IH m1 s' R1 W1) as (m' & E' & A' & W' & K'); auto.
  { intros Ho mp I. rewrite (run_maps _ ops oc 1 T m m1 W) in I. { apply (HB Ho mp I). } cbn [run]. rewrite En. reflexivity. }
  exists m'. cbn [run]. rewrite En. cbn [obind]. split; auto. split; auto. split; auto.
  intros [|k] mk Hk Ek. { injection Ek as <-. auto. }
  cbn [run] in Ek. rewrite En in Ek. cbn [obind] in Ek. eapply K'; [|exact Ek]. lia.
Qed.
(** A quiet run that halts: what [exec_vm] returns; one that is long enough: still running. *)
Lemma boots_below ds m : prepare_vm ops oc ds = Ret m -> oc = true -> ends_below (c_mem m).
Proof.
  intros Hm Ho. destruct (boot_history _ _ _ _ _ Hm) as (c & cs & Ec & Hc & Hn & Er). rewrite Ho in Er. eapply P_C03_mappings; [exact T|exact Hc|exact Hn|exact Ec|exact Er].
Qed.
Lemma gquiet_exec : forall n ds m0 s' cfg fuel, prepare_vm ops oc ds = Ret m0 -> wf m0 -> holds m0 -> cf_limit cfg = None ->
  quiet ops prog n (abs m0) s' -> s_halt s' = true -> get s' R_et = 0 -> (n < fuel)%nat ->
  exists m' a, exec_vm ops oc fuel cfg ds = Ret (Some (m', Stopped (s_cyc s') a None)) /\ abs m' = s' /\ run ops oc n m0 = Ret m'.
Proof.
  intros n ds m0 s' cfg fuel Hm W HR Hcf Hq Hh He Hf. pose proof (boots_below ds m0 Hm) as HB.
  destruct (gquiet_run n m0 s' HR W HB Hq) as (m' & E & A & W' & K).
  assert (HS : stops_after ops oc cfg m0 n m').
  { split; auto. split. { left. subst s'. exact Hh. }
    intros k mk Hk Ek [X|[(l & X & _)|(_ & _ & X)]]; destruct (K k mk Hk Ek); congruence. }
  destruct (P_C65_returns _ ops oc cfg m0 n m' T W HS) with (fuel := fuel) as (st & Er); auto.
  { right. intros k mk Hk Ek. assert (R mk R_et = 0) as ->. { destruct (Nat.eq_dec k n) as [->|]; [|eapply K; [|exact Ek]; lia]. assert (mk = m') by congruence. subst. exact He. }
    intros ([X|X] & _); discriminate. }
  destruct (P_C65_stops _ ops oc fuel cfg m0 m' st T W Er) as (n' & HS' & Hc & _ & Hx).
  exists m', (sp_addr st). split; [|auto]. unfold exec_vm. rewrite Hm. cbn [obind]. rewrite Er. f_equal. f_equal. f_equal.
  destruct st as [c a x]. cbn in *. subst c. f_equal. { subst s'. reflexivity. }
  unfold reported in Hx. replace (R m' R_et) with 0 in Hx by (subst s'; symmetry; exact He). rewrite andb_false_r in Hx. exact Hx.
Qed.
Lemma gquiet_forever : forall n ds m0 s' cfg fuel, prepare_vm ops oc ds = Ret m0 -> wf m0 -> holds m0 -> cf_limit cfg = None ->
  quiet ops prog n (abs m0) s' -> (fuel < n)%nat -> exec_vm ops oc fuel cfg ds = Ret None.
Proof.
  intros n ds m0 s' cfg fuel Hm W HR Hcf Hq Hf. pose proof (boots_below ds m0 Hm) as HB.
  destruct (gquiet_run n m0 s' HR W HB Hq) as (m' & E & _ & _ & K). unfold exec_vm. rewrite Hm. cbn [obind]. unfold run_vm.
  assert (X : forall f a, (f < n)%nat -> run_loop ops oc f cfg a m0 = Ret None).
  { clear -T W E K Hcf. revert m0 W E K. induction n as [|n IH]; intros m0 W E K f a L; [lia|]. destruct f as [|f]; [reflexivity|]. cbn [run_loop].
    destruct (K O m0 ltac:(lia) eq_refl) as (K1 & _). rewrite K1, Hcf. cbn [run] in E. destruct (next ops oc m0) as [m1|] eqn:E1; [|discriminate]. cbn [obind] in *.
    assert (W1 : wf m1) by (eapply next_wf; [exact T|exact W|exact E1]). rewrite (r_et_R m1) by apply W1.
    destruct (K 1%nat m1 ltac:(lia)) as (_ & K2). { cbn [run]. rewrite E1. reflexivity. } rewrite K2. cbn [Z.eqb negb]. apply IH; auto; [|lia].
    intros k mk Hk Ek. apply (K (S k)); [lia|]. cbn [run]. rewrite E1. exact Ek. }
  rewrite X by exact Hf. reflexivity.
Qed.
End GSym.
