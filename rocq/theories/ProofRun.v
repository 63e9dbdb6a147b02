(** Proofs about run_vm, prepare_vm, exec_vm. *)
From Coq Require Import ZArith List Bool Lia FinFun.
From Verif Require Import Base Board Mem Cpu Asm Tools Devices Runner SpecMach SpecIsa SpecObs SpecAsm SpecMap SpecDev SpecRun BaseFacts RegFacts MemFacts IsaFacts CyclePost InvFacts MapFacts DevTyped ReachFacts Demo ProofState ProofBoard ProofPanic ProofMap.
Import ListNotations.
Open Scope Z_scope.
Ltac Zify.zify_post_hook ::= Z.div_mod_to_equations.

Lemma r_et_R {D} (m : cpu D) : regs_wf (c_regs m) -> r_et (c_regs m) = R m R_et. Proof. intros H; apply field_gen in H; tauto. Qed.
Section Run.
Context {D : Type} (ops : bus_ops D) (T : typed ops) (oc : bool).

Lemma run_snoc n (m m1 m2 : cpu D) : run ops oc n m = Ret m1 -> next ops oc m1 = Ret m2 -> run ops oc (S n) m = Ret m2.
Proof.
  revert m. induction n as [|n IH]; intros m E1 E2.
  - injection E1 as ->. cbn [run]. rewrite E2. reflexivity.
  - cbn [run] in E1 |- *. destruct (next ops oc m) as [m0|]; cbn [obind] in *; [|discriminate]. apply IH; auto.
Qed.
Lemma run_prefix n k (m m' : cpu D) : run ops oc n m = Ret m' -> (k <= n)%nat -> exists mk, run ops oc k m = Ret mk.
Proof.
  revert k m. induction n as [|n IH]; intros k m E Hk.
  - replace k with O by lia. exists m. reflexivity.
  - destruct k as [|k]; [exists m; reflexivity|]. cbn [run] in *. destruct (next ops oc m) as [m0|]; cbn [obind] in *; [|discriminate]. apply (IH k); auto. lia.
Qed.
Lemma run_split n (m m2 : cpu D) : run ops oc (S n) m = Ret m2 -> exists m1, run ops oc n m = Ret m1 /\ next ops oc m1 = Ret m2.
Proof.
  revert m. induction n as [|n IH]; intros m E.
  - exists m. split; [reflexivity|]. cbn [run] in E. destruct (next ops oc m) as [x|]; cbn [obind] in E; [auto|discriminate].
  - cbn [run] in E. destruct (next ops oc m) as [x|] eqn:En; cbn [obind] in E; [|discriminate]. destruct (IH x E) as (m1 & E1 & E2).
    exists m1. split; auto. cbn [run]. rewrite En. exact E1.
Qed.
Lemma run_wf n (m m' : cpu D) : wf m -> run ops oc n m = Ret m' -> wf m'.
Proof.
  revert m. induction n as [|n IH]; intros m W E; cbn [run] in E; [injection E as <-; auto|].
  destruct (next ops oc m) as [m1|] eqn:En; cbn [obind] in E; [|discriminate]. eapply IH; [|exact E]. eapply next_wf; eauto.
Qed.

(** The loop, [j] cycles after the start. *)
Lemma loop_stops cfg fuel : forall j (m0 m : cpu D) was m' a x, wf m0 -> run ops oc j m0 = Ret m ->
  (j <> O -> exists mp, run ops oc (pred j) m0 = Ret mp /\ was = R mp R_pc) -> (j = O -> was = R m0 R_pc) ->
  (forall k mk, (k < j)%nat -> run ops oc k m0 = Ret mk -> ~ must_stop cfg k mk) ->
  (j <> O -> ~ ((0 < j)%nat /\ cf_halt_on_ex cfg = true /\ R m R_et <> 0)) ->
  run_loop ops oc fuel cfg was m = Ret (Some (m', a, x)) ->
  exists n, (n <= j + fuel)%nat /\ (j <= n)%nat /\ stops_after ops oc cfg m0 n m' /\ last_address ops oc m0 n a /\
     x = if (0 <? Z.of_nat n) && cf_halt_on_ex cfg && negb (R m' R_et =? 0) then Some (ex_of_et (R m' R_et)) else None.
Proof.
  induction fuel as [|f IH]; intros j m0 m was m' a x W0 E HW HW0 HN HX H; cbn [run_loop] in H; [discriminate|].
  assert (LA : last_address ops oc m0 j was).
  { destruct j as [|j]; [exists m0; split; [reflexivity|auto]|]. destruct HW as (mp & Em & ->); [lia|]. exists mp. auto. }
  assert (NX : (0 <? Z.of_nat j) && cf_halt_on_ex cfg && negb (R m R_et =? 0) = false).
  { destruct (Z.ltb_spec 0 (Z.of_nat j)); [|reflexivity]. destruct (cf_halt_on_ex cfg); [|reflexivity]. cbn [andb]. destruct (Z.eqb_spec (R m R_et) 0); [reflexivity|].
    exfalso. apply HX; [lia|]. split; [lia|auto]. }
  destruct (c_halted m) eqn:Eh.
  { injection H as <- <- <-. exists j. rewrite NX. split; [lia|]. split; [lia|]. split; [|auto]. split; [auto|]. split; [left; auto|auto]. }
  destruct (match cf_limit cfg with Some l => l <? c_cycles m | None => false end) eqn:El.
  { injection H as <- <- <-. exists j. rewrite NX. split; [lia|]. split; [lia|]. split; [|auto]. split; [auto|]. split; [|auto]. right. left.
    destruct (cf_limit cfg) as [l|]; [|discriminate]. exists l. split; auto. lia. }
  assert (NS : ~ must_stop cfg j m).
  { intros [X|[(l & X & Y)|(X & Y & Z0)]]; [congruence| |].
    - rewrite X in El. lia.
    - apply HX; [lia|auto]. }
  destruct (next ops oc m) as [m1|] eqn:En; cbn [obind] in H; [|discriminate].
  assert (E1 : run ops oc (S j) m0 = Ret m1) by (eapply run_snoc; eauto).
  assert (HN1 : forall k mk, (k < S j)%nat -> run ops oc k m0 = Ret mk -> ~ must_stop cfg k mk).
  { intros k mk Hk Ek. destruct (Nat.eq_dec k j) as [->|]; [congruence|]. apply HN; auto. lia. }
  assert (HW1 : S j <> O -> exists mp, run ops oc (pred (S j)) m0 = Ret mp /\ r_pc (c_regs m) = R mp R_pc) by (intros _; exists m; split; [exact E|apply r_pc_R, (run_wf _ _ _ W0 E)]).
  assert (Et : r_et (c_regs m1) = R m1 R_et) by (apply r_et_R, (run_wf _ _ _ W0 E1)). rewrite Et in H.
  destruct (Z.eqb_spec (R m1 R_et) 0) as [Z0|Z0]; cbn [negb] in H.
  - destruct (IH (S j) m0 m1 (r_pc (c_regs m)) m' a x W0 E1 HW1) as (n & X); auto; try lia. exists n. destruct X as (X1 & X2 & X3 & X4). split; [lia|]. split; [lia|]. auto.
  - destruct (if cf_print_ex cfg && negb (cf_halt_on_ex cfg && cf_print_finish cfg) then prettify_ex (ex_of_et (R m1 R_et)) else Ret tt) as [[]|]; cbn [obind] in H; [|discriminate].
    destruct (cf_halt_on_ex cfg) eqn:Eo.
    + injection H as <- <- <-. exists (S j). split; [lia|]. split; [lia|]. split; [|split].
      * split; auto. split; auto. right. right. split; [lia|auto].
      * exists m. split; [exact E|apply r_pc_R, (run_wf _ _ _ W0 E)].
      * destruct (Z.ltb_spec 0 (Z.of_nat (S j))); [|lia]. cbn [andb]. destruct (Z.eqb_spec (R m1 R_et) 0); [contradiction|reflexivity].
    + destruct (IH (S j) m0 m1 (r_pc (c_regs m)) m' a x W0 E1 HW1) as (n & X1 & X2 & X3 & X4); auto; try lia.
      exists n. split; [lia|]. split; [lia|]. auto.
Qed.

(** The other direction: the loop goes on until the first stop. *)
Lemma loop_goes cfg : forall n j fuel (m0 m m' : cpu D) was, wf m -> run ops oc j m0 = Ret m -> (j <= n)%nat ->
  stops_after ops oc cfg m0 n m' -> (n - j < fuel)%nat ->
  (j <> O -> cf_halt_on_ex cfg = true -> R m R_et = 0) ->
  (forall k mk, (j < k <= n)%nat -> run ops oc k m0 = Ret mk -> R mk R_et <> 0 ->
      (if cf_print_ex cfg && negb (cf_halt_on_ex cfg && cf_print_finish cfg) then prettify_ex (ex_of_et (R mk R_et)) else Ret tt) = Ret tt) ->
  exists a x, run_loop ops oc fuel cfg was m = Ret (Some (m', a, x)).
Proof.
  intros n j fuel. revert n j. induction fuel as [|f IH]; intros n j m0 m m' was W E Hj HS Hf HX HP; [lia|].
  destruct HS as (E' & HM & HN). cbn [run_loop].
  destruct (c_halted m) eqn:Eh.
  { destruct (Nat.eq_dec j n) as [->|]. - rewrite E in E'. injection E' as <-. eauto. - exfalso. eapply (HN j m); [lia|auto|]. left; auto. }
  destruct (match cf_limit cfg with Some l => l <? c_cycles m | None => false end) eqn:El.
  { destruct (Nat.eq_dec j n) as [->|]. - rewrite E in E'. injection E' as <-. eauto. - exfalso. eapply (HN j m); [lia|auto|]. right; left.
    destruct (cf_limit cfg) as [l|]; [|discriminate]. exists l. split; auto. lia. }
  assert (Hjn : (j < n)%nat).
  { destruct (Nat.eq_dec j n) as [->|]; [|lia]. exfalso. rewrite E in E'. injection E' as <-. destruct HM as [X|[(l & X & Y)|(X & Y & Z0)]]; [congruence| |].
    - rewrite X in El. lia.
    - apply Z0. apply HX; auto. lia. }
  destruct (run_prefix n (S j) m0 m' E') as (m1 & E1); [lia|].
  destruct (run_split j m0 m1 E1) as (mx & Ex & En). rewrite E in Ex. injection Ex as <-. rewrite En. cbn [obind].
  pose proof (next_wf ops T oc _ _ W En) as W1. rewrite (r_et_R m1) by apply W1.
  destruct (Z.eqb_spec (R m1 R_et) 0) as [Z0|Z0]; cbn [negb].
  - apply (IH n (S j) m0); auto; try lia. { split; auto. } intros k mk Hk. apply HP. lia.
  - rewrite (HP (S j) m1) by (auto; lia). cbn [obind]. destruct (cf_halt_on_ex cfg) eqn:Eo.
    + assert (n = S j). { destruct (Nat.eq_dec n (S j)); auto. exfalso. apply (HN (S j) m1); [lia|auto|]. right; right. split; [lia|auto]. }
      subst n. rewrite E1 in E'. injection E' as <-. eauto.
    + apply (IH n (S j) m0); auto; try lia. { split; auto. } intros k mk Hk. apply HP. lia.
Qed.
Lemma loop_none cfg : forall fuel j (m0 m : cpu D) was, run ops oc j m0 = Ret m -> (j <> O -> cf_halt_on_ex cfg = true -> R m R_et = 0) -> wf m ->
  run_loop ops oc fuel cfg was m = Ret None -> (exists mf, run ops oc (j + fuel) m0 = Ret mf) /\
  forall k mk, (j <= k < j + fuel)%nat -> run ops oc k m0 = Ret mk -> ~ must_stop cfg k mk.
Proof.
  induction fuel as [|f IH]; intros j m0 m was E HX W H. { split; [rewrite Nat.add_0_r; eauto|]. lia. }
  cbn [run_loop] in H. destruct (c_halted m) eqn:Eh; [discriminate|].
  destruct (match cf_limit cfg with Some l => l <? c_cycles m | None => false end) eqn:El; [discriminate|].
  destruct (next ops oc m) as [m1|] eqn:En; cbn [obind] in H; [|discriminate].
  pose proof (run_snoc j m0 m m1 E En) as E1. pose proof (next_wf ops T oc _ _ W En) as W1. rewrite (r_et_R m1) in H by apply W1.
  assert (X : exists was', run_loop ops oc f cfg was' m1 = Ret None /\ (cf_halt_on_ex cfg = true -> R m1 R_et = 0)).
  { destruct (Z.eqb_spec (R m1 R_et) 0) as [Z0|Z0]; cbn [negb] in H; [eauto|].
    destruct (if cf_print_ex cfg && negb (cf_halt_on_ex cfg && cf_print_finish cfg) then prettify_ex (ex_of_et (R m1 R_et)) else Ret tt) as [[]|]; cbn [obind] in H; [|discriminate].
    destruct (cf_halt_on_ex cfg); [discriminate|]. eexists. split; [exact H|]. discriminate. }
  destruct X as (was' & X & Y). destruct (IH (S j) m0 m1 was' E1 (fun _ => Y) W1 X) as (F & G). split.
  - replace (j + S f)%nat with (S j + f)%nat by lia. exact F.
  - intros k mk Hk Ek. destruct (Nat.eq_dec k j) as [->|]; [|apply G; auto; lia]. rewrite E in Ek. injection Ek as <-.
    intros [Z0|[(l & Z0 & Z1)|(Z0 & Z1 & Z2)]]; [congruence| |].
    + rewrite Z0 in El. lia.
    + apply Z2, HX; auto. lia.
Qed.
End Run.

Lemma ex_of_et_fields et : is_u32 et -> xm_raw (ex_of_et et) = et /\ xm_sv (ex_of_et et) = negb (et / 2 ^ 24 =? 0) /\
  xm_code (ex_of_et et) = et / 2 ^ 16 mod 2 ^ 8 /\ xm_data (ex_of_et et) = et mod 2 ^ 16.
Proof.
  intros H. unfold is_u32 in H. unfold ex_of_et. cbn [xm_raw xm_sv xm_code xm_data]. change (2 ^ 24) with 16777216. change (2 ^ 16) with 65536. change (2 ^ 8) with 256. unfold u8, of_be2.
  split; auto. split; [|split; [reflexivity|lia]]. replace (et / 16777216 mod 256) with (et / 16777216) by lia. reflexivity.
Qed.
Lemma prettify_panics et : is_u32 et -> (prettify_ex (ex_of_et et) = Panic <-> unprintable et) /\ (prettify_ex (ex_of_et et) = Ret tt <-> ~ unprintable et).
Proof.
  intros H. destruct (ex_of_et_fields et H) as (_ & _ & Ec & Ed). unfold prettify_ex, unprintable. rewrite Ec, Ed.
  set (c := et / 2 ^ 16 mod 2 ^ 8). assert (Hc : 0 <= c < 256) by (unfold c; change (2 ^ 8) with 256; lia).
  assert (Hd : u8 (et mod 2 ^ 16) = et mod 2 ^ 8). { unfold u8. change (2 ^ 16) with 65536. change (2 ^ 8) with 256. unfold is_u32 in H. lia. }
  assert (HR : forall x, 0 <= x < 256 -> (match reg_from_code x with Some _ => Ret tt | None => Panic end = Panic <-> 32 <= x) /\ (match reg_from_code x with Some _ => Ret tt | None => Panic end = Ret tt <-> ~ 32 <= x)).
  { intros x Hx. destruct (Z.lt_ge_cases x 32).
    - destruct (reg_from_code_total x) as (r & ->); [lia|]. repeat split; intros; try discriminate; try lia; reflexivity.
    - rewrite reg_from_code_none by lia. repeat split; intros; try discriminate; try lia; reflexivity. }
  destruct (Z.eq_dec c 3) as [E3|N3].
  { rewrite E3. cbn [native_decode_parts option_map native_display]. rewrite Hd. destruct (HR (et mod 2 ^ 8)) as (A & B); [change (2 ^ 8) with 256; lia|]. rewrite A, B. tauto. }
  destruct (Z.eq_dec c 4) as [E4|N4].
  { rewrite E4. cbn [native_decode_parts option_map native_display]. rewrite Hd. destruct (HR (et mod 2 ^ 8)) as (A & B); [change (2 ^ 8) with 256; lia|]. rewrite A, B. tauto. }
  assert (X : match native_decode_parts c (Some (et mod 2 ^ 16)) with Some e => native_display e | None => Ret tt end = Ret tt).
  { clear - Hc N3 N4. clearbody c. generalize (et mod 2 ^ 16). intros d. destruct (native_decode_parts c (Some d)) as [e|] eqn:E; [|reflexivity].
    destruct e; try reflexivity; exfalso; unfold native_decode_parts in E; cbn [option_map] in E;
    (destruct c as [|p|p]; [discriminate| |lia]; do 8 (try (destruct p as [p|p|]; try discriminate; try lia)); try (destruct (aux_decode d); discriminate)). }
  rewrite X. split; (split; [discriminate || tauto|]); intros; tauto.
Qed.

(** * C65 *)
(** When run_vm returns, it ran the machine up to the first stop and says truly where, when and why. *)
Lemma P_C65_stops : forall D (ops : bus_ops D) oc fuel cfg m m' st, typed ops -> wf m -> run_vm ops oc fuel cfg m = Ret (Some (m', st)) ->
  exists n, stops_after ops oc cfg m n m' /\ sp_cycles st = c_cycles m' /\ last_address ops oc m n (sp_addr st) /\ reported cfg n m' (sp_ex st).
Proof.
  intros D ops oc fuel cfg m m' st T W H. unfold run_vm in H. destruct (run_loop ops oc fuel cfg (r_pc (c_regs m)) m) as [[[[m1 a] x]|]|] eqn:El; cbn [obind] in H; try discriminate.
  destruct (if cf_print_finish cfg then _ else _) as [[]|]; cbn [obind] in H; [|discriminate]. injection H as <- <-.
  destruct (loop_stops ops T oc cfg fuel O m m (r_pc (c_regs m)) m1 a x W) as (n & _ & _ & S & L & X); auto; try (intros; lia).
  { intros _. apply r_pc_R, W. }
  exists n. split; auto. split; [reflexivity|]. split; [exact L|]. cbn [sp_ex]. unfold reported.
  destruct ((0 <? Z.of_nat n) && cf_halt_on_ex cfg && negb (R m1 R_et =? 0)); [|exact X]. exists (ex_of_et (R m1 R_et)). split; auto. apply ex_of_et_fields.
  destruct S as (E & _). apply (R_u32 m1 R_et). apply (run_wf ops T oc n _ _ W E).
Qed.
(** If the machine must stop, run_vm returns with it, provided that no exception register that it prints is unprintable. *)
Lemma P_C65_returns : forall D (ops : bus_ops D) oc cfg m n m', typed ops -> wf m -> stops_after ops oc cfg m n m' ->
  (no_printing cfg \/ forall k mk, (0 < k <= n)%nat -> run ops oc k m = Ret mk -> ~ unprintable (R mk R_et)) ->
  forall fuel, (n < fuel)%nat -> exists st, run_vm ops oc fuel cfg m = Ret (Some (m', st)).
Proof.
  intros D ops oc cfg m n m' T W HS HP fuel Hf.
  assert (Y : forall k mk, (0 < k <= n)%nat -> run ops oc k m = Ret mk -> (cf_print_ex cfg = false /\ cf_print_finish cfg = false) \/ prettify_ex (ex_of_et (R mk R_et)) = Ret tt).
  { intros k mk Hk Ek. destruct HP as [HP|HP]; [auto|]. right. apply prettify_panics; [|eauto]. apply (R_u32 mk R_et). apply (run_wf ops T oc k _ _ W Ek). }
  destruct (loop_goes ops T oc cfg n O fuel m m m' (r_pc (c_regs m)) W eq_refl) as (a & x & E); auto; try lia.
  { intros k mk Hk Ek _. destruct (Y k mk Hk Ek) as [(-> & _)| ->]; [reflexivity|]. destruct (cf_print_ex cfg && _); reflexivity. }
  destruct (loop_stops ops T oc cfg fuel O m m (r_pc (c_regs m)) m' a x W) as (n' & _ & _ & S & L & X); auto; try (intros; lia).
  { intros _. apply r_pc_R, W. }
  unfold run_vm. rewrite E. cbn [obind]. subst x. destruct ((0 <? Z.of_nat n') && cf_halt_on_ex cfg && negb (R m' R_et =? 0)) eqn:B.
  2:{ destruct (cf_print_finish cfg); cbn [obind]; eauto. }
  assert (n' = n).
  { destruct S as (S1 & S2 & S3). destruct HS as (R1 & R2 & R3). destruct (Nat.lt_trichotomy n n') as [L1|[L1|L1]]; auto; exfalso.
    - exact (S3 n m' L1 R1 R2). - exact (R3 n' m' L1 S1 S2). }
  subst n'. assert (Hn : (0 < n)%nat) by (destruct (Z.ltb_spec 0 (Z.of_nat n)); [lia|discriminate]).
  destruct (Y n m') as [(_ & ->)| ->]; [lia|apply HS| |]; cbn [obind]; eauto. destruct (cf_print_finish cfg); cbn [obind]; eauto.
Qed.
(** While run_vm is running, the machine must not stop: it never misses a stop, and it runs forever only if nothing stops the machine. *)
Lemma P_C65_running : forall D (ops : bus_ops D) oc cfg m fuel, typed ops -> wf m -> run_vm ops oc fuel cfg m = Ret None ->
  (exists mf, run ops oc fuel m = Ret mf) /\ forall k mk, (k < fuel)%nat -> run ops oc k m = Ret mk -> ~ must_stop cfg k mk.
Proof.
  intros D ops oc cfg m fuel T W H. unfold run_vm in H. destruct (run_loop ops oc fuel cfg (r_pc (c_regs m)) m) as [[[[m1 a] x]|]|] eqn:El; cbn [obind] in H; try discriminate.
  { destruct (if cf_print_finish cfg then _ else _) as [[]|]; discriminate. }
  destruct (loop_none ops T oc cfg fuel O m m _ eq_refl ltac:(lia) W El) as (F & G). split; [exact F|]. intros k mk Hk. apply G. lia.
Qed.
Lemma must_stop_now {D} cfg j (m : cpu D) : c_halted m = false -> match cf_limit cfg with Some l => l <? c_cycles m | None => false end = false ->
  (j <> O -> cf_halt_on_ex cfg = true -> R m R_et = 0) -> ~ must_stop cfg j m.
Proof.
  intros Eh El HX [X|[(l & X & Y)|(X & Y & Z0)]]; [congruence| |].
  - rewrite X in El. lia.
  - apply Z0, HX; auto. lia.
Qed.
Lemma unprintable_nonzero et : is_u32 et -> unprintable et -> et <> 0.
Proof. intros _ ([X|X] & _) ->; discriminate X. Qed.

(** The loop panics: the crash happens at some cycle not before the current one. *)
Lemma loop_panics D (ops : bus_ops D) oc (T : typed ops) cfg : forall fuel j (m0 m : cpu D) was, run ops oc j m0 = Ret m ->
  (forall k mk, (k < j)%nat -> run ops oc k m0 = Ret mk -> ~ must_stop cfg k mk) ->
  (j <> O -> cf_halt_on_ex cfg = true -> R m R_et = 0) -> wf m ->
  run_loop ops oc fuel cfg was m = Panic -> crashes ops oc cfg m0.
Proof.
  induction fuel as [|f IH]; intros j m0 m was E HN HX W H; cbn [run_loop] in H; [discriminate|].
  destruct (c_halted m) eqn:Eh; [discriminate|].
  destruct (match cf_limit cfg with Some l => l <? c_cycles m | None => false end) eqn:El; [discriminate|].
  pose proof (must_stop_now cfg j m Eh El HX) as NS.
  assert (HN' : forall k mk, (k <= j)%nat -> run ops oc k m0 = Ret mk -> ~ must_stop cfg k mk).
  { intros k mk Hk Ek. destruct (Nat.eq_dec k j) as [->|]; [congruence|]. apply HN; auto. lia. }
  destruct (next ops oc m) as [m1|] eqn:En; cbn [obind] in H.
  2:{ exists j, m. split; [exact E|]. split; [exact HN'|]. left. exact En. }
  pose proof (run_snoc ops oc j m0 m m1 E En) as E1. pose proof (next_wf ops T oc _ _ W En) as W1. rewrite (r_et_R m1) in H by apply W1.
  assert (HN1 : forall k mk, (k < S j)%nat -> run ops oc k m0 = Ret mk -> ~ must_stop cfg k mk) by (intros k mk Hk; apply HN'; lia).
  destruct (Z.eqb_spec (R m1 R_et) 0) as [Z0|Z0]; cbn [negb] in H.
  - apply (IH (S j) m0 m1 _ E1 HN1 ltac:(auto) W1 H).
  - destruct (cf_print_ex cfg && negb (cf_halt_on_ex cfg && cf_print_finish cfg)) eqn:Ep; [destruct (prettify_ex (ex_of_et (R m1 R_et))) as [[]|] eqn:Ex|]; cbn [obind] in H.
    + destruct (cf_halt_on_ex cfg) eqn:Eo; [discriminate|]. apply (IH (S j) m0 m1 _ E1 HN1 ltac:(discriminate) W1 H).
    + exists j, m. split; [exact E|]. split; [exact HN'|]. right. exists m1. split; [exact En|]. split.
      * unfold words_exceptions. destruct (cf_print_ex cfg); [reflexivity|discriminate].
      * apply prettify_panics; [apply R_u32, W1|exact Ex].
    + destruct (cf_halt_on_ex cfg) eqn:Eo; [discriminate|]. apply (IH (S j) m0 m1 _ E1 HN1 ltac:(discriminate) W1 H).
Qed.

(** The loop runs to a crash: it panics itself, or leaves the closing line to do it. *)
Lemma loop_crashes D (ops : bus_ops D) oc (T : typed ops) cfg : forall d j (m0 m mn : cpu D) was, run ops oc j m0 = Ret m -> wf m ->
  run ops oc (j + d) m0 = Ret mn -> (forall k mk, (j <= k <= j + d)%nat -> run ops oc k m0 = Ret mk -> ~ must_stop cfg k mk) ->
  (next ops oc mn = Panic \/ exists mp, next ops oc mn = Ret mp /\ words_exceptions cfg = true /\ unprintable (R mp R_et)) ->
  run_loop ops oc (S d) cfg was m = Panic \/
  cf_print_finish cfg = true /\ exists m' a e, run_loop ops oc (S d) cfg was m = Ret (Some (m', a, Some e)) /\ prettify_ex e = Panic.
Proof.
  induction d as [|d IH]; intros j m0 m mn was E W En HN HC.
  - rewrite Nat.add_0_r in En. rewrite E in En. injection En as <-. pose proof (HN j m ltac:(lia) E) as NS. cbn [run_loop].
    destruct (c_halted m) eqn:Eh; [exfalso; apply NS; left; exact Eh|].
    destruct (match cf_limit cfg with Some l => l <? c_cycles m | None => false end) eqn:El.
    { exfalso. apply NS. right; left. destruct (cf_limit cfg) as [l|]; [|discriminate]. exists l. split; auto. lia. }
    destruct HC as [X|(mp & X & Wx & U)]; rewrite X; cbn [obind]; [left; reflexivity|].
    pose proof (next_wf ops T oc _ _ W X) as W1. rewrite (r_et_R mp) by apply W1. assert (U32 : is_u32 (R mp R_et)) by apply R_u32, W1.
    pose proof (unprintable_nonzero _ U32 U) as Z0. destruct (Z.eqb_spec (R mp R_et) 0); [contradiction|]. cbn [negb].
    apply (proj1 (prettify_panics _ U32)) in U. rewrite U. unfold words_exceptions in Wx.
    destruct (cf_print_ex cfg), (cf_halt_on_ex cfg), (cf_print_finish cfg); try discriminate Wx; cbn [andb negb obind];
      try (left; reflexivity); right; split; try reflexivity; eexists _, _, _; split; try reflexivity; exact U.
  - replace (j + S d)%nat with (S j + d)%nat in En by lia.
    destruct (run_prefix ops oc (S j + d) (S j) m0 mn En) as (m1 & E1); [lia|].
    destruct (run_split ops oc j m0 m1 E1) as (mx & Ex & En1). rewrite E in Ex. injection Ex as <-.
    pose proof (HN j m ltac:(lia) E) as NS. remember (S d) as sd. cbn [run_loop].
    destruct (c_halted m) eqn:Eh; [exfalso; apply NS; left; exact Eh|].
    destruct (match cf_limit cfg with Some l => l <? c_cycles m | None => false end) eqn:El.
    { exfalso. apply NS. right; left. destruct (cf_limit cfg) as [l|]; [|discriminate]. exists l. split; auto. lia. }
    rewrite En1. cbn [obind]. pose proof (next_wf ops T oc _ _ W En1) as W1. rewrite (r_et_R m1) by apply W1.
    assert (HN1 : forall k mk, (S j <= k <= S j + d)%nat -> run ops oc k m0 = Ret mk -> ~ must_stop cfg k mk) by (intros k mk Hk; apply HN; lia).
    pose proof (IH (S j) m0 m1 mn (r_pc (c_regs m)) E1 W1 En HN1 HC) as X. subst sd.
    destruct (Z.eqb_spec (R m1 R_et) 0) as [Z0|Z0]; cbn [negb]; [exact X|].
    pose proof (HN (S j) m1 ltac:(lia) E1) as NS1.
    destruct (cf_halt_on_ex cfg) eqn:Eo. { exfalso. apply NS1. right; right. split; [lia|auto]. }
    cbn [andb negb]. destruct (cf_print_ex cfg); cbn [andb]; [|exact X].
    destruct (prettify_ex (ex_of_et (R m1 R_et))) as [[]|]; cbn [obind]; [exact X|left; reflexivity].
Qed.

(** [run_vm] crashes the host exactly when the run gets, without ever having had to stop, to a cycle that crashes the processor or that
    leaves an unprintable exception while exceptions are worded. *)
Lemma P_C65_crashes : forall D (ops : bus_ops D) oc cfg m, typed ops -> wf m ->
  ((exists fuel, run_vm ops oc fuel cfg m = Panic) <-> crashes ops oc cfg m).
Proof.
  intros D ops oc cfg m T W. split.
  - intros (fuel & H). unfold run_vm in H. destruct (run_loop ops oc fuel cfg (r_pc (c_regs m)) m) as [[[[m' a] x]|]|] eqn:El; cbn [obind] in H.
    + destruct (cf_print_finish cfg) eqn:Ef; [|discriminate H]. destruct x as [x|]; [|discriminate H].
      destruct (loop_stops ops T oc cfg fuel O m m (r_pc (c_regs m)) m' a (Some x) W) as (n & _ & _ & (En & HM & HN) & _ & X); auto; try (intros; lia). { intros _. apply r_pc_R, W. }
      destruct ((0 <? Z.of_nat n) && cf_halt_on_ex cfg && negb (R m' R_et =? 0)) eqn:B; [|discriminate X]. injection X as ->.
      apply andb_prop in B as (B & B3). apply andb_prop in B as (B1 & B2).
      destruct n as [|n]; [discriminate B1|]. destruct (run_split ops oc n m m' En) as (mn & En' & Ex).
      exists n, mn. split; [exact En'|]. split; [intros k mk Hk; apply HN; lia|]. right. exists m'. split; [exact Ex|]. split.
      * unfold words_exceptions. rewrite B2, Ef. apply orb_true_r.
      * apply prettify_panics; [apply R_u32, (run_wf ops T oc _ _ _ W En)|]. destruct (prettify_ex _); [discriminate H|reflexivity].
    + discriminate H.
    + apply (loop_panics D ops oc T cfg fuel O m m (r_pc (c_regs m))); auto; try congruence. intros k mk Hk. lia.
  - intros (n & mn & En & HN & HC). exists (S n). unfold run_vm.
    destruct (loop_crashes D ops oc T cfg n O m m mn (r_pc (c_regs m)) eq_refl W En ltac:(intros k mk Hk; apply HN; lia) HC) as [X|(Ef & m' & a & e & X & P)];
      rewrite X; cbn [obind]; [reflexivity|]. rewrite Ef, P. reflexivity.
Qed.

(** How long one waits changes nothing once the runner has answered: the answer, or the crash, is always the same. *)
Lemma P_C65_settled : forall D (ops : bus_ops D) oc cfg m fuel fuel', run_vm ops oc fuel cfg m <> Ret None -> (fuel <= fuel')%nat ->
  run_vm ops oc fuel' cfg m = run_vm ops oc fuel cfg m.
Proof.
  intros D ops oc cfg m fuel fuel' H Hf. unfold run_vm in *.
  assert (X : forall f f' was (m : cpu D), run_loop ops oc f cfg was m <> Ret None -> (f <= f')%nat -> run_loop ops oc f' cfg was m = run_loop ops oc f cfg was m).
  { clear. induction f as [|f IH]; intros f' was m H Hf; [cbn in H; congruence|]. destruct f' as [|f']; [lia|]. cbn [run_loop] in *.
    destruct (c_halted m); [reflexivity|]. destruct (match cf_limit cfg with Some l => l <? c_cycles m | None => false end); [reflexivity|].
    destruct (next ops oc m) as [m1|]; cbn [obind] in *; [|reflexivity].
    destruct (negb (r_et (c_regs m1) =? 0)); [|apply IH; [exact H|lia]].
    destruct (if cf_print_ex cfg && negb (cf_halt_on_ex cfg && cf_print_finish cfg) then prettify_ex (ex_of_et (r_et (c_regs m1))) else Ret tt); cbn [obind] in *; [|reflexivity].
    destruct (cf_halt_on_ex cfg); [reflexivity|]. apply IH; [exact H|lia]. }
  rewrite (X fuel fuel'); [reflexivity| |exact Hf]. intros Y. rewrite Y in H. cbn [obind] in H. congruence.
Qed.

Lemma must_stop_dec D cfg n (m : cpu D) : must_stop cfg n m \/ ~ must_stop cfg n m.
Proof.
  unfold must_stop. destruct (c_halted m); [left; auto|].
  assert (A : (exists l, cf_limit cfg = Some l /\ l < c_cycles m) \/ ~ (exists l, cf_limit cfg = Some l /\ l < c_cycles m)).
  { destruct (cf_limit cfg) as [l|]; [|right; intros (l & X & _); discriminate]. destruct (Z.lt_ge_cases l (c_cycles m)); [left; eauto|]. right. intros (l' & X & Y). injection X as ->. lia. }
  destruct A as [A|A]; [tauto|]. destruct (Nat.eq_dec n 0); [right; intros [X|[X|(X & _)]]; [discriminate|tauto|lia]|].
  destruct (cf_halt_on_ex cfg); [|right; intros [X|[X|(_ & X & _)]]; [discriminate|tauto|discriminate]].
  destruct (Z.eq_dec (R m R_et) 0); [right; intros [X|[X|(_ & _ & X)]]; [discriminate|tauto|tauto]|]. left. right. right. split; [lia|auto].
Qed.
Lemma first_stop D (ops : bus_ops D) oc cfg m n mn : run ops oc n m = Ret mn -> must_stop cfg n mn -> exists k mk, (k <= n)%nat /\ stops_after ops oc cfg m k mk.
Proof.
  revert mn. induction n as [n IH] using lt_wf_ind. intros mn E H.
  assert (A : (exists k mk, (k < n)%nat /\ run ops oc k m = Ret mk /\ must_stop cfg k mk) \/ forall k mk, (k < n)%nat -> run ops oc k m = Ret mk -> ~ must_stop cfg k mk).
  { clear - E. assert (B : forall j, (j <= n)%nat -> (exists k mk, (k < j)%nat /\ run ops oc k m = Ret mk /\ must_stop cfg k mk) \/ forall k mk, (k < j)%nat -> run ops oc k m = Ret mk -> ~ must_stop cfg k mk); [|apply B; auto].
    induction j as [|j IHj]; intros Hj; [right; lia|]. destruct IHj as [(k & mk & X1 & X2 & X3)|IHj]; [lia|left; exists k, mk; auto|].
    destruct (run_prefix ops oc n j m mn E) as (mj & Ej); [lia|]. destruct (must_stop_dec D cfg j mj); [left; exists j, mj; auto|].
    right. intros k mk Hk Ek. destruct (Nat.eq_dec k j) as [->|]; [congruence|]. apply IHj; auto. lia. }
  destruct A as [(k & mk & Hk & Ek & Hs)|A].
  - destruct (IH k Hk mk Ek Hs) as (k' & mk' & Hk' & X). exists k', mk'. split; auto. lia.
  - exists n, mn. split; auto. split; auto.
Qed.
(** With a limit [l], the machine is never run beyond cycle [l + 1], and a run stopped by the limit alone has executed cycle [l + 1]. *)
Lemma P_C65_limit : forall D (ops : bus_ops D) oc fuel cfg m m' st l, typed ops -> wf m -> cf_limit cfg = Some l -> 0 <= l < 2 ^ 128 - 1 ->
  run_vm ops oc fuel cfg m = Ret (Some (m', st)) ->
  sp_cycles st <= Z.max (c_cycles m) (l + 1) /\
  (c_cycles m <= l -> c_halted m' = false -> sp_ex st = None -> sp_cycles st = l + 1).
Proof.
  intros D ops oc fuel cfg m m' st l T W Hl Hr H. destruct (P_C65_stops D ops oc fuel cfg m m' st T W H) as (n & (E & HM & HN) & Hc & _ & Hx). rewrite Hc.
  assert (B : c_cycles m' <= Z.max (c_cycles m) (l + 1)).
  { destruct n as [|n]. { injection E as <-. lia. }
    destruct (run_split ops oc n m m' E) as (mk & Ek & En). pose proof (HN n mk ltac:(lia) Ek) as Ns.
    assert (Hh : c_halted mk = false) by (destruct (c_halted mk) eqn:X; auto; exfalso; apply Ns; left; auto).
    assert (Hk : c_cycles mk <= l). { destruct (Z.lt_ge_cases l (c_cycles mk)); auto. exfalso. apply Ns. right. left. eauto. }
    pose proof (run_wf ops T oc n _ _ W Ek) as Wk. destruct (P_C05_one_cycle D ops oc mk m' T Wk Hh En) as [X|(X & _)]; [|lia].
    assert (0 <= c_cycles mk) by apply Wk. rewrite Z.mod_small in X; lia. }
  split; auto. intros H1 H2 H3. unfold reported in Hx. destruct HM as [X|[(l' & X & Y)|(X & Y & Z0)]]; [congruence| |].
  - rewrite Hl in X. injection X as <-. lia.
  - exfalso. rewrite Y in Hx. destruct (Z.ltb_spec 0 (Z.of_nat n)); [|lia]. destruct (Z.eqb_spec (R m' R_et) 0); [contradiction|]. cbn in Hx. destruct Hx as (e & X' & _). congruence.
Qed.
(** With a limit, a program that never resets the processor is always stopped. *)
Lemma P_C65_limit_ends : forall D (ops : bus_ops D) oc cfg m l, typed ops -> wf m -> cf_limit cfg = Some l -> 0 <= l < 2 ^ 128 - 1 -> c_cycles m <= l ->
  (forall n, exists mn, run ops oc n m = Ret mn) ->
  (forall n mn i mem1, run ops oc n m = Ret mn -> fetches ops mn i mem1 -> ~ resets_cpu mn i) ->
  exists n m', Z.of_nat n <= l + 1 - c_cycles m /\ stops_after ops oc cfg m n m'.
Proof.
  intros D ops oc cfg m l T W Hl Hr Hc Hp Hn. set (N := Z.to_nat (l + 1 - c_cycles m)). destruct (Hp N) as (mN & EN).
  assert (A : (exists k mk, (k <= N)%nat /\ run ops oc k m = Ret mk /\ c_halted mk = true) \/ c_cycles mN = l + 1).
  { assert (B : forall k mk, (k <= N)%nat -> run ops oc k m = Ret mk -> (exists k mk, (k <= N)%nat /\ run ops oc k m = Ret mk /\ c_halted mk = true) \/ c_cycles mk = c_cycles m + Z.of_nat k).
    { induction k as [|k IH]; intros mk Hk Ek. { injection Ek as <-. right. lia. }
      destruct (run_split ops oc k m mk Ek) as (mj & Ej & En). destruct (IH mj) as [X|X]; [lia|auto|auto|].
      destruct (c_halted mj) eqn:Eh. { left. exists k, mj. split; [lia|auto]. }
      pose proof (run_wf ops T oc k _ _ W Ej) as Wj. right. destruct (P_C05_one_cycle D ops oc mj mk T Wj Eh En) as [Y|(_ & i & mem1 & Y1 & Y2)].
      - rewrite Y, X. assert (0 <= c_cycles m) by apply W. assert (Hb : c_cycles m + Z.of_nat k + 1 <= l + 1) by lia. rewrite Z.mod_small; lia.
      - exfalso. exact (Hn k mj i mem1 Ej Y1 Y2). }
    destruct (B N mN (le_n _) EN) as [X|X]; [auto|]. right. unfold N in X. lia. }
  destruct A as [(k & mk & Hk & Ek & X)|X].
  - destruct (first_stop D ops oc cfg m k mk Ek) as (j & mj & Hj & S); [left; auto|]. exists j, mj. split; auto. unfold N in Hk. lia.
  - destruct (first_stop D ops oc cfg m N mN EN) as (j & mj & Hj & S); [right; left; exists l; split; auto; lia|]. exists j, mj. split; auto. unfold N in Hj. lia.
Qed.
(** If no exception was pending at the start, a run stopped by an exception has just entered it. *)
Lemma P_C65_fresh : forall D (ops : bus_ops D) oc fuel cfg m m' st e, typed ops -> wf m -> R m R_et = 0 ->
  run_vm ops oc fuel cfg m = Ret (Some (m', st)) -> sp_ex st = Some e ->
  R m' R_pc = R m' R_ev /\ R m' R_smt = 1 /\ exists sup code data, ex_code code /\ ex_data code data /\ R m' R_et = et_value sup code data.
Proof.
  intros D ops oc fuel cfg m m' st e T W H0 H He. destruct (P_C65_stops D ops oc fuel cfg m m' st T W H) as (n & (E & HM & HN) & Hc & _ & Hx).
  unfold reported in Hx. destruct ((0 <? Z.of_nat n) && cf_halt_on_ex cfg && negb (R m' R_et =? 0)) eqn:B; [|congruence].
  apply andb_prop in B. destruct B as (B & B3). apply andb_prop in B. destruct B as (B1 & B2). apply negb_true_iff, Z.eqb_neq in B3. apply Z.ltb_lt in B1.
  destruct n as [|n]; [lia|]. destruct (run_split ops oc n m m' E) as (mk & Ek & En). pose proof (HN n mk ltac:(lia) Ek) as Ns.
  pose proof (run_wf ops T oc n _ _ W Ek) as Wk.
  assert (Hh : c_halted mk = false) by (destruct (c_halted mk) eqn:X; auto; exfalso; apply Ns; left; auto).
  assert (Ez : R mk R_et = 0). { destruct n as [|n]; [injection Ek as <-; auto|]. destruct (Z.eq_dec (R mk R_et) 0); auto. exfalso. apply Ns. right. right. split; [lia|auto]. }
  destruct (P_C15_entry D ops oc mk m' T Wk Hh En) as [(code & data & sup & X1 & X2 & X3 & X4 & X5 & _)|(i & mem1 & _ & [(_ & X)|(X & _)])].
  - split; auto. split; auto. exists sup, code, data. auto.
  - exfalso. apply B3. rewrite X. reflexivity.
  - congruence.
Qed.

Lemma words_wf oc a prog n m : is_u32 a -> words_run oc a prog n = Ret m -> reachable words_ops oc m /\ wf m.
Proof. intros Ha E. pose proof (words_reachable oc a prog n m Ha E) as Hr. split; auto. eapply reachable_wf; [apply words_typed|exact Hr]. Qed.
(** False: a limit of [l] cycles is not exceeded. *)
Lemma P_C65_limit_refuted : ~ (forall D (ops : bus_ops D) oc fuel cfg m m' st l, typed ops -> reachable ops oc m -> cf_limit cfg = Some l -> c_cycles m <= l ->
  run_vm ops oc fuel cfg m = Ret (Some (m', st)) -> sp_cycles st <= l).
Proof.
  intros H. set (cfg := with_cycles_limit (Some 2) config_quiet).
  assert (X : exists m, words_run false 0 (asm [Cpy R_a0 (Lit2 1); Cpy R_a0 (Lit2 1); Cpy R_a0 (Lit2 1); Cpy R_a0 (Lit2 1); Halt]) 0 = Ret m /\
    (c_cycles m <=? 2) && match run_vm words_ops false 9 cfg m with Ret (Some (_, st)) => sp_cycles st =? 3 | _ => false end = true)
    by (apply then_check_sound; vm_compute; reflexivity).
  destruct X as (m & E & P). apply andb_prop in P. destruct P as (P1 & P2). apply Z.leb_le in P1.
  destruct (run_vm words_ops false 9 cfg m) as [[[m' st]|]|] eqn:Er; try discriminate. apply Z.eqb_eq in P2.
  assert (Hr : reachable words_ops false m) by (eapply words_reachable; [|exact E]; unfold is_u32; lia).
  specialize (H _ words_ops false 9%nat cfg m m' st 2 words_typed Hr eq_refl P1 Er). lia.
Qed.
(** False: with a limit, the run always ends. A guest that executes RESET puts the cycle counter back to zero. *)
Lemma P_C65_limit_evaded_refuted : ~ (forall D (ops : bus_ops D) oc cfg m l, typed ops -> reachable ops oc m -> cf_limit cfg = Some l ->
  exists fuel, run_vm ops oc fuel cfg m <> Ret None).
Proof.
  intros H. set (cfg := with_cycles_limit (Some 10) config_quiet).
  set (o := words_run false 0 (asm [Reset (Lit1 0)]) 0).
  assert (X : exists m, o = Ret m /\ next words_ops false m = Ret m /\ c_halted m = false /\ c_cycles m = 0 /\ r_et (c_regs m) = 0).
  { assert (Y : match o with Ret m => next words_ops false m = Ret m /\ c_halted m = false /\ c_cycles m = 0 /\ r_et (c_regs m) = 0 | Panic => False end).
    { vm_compute. repeat split. }
    destruct o as [m|]; [|destruct Y]. exists m. auto. }
  destruct X as (m & E & En & Eh & Ec & Ee).
  assert (Hr : reachable words_ops false m) by (eapply words_reachable; [|exact E]; unfold is_u32; lia).
  destruct (H _ words_ops false cfg m 10 words_typed Hr eq_refl) as (fuel & Hf). apply Hf. unfold run_vm.
  assert (L : forall f a, run_loop words_ops false f cfg a m = Ret None).
  { induction f as [|f IH]; intros a; [reflexivity|]. cbn [run_loop]. rewrite Eh, Ec. cbn [cfg with_cycles_limit cf_limit]. change (10 <? 0) with false. cbn iota.
    rewrite En. cbn [obind]. rewrite Ee. cbn. apply IH. }
  rewrite L. reflexivity.
Qed.
(** False: a run that stops reporting an exception has just entered it. The exception register keeps the last exception, so a later run reports it again. *)
Lemma P_C65_stale_refuted : ~ (forall D (ops : bus_ops D) oc fuel cfg m m' st e, typed ops -> reachable ops oc m ->
  run_vm ops oc fuel cfg m = Ret (Some (m', st)) -> sp_ex st = Some e -> R m' R_pc = R m' R_ev).
Proof.
  intros H. set (cfg := with_halt_on_exception true config_quiet).
  assert (X : exists m, words_run false 0 (asm [Cpy R_ev (Lit2 8); Itr (Lit1 7); Cpy R_a0 (Lit2 1); Halt]) 2 = Ret m /\
    match run_vm words_ops false 9 cfg m with Ret (Some (m', st)) => (match sp_ex st with Some _ => true | None => false end) && (R m' R_pc =? 12) && (R m' R_ev =? 8) | _ => false end = true)
    by (apply then_check_sound; vm_compute; reflexivity).
  destruct X as (m & E & P). destruct (run_vm words_ops false 9 cfg m) as [[[m' st]|]|] eqn:Er; try discriminate.
  apply andb_prop in P. destruct P as (P & P3). apply andb_prop in P. destruct P as (P1 & P2). apply Z.eqb_eq in P2, P3.
  destruct (sp_ex st) as [e|] eqn:Ex; [|discriminate].
  assert (Hr : reachable words_ops false m) by (eapply words_reachable; [|exact E]; unfold is_u32; lia).
  specialize (H _ words_ops false 9%nat cfg m m' st e words_typed Hr Er Ex). lia.
Qed.
(** False: with the default configuration a run that reaches a stopping point returns. Printing an exception about a register that does not exist crashes. *)
Lemma P_C65_printing_refuted : ~ (forall D (ops : bus_ops D) oc cfg m n m', typed ops -> reachable ops oc m -> stops_after ops oc cfg m n m' ->
  forall fuel, (n < fuel)%nat -> exists st, run_vm ops oc fuel cfg m = Ret (Some (m', st))).
Proof.
  intros H. set (cfg := with_cycles_limit (Some 1) config_default). set (q := with_cycles_limit (Some 1) config_quiet).
  assert (X : exists m, words_run false 0 (asm [Lsm (Lit2 4); Halt] ++ [10 * 2 ^ 24 + 32 * 2 ^ 8]) 0 = Ret m /\
    (match run_vm words_ops false 9 q m with Ret (Some (m', st)) => true | _ => false end) && panics (run_vm words_ops false 9 cfg m) = true)
    by (apply then_check_sound; vm_compute; reflexivity).
  destruct X as (m & E & P). apply andb_prop in P. destruct P as (P1 & P2). apply panics_sound in P2.
  destruct (words_wf false 0 _ _ m ltac:(unfold is_u32; lia) E) as (Hr & W).
  destruct (run_vm words_ops false 9 q m) as [[[m' st]|]|] eqn:Er; try discriminate.
  destruct (P_C65_stops _ words_ops false 9 q m m' st words_typed W Er) as (n & S & _).
  assert (S' : stops_after words_ops false cfg m n m') by exact S.
  assert (Hn : (n < 9)%nat \/ (9 <= n)%nat) by lia. destruct Hn as [Hn|Hn].
  - destruct (H _ words_ops false cfg m n m' words_typed Hr S' 9%nat Hn) as (st' & X). congruence.
  - destruct S as (_ & _ & S). destruct (H _ words_ops false cfg m n m' words_typed Hr S' (Datatypes.S n) (le_n _)) as (st' & X).
    assert (M : forall f1 f2 a (m0 : cpu (list Z)), (f1 <= f2)%nat -> run_loop words_ops false f1 cfg a m0 = Panic -> run_loop words_ops false f2 cfg a m0 = Panic).
    { induction f1 as [|f1 IH]; intros f2 a m0 Hf HP; [discriminate|]. destruct f2 as [|f2]; [lia|]. cbn [run_loop] in *.
      destruct (c_halted m0); [discriminate|]. destruct (match cf_limit cfg with Some l => l <? c_cycles m0 | None => false end); [discriminate|].
      destruct (next words_ops false m0) as [m1|]; cbn [obind] in *; [|auto].
      destruct (negb (r_et (c_regs m1) =? 0)).
      - destruct (if cf_print_ex cfg && negb (cf_halt_on_ex cfg && cf_print_finish cfg) then prettify_ex (ex_of_et (r_et (c_regs m1))) else Ret tt); cbn [obind] in *; [|auto].
        destruct (cf_halt_on_ex cfg); [discriminate|]. apply IH; auto. lia.
      - apply IH; auto. lia. }
    assert (L : run_loop words_ops false 9 cfg (r_pc (c_regs m)) m = Panic).
    { unfold run_vm in P2. destruct (run_loop words_ops false 9 cfg (r_pc (c_regs m)) m) as [[[[m1 a] x]|]|] eqn:El; cbn [obind] in P2; [|discriminate|auto].
      exfalso. assert (L : forall f a0 (m0 : cpu (list Z)) m2 a2 x2, run_loop words_ops false f cfg a0 m0 = Ret (Some (m2, a2, x2)) -> x2 = None).
      { induction f as [|f IH]; intros a0 m0 m2 a2 x2 Q; [discriminate|]. cbn [run_loop] in Q. destruct (c_halted m0); [injection Q as <- <- <-; auto|].
        destruct (match cf_limit cfg with Some l => l <? c_cycles m0 | None => false end); [injection Q as <- <- <-; auto|].
        destruct (next words_ops false m0) as [m4|]; cbn [obind] in *; [|discriminate].
        destruct (negb (r_et (c_regs m4) =? 0)).
        - destruct (if cf_print_ex cfg && negb (cf_halt_on_ex cfg && cf_print_finish cfg) then prettify_ex (ex_of_et (r_et (c_regs m4))) else Ret tt); cbn [obind] in *; [|discriminate].
          change (cf_halt_on_ex cfg) with false in Q. cbn iota in Q. eauto.
        - eauto. }
      rewrite (L _ _ _ _ _ _ El) in P2. destruct (cf_print_finish cfg); discriminate. }
    unfold run_vm in X. rewrite (M 9%nat (Datatypes.S n)) in X; [discriminate|lia|exact L].
Qed.

Section Prepare.
Context {D : Type} (ops : bus_ops D) (T : typed ops) (oc : bool).
Implicit Type m : memory D.
Definition good (s : Z) : Prop := 0 < s /\ s mod 4 = 0.
Lemma sum_nonneg l : Forall good l -> 0 <= sum l.
Proof. induction 1 as [|x l H]; cbn; [lia|]. destruct H. unfold sum in *. lia. Qed.
Lemma sum_zlen l : Forall good l -> 4 * zlen l <= sum l.
Proof. induction 1 as [|x l H]; [cbn; lia|]. rewrite zlen_cons. cbn [sum fold_right]. fold (sum l). destruct H. lia. Qed.
Lemma sum_cons x l : sum (x :: l) = x + sum l. Proof. reflexivity. Qed.

Lemma comp_in m id sz : comp_size m id = Some sz -> exists e, znth (mm_hwb m) id = Some e.
Proof. unfold comp_size. destruct (znth _ _) as [e|]; [eauto|discriminate]. Qed.
Lemma comp_same m maps id : comp_size (Memory (mm_hwb m) maps) id = comp_size m id. Proof. reflexivity. Qed.

(** Going on when everything fits. *)
Lemma loop_ok : forall ids szs m la mx fl sts, mem_wf m -> tidy oc m -> 0 <= la -> la mod 4 = 0 -> NoDup ids ->
  Forall2 (fun id sz => comp_size m id = Some sz) ids szs -> Forall good szs -> la + sum szs <= 2 ^ 32 -> (oc = true -> la + sum szs < 2 ^ 32) ->
  (forall mp, In mp (mm_maps m) -> mp_addr mp + mp_size mp <= la /\ ~ In (mp_aux_id mp) ids) ->
  exists m' mx' sts', map_contiguous_loop oc m ids (la mod 2 ^ 32) mx fl sts = Ret (m', mx', fl, sts').
Proof.
  induction ids as [|id ids IH]; intros szs m la mx fl sts W Ht H0 Ha ND HF HG HS HO HM; inversion HF as [|? sz ? szs' Hc HF']; subst.
  { do 3 eexists. reflexivity. }
  inversion HG as [|? ? Hg HG']; subst. inversion ND as [|? ? N1 N2]; subst. rewrite sum_cons in *. pose proof (sum_nonneg _ HG') as Hn. destruct Hg as (G1 & G2).
  cbn [map_contiguous_loop]. rewrite (Z.mod_small la) by lia. pose proof (mem_map_table oc m la id W Ht ltac:(unfold is_u32; lia)) as X.
  assert (V : valid_request oc m la id sz).
  { split; [auto|]. do 3 (split; [auto|]). split; [lia|]. split; [intros E; specialize (HO E); lia|]. split.
    - intros (mp & I & E). apply (proj2 (HM mp I)). left. auto.
    - intros mp b I O. destruct (HM mp I) as (Y & _). unfold occupies in O. lia. }
  destruct (mem_map oc m la id) as [[m1 [rg|e]]|] eqn:Em.
  2:{ destruct X as (_ & _ & X). destruct (X _ V). }
  2:{ destruct X as (E & sz' & Es & B). rewrite Hc in Es. injection Es as <-. specialize (HO E). destruct V as (_ & V1 & _ & V2 & _). lia. }
  destruct X as (sz' & mp & (Vs & _) & -> & MA & Ms & ->). rewrite Hc in Vs. injection Vs as <-. cbn [obind mr_end].
  assert (E4 : add_u32 oc (la + sz - 4) 4 = Ret ((la + sz) mod 2 ^ 32)).
  { unfold add_u32, u32. replace (la + sz - 4 + 4) with (la + sz) by lia. change 4294967296 with (2 ^ 32).
    destruct (Z.ltb_spec (la + sz) (2 ^ 32)); [rewrite Z.mod_small by lia; reflexivity|]. destruct oc; [|reflexivity]. specialize (HO eq_refl). lia. }
  rewrite E4. cbn [obind]. unfold hw_id_of, name_of, cache_of. cbn [mm_hwb]. destruct (comp_in _ _ _ Hc) as (e & Ee). rewrite Ee. cbn [option_map unwrap obind].
  apply (IH szs' _ (la + sz)); auto; try lia.
  - unfold mem_map in Em. eapply internal_map_wf; [| |exact Em]; auto. unfold is_u32; lia.
  - eapply mem_map_tidy; [| | |exact Em]; auto. unfold is_u32; lia.
  - intros mp' I. apply in_app_or in I. destruct I as [I|[<-|[]]].
    + destruct (HM mp' I) as (Y1 & Y2). split; [lia|]. intros Z0. apply Y2. right. auto.
    + destruct MA as (e' & _ & ->). cbn in *. split; [lia|auto].
Qed.
(** Everything fits if nothing is refused. *)
Lemma loop_fits : forall ids m la mx sts m' mx' sts', mem_wf m -> tidy oc m -> is_u32 la ->
  (la <> 0 -> exists mp, In mp (mm_maps m) /\ occupies mp 0) ->
  map_contiguous_loop oc m ids la mx [] sts = Ret (m', mx', [], sts') ->
  exists szs, Forall2 (fun id sz => comp_size m id = Some sz) ids szs /\ Forall good szs /\ la + sum szs <= 2 ^ 32 /\ (oc = true -> la + sum szs < 2 ^ 32).
Proof.
  induction ids as [|id ids IH]; intros m la mx sts m' mx' sts' W Ht Hl HZ H.
  { exists []. unfold is_u32 in Hl. cbn. repeat split; auto; lia. }
  pose proof H as H'. cbn [map_contiguous_loop] in H. destruct (mem_map oc m la id) as [[m1 [rg|e]]|] eqn:Em; cbn [obind] in H; [| |discriminate].
  2:{ exfalso. destruct (unwrap (hw_id_of (mm_hwb m1) id)); cbn [obind] in H; [|discriminate]. destruct (unwrap (name_of (mm_hwb m1) id)); cbn [obind] in H; [|discriminate].
      pose proof (mem_map_table oc m la id W Ht Hl) as X. rewrite Em in X. destruct X as (-> & _).
      destruct (contiguous_loop oc ids m la mx _ _ m' mx' [] sts' W Ht Hl H) as (new & l & _ & _ & X & _). discriminate. }
  pose proof (mem_map_table oc m la id W Ht Hl) as X. rewrite Em in X. destruct X as (sz & mp & V & -> & MA & Ms & ->). pose proof V as (V1 & V2 & V3 & V4 & V5 & V6 & V7 & V8).
  cbn [mr_end] in H. unfold is_u32 in Hl. assert (E4 : add_u32 oc (la + sz - 4) 4 = Ret ((la + sz) mod 2 ^ 32)).
  { unfold add_u32, u32. replace (la + sz - 4 + 4) with (la + sz) by lia. change 4294967296 with (2 ^ 32).
    destruct (Z.ltb_spec (la + sz) (2 ^ 32)); [rewrite Z.mod_small by lia; reflexivity|]. destruct oc; [|reflexivity]. specialize (V6 eq_refl). lia. }
  rewrite E4 in H. cbn [obind] in H. set (m1 := Memory (mm_hwb m) (mm_maps m ++ [mp])) in *.
  destruct (unwrap (hw_id_of (mm_hwb m1) id)); cbn [obind] in H; [|discriminate]. destruct (unwrap (name_of (mm_hwb m1) id)); cbn [obind] in H; [|discriminate].
  assert (W1 : mem_wf m1) by (unfold mem_map in Em; eapply internal_map_wf; [| |exact Em]; auto; unfold is_u32; lia).
  assert (T1 : tidy oc m1) by (eapply mem_map_tidy; [| | |exact Em]; auto; unfold is_u32; lia).
  assert (Z1 : exists mp', In mp' (mm_maps m1) /\ occupies mp' 0).
  { destruct (Z.eq_dec la 0) as [->|N].
    - exists mp. split; [apply in_or_app; right; left; auto|]. destruct MA as (e' & _ & ->). unfold occupies. cbn in *. lia.
    - destruct (HZ N) as (mp' & I & O). exists mp'. split; auto. apply in_or_app. auto. }
  assert (B : la + sz = 2 ^ 32 \/ la + sz < 2 ^ 32) by lia. destruct B as [B|B].
  - rewrite B in H. change ((2 ^ 32) mod 2 ^ 32) with 0 in H. destruct ids as [|id2 ids2].
    + exists [sz]. split; [constructor; auto|]. split; [repeat constructor; auto|]. cbn. split; [lia|]. intros E; specialize (V6 E); lia.
    + exfalso. cbn [map_contiguous_loop] in H. pose proof (mem_map_table oc m1 0 id2 W1 T1 ltac:(unfold is_u32; lia)) as X.
      destruct (mem_map oc m1 0 id2) as [[m2 [rg|e]]|] eqn:Em2; cbn [obind] in H; [| |discriminate].
      * destruct X as (sz2 & _ & (_ & _ & Y1 & _ & _ & _ & _ & Y2) & _). destruct Z1 as (mp' & I & O). apply (Y2 mp' 0 I O). lia.
      * destruct (unwrap (hw_id_of (mm_hwb m2) id2)); cbn [obind] in H; [|discriminate]. destruct (unwrap (name_of (mm_hwb m2) id2)); cbn [obind] in H; [|discriminate].
        destruct X as (-> & _). destruct (contiguous_loop oc ids2 m1 0 _ _ _ m' mx' [] sts' W1 T1 ltac:(unfold is_u32; lia) H) as (new & l & _ & _ & X & _). discriminate.
  - rewrite Z.mod_small in H by lia. destruct (IH m1 (la + sz) _ _ _ _ _ W1 T1 ltac:(unfold is_u32; lia) (fun _ => Z1) H) as (szs & F1 & F2 & F3 & F4).
    exists (sz :: szs). split; [constructor; auto|]. split; [constructor; auto; split; auto|]. rewrite sum_cons. split; [lia|]. intros E. specialize (F4 E). lia.
Qed.

Lemma board_new_total ds szs : Forall2 (declares ops) ds szs -> zlen ds <= 4294967295 -> exists c, board_new ops ds = Ret c.
Proof.
  intros HF HL. assert (X : forall ds szs id, Forall2 (declares ops) ds szs -> 0 <= id -> id + zlen ds <= 4294967295 -> exists h, hwb_new_from ops id ds = Ret h).
  { clear. induction ds as [|d t IH]; intros szs id HF H0 H1; [eexists; reflexivity|]. rewrite zlen_cons in H1. inversion HF as [|? sz ? szs' Hd Ht]; subst.
    pose proof (zlen_nonneg t). cbn [hwb_new_from]. destruct (Z.ltb_spec id 4294967295); [|lia]. destruct Hd as (md & E & _). unfold create_from_aux. rewrite E. cbn [obind].
    destruct (IH szs' (id + 1)) as (h & ->); [auto|lia|lia|]. eexists. reflexivity. }
  destruct (X ds szs 0 HF ltac:(lia) ltac:(lia)) as (h & E). unfold board_new, hwb_new. rewrite E. cbn [obind]. eexists. reflexivity.
Qed.
Lemma range_sizes (ds : list D) : forall szs (h : list (aux_entry D)), Forall2 (declares ops) ds szs -> map ae_dev h = ds ->
  (forall k e, znth h k = Some e -> exists md, bo_metadata ops (ae_dev e) = Ret md /\ ac_size (ae_cache e) = w2 md) ->
  forall m, (forall k, znth (mm_hwb m) k = znth h k) -> Forall2 (fun id sz => comp_size m id = Some sz) (zrange (length ds)) szs.
Proof.
  intros szs h HF HD HC m HM. assert (L : length ds = length szs) by (clear - HF; induction HF; cbn; auto).
  assert (X : forall k sz, nth_error szs k = Some sz -> comp_size m (Z.of_nat k) = Some sz).
  { intros k sz Hk. destruct (nth_error ds k) as [d|] eqn:Ed.
    2:{ apply nth_error_None in Ed. assert (k < length szs)%nat by (apply nth_error_Some; congruence). lia. }
    assert (declares ops d sz) as (md & E1 & E2). { clear - HF Hk Ed. revert k Hk Ed. induction HF as [|a b la lb H HF IH]; intros [|k] Hk Ed; cbn in *; try discriminate; [congruence|eauto]. }
    rewrite <- HD, nth_error_map in Ed. destruct (nth_error h k) as [e|] eqn:Ee; [|discriminate]. cbn in Ed. injection Ed as <-.
    unfold comp_size. rewrite HM. rewrite znth_nth by lia. rewrite Nat2Z.id, Ee. destruct (HC (Z.of_nat k) e) as (md' & M1 & M2). { rewrite znth_nth by lia. rewrite Nat2Z.id. auto. }
    rewrite M2. congruence. }
  unfold zrange. rewrite L. clear - X. assert (Y : forall n szs j, length szs = n -> (forall k sz, nth_error szs k = Some sz -> comp_size m (Z.of_nat (j + k)) = Some sz) -> Forall2 (fun id sz => comp_size m id = Some sz) (map Z.of_nat (seq j n)) szs).
  { clear. induction n as [|n IH]; intros szs j Hn X; destruct szs as [|s szs]; try discriminate; cbn [seq map]; constructor.
    - specialize (X O s eq_refl). rewrite Nat.add_0_r in X. auto.
    - apply IH; [cbn in Hn; lia|]. intros k sz Hk. specialize (X (S k) sz Hk). rewrite Nat.add_succ_r in X. auto. }
  apply Y; auto.
Qed.
Lemma zrange_nodup n : NoDup (zrange n).
Proof. unfold zrange. apply FinFun.Injective_map_NoDup; [intros a b H; lia|apply seq_NoDup]. Qed.

Lemma packed_at m : forall ids l a szs, packed m a ids l -> Forall2 (fun id sz => comp_size m id = Some sz) ids szs -> Forall good szs -> 0 <= a -> a + sum szs <= 2 ^ 32 ->
  forall k id, nth_error ids k = Some id -> exists mp sz, nth_error l k = Some mp /\ nth_error szs k = Some sz /\ mp_aux_id mp = id /\ mp_size mp = sz /\ mp_addr mp = (a + sum (firstn k szs)) mod 2 ^ 32.
Proof.
  induction ids as [|i ids IH]; intros l a szs HP HF HG Ha HS k id Hk; [destruct k; discriminate|].
  inversion HP as [|? ? ? mp mps MA HP']; subst. inversion HF as [|? sz ? szs' Hc HF']; subst. inversion HG as [|? ? (G1 & G2) HG']; subst. rewrite sum_cons in HS.
  pose proof (sum_nonneg _ HG'). destruct MA as (e & En & Emp). unfold comp_size in Hc. rewrite En in Hc. injection Hc as Hc. rewrite Emp in HP'. cbn [mp_size] in HP'. rewrite Hc in HP'.
  destruct k as [|k]; cbn [nth_error firstn] in *.
  - injection Hk as <-. exists mp, sz. rewrite Emp. cbn. rewrite Z.add_0_r, Z.mod_small by lia. auto.
  - assert (B : a + sz = 2 ^ 32 \/ a + sz < 2 ^ 32) by lia. destruct B as [B|B].
    + destruct szs' as [|s' szs']; [inversion HF'; subst; destruct k; discriminate|]. inversion HG' as [|? ? (G3 & _) HG'']; subst. pose proof (sum_nonneg _ HG''). rewrite sum_cons in *. lia.
    + rewrite Z.mod_small in HP' by lia. destruct (IH _ _ _ HP' HF' HG' ltac:(lia) ltac:(lia) k id Hk) as (mp' & sz' & X1 & X2 & X3 & X4 & X5).
      exists mp', sz'. do 4 (split; auto). rewrite X5, sum_cons. f_equal. lia.
Qed.
End Prepare.

Lemma sum_firstn k szs : Forall good szs -> 0 <= sum (firstn k szs) <= sum szs.
Proof. intros H. revert k. induction H as [|x l (H1 & _) H IH]; intros [|k]; cbn [firstn]; try (cbn; lia). { pose proof (sum_nonneg _ H). rewrite !sum_cons. cbn. lia. } rewrite !sum_cons. specialize (IH k). lia. Qed.
Lemma packed_length D (m : memory D) a ids l : packed m a ids l -> length l = length ids.
Proof. induction 1; cbn; auto. Qed.
Lemma zrange_nth n k : (k < n)%nat -> nth_error (zrange n) k = Some (Z.of_nat k).
Proof. intros H. unfold zrange. rewrite nth_error_map. rewrite (nth_error_nth' _ O) by (rewrite seq_length; auto). rewrite seq_nth by auto. reflexivity. Qed.

(** Valid components are mapped one after the other from address 0, all reset, and the processor starts at 0 in supervisor mode. *)
Lemma P_C66_boots : forall D (ops : bus_ops D) oc ds szs, typed ops -> Forall2 (declares ops) ds szs -> (forall d, In d ds -> exists d', bo_reset ops d = Ret d') ->
  bootable oc szs ->
  exists m, prepare_vm ops oc ds = Ret m /\ reachable ops oc m /\
    (forall r, R m r = match r with R_smt => 1 | _ => 0 end) /\ c_cycles m = 0 /\ c_halted m = false /\
    length (mm_maps (c_mem m)) = length ds /\
    forall k d sz, nth_error ds k = Some d -> nth_error szs k = Some sz ->
      (exists mp, nth_error (mm_maps (c_mem m)) k = Some mp /\ mp_aux_id mp = Z.of_nat k /\ mp_addr mp = sum (firstn k szs) /\ mp_size mp = sz) /\
      exists d' e, bo_reset ops d = Ret d' /\ znth (c_hwb m) (Z.of_nat k) = Some e /\ ae_dev e = d'.
Proof.
  intros D ops oc ds szs T HF HR (HG & HS & HO). change (Forall good szs) in HG. assert (L : length ds = length szs) by (clear - HF; induction HF; cbn; auto).
  assert (ZL : zlen ds <= 4294967295). { pose proof (sum_zlen _ HG). unfold zlen in *. rewrite L. lia. }
  destruct (board_new_total ops ds szs HF ZL) as (c & Ec). destruct (board_new_spec ops T ds c Ec) as (W & Em & Ed & _ & _ & _ & Es).
  assert (HC : Forall2 (fun id sz => comp_size (c_mem c) id = Some sz) (zrange (length ds)) szs).
  { apply (range_sizes ops ds szs (c_hwb c)); auto. intros k e Hk. destruct (Es k e Hk) as (md & X & ->). exists md. auto. }
  assert (Ht : tidy oc (c_mem c)). { unfold tidy. rewrite Em. cbn. split; [constructor|]. split; intros; contradiction. }
  destruct (loop_ok oc (zrange (length ds)) szs (c_mem c) 0 0 [] []) as (mem & mx & sts & El); auto; try lia.
  { apply W. } { apply zrange_nodup. } { rewrite Em. intros mp []. }
  change (0 mod 2 ^ 32) with 0 in El. assert (EM : map_contiguous oc (c_mem c) 0 (zrange (length ds)) = Ret (mem, ROk (MappingRange 0 mx), sts)).
  { unfold map_contiguous. rewrite El. reflexivity. }
  destruct (P_C35_contiguous D (c_mem c) oc 0 _ mem _ sts (proj1 (proj2 W)) Ht ltac:(unfold is_u32; lia) EM) as (l & _ & HP & -> & (Eok & _) & _).
  rewrite Eok in HP. rewrite Em in *. cbn [app] in *. set (m1 := with_mem (Memory (mm_hwb (c_mem c)) l) c).
  destruct (board_reset ops m1) as [m|] eqn:Er.
  2:{ exfalso. apply P_C39_panic in Er. destruct Er as (e & I & P). destruct (HR (ae_dev e)) as (d' & X); [|congruence]. rewrite <- Ed. apply in_map. exact I. }
  exists m. split. { unfold prepare_vm. rewrite Ec. cbn [obind]. rewrite EM. cbn [obind]. exact Er. }
  split. { exists ds, [AMapContiguous 0 (zrange (length ds)); AReset], c. split; [|split; [exact Ec|]].
    - constructor; [split|constructor; [exact I|constructor]]. { unfold is_u32; lia. } apply Forall_forall. intros x I. unfold zrange in I. apply in_map_iff in I. destruct I as (k & <- & I). apply in_seq in I. lia.
    - cbn [api_run api_call]. rewrite EM. cbn [obind]. fold m1. rewrite Er. reflexivity. }
  destruct (P_C38_reset_state D ops m1 m Er) as (P1 & P2 & P3 & P4 & _). destruct (P_C39_each_once D ops m1 m Er) as (_ & P5).
  do 3 (split; auto). split. { rewrite P4. cbn. rewrite (packed_length _ _ _ _ _ HP). unfold zrange. rewrite map_length, seq_length. reflexivity. }
  intros k d sz Hd Hs. assert (Hk : (k < length ds)%nat) by (apply nth_error_Some; congruence). split.
  - destruct (packed_at (c_mem c) _ _ _ _ HP HC HG ltac:(lia) ltac:(lia) k _ (zrange_nth _ _ Hk)) as (mp & sz' & X1 & X2 & X3 & X4 & X5).
    exists mp. rewrite P4. cbn. split; auto. split; auto. rewrite Hs in X2. injection X2 as <-. split; auto. rewrite X5. cbn [Z.add].
    assert (sum (firstn k szs) + sz <= sum szs).
    { clear - HG Hs. revert k Hs. induction HG as [|x s (H1 & _) H IH]; intros [|k] Hs; cbn in Hs; try discriminate. { injection Hs as <-. pose proof (sum_nonneg _ H). rewrite sum_cons. cbn. lia. }
      cbn [firstn]. rewrite !sum_cons. specialize (IH k Hs). lia. }
    assert (good sz) as (G & _). { eapply Forall_forall; [exact HG|]. eapply nth_error_In; eauto. }
    pose proof (sum_firstn k szs HG). rewrite Z.mod_small; lia.
  - pose proof Hd as Hd'. rewrite <- Ed, nth_error_map in Hd. destruct (nth_error (c_hwb c) k) as [e|] eqn:Ee; [|discriminate]. cbn in Hd. injection Hd as <-.
    destruct (P5 (Z.of_nat k) e) as (d' & X1 & X2). { rewrite znth_nth by lia. rewrite Nat2Z.id. exact Ee. }
    exists d', (AuxEntry d' (ae_cache e)). auto.
Qed.
(** Otherwise it crashes. *)
Lemma P_C66_panics : forall D (ops : bus_ops D) oc ds szs, typed ops -> Forall2 (declares ops) ds szs -> ~ bootable oc szs -> prepare_vm ops oc ds = Panic.
Proof.
  intros D ops oc ds szs T HF HB. unfold prepare_vm. destruct (board_new ops ds) as [c|] eqn:Ec; [|reflexivity]. cbn [obind].
  destruct (board_new_spec ops T ds c Ec) as (W & Em & Ed & _ & _ & _ & Es).
  destruct (map_contiguous oc (c_mem c) 0 (zrange (length ds))) as [[[mem [rg|e]] sts]|] eqn:EM; cbn [obind]; auto. exfalso. apply HB.
  assert (HC : Forall2 (fun id sz => comp_size (c_mem c) id = Some sz) (zrange (length ds)) szs).
  { apply (range_sizes ops ds szs (c_hwb c)); auto. intros k e Hk. destruct (Es k e Hk) as (md & X & ->). exists md. auto. }
  assert (Ht : tidy oc (c_mem c)). { unfold tidy. rewrite Em. cbn. split; [constructor|]. split; intros; contradiction. }
  unfold map_contiguous in EM. destruct (map_contiguous_loop _ _ _ _ _ _ _) as [[[[m' mx] fl] st]|] eqn:El; cbn [obind] in EM; [|discriminate].
  destruct fl as [|x fl]; [|discriminate]. destruct (loop_fits oc (zrange (length ds)) (c_mem c) 0 _ _ _ _ _ (proj1 (proj2 W)) Ht ltac:(unfold is_u32; lia) ltac:(congruence) El) as (szs' & F1 & F2 & F3 & F4).
  assert (szs' = szs) as ->. { clear - HC F1. revert szs' F1. induction HC as [|a b la lb H HC IH]; intros szs' F1; inversion F1; subst; auto. f_equal; [congruence|auto]. }
  split; auto.
Qed.

(** A run of three cycles that halts. *)
Lemma E_C65_stops : exists m m' st, reachable words_ops false m /\ run_vm words_ops false 9 config_default m = Ret (Some (m', st)) /\
  sp_cycles st = 3 /\ sp_addr st = 8 /\ sp_ex st = None /\ R m' R_a0 = 7.
Proof.
  assert (X : exists m, words_run false 0 (asm [Cpy R_a0 (Lit2 4); Add R_a0 (Lit2 3); Halt]) 0 = Ret m /\
    match run_vm words_ops false 9 config_default m with Ret (Some (m', st)) => (sp_cycles st =? 3) && (sp_addr st =? 8) && (R m' R_a0 =? 7) && match sp_ex st with None => true | _ => false end | _ => false end = true)
    by (apply then_check_sound; vm_compute; reflexivity).
  destruct X as (m & E & P). destruct (words_wf false 0 _ _ m ltac:(unfold is_u32; lia) E) as (Hr & W).
  destruct (run_vm words_ops false 9 config_default m) as [[[m' st]|]|] eqn:Er; try discriminate. exists m, m', st.
  apply andb_prop in P. destruct P as (P & P4). apply andb_prop in P. destruct P as (P & P3). apply andb_prop in P. destruct P as (P1 & P2). apply Z.eqb_eq in P1, P2, P3.
  destruct (sp_ex st); [discriminate|]. auto 10.
Qed.
(** A run stopped by an exception, with the default printing. *)
Lemma E_C65_fresh : exists m m' st e, reachable words_ops false m /\ R m R_et = 0 /\
  run_vm words_ops false 9 config_halt_on_ex m = Ret (Some (m', st)) /\ sp_ex st = Some e /\ xm_code e = 240 /\ xm_data e = 7 /\ xm_sv e = true.
Proof.
  assert (X : exists m, words_run false 0 (asm [Cpy R_a0 (Lit2 4); Itr (Lit1 7); Halt]) 0 = Ret m /\
    (R m R_et =? 0) && match run_vm words_ops false 9 config_halt_on_ex m with Ret (Some (m', st)) => match sp_ex st with Some e => (xm_code e =? 240) && (xm_data e =? 7) && xm_sv e | _ => false end | _ => false end = true)
    by (apply then_check_sound; vm_compute; reflexivity).
  destruct X as (m & E & P). destruct (words_wf false 0 _ _ m ltac:(unfold is_u32; lia) E) as (Hr & W). apply andb_prop in P. destruct P as (P0 & P). apply Z.eqb_eq in P0.
  destruct (run_vm words_ops false 9 config_halt_on_ex m) as [[[m' st]|]|] eqn:Er; try discriminate. destruct (sp_ex st) as [e|] eqn:Ee; [|discriminate]. exists m, m', st, e.
  apply andb_prop in P. destruct P as (P & P3). apply andb_prop in P. destruct P as (P1 & P2). apply Z.eqb_eq in P1, P2. auto 10.
Qed.
(** A stopping point three cycles ahead. *)
Lemma E_C65_returns : exists m m', wf m /\ stops_after words_ops false config_quiet m 3 m' /\ no_printing config_quiet.
Proof.
  assert (X : exists m, words_run false 0 (asm [Cpy R_a0 (Lit2 4); Add R_a0 (Lit2 3); Halt]) 0 = Ret m /\
    match run words_ops false 3 m with Ret m' => c_halted m' && match run words_ops false 2 m with Ret m2 => negb (c_halted m2) | _ => false end | _ => false end = true)
    by (apply then_check_sound; vm_compute; reflexivity).
  destruct X as (m & E & P). destruct (words_wf false 0 _ _ m ltac:(unfold is_u32; lia) E) as (Hr & W). exists m.
  destruct (run words_ops false 3 m) as [m'|] eqn:E3; [|discriminate]. destruct (run words_ops false 2 m) as [m2|] eqn:E2; [|rewrite andb_false_r in P; discriminate].
  apply andb_prop in P. destruct P as (P1 & P2). apply negb_true_iff in P2. exists m'. split; [exact W|]. split; [|split; reflexivity].
  split; [exact E3|]. split; [left; exact P1|]. intros k mk Hk Ek [X|[(l & X & _)|(_ & X & _)]]; [|discriminate|discriminate].
  assert (N : forall k mk, (k <= 2)%nat -> run words_ops false k m = Ret mk -> c_halted mk = false).
  { clear k mk Hk Ek X. intros k mk Hk Ek. destruct (c_halted mk) eqn:X; auto. exfalso. pose proof (proj1 (P_C04_halted _ words_ops false mk X) (2 - k)%nat) as Y.
    assert (Z1 : run words_ops false (k + (2 - k)) m = Ret mk).
    { clear - Ek Y. revert m Ek. induction k as [|k IH]; intros m Ek; cbn [run Nat.add] in *; [injection Ek as <-; exact Y|]. destruct (next words_ops false m) as [q|]; cbn [obind] in *; [|discriminate].
      replace (2 - S k)%nat with (2 - S k)%nat in Y by lia. assert (Z2 : forall a n (q mk : cpu (list Z)), run words_ops false a q = Ret mk -> run words_ops false n mk = Ret mk -> run words_ops false (a + n) q = Ret mk).
      { clear. induction a as [|a IHa]; intros n q mk E1 E2; cbn [run Nat.add] in *; [injection E1 as <-; auto|]. destruct (next words_ops false q); cbn [obind] in *; [|discriminate]. auto. }
      apply Z2; auto. }
    replace (k + (2 - k))%nat with 2%nat in Z1 by lia. congruence. }
  rewrite (N k mk) in X; [discriminate|lia|auto].
Qed.
(** A limit reached. *)
Lemma E_C65_limit : exists m m' st, wf m /\ run_vm words_ops false 9 (with_cycles_limit (Some 2) config_quiet) m = Ret (Some (m', st)) /\ c_cycles m = 0 /\ c_halted m' = false /\ sp_ex st = None /\ sp_cycles st = 3.
Proof.
  set (cfg := with_cycles_limit (Some 2) config_quiet).
  assert (X : exists m, words_run false 0 (asm [Cpy R_a0 (Lit2 1); Cpy R_a0 (Lit2 1); Cpy R_a0 (Lit2 1); Cpy R_a0 (Lit2 1); Halt]) 0 = Ret m /\
    (c_cycles m =? 0) && match run_vm words_ops false 9 cfg m with Ret (Some (m', st)) => (sp_cycles st =? 3) && negb (c_halted m') && match sp_ex st with None => true | _ => false end | _ => false end = true)
    by (apply then_check_sound; vm_compute; reflexivity).
  destruct X as (m & E & P). destruct (words_wf false 0 _ _ m ltac:(unfold is_u32; lia) E) as (Hr & W). apply andb_prop in P. destruct P as (P0 & P). apply Z.eqb_eq in P0.
  destruct (run_vm words_ops false 9 cfg m) as [[[m' st]|]|] eqn:Er; try discriminate. apply andb_prop in P. destruct P as (P & P3). apply andb_prop in P. destruct P as (P1 & P2). apply Z.eqb_eq in P1. apply negb_true_iff in P2.
  exists m, m', st. destruct (sp_ex st); [discriminate|]. auto 10.
Qed.
(** A machine still running after five cycles. *)
Lemma E_C65_crashes : exists m, reachable words_ops false m /\ crashes words_ops false config_default m.
Proof.
  assert (X : exists m, words_run false 0 (asm [Lsm (Lit2 4); Halt] ++ [10 * 2 ^ 24 + 32 * 2 ^ 8])%list 0 = Ret m /\
    match run_vm words_ops false 9 config_default m with Panic => true | _ => false end = true) by (apply then_check_sound; vm_compute; reflexivity).
  destruct X as (m & E & P). destruct (words_wf false 0 _ _ m ltac:(unfold is_u32; lia) E) as (Hr & W). exists m. split; [exact Hr|].
  apply P_C65_crashes; [exact words_typed|exact W|]. exists 9%nat. destruct (run_vm words_ops false 9 config_default m); [discriminate P|reflexivity].
Qed.
Lemma E_C65_settled : exists m, reachable words_ops false m /\ run_vm words_ops false 9 config_default m <> Ret None /\ run_vm words_ops false 1 config_default m = Ret None.
Proof.
  assert (X : exists m, words_run false 0 (asm [Cpy R_a0 (Lit2 1); Halt]) 0 = Ret m /\
    match run_vm words_ops false 9 config_default m, run_vm words_ops false 1 config_default m with Ret (Some _), Ret None => true | _, _ => false end = true) by (apply then_check_sound; vm_compute; reflexivity).
  destruct X as (m & E & P). destruct (words_wf false 0 _ _ m ltac:(unfold is_u32; lia) E) as (Hr & W). exists m. split; [exact Hr|].
  destruct (run_vm words_ops false 9 config_default m) as [[|]|]; try discriminate P. destruct (run_vm words_ops false 1 config_default m) as [[|]|]; try discriminate P. split; [discriminate|reflexivity].
Qed.
Lemma E_C65_running : exists m, reachable words_ops false m /\ run_vm words_ops false 5 config_quiet m = Ret None.
Proof.
  assert (X : exists m, words_run false 0 (asm [Cpy R_pc (Lit2 0)]) 0 = Ret m /\ match run_vm words_ops false 5 config_quiet m with Ret None => true | _ => false end = true)
    by (apply then_check_sound; vm_compute; reflexivity).
  destruct X as (m & E & P). exists m. split; [eapply words_reachable; [|exact E]; unfold is_u32; lia|]. destruct (run_vm words_ops false 5 config_quiet m) as [[?|]|]; try discriminate. reflexivity.
Qed.
(** A program that never resets the processor, with a limit: its only instruction halts. *)
Lemma E_C65_limit_ends : exists m l, wf m /\ cf_limit (with_cycles_limit (Some 3) config_quiet) = Some l /\ c_cycles m <= l /\
  (forall n, exists mn, run words_ops false n m = Ret mn) /\
  (forall n mn i mem1, run words_ops false n m = Ret mn -> fetches words_ops mn i mem1 -> ~ resets_cpu mn i).
Proof.
  set (o := words_run false 0 (asm [Halt; Halt]) 0).
  assert (Y : match o with Ret m => c_cycles m = 0 /\ R m R_mtt = 0 /\ mem_read words_ops false (c_mem m) (R m R_pc) = Ret (c_mem m, 0, 240 * 2 ^ 24) /\
     match next words_ops false m with Ret m1 => c_halted m1 = true /\ R m1 R_mtt = 0 /\ mem_read words_ops false (c_mem m1) (R m1 R_pc) = Ret (c_mem m1, 0, 240 * 2 ^ 24) | Panic => False end | Panic => False end).
  { vm_compute. repeat split. }
  destruct o as [m|] eqn:E; [|destruct Y]. destruct (words_wf false 0 _ _ m ltac:(unfold is_u32; lia) E) as (Hr & W). destruct Y as (Y1 & Y2 & Y3 & Y4).
  destruct (next words_ops false m) as [m1|] eqn:En; [|destruct Y4]. destruct Y4 as (Y4 & Y5 & Y6). pose proof (proj1 (P_C04_halted _ words_ops false m1 Y4)) as RH.
  assert (HR : forall n, run words_ops false n m = Ret (match n with O => m | _ => m1 end)). { intros [|n]; [reflexivity|]. cbn [run]. rewrite En. cbn [obind]. apply RH. }
  exists m, 3. split; auto. split; [reflexivity|]. split; [lia|]. split; [intros n; rewrite HR; eauto|].
  intros n mn i mem1 En' (w & (_ & mem0 & P & L) & Hd) (v & md & -> & _). rewrite HR in En'. injection En' as <-.
  assert (w = 240 * 2 ^ 24) as ->.
  { unfold passes in P. destruct n; [rewrite Y2 in P|rewrite Y5 in P]; change (0 =? 0) with true in P; cbn iota in P; subst mem0; congruence. }
  vm_compute in Hd. discriminate.
Qed.
(** Three components, 64 + 64 + 64 bytes. *)
Lemma E_C66_boots : typed words_ops /\ Forall2 (declares words_ops) [[1]; [2; 3]; []] [64; 64; 64] /\ (forall d, In d [[1]; [2; 3]; []] -> exists d', bo_reset words_ops d = Ret d') /\ bootable true [64; 64; 64].
Proof.
  split; [apply words_typed|]. split. { repeat constructor; eexists; split; reflexivity. } split. { intros d _. eexists. reflexivity. }
  split; [repeat constructor|]. cbn. lia.
Qed.
(** A component that declares no address. *)
Lemma E_C66_panics : exists D (ops : bus_ops D) ds szs, typed ops /\ Forall2 (declares ops) ds szs /\ ~ bootable false szs.
Proof.
  exists Z, {| bo_name := fun _ => []; bo_metadata := fun _ => Ret (W8 0 1 0 0 0 0 0 0); bo_read := fun d off => Ret (d, 0, 0); bo_write := fun d _ _ => Ret (d, 0); bo_reset := fun d => Ret d |}, [1], [0].
  split. { split; cbn; intros; repeat match goal with H : Ret _ = Ret _ |- _ => injection H as <- <- <- || injection H as <- <- || injection H as <- end; cbn; unfold is_u32, is_u16; repeat split; try constructor; lia. }
  split. { repeat constructor. eexists. split; reflexivity. } intros (H & _). inversion H. lia.
Qed.
