(** Stacks in RAM (C23, C24), SRM twice (C25). *)
From Coq Require Import ZArith List Bool Lia.
From Verif Require Import Base Board Mem Cpu Asm Devices SpecMach SpecIsa SpecBus SpecObs SpecMap SpecMemory BaseFacts RegFacts MemFacts
  CycleFacts CyclePost InvFacts DevTyped ExecFacts ProofMap ProofMem ProofRun ProofEffect ProofRam Demo.
Import ListNotations.
Open Scope Z_scope.
Ltac Zify.zify_post_hook ::= Z.div_mod_to_equations.

Lemma fetch_ram oc m i memf mp l : fetches (dev_ops oc) m i memf -> ram_at (c_mem m) mp l -> ram_at memf mp l.
Proof. intros Hf HR. eapply ram_reads; [exact HR|]. apply fetch_reads. exact Hf. Qed.
Lemma after_sup D (m m' : cpu D) mem l : after m m' mem l -> assoc l R_smt = None -> sup_mode m' = sup_mode m.
Proof. intros (A & _) E. unfold sup_mode. rewrite A, E. reflexivity. Qed.
Lemma sp_of_sup D (m m' : cpu D) : sup_mode m' = sup_mode m -> sp_of m' = sp_of m.
Proof. unfold sp_of. intros ->. reflexivity. Qed.
Lemma no_store_fault oc m mem1 mp l a w mem2 code data : ram_at mem1 mp l -> is_u32 w -> occupies mp a -> a mod 4 = 0 -> R m R_mtt = 0 ->
  ~ store_faults (dev_ops oc) m mem1 a w mem2 code data.
Proof.
  intros HR U O Ha Ht F. destruct (ram_write oc _ _ _ _ w HR U O Ha) as (mw & E & _).
  destruct F as [mem2 code data A|mx mem2 ex _ Hp Hw Hx].
  - destruct A; congruence.
  - unfold passes in Hp. rewrite Ht in Hp. cbn in Hp. subst. rewrite E in Hw. congruence.
Qed.
Lemma no_load_fault oc m mem1 mp l a mem2 code data : ram_at mem1 mp l -> occupies mp a -> a mod 4 = 0 -> R m R_mtt = 0 ->
  ~ load_faults (dev_ops oc) m mem1 a mem2 code data.
Proof.
  intros HR O Ha Ht F. pose proof (ram_read oc _ _ _ _ HR O Ha) as E.
  destruct F as [mem2 code data A|mx mem2 ex z _ Hp Hw Hx].
  - destruct A; congruence.
  - unfold passes in Hp. rewrite Ht in Hp. cbn in Hp. subst. rewrite E in Hw. congruence.
Qed.

(** The word stored below the top of a stack. *)
Lemma grow oc m mp l base s x mem1 : stack_in m mp l base s -> is_u32 x -> ram_at mem1 mp l -> mp_addr mp <= base - 4 * (zlen s + 1) ->
  let top := (R m (sp_of m) - 4) mod 2 ^ 32 in
  top = base - 4 * (zlen s + 1) /\ occupies mp top /\ top mod 4 = 0 /\
  forall mem2, mem_write (dev_ops oc) false mem1 top x = Ret (mem2, 0) -> ram_at mem2 mp (upd l (word_index mp top) x) /\
    forall k w, nth_error (x :: s) k = Some w -> nth (word_index mp (base - 4 * zlen (x :: s) + 4 * Z.of_nat k)) (upd l (word_index mp top) x) 0 = w.
Proof.
  intros (HR & Hb & Hhi & Hlo & Hsp & Hs) U HR1 Room top. change (2 ^ 32) with 4294967296 in *.
  pose proof HR as (T & I & _). destruct (tidy_mapping _ _ _ T I) as (?&?&?&?&?&_). pose proof (zlen_nonneg s).
  assert (Et : top = base - 4 * (zlen s + 1)). { unfold top. change (2 ^ 32) with 4294967296. rewrite Hsp. lia. }
  assert (Ot : occupies mp top) by (unfold occupies; lia). assert (At : top mod 4 = 0) by lia.
  split; auto. split; auto. split; auto. intros mem2 E. destruct (ram_write oc _ _ _ _ x HR1 U Ot At) as (mw & Ew & Rw & _). rewrite Ew in E. injection E as <-.
  split; auto. intros k w Ek. rewrite zlen_cons. rewrite upd_nth. destruct (ram_index _ _ _ _ HR Ot At) as (B & _).
  destruct k as [|k]; cbn [nth_error] in Ek.
  - injection Ek as <-. match goal with |- context [word_index mp ?z] => replace z with top by lia end. rewrite Nat.eqb_refl. unfold word_index, zlen in *.
    destruct (Nat.ltb_spec (Z.to_nat ((top - mp_addr mp) / 4)) (length l)); [reflexivity|lia].
  - assert (Hk : (k < length s)%nat) by (apply nth_error_Some; congruence).
    match goal with |- context [word_index mp (base - ?z + ?y)] => replace (base - z + y) with (base - 4 * zlen s + 4 * Z.of_nat k) by lia end.
    destruct (Nat.eqb_spec (word_index mp (base - 4 * zlen s + 4 * Z.of_nat k)) (word_index mp top)) as [E|]; [unfold word_index, zlen in *; lia|]. cbn [andb]. apply Hs; auto.
Qed.

(** On a stack in RAM with room for one more word and translation off, PUSH cannot fail: it adds the word on top, moves the stack
    pointer, and changes nothing else, in registers or in this memory. *)
Lemma P_C23_push_ram : forall oc m v x mem1 m' mp l base s, wf m -> executes (dev_ops oc) oc m (Push v) mem1 m' ->
  stack_in m mp l base s -> R m R_mtt = 0 -> operand2 m v = Some x -> mp_addr mp <= base - 4 * (zlen s + 1) ->
  let top := base - 4 * (zlen s + 1) in
  regs_after m m' [(sp_of m, top); (R_pc, (R m R_pc + 4) mod 2 ^ 32)] /\ c_halted m' = false /\
  stack_in m' mp (upd l (word_index mp top) x) base (x :: s).
Proof.
  intros oc m v x mem1 m' mp l base s W He HS Ht Hx Room top. destruct He as (Hh & Hf & En) eqn:EHe. clear EHe. pose proof (conj Hh (conj Hf En)) as He'.
  pose proof HS as (HR & Hb & Hhi & Hlo & Hsp & Hs). pose proof (fetch_ram _ _ _ _ _ _ Hf HR) as HR1.
  assert (U : is_u32 x) by (destruct Hf as (w & _ & Hd); apply decode_ok_instr in Hd; eapply operand2_u32; eauto).
  destruct (grow oc m mp l base s x mem1 HS U HR1 Room) as (Et & Ot & At & G).
  pose proof (P_C23_push _ _ _ _ _ _ _ _ (dev_typed oc) W He' Hx) as C. cbv zeta in C. destruct C as [(mem2 & Hst & A)|(mem2 & code & data & F & _)].
  2:{ exfalso. exact (no_store_fault _ _ _ _ _ _ _ _ _ _ HR1 U Ot At Ht F). }
  destruct Hst as (_ & mp1 & Hp & Hw). unfold passes in Hp. rewrite Ht in Hp. cbn in Hp. subst mp1. destruct (G _ Hw) as (R2 & Hn).
  assert (Hs' : sup_mode m' = sup_mode m) by (eapply after_sup; [exact A|]; unfold sp_of; destruct (sup_mode m); reflexivity).
  destruct A as (A1 & A2 & A3 & A4). rewrite Et in *. fold top in A1, R2, Hn |- *. split; [exact A1|]. split; [rewrite A3; exact Hh|].
  rewrite <- A2 in R2. split; [exact R2|]. split; auto. split; auto. split; [rewrite zlen_cons; lia|]. split; [|exact Hn].
  rewrite (sp_of_sup _ _ _ Hs'), A1, zlen_cons. cbn [assoc]. rewrite Z.eqb_refl. unfold occupies in Ot. pose proof HR as (T & I & _). destruct (tidy_mapping _ _ _ T I) as (?&?&?&?&?&_). change (2 ^ 32) with 4294967296. unfold top in *. lia.
Qed.
(** CALL, on such a stack, pushes the address of the next instruction. *)
Lemma P_C24_call_ram : forall oc m v x mem1 m' mp l base s, wf m -> executes (dev_ops oc) oc m (Call v) mem1 m' ->
  stack_in m mp l base s -> R m R_mtt = 0 -> operand2 m v = Some x -> mp_addr mp <= base - 4 * (zlen s + 1) ->
  let top := base - 4 * (zlen s + 1) in let back := (R m R_pc + 4) mod 2 ^ 32 in
  regs_after m m' [(R_pc, x); (sp_of m, top)] /\ c_halted m' = false /\ stack_in m' mp (upd l (word_index mp top) back) base (back :: s).
Proof.
  intros oc m v x mem1 m' mp l base s W He HS Ht Hx Room top back. destruct He as (Hh & Hf & En) eqn:EHe. clear EHe. pose proof (conj Hh (conj Hf En)) as He'.
  pose proof HS as (HR & Hb & Hhi & Hlo & Hsp & Hs). pose proof (fetch_ram _ _ _ _ _ _ Hf HR) as HR1.
  assert (U : is_u32 back) by (unfold back, is_u32; change (2 ^ 32) with 4294967296; lia).
  destruct (grow oc m mp l base s back mem1 HS U HR1 Room) as (Et & Ot & At & G).
  pose proof (P_C24_call _ _ _ _ _ _ _ _ (dev_typed oc) W He' Hx) as C. cbv zeta in C. fold back in C. destruct C as [(mem2 & Hst & A)|(mem2 & code & data & F & _)].
  2:{ exfalso. exact (no_store_fault _ _ _ _ _ _ _ _ _ _ HR1 U Ot At Ht F). }
  destruct Hst as (_ & mp1 & Hp & Hw). unfold passes in Hp. rewrite Ht in Hp. cbn in Hp. subst mp1. destruct (G _ Hw) as (R2 & Hn).
  assert (Hs' : sup_mode m' = sup_mode m) by (eapply after_sup; [exact A|]; unfold sp_of; destruct (sup_mode m); reflexivity).
  destruct A as (A1 & A2 & A3 & A4). rewrite Et in *. fold top in A1, R2, Hn |- *. split; [exact A1|]. split; [rewrite A3; exact Hh|].
  rewrite <- A2 in R2. split; [exact R2|]. split; auto. split; auto. split; [rewrite zlen_cons; lia|]. split; [|exact Hn].
  rewrite (sp_of_sup _ _ _ Hs'), A1, zlen_cons. assert (X : assoc [(R_pc, x); (sp_of m, top)] (sp_of m) = Some top) by (unfold sp_of; destruct (sup_mode m); reflexivity).
  rewrite X. unfold occupies in Ot. pose proof HR as (T & I & _). destruct (tidy_mapping _ _ _ T I) as (?&?&?&?&?&_). change (2 ^ 32) with 4294967296. unfold top in *. lia.
Qed.
(** POP, on such a stack holding at least one word, cannot fail either: it yields the top word and removes it. *)
Lemma P_C23_pop_ram : forall oc m d mem1 m' mp l base w s, wf m -> executes (dev_ops oc) oc m (Pop d) mem1 m' ->
  stack_in m mp l base (w :: s) -> R m R_mtt = 0 -> can_write (sup_mode m) d = true -> d <> sp_of m -> d <> R_smt ->
  regs_after m m' [(d, w); (sp_of m, (base - 4 * zlen s) mod 2 ^ 32); (R_pc, (R m R_pc + 4) mod 2 ^ 32)] /\ c_halted m' = false /\
  stack_in m' mp l base s.
Proof.
  intros oc m d mem1 m' mp l base w s W He HS Ht Hc Nd Ns. destruct He as (Hh & Hf & En) eqn:EHe. clear EHe. pose proof (conj Hh (conj Hf En)) as He'.
  pose proof HS as (HR & Hb & Hhi & Hlo & Hsp & Hs). pose proof (fetch_ram _ _ _ _ _ _ Hf HR) as HR1.
  rewrite zlen_cons in *. change (2 ^ 32) with 4294967296 in *. pose proof (zlen_nonneg s).
  pose proof HR as (T & I & _). destruct (tidy_mapping _ _ _ T I) as (?&?&?&?&?&_).
  assert (Et : R m (sp_of m) = base - 4 * (1 + zlen s)) by (rewrite Hsp; lia).
  assert (Ot : occupies mp (R m (sp_of m))) by (unfold occupies; lia). assert (At : R m (sp_of m) mod 4 = 0) by lia.
  pose proof (P_C23_pop _ _ _ _ _ _ _ (dev_typed oc) W He') as C. cbv zeta in C. destruct C as [(w' & mem2 & Hst & A)|(mem2 & code & data & F & _)].
  2:{ exfalso. exact (no_load_fault _ _ _ _ _ _ _ _ _ HR1 Ot At Ht F). }
  destruct Hst as (_ & mp1 & Hp & Hw). unfold passes in Hp. rewrite Ht in Hp. cbn in Hp. subst mp1. rewrite (ram_read oc _ _ _ _ HR1 Ot At) in Hw. injection Hw as <- Ew.
  assert (Ew' : w' = w). { rewrite <- Ew, Et. rewrite <- (Hs O w eq_refl). f_equal. f_equal. lia. } rewrite Hc, Ew' in A.
  change (2 ^ 32) with 4294967296 in A.
  assert (Es : (R m (sp_of m) + 4) mod 4294967296 = (base - 4 * zlen s) mod 4294967296) by (rewrite Et; f_equal; lia). rewrite Es in A.
  assert (Hs' : sup_mode m' = sup_mode m).
  { eapply after_sup; [exact A|]. unfold sp_of. cbn [assoc]. destruct (Z.eqb_spec (reg_code R_smt) (reg_code d)) as [E|]; [apply reg_code_inj in E; congruence|]. destruct (sup_mode m); reflexivity. }
  destruct A as (A1 & A2 & A3 & A4). split; [exact A1|]. split; [rewrite A3; exact Hh|]. split; [rewrite A2; exact HR1|]. split; auto. split; auto. split; [lia|]. split.
  - rewrite (sp_of_sup _ _ _ Hs'), A1. cbn [assoc]. destruct (Z.eqb_spec (reg_code (sp_of m)) (reg_code d)) as [E|]; [apply reg_code_inj in E; congruence|]. rewrite Z.eqb_refl. reflexivity.
  - intros k x Ek. rewrite <- (Hs (S k) x Ek). f_equal. f_equal. lia.
Qed.

(** Any history of pushes, calls, pops and other instructions: the stack in RAM is always what an ideal stack would be. *)
Lemma P_C23_history : forall oc mp base m s m' s', wf m -> stack_run (dev_ops oc) oc mp base m s m' s' ->
  forall l, stack_in m mp l base s -> exists l', stack_in m' mp l' base s'.
Proof.
  intros oc mp base m s m' s' W H. revert W. induction H as [m s|m v x mem1 m1 s m' s' He Ht Hx Room H IH|m v x mem1 m1 s m' s' He Ht Hx Room H IH|
     m d mem1 m1 w s m' s' He Ht Hc N1 N2 H IH|m m1 s m' s' En Hm Hr NC H IH]; intros W l HS.
  - eauto.
  - destruct (P_C23_push_ram _ _ _ _ _ _ _ _ _ _ W He HS Ht Hx Room) as (_ & _ & HS1). eapply IH; [|exact HS1]. eapply next_wf; [exact (dev_typed oc)|exact W|apply He].
  - destruct (P_C24_call_ram _ _ _ _ _ _ _ _ _ _ W He HS Ht Hx Room) as (_ & _ & HS1). eapply IH; [|exact HS1]. eapply next_wf; [exact (dev_typed oc)|exact W|apply He].
  - destruct (P_C23_pop_ram _ _ _ _ _ _ _ _ _ _ W He HS Ht Hc N1 N2) as (_ & _ & HS1). eapply IH; [|exact HS1]. eapply next_wf; [exact (dev_typed oc)|exact W|apply He].
  - assert (W1 : wf m1) by (eapply next_wf; [exact (dev_typed oc)|exact W|exact En]).
    pose proof HS as (HR & Hb & Hhi & Hlo & Hsp & Hs). pose proof (zlen_nonneg s).
    pose proof HR as (T & I & _). destruct (tidy_mapping _ _ _ T I) as (?&?&?&?&?&_).
    assert (E1 : run (dev_ops oc) oc 1 m = Ret m1) by (cbn [run]; rewrite En; reflexivity).
    assert (K : forall k w, nth_error s k = Some w -> holds (c_mem m1) mp (base - 4 * zlen s + 4 * Z.of_nat k) w).
    { intros k w Ek. assert (Hk : (k < length s)%nat) by (apply nth_error_Some; congruence). unfold zlen in *.
      eapply P_C72_persist; [exact W|exact E1| | | |].
      - lia.
      - unfold occupies. lia.
      - exists l. split; auto.
      - intros j mk Hj Ej. assert (j = O) by lia. subst j. injection Ej as <-. apply NC. lia. }
    assert (R1 : exists l1, ram_at (c_mem m1) mp l1).
    { destruct (c_halted m) eqn:Hh. { exists l. apply (P_C72_ram_no_fetch oc m m1); auto. }
      destruct (fetch_dec oc m) as [(i & memf & Hf)|N]; [|exists l; apply (P_C72_ram_no_fetch oc m m1); auto].
      destruct (P_C72_ram oc m i memf m1 mp l W (conj Hh (conj Hf En)) HR) as [X|[(? & ? & _ & _ & _ & X)|(? & ? & _ & _ & _ & X)]]; eauto. }
    destruct R1 as (l1 & R1). apply (IH W1 l1). split; auto. split; auto. split; auto. split; auto. split. { rewrite (sp_of_sup _ _ _ Hm), Hr. exact Hsp. }
    intros k w Ek. destruct (K k w Ek) as (l2 & R2 & E2). replace l1 with l2; auto.
    destruct R1 as (_ & _ & _ & _ & e1 & F1 & G1), R2 as (_ & _ & _ & _ & e2 & F2 & G2). congruence.
Qed.

Definition same_but (m m' : cpu device) (rs : list reg) : Prop := forall r, ~ In r rs -> R m' r = R m r.
Lemma assoc_keys l r : ~ In r (map fst l) -> assoc l r = None.
Proof.
  induction l as [|[r' v] t IH]; cbn [assoc map In fst]; auto. intros N. destruct (Z.eqb_spec (reg_code r) (reg_code r')) as [E|]; [apply reg_code_inj in E; subst; tauto|].
  apply IH. tauto.
Qed.
Lemma operand2_frame m m' v rs : same_but m m' rs -> ~ In R_smt rs -> (forall r, v = Reg2 r -> ~ In r rs) -> operand2 m' v = operand2 m v.
Proof.
  intros S N1 N2. destruct v as [r|n]; cbn [operand2]; [|reflexivity]. unfold reg_value, sup_mode. rewrite (S R_smt) by auto. rewrite (S r) by (apply N2; reflexivity). reflexivity.
Qed.
Lemma same_trans m m1 m2 rs rs' : same_but m m1 rs -> same_but m1 m2 rs' -> same_but m m2 (rs ++ rs').
Proof. intros A B r N. rewrite B, A; auto; intros I; apply N, in_or_app; auto. Qed.
Lemma sp_not_smt D (m : cpu D) : sp_of m <> R_smt /\ sp_of m <> R_mtt /\ sp_of m <> R_pc.
Proof. unfold sp_of. destruct (sup_mode m); repeat split; discriminate. Qed.

Lemma pushes oc mp base ps : forall ws m m1 l s, wf m -> performs (dev_ops oc) oc m (map Push ps) m1 -> pushable m ps ws ->
  stack_in m mp l base s -> R m R_mtt = 0 -> mp_addr mp <= base - 4 * (zlen s + zlen ps) ->
  exists l1, stack_in m1 mp l1 base (rev ws ++ s) /\ wf m1 /\ c_halted m1 = (match ps with [] => c_halted m | _ => false end) /\
    same_but m m1 [sp_of m; R_pc] /\ R m1 R_pc = (R m R_pc + 4 * zlen ps) mod 2 ^ 32 /\
    forall b, occupies mp b -> b mod 4 = 0 -> ~ (base - 4 * (zlen s + zlen ps) <= b < base - 4 * zlen s) -> nth (word_index mp b) l1 0 = nth (word_index mp b) l 0.
Proof.
  induction ps as [|p ps IH]; intros ws m m1 l s W HP HV HS Ht Room.
  - inversion HP; subst. inversion HV; subst. cbn [rev app]. exists l. split; auto. split; auto. split; auto. split; [intros r _; reflexivity|].
    split; [|auto]. change (zlen (@nil rl2)) with 0. assert (U : is_u32 (R m1 R_pc)) by (apply R_u32, W). unfold is_u32 in U. change (2 ^ 32) with 4294967296. lia.
  - inversion HP as [|? ? mem1 m2 ? ? He HP2]; subst. inversion HV as [|? x ? xs (Hx & N1 & N2) HV2]; subst. rewrite zlen_cons in Room. pose proof (zlen_nonneg ps). pose proof (zlen_nonneg s).
    destruct (P_C23_push_ram _ _ _ _ _ _ _ _ _ _ W He HS Ht Hx ltac:(lia)) as (A & Hh & HS2).
    assert (W2 : wf m2) by (eapply next_wf; [exact (dev_typed oc)|exact W|apply He]).
    destruct (sp_not_smt _ m) as (Q1 & Q2 & Q3).
    assert (S2 : same_but m m2 [sp_of m; R_pc]). { intros r N. rewrite A, assoc_keys; auto. }
    assert (Hm : sup_mode m2 = sup_mode m). { unfold sup_mode. rewrite (S2 R_smt); auto. cbn [In]. intuition congruence. }
    assert (Ht2 : R m2 R_mtt = 0). { rewrite (S2 R_mtt); auto. cbn [In]. intuition congruence. }
    assert (HV2' : pushable m2 ps xs).
    { unfold pushable in *. rewrite (sp_of_sup _ _ _ Hm). clear - HV2 S2 Q1 Q2 Q3. induction HV2 as [|v y ps xs (B1 & B2 & B3) _ IHV]; constructor; auto. split; auto.
      rewrite <- B1. eapply operand2_frame; [exact S2|cbn [In]; intuition congruence|]. intros r ->. cbn [In]. intuition congruence. }
    destruct (IH xs m2 m1 _ (x :: s) W2 HP2 HV2' HS2 Ht2 ltac:(rewrite zlen_cons; lia)) as (l1 & HS1 & W1 & Hh1 & S1 & Hpc & Fr).
    exists l1. cbn [rev]. rewrite <- app_assoc. cbn [app]. split; auto. split; auto. split; [destruct ps; [rewrite Hh1|]; auto|].
    split. { rewrite (sp_of_sup _ _ _ Hm) in S1. intros r N. rewrite (S1 r N). apply S2; auto. }
    split. { rewrite Hpc, A. cbn [assoc]. destruct (Z.eqb_spec (reg_code R_pc) (reg_code (sp_of m))) as [E|]; [apply reg_code_inj in E; congruence|]. rewrite Z.eqb_refl, zlen_cons. change (2 ^ 32) with 4294967296. lia. }
    intros b Ob Hb Nb. rewrite zlen_cons in *. rewrite Fr by (auto; rewrite zlen_cons; lia). rewrite upd_nth.
    match goal with |- context [Nat.eqb ?x ?y] => destruct (Nat.eqb_spec x y) as [E|] end; [|reflexivity]. exfalso. apply Nb. pose proof HS as (HR & Hb0 & Hhi & Hlo & _). pose proof HR as (T & I & _). destruct (tidy_mapping _ _ _ T I) as (?&?&?&?&?&_). unfold word_index, occupies in *. lia.
Qed.
Lemma popall oc mp base l ds : forall ws m m1 s, wf m -> performs (dev_ops oc) oc m (map Pop ds) m1 -> poppable m ds -> length ds = length ws ->
  stack_in m mp l base (ws ++ s) -> R m R_mtt = 0 ->
  stack_in m1 mp l base s /\ c_halted m1 = (match ds with [] => c_halted m | _ => false end) /\ same_but m m1 (sp_of m :: R_pc :: ds) /\ R m1 R_pc = (R m R_pc + 4 * zlen ds) mod 2 ^ 32 /\
  pop_each (dev_ops oc) oc m ds ws m1 /\ sup_mode m1 = sup_mode m.
Proof.
  induction ds as [|d ds IH]; intros ws m m1 s W HP HV HL HS Ht.
  - inversion HP; subst. destruct ws; [|discriminate]. split; auto. split; auto. split; [intros r _; reflexivity|].
    split; [|split; [constructor|auto]]. change (zlen (@nil reg)) with 0. assert (U : is_u32 (R m1 R_pc)) by (apply R_u32, W). unfold is_u32 in U. change (2 ^ 32) with 4294967296. lia.
  - inversion HP as [|? ? mem1 m2 ? ? He HP2]; subst. inversion HV as [|? ? (Hc & N1 & N2 & N3 & N4) HV2]; subst. destruct ws as [|w ws]; [discriminate|]. cbn [app] in HS.
    destruct (P_C23_pop_ram _ _ _ _ _ _ _ _ _ _ W He HS Ht Hc N1 N2) as (A & Hh & HS2).
    assert (W2 : wf m2) by (eapply next_wf; [exact (dev_typed oc)|exact W|apply He]).
    destruct (sp_not_smt _ m) as (Q1 & Q2 & Q3).
    assert (S2 : same_but m m2 (sp_of m :: R_pc :: [d])). { intros r N. rewrite A, assoc_keys; auto. cbn [map fst In] in *. tauto. }
    assert (Hm : sup_mode m2 = sup_mode m). { unfold sup_mode. rewrite (S2 R_smt); auto. cbn [In]. intuition congruence. }
    assert (Ht2 : R m2 R_mtt = 0). { rewrite (S2 R_mtt); auto. cbn [In]. intuition congruence. }
    assert (HV2' : poppable m2 ds) by (unfold poppable in *; rewrite (sp_of_sup _ _ _ Hm), Hm; exact HV2).
    destruct (IH ws m2 m1 s W2 HP2 HV2' ltac:(cbn in HL; lia) HS2 Ht2) as (HS1 & Hh1 & S1 & Hpc & PE & Hm1).
    split; auto. split; [destruct ds; [rewrite Hh1|]; auto|].
    split. { rewrite (sp_of_sup _ _ _ Hm) in S1. intros r N. cbn [In] in N. rewrite S1 by (cbn [In]; tauto). apply S2. cbn [In]. intuition congruence. }
    split. { rewrite Hpc, A. cbn [assoc]. destruct (Z.eqb_spec (reg_code R_pc) (reg_code d)) as [E|]; [apply reg_code_inj in E; congruence|].
      destruct (Z.eqb_spec (reg_code R_pc) (reg_code (sp_of m))) as [E|]; [apply reg_code_inj in E; congruence|]. rewrite Z.eqb_refl, zlen_cons. change (2 ^ 32) with 4294967296. lia. }
    split; [|congruence]. eapply pop_one; [exact He| |exact PE]. rewrite A. cbn [assoc]. rewrite Z.eqb_refl. reflexivity.
Qed.

(** On a stack pointer inside RAM, with translation off: pushing any list of words, then popping as many, cannot fail; it returns
    them in reverse order, restores the stack pointer and every register that was not popped into (except pc), and leaves this
    memory as it was outside the words that were pushed. *)
Lemma P_C23_lifo : forall oc m ps ws m1 ds m' mp l, wf m -> c_halted m = false -> R m R_mtt = 0 ->
  ram_at (c_mem m) mp l -> let sp := R m (sp_of m) in sp mod 4 = 0 -> sp <= mp_addr mp + mp_size mp -> mp_addr mp <= sp - 4 * zlen ps ->
  pushable m ps ws -> performs (dev_ops oc) oc m (map Push ps) m1 ->
  poppable m ds -> length ds = length ps -> performs (dev_ops oc) oc m1 (map Pop ds) m' ->
  pop_each (dev_ops oc) oc m1 ds (rev ws) m' /\
  (forall r, ~ In r ds -> r <> R_pc -> R m' r = R m r) /\ R m' R_pc = (R m R_pc + 8 * zlen ps) mod 2 ^ 32 /\ c_halted m' = false /\
  exists l', ram_at (c_mem m') mp l' /\
    forall b, occupies mp b -> b mod 4 = 0 -> ~ (sp - 4 * zlen ps <= b < sp) -> nth (word_index mp b) l' 0 = nth (word_index mp b) l 0.
Proof.
  intros oc m ps ws m1 ds m' mp l W Hh Ht HR sp Hal Hhi Hlo HV HP HD HL HP2.
  assert (U : is_u32 sp) by (apply R_u32, W). pose proof (zlen_nonneg ps).
  assert (HS : stack_in m mp l sp []).
  { split; auto. split; auto. split; auto. change (zlen (@nil Z)) with 0. split; [lia|]. split. { fold sp. unfold is_u32 in U. change (2 ^ 32) with 4294967296. lia. } intros k w E. destruct k; discriminate. }
  destruct (pushes oc mp sp ps ws m m1 l [] W HP HV HS Ht) as (l1 & HS1 & W1 & Hh1 & S1 & Hpc1 & Fr). { change (zlen (@nil Z)) with 0. lia. }
  destruct (sp_not_smt _ m) as (Q1 & Q2 & Q3).
  assert (Hm : sup_mode m1 = sup_mode m). { unfold sup_mode. rewrite (S1 R_smt); auto. cbn [In]. intuition congruence. }
  assert (Ht1 : R m1 R_mtt = 0). { rewrite (S1 R_mtt); auto. cbn [In]. intuition congruence. }
  assert (HD1 : poppable m1 ds) by (unfold poppable in *; rewrite (sp_of_sup _ _ _ Hm), Hm; exact HD).
  assert (HLw : length ps = length ws) by (clear - HV; unfold pushable in HV; induction HV; cbn; auto).
  destruct (popall oc mp sp l1 ds (rev ws) m1 m' [] W1 HP2 HD1 ltac:(rewrite rev_length; lia) HS1 Ht1) as (HS2 & Hh2 & S2 & Hpc2 & PE & Hm2).
  split; auto. split.
  { intros r Nr Np. destruct (reg_eq_dec r (sp_of m)) as [->|Ns].
    - destruct HS2 as (_ & _ & _ & _ & E & _). rewrite (sp_of_sup _ _ _ (eq_trans Hm2 Hm)) in E. rewrite E. change (zlen (@nil Z)) with 0. fold sp. unfold is_u32 in U. change (2 ^ 32) with 4294967296. lia.
    - rewrite (S2 r) by (rewrite (sp_of_sup _ _ _ Hm); cbn [In]; intuition congruence). apply S1. cbn [In]. intuition congruence. }
  split. { rewrite Hpc2, Hpc1. unfold zlen in *. rewrite HL. change (2 ^ 32) with 4294967296. lia. }
  split. { rewrite Hh2, Hh1. destruct ds, ps; auto. }
  exists l1. split; [apply HS2|]. intros b Ob Hb Nb. apply Fr; auto. change (zlen (@nil Z)) with 0. rewrite Z.add_0_l, Z.mul_0_r, Z.sub_0_r. exact Nb.
Qed.

(** A subroutine: CALL on such a stack, then any number of cycles that never store into the saved word nor reset components,
    then a RET with the stack pointer back where the CALL left it: it resumes after the CALL with the stack pointer restored. *)
Lemma P_C24_subroutine : forall oc m v x mem1 m1 n m2 mem2 m3 mp l base s, wf m -> executes (dev_ops oc) oc m (Call v) mem1 m1 ->
  stack_in m mp l base s -> R m R_mtt = 0 -> operand2 m v = Some x -> mp_addr mp <= base - 4 * (zlen s + 1) ->
  run (dev_ops oc) oc n m1 = Ret m2 -> sup_mode m2 = sup_mode m -> R m2 (sp_of m) = R m1 (sp_of m) -> R m2 R_mtt = 0 ->
  (forall k mk, (k < n)%nat -> run (dev_ops oc) oc k m1 = Ret mk -> ~ may_change (dev_ops oc) mk (R m1 (sp_of m))) ->
  executes (dev_ops oc) oc m2 (Pop R_pc) mem2 m3 ->
  R m3 R_pc = (R m R_pc + 4) mod 2 ^ 32 /\ R m3 (sp_of m) = R m (sp_of m) /\
  (forall r, r <> R_pc -> r <> sp_of m -> R m3 r = R m2 r).
Proof.
  intros oc m v x mem1 m1 n m2 mem2 m3 mp l base s W He HS Ht Hx Room Er Hm Hsp Ht2 NC He2.
  destruct (P_C24_call_ram _ _ _ _ _ _ _ _ _ _ W He HS Ht Hx Room) as (A & _ & HS1).
  set (top := base - 4 * (zlen s + 1)) in *. set (back := (R m R_pc + 4) mod 2 ^ 32) in *.
  assert (W1 : wf m1) by (eapply next_wf; [exact (dev_typed oc)|exact W|apply He]).
  assert (W2 : wf m2) by (eapply run_wf; [exact (dev_typed oc)|exact W1|exact Er]).
  destruct (sp_not_smt _ m) as (Q1 & Q2 & Q3).
  assert (E1 : R m1 (sp_of m) = top). { rewrite A. unfold sp_of. destruct (sup_mode m); reflexivity. }
  pose proof HS as (HR & Hb & Hhi & Hlo & Hsp0 & _). pose proof HR as (T & I & _). destruct (tidy_mapping _ _ _ T I) as (?&?&?&?&?&_). pose proof (zlen_nonneg s).
  pose proof HS1 as (HR1 & _ & _ & _ & _ & Hn1). specialize (Hn1 O back eq_refl). rewrite zlen_cons in Hn1.
  assert (Hold : holds (c_mem m1) mp top back). { eexists. split; [exact HR1|]. etransitivity; [|exact Hn1]. f_equal. f_equal. unfold top. lia. }
  rewrite E1 in NC.
  assert (At : top mod 4 = 0) by (unfold top; lia). assert (Ot : occupies mp top) by (unfold occupies, top; lia).
  pose proof (P_C72_persist oc n m1 m2 mp top back W1 Er At Ot Hold NC) as (l2 & HR2 & Hn2).
  assert (HS2 : stack_in m2 mp l2 (top + 4) [back]).
  { split; auto. split; [unfold top; lia|]. split; [unfold top; lia|]. change (zlen [back]) with 1. split; [unfold top; lia|]. split.
    - rewrite (sp_of_sup _ _ _ Hm), Hsp, E1. unfold occupies, top in *. change (2 ^ 32) with 4294967296. lia.
    - intros k w E. destruct k as [|[|]]; try discriminate. injection E as <-. etransitivity; [|exact Hn2]. f_equal. f_equal. lia. }
  assert (Hc : can_write (sup_mode m2) R_pc = true) by (destruct (sup_mode m2); reflexivity).
  destruct (P_C23_pop_ram _ _ _ _ _ _ _ _ _ _ W2 He2 HS2 Ht2 Hc) as (A3 & _); [rewrite (sp_of_sup _ _ _ Hm); congruence|discriminate|].
  rewrite (sp_of_sup _ _ _ Hm) in A3. split; [rewrite A3; reflexivity|]. split.
  - rewrite A3. cbn [assoc]. destruct (Z.eqb_spec (reg_code (sp_of m)) (reg_code R_pc)) as [E|]; [apply reg_code_inj in E; congruence|]. rewrite Z.eqb_refl.
    rewrite Hsp0. unfold top. change (zlen (@nil Z)) with 0. f_equal. lia.
  - intros r N1 N2. rewrite A3. rewrite assoc_keys; auto. cbn [map fst In]. intuition congruence.
Qed.

(** SRM at an address in RAM, twice, with translation off: nothing has changed, in registers other than pc or in this memory. *)
Lemma P_C25_srm_twice : forall oc m v add r a mem1 m1 mem2 m2 mp l, wf m ->
  executes (dev_ops oc) oc m (Srm v add r) mem1 m1 -> executes (dev_ops oc) oc m1 (Srm v add r) mem2 m2 ->
  load_address m (Srm v add r) = Some a -> ram_at (c_mem m) mp l -> occupies mp a -> a mod 4 = 0 -> R m R_mtt = 0 ->
  can_read (sup_mode m) r = true -> can_write (sup_mode m) r = true -> ~ In r [R_pc; R_smt; R_mtt] ->
  ~ In v [Reg1 r; Reg1 R_pc] -> ~ In add [Reg1 r; Reg1 R_pc] ->
  R m1 r = nth (word_index mp a) l 0 /\ ram_at (c_mem m1) mp (upd l (word_index mp a) (R m r)) /\
  (forall q, q <> R_pc -> R m2 q = R m q) /\ ram_at (c_mem m2) mp l.
Proof.
  intros oc m v add r a mem1 m1 mem2 m2 mp l W He He2 Ha HR O Hal Ht Hcr Hcw Nr Nv Na. cbn [In] in Nr, Nv, Na.
  assert (ST : forall m m1 mem1 l, wf m -> executes (dev_ops oc) oc m (Srm v add r) mem1 m1 -> load_address m (Srm v add r) = Some a ->
     ram_at (c_mem m) mp l -> R m R_mtt = 0 -> can_read (sup_mode m) r = true -> can_write (sup_mode m) r = true ->
     regs_after m m1 [(r, nth (word_index mp a) l 0); (R_pc, (R m R_pc + 4) mod 2 ^ 32)] /\ ram_at (c_mem m1) mp (upd l (word_index mp a) (R m r))).
  { clear - O Hal. intros m m1 mem1 l W He Ha HR Ht Hcr Hcw.
    assert (HR1 : ram_at mem1 mp l) by (eapply fetch_ram; [apply He|exact HR]).
    assert (U : is_u32 (R m r)) by (apply R_u32, W).
    destruct (ram_write oc _ _ _ _ (R m r) HR1 U O Hal) as (mw & Ew & Rw & _).
    assert (P : passes (dev_ops oc) m a mem1 mem1) by (unfold passes; rewrite Ht; reflexivity).
    pose proof (P_C25_srm _ (dev_ops oc) oc m v add r a (nth (word_index mp a) l 0) (R m r) mem1 mem1 mw m1 (dev_typed oc) W He Ha) as X.
    rewrite Hcw in X. destruct X as (X1 & X2 & _).
    - split; auto. exists mem1. split; auto. apply ram_read; auto.
    - unfold reg_value. rewrite Hcr. reflexivity.
    - split; auto. exists mem1. split; auto.
    - split; auto. rewrite X2. exact Rw. }
  destruct (ST _ _ _ _ W He Ha HR Ht Hcr Hcw) as (A1 & R1).
  assert (W1 : wf m1) by (eapply next_wf; [exact (dev_typed oc)|exact W|apply He]).
  assert (S1 : same_but m m1 [r; R_pc]). { intros q N. rewrite A1, assoc_keys; auto. }
  assert (Hm : sup_mode m1 = sup_mode m). { unfold sup_mode. rewrite (S1 R_smt); auto. cbn [In]. intuition congruence. }
  assert (Ht1 : R m1 R_mtt = 0). { rewrite (S1 R_mtt); auto. cbn [In]. intuition congruence. }
  assert (F : forall w, ~ In w [Reg1 r; Reg1 R_pc] -> operand1 m1 w = operand1 m w).
  { intros w N. cbn [In] in N. destruct w as [q|n]; cbn [operand1]; [|reflexivity]. unfold reg_value. rewrite Hm, (S1 q); auto. cbn [In]. intuition congruence. }
  assert (Ha1 : load_address m1 (Srm v add r) = Some a). { rewrite <- Ha. cbn [load_address]. rewrite !F by (cbn [In]; assumption). reflexivity. }
  destruct (ST _ _ _ _ W1 He2 Ha1 R1 Ht1) as (A2 & R2); [rewrite Hm; auto|rewrite Hm; auto|].
  assert (E1 : R m1 r = nth (word_index mp a) l 0). { rewrite A1. cbn [assoc]. rewrite Z.eqb_refl. reflexivity. }
  destruct (ram_index _ _ _ _ HR O Hal) as (B & _).
  split; auto. split; auto. split.
  - intros q Nq. rewrite A2. cbn [assoc]. destruct (Z.eqb_spec (reg_code q) (reg_code r)) as [E|Nr'].
    + apply reg_code_inj in E. subst q. rewrite upd_nth, Nat.eqb_refl. unfold word_index, zlen in *.
      destruct (Nat.ltb_spec (Z.to_nat ((a - mp_addr mp) / 4)) (length l)); [reflexivity|lia].
    + destruct (Z.eqb_spec (reg_code q) (reg_code R_pc)) as [E|]; [apply reg_code_inj in E; congruence|]. apply S1. cbn [In]. intuition congruence.
  - rewrite E1, upd_upd_same, upd_self in R2. exact R2.
Qed.

Fixpoint trace (n : nat) (m : cpu device) : option (list instr * cpu device) :=
  match n with
  | O => Some ([], m)
  | S k => match exec_check m with
           | Some (i, _, m1) => match trace k m1 with Some (is, m') => Some (i :: is, m') | None => None end
           | None => None
           end
  end.
Lemma trace_sound n : forall m is m', trace n m = Some (is, m') -> performs (dev_ops false) false m is m'.
Proof.
  induction n as [|n IH]; cbn [trace]; intros m is m'. { intros E; injection E as <- <-. constructor. }
  destruct (exec_check m) as [[[i mem1] m1]|] eqn:E; [|discriminate]. destruct (trace n m1) as [[is1 m2]|] eqn:E2; [|discriminate].
  intros X; injection X as <- <-. econstructor; [apply exec_check_sound; exact E|apply IH; exact E2].
Qed.
(** Three pushes and three pops, on the stack from 0x200 down. *)
Definition lifo_prog : list Z :=
  asm [Cpy R_ssp (Lit2 512); Push (Lit2 5); Push (Lit2 6); Push (Lit2 7); Pop R_a1; Pop R_a2; Pop R_a3].
Definition lifo_ps : list rl2 := [Lit2 5; Lit2 6; Lit2 7].
Definition lifo_ds : list reg := [R_a1; R_a2; R_a3].
Lemma E_C23_lifo : exists m m1 m' l, demo_run false lifo_prog 1 = Ret m /\ wf m /\ c_halted m = false /\ R m R_mtt = 0 /\
  ram_at (c_mem m) demo_mp l /\ R m (sp_of m) = 512 /\ mp_addr demo_mp <= 512 - 4 * zlen lifo_ps /\ 512 <= mp_addr demo_mp + mp_size demo_mp /\
  pushable m lifo_ps [5; 6; 7] /\ performs (dev_ops false) false m (map Push lifo_ps) m1 /\
  poppable m lifo_ds /\ performs (dev_ops false) false m1 (map Pop lifo_ds) m' /\
  map (R m') lifo_ds = [7; 6; 5] /\ R m' (sp_of m) = 512.
Proof.
  destruct (demo_run false lifo_prog 1) as [m|] eqn:E; [|vm_compute in E; discriminate].
  assert (C : match demo_run false lifo_prog 1 with Ret m => match demo_words m, trace 3 m with
     | Some l, Some (is, m1) => match trace 3 m1 with Some (is', m') =>
        is = map Push lifo_ps /\ is' = map Pop lifo_ds /\ map (R m') lifo_ds = [7; 6; 5] /\ R m' R_ssp = 512 /\ R m R_ssp = 512 /\ c_halted m = false /\ R m R_mtt = 0 /\ R m R_smt = 1 | None => False end
     | _, _ => False end | Panic => False end).
  { vm_compute. repeat split. }
  rewrite E in C. destruct (demo_words m) as [l|] eqn:El; [|destruct C]. destruct (trace 3 m) as [[is m1]|] eqn:E1; [|destruct C].
  destruct (trace 3 m1) as [[is' m']|] eqn:E2; [|destruct C]. destruct C as (-> & -> & C1 & C2 & C3 & C4 & C5 & C6).
  assert (Hs : sup_mode m = true) by (unfold sup_mode; rewrite C6; reflexivity). assert (Hsp : sp_of m = R_ssp) by (unfold sp_of; rewrite Hs; reflexivity).
  exists m, m1, m', l. rewrite Hsp. split; auto. split. { eapply ReachFacts.reachable_wf; [exact (dev_typed false)|eapply demo_reachable; eauto]. }
  split; auto. split; auto. split; [eapply demo_ram; eauto|]. split; auto. split; [vm_compute; discriminate|]. split; [vm_compute; discriminate|].
  split. { repeat constructor; discriminate. } split; [apply trace_sound with (n := 3%nat); exact E1|]. split.
  { unfold poppable. rewrite Hs, Hsp. repeat constructor; discriminate. }
  split; [apply trace_sound with (n := 3%nat); exact E2|]. auto.
Qed.
(** A call to address 16, where a subroutine pushes, pops and returns; then the cycle after it. *)
Definition sub_prog : list Z :=
  asm [Cpy R_ssp (Lit2 512); Call (Lit2 16); Halt; Halt; Push (Lit2 9); Pop R_a1; Pop R_pc].
Lemma E_C24_subroutine : exists m m1 m2 m3 mem1 mem2 l, demo_run false sub_prog 1 = Ret m /\ wf m /\
  executes (dev_ops false) false m (Call (Lit2 16)) mem1 m1 /\ stack_in m demo_mp l 512 [] /\ R m R_mtt = 0 /\
  run (dev_ops false) false 2 m1 = Ret m2 /\ sup_mode m2 = sup_mode m /\ R m2 (sp_of m) = R m1 (sp_of m) /\ R m2 R_mtt = 0 /\
  (forall k mk, (k < 2)%nat -> run (dev_ops false) false k m1 = Ret mk -> ~ may_change (dev_ops false) mk (R m1 (sp_of m))) /\
  executes (dev_ops false) false m2 (Pop R_pc) mem2 m3 /\ R m R_pc = 4 /\ R m3 R_pc = 8.
Proof.
  destruct (demo_run false sub_prog 1) as [m|] eqn:E; [|vm_compute in E; discriminate].
  assert (C : match demo_run false sub_prog 1 with Ret m => match demo_words m, exec_check m with
     | Some l, Some (i, mem1, m1) => match run (dev_ops false) false 2 m1 with Ret m2 => match exec_check m2 with Some (i2, mem2, m3) =>
         i = Call (Lit2 16) /\ i2 = Pop R_pc /\ R m R_pc = 4 /\ R m3 R_pc = 8 /\ R m R_smt = 1 /\ R m2 R_smt = 1 /\ R m2 R_ssp = R m1 R_ssp /\ R m R_mtt = 0 /\ R m2 R_mtt = 0 /\ R m R_ssp = 512 /\
         forallb (fun k => match run (dev_ops false) false k m1 with Ret mk => quiet mk (R m1 R_ssp) | Panic => true end) [0;1]%nat = true
       | None => False end | Panic => False end | _, _ => False end | Panic => False end).
  { vm_compute. repeat split. }
  rewrite E in C. destruct (demo_words m) as [l|] eqn:El; [|destruct C]. destruct (exec_check m) as [[[i mem1] m1]|] eqn:E1; [|destruct C].
  destruct (run _ _ 2 m1) as [m2|] eqn:E2; [|destruct C]. destruct (exec_check m2) as [[[i2 mem2] m3]|] eqn:E3; [|destruct C].
  destruct C as (-> & -> & C1 & C2 & C3 & C4 & C5 & C6 & C7 & C8 & C9).
  assert (Hs : sup_mode m = true) by (unfold sup_mode; rewrite C3; reflexivity). assert (Hsp : sp_of m = R_ssp) by (unfold sp_of; rewrite Hs; reflexivity).
  assert (HR : ram_at (c_mem m) demo_mp l) by (eapply demo_ram; eauto).
  exists m, m1, m2, m3, mem1, mem2, l. rewrite Hsp. split; auto. split. { eapply ReachFacts.reachable_wf; [exact (dev_typed false)|eapply demo_reachable; eauto]. }
  split; [apply exec_check_sound; auto|]. split.
  { split; auto. split; [reflexivity|]. split; [vm_compute; discriminate|]. split; [vm_compute; discriminate|]. rewrite Hsp, C8. split; [reflexivity|]. intros k w Hk. destruct k; discriminate. }
  split; auto. split; auto. split. { unfold sup_mode. rewrite C3, C4. reflexivity. } split; auto. split; auto. split.
  { intros k mk Hk Ek. apply quiet_sound. rewrite forallb_forall in C9. assert (I : In k [0;1]%nat) by (cbn; lia). apply C9 in I. rewrite Ek in I. exact I. }
  split; [apply exec_check_sound; auto|]. auto.
Qed.
(** SRM twice at 0x104. *)
Lemma E_C25_srm_twice : exists m m1 m2 mem1 mem2 l, demo_run false (asm [Cpy R_a0 (Lit2 256); Wsa (Reg1 R_a0) (Lit1 4) (Lit1 7); Cpy R_a1 (Lit2 9);
      Srm (Reg1 R_a0) (Lit1 4) R_a1; Srm (Reg1 R_a0) (Lit1 4) R_a1]) 3 = Ret m /\ wf m /\
  executes (dev_ops false) false m (Srm (Reg1 R_a0) (Lit1 4) R_a1) mem1 m1 /\ executes (dev_ops false) false m1 (Srm (Reg1 R_a0) (Lit1 4) R_a1) mem2 m2 /\
  load_address m (Srm (Reg1 R_a0) (Lit1 4) R_a1) = Some 260 /\ ram_at (c_mem m) demo_mp l /\ R m R_mtt = 0 /\ R m R_a1 = 9 /\ R m1 R_a1 = 7 /\ R m2 R_a1 = 9.
Proof.
  match goal with |- exists m m1 m2 mem1 mem2 l, ?d = Ret m /\ _ => set (p := d) end.
  destruct p as [m|] eqn:E; [|vm_compute in E; discriminate].
  assert (C : match p with Ret m => match demo_words m, exec_check m with
     | Some l, Some (i, mem1, m1) => match exec_check m1 with Some (i2, mem2, m2) =>
        i = Srm (Reg1 R_a0) (Lit1 4) R_a1 /\ i2 = Srm (Reg1 R_a0) (Lit1 4) R_a1 /\ load_address m i = Some 260 /\ R m R_mtt = 0 /\ R m R_a1 = 9 /\ R m1 R_a1 = 7 /\ R m2 R_a1 = 9
        | None => False end | _, _ => False end | Panic => False end).
  { vm_compute. repeat split. }
  rewrite E in C. destruct (demo_words m) as [l|] eqn:El; [|destruct C]. destruct (exec_check m) as [[[i mem1] m1]|] eqn:E1; [|destruct C].
  destruct (exec_check m1) as [[[i2 mem2] m2]|] eqn:E2; [|destruct C]. destruct C as (-> & -> & C1 & C2 & C3 & C4 & C5).
  exists m, m1, m2, mem1, mem2, l. unfold p in E. split; auto. split. { eapply ReachFacts.reachable_wf; [exact (dev_typed false)|eapply demo_reachable; eauto]. }
  split; [apply exec_check_sound; auto|]. split; [apply exec_check_sound; auto|]. split; auto. split; [eapply demo_ram; eauto|]. auto.
Qed.
Lemma E_C23_history : exists m m' l l', demo_run false sub_prog 1 = Ret m /\ stack_in m demo_mp l 512 [] /\
  stack_run (dev_ops false) false demo_mp 512 m [] m' [9; 8] /\ stack_in m' demo_mp l' 512 [9; 8].
Proof.
  destruct E_C24_subroutine as (m & m1 & m2 & m3 & mem1 & mem2 & l & E & W & He & HS & Ht & _ & _ & _ & _ & _ & _ & Hpc & _).
  assert (C : match demo_run false sub_prog 1 with Ret m => match exec_check m with Some (i, _, m1) => match exec_check m1 with Some (i1, _, m2) =>
     i1 = Push (Lit2 9) /\ R m1 R_mtt = 0 | None => False end | None => False end | Panic => False end) by (vm_compute; repeat split).
  rewrite E in C. destruct (exec_check m) as [[[i memx] m1']|] eqn:E1; [|destruct C]. destruct (exec_check m1') as [[[i1 memy] m2']|] eqn:E2; [|destruct C].
  destruct C as (-> & Ht1). apply exec_check_sound in E1, E2.
  assert (m1' = m1) by (destruct E1 as (_ & _ & X), He as (_ & _ & Y); congruence). subst m1'.
  assert (H : stack_run (dev_ops false) false demo_mp 512 m [] m2' [9; 8]).
  { eapply run_call; [exact He|exact Ht|reflexivity|vm_compute; discriminate|]. rewrite Hpc. change ((4 + 4) mod 2 ^ 32) with 8.
    eapply run_push; [exact E2|exact Ht1|reflexivity|vm_compute; discriminate|]. apply run_here. }
  destruct (P_C23_history _ _ _ _ _ _ _ W H _ HS) as (l' & HS'). exists m, m2', l, l'. auto.
Qed.

(* Concrete cases for the theorems above that have none beside them. *)
Lemma E_C23_push_ram : exists m mem1 m' l, reachable (dev_ops false) false m /\ executes (dev_ops false) false m (Push (Lit2 5)) mem1 m' /\
  stack_in m demo_mp l 512 [] /\ R m R_mtt = 0 /\ operand2 m (Lit2 5) = Some 5 /\ mp_addr demo_mp <= 512 - 4 * (zlen (@nil Z) + 1).
Proof.
  assert (C : match demo_run false lifo_prog 1 with Ret m => match demo_words m, exec_check m with
     | Some l, Some (i, mem1, m1) => i = Push (Lit2 5) /\ R m R_mtt = 0 /\ R m R_smt = 1 /\ R m R_ssp = 512
     | _, _ => False end | Panic => False end) by (vm_compute; repeat split).
  destruct (demo_run false lifo_prog 1) as [m|] eqn:E; [|destruct C]. destruct (demo_words m) as [l|] eqn:El; [|destruct C].
  destruct (exec_check m) as [[[i mem1] m1]|] eqn:E1; [|destruct C]. destruct C as (-> & C1 & C2 & C3).
  assert (Hsp : sp_of m = R_ssp) by (unfold sp_of, sup_mode; rewrite C2; reflexivity).
  exists m, mem1, m1, l. split; [eapply demo_reachable; eauto|]. split; [apply exec_check_sound; auto|]. split; [|split; [exact C1|split; [reflexivity|vm_compute; discriminate]]].
  split; [eapply demo_ram; eauto|]. split; [reflexivity|]. split; [vm_compute; discriminate|]. split; [vm_compute; discriminate|]. rewrite Hsp, C3. split; [reflexivity|].
  intros k w Hk. destruct k; discriminate.
Qed.
Lemma E_C24_call_ram : exists m mem1 m' l, wf m /\ executes (dev_ops false) false m (Call (Lit2 16)) mem1 m' /\ stack_in m demo_mp l 512 [] /\ R m R_mtt = 0 /\
  operand2 m (Lit2 16) = Some 16 /\ mp_addr demo_mp <= 512 - 4 * (zlen (@nil Z) + 1) /\ R m R_pc = 4.
Proof.
  destruct E_C24_subroutine as (m & m1 & m2 & m3 & mem1 & mem2 & l & E & W & He & HS & Ht & _ & _ & _ & _ & _ & _ & Hpc & _).
  exists m, mem1, m1, l. split; auto. split; auto. split; auto. split; auto. split; [reflexivity|]. split; [vm_compute; discriminate|exact Hpc].
Qed.
Lemma E_C23_pop_ram : exists m mem1 m' l, reachable (dev_ops false) false m /\ executes (dev_ops false) false m (Pop R_a1) mem1 m' /\
  stack_in m demo_mp l 512 [7; 6; 5] /\ R m R_mtt = 0 /\ can_write (sup_mode m) R_a1 = true /\ R_a1 <> sp_of m /\ R_a1 <> R_smt.
Proof.
  assert (C : match demo_run false lifo_prog 4 with Ret m => match demo_words m, exec_check m with
     | Some l, Some (i, mem1, m1) => i = Pop R_a1 /\ R m R_mtt = 0 /\ R m R_smt = 1 /\ R m R_ssp = 500 /\ nth 61 l 0 = 7 /\ nth 62 l 0 = 6 /\ nth 63 l 0 = 5
     | _, _ => False end | Panic => False end) by (vm_compute; repeat split).
  destruct (demo_run false lifo_prog 4) as [m|] eqn:E; [|destruct C]. destruct (demo_words m) as [l|] eqn:El; [|destruct C].
  destruct (exec_check m) as [[[i mem1] m1]|] eqn:E1; [|destruct C]. destruct C as (-> & C1 & C2 & C3 & C4 & C5 & C6).
  assert (Hs : sup_mode m = true) by (unfold sup_mode; rewrite C2; reflexivity). assert (Hsp : sp_of m = R_ssp) by (unfold sp_of; rewrite Hs; reflexivity).
  exists m, mem1, m1, l. split; [eapply demo_reachable; eauto|]. split; [apply exec_check_sound; auto|].
  split; [|split; [exact C1|split; [rewrite Hs; reflexivity|split; [rewrite Hsp; discriminate|discriminate]]]].
  split; [eapply demo_ram; eauto|]. split; [reflexivity|]. split; [vm_compute; discriminate|]. split; [vm_compute; discriminate|]. rewrite Hsp, C3. split; [reflexivity|].
  intros k w Hk. destruct k as [|[|[|k]]]; cbn in Hk; [injection Hk as <-; exact C4|injection Hk as <-; exact C5|injection Hk as <-; exact C6|destruct k; discriminate].
Qed.
