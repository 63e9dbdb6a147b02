(** Warnings (C93). *)
From Coq Require Import String ZArith List Bool Lia.
From Verif Require Import Base Board Mem Cpu Asm Tools Devices LasmRules Lasm Console Warn SpecMach SpecMap SpecConsole SpecWarn SpecDev BaseFacts MemFacts MapFacts ConsoleFacts Demo
  ReachFacts DevTyped ProofMap ProofIo.
Import ListNotations.
Open Scope string_scope.
Open Scope Z_scope.
Ltac Zify.zify_post_hook ::= Z.div_mod_to_equations.

Lemma hex10 a : 0 <= a < 2 ^ 32 -> hex_of 8 (fmt_hex10 a) a.
Proof. intros H. apply hex_reads; [lia|]. split; [lia|]. eapply Z.lt_trans; [apply H|]. apply Z.pow_lt_mono_r; lia. Qed.
Lemma found D oc (m : memory D) a : tidy oc m ->
  (find_o (covers oc a) (mm_maps m) = Ret None /\ nothing_at m a) \/ (exists mp, find_o (covers oc a) (mm_maps m) = Ret (Some mp) /\ ~ nothing_at m a).
Proof.
  intros T. rewrite (find_o_ret _ (fun mp => (mp_addr mp <=? a) && (a <? mp_addr mp + mp_size mp))) by (intros; eapply tidy_covers; eauto).
  destruct (find _ _) as [mp|] eqn:Ef.
  - right. exists mp. split; [reflexivity|]. intros N. apply find_some in Ef. destruct Ef as (I & B). apply andb_prop in B. destruct B as [B1 B2]. apply Z.leb_le in B1. apply Z.ltb_lt in B2. apply (N mp I). split; lia.
  - left. split; [reflexivity|]. intros mp I (O1 & O2). pose proof (find_none _ _ Ef mp I) as F. cbn beta in F. apply andb_false_iff in F. rewrite Z.leb_gt, Z.ltb_ge in F. lia.
Qed.
(** A debug build warns of a read or a write exactly when no component is mapped at the address, and says the address; a release build never does. *)
Lemma P_C93_read : forall D (m : memory D) debug oc a, tidy oc m -> 0 <= a < 2 ^ 32 -> a mod 4 = 0 ->
  (debug = true /\ nothing_at m a -> warns_of "read" a (read_warning debug oc m a)) /\
  (~ (debug = true /\ nothing_at m a) -> read_warning debug oc m a = []).
Proof.
  intros D m debug oc a T Ha Hal. unfold read_warning. rewrite (proj2 (Z.eqb_eq _ _) Hal). destruct (found D oc m a T) as [(F & N)|(mp & F & N)]; rewrite F; split.
  - intros (-> & _). eexists. split; [reflexivity|]. apply hex10; auto.
  - intros X. destruct debug; [tauto|reflexivity].
  - tauto.
  - reflexivity.
Qed.
(** In debug mode a store where nothing is mapped warns, naming the address; otherwise nothing is printed. *)
Lemma P_C93_write : forall D (m : memory D) debug oc a, tidy oc m -> 0 <= a < 2 ^ 32 -> a mod 4 = 0 ->
  (debug = true /\ nothing_at m a -> warns_of "write" a (write_warning debug oc m a)) /\
  (~ (debug = true /\ nothing_at m a) -> write_warning debug oc m a = []).
Proof.
  intros D m debug oc a T Ha Hal. unfold write_warning. rewrite (proj2 (Z.eqb_eq _ _) Hal). destruct (found D oc m a T) as [(F & N)|(mp & F & N)]; rewrite F; split.
  - intros (-> & _). eexists. split; [reflexivity|]. apply hex10; auto.
  - intros X. destruct debug; [tauto|reflexivity].
  - tauto.
  - reflexivity.
Qed.
(** The answer to a request that was warned of: a read gives 0, a write changes nothing, no exception. *)
Lemma P_C93_harmless : forall D (ops : bus_ops D) (m : memory D) debug oc a w, mem_wf m -> tidy oc m -> is_u32 a -> a mod 4 = 0 ->
  (read_warning debug oc m a <> [] -> mem_read ops oc m a = Ret (m, 0, 0)) /\ (write_warning debug oc m a <> [] -> mem_write ops oc m a w = Ret (m, 0)).
Proof.
  intros D ops m debug oc a w Wm T Ua Hal. assert (X : nothing_at m a -> mem_read ops oc m a = Ret (m, 0, 0) /\ mem_write ops oc m a w = Ret (m, 0)).
  { intros N. destruct (P_C34_unmapped D ops oc m a Wm Ua Hal N) as (A & B). auto. }
  unfold read_warning, write_warning. rewrite (proj2 (Z.eqb_eq _ _) Hal). destruct (found D oc m a T) as [(F & N)|(mp & F & N)]; rewrite F; [|split; congruence].
  destruct (X N). auto.
Qed.
(** A file-backed memory warns exactly when the length of the file is not a number of words. *)
Lemma P_C93_open : forall f wr id, zlen f < 2 ^ 32 ->
  (Z.divide 4 (zlen f) -> open_warning f = Some []) /\
  (~ Z.divide 4 (zlen f) -> open_warning f = Some ["Warning: opened unaligned file as aligned (rounded size to nearest lower multiple of 4 bytes)"] /\
     exists d, fm_open f wr id = Ret d /\ fm_size d = 4 * (zlen f / 4) /\ fm_real_size d = 4 * (zlen f / 4)).
Proof.
  intros f wr id L. unfold open_warning, fm_open. change (2 ^ 32) with 4294967296 in L. rewrite (proj2 (Z.ltb_lt _ _) L). split.
  - intros (k & H). rewrite (proj2 (Z.eqb_eq _ _)) by lia. reflexivity.
  - intros H. rewrite (proj2 (Z.eqb_neq _ _)); [|intros E; apply H; exists (zlen f / 4); lia]. split; [reflexivity|]. eexists. split; [reflexivity|]. cbn [fm_size fm_real_size]. split; lia.
Qed.
Lemma fill_warns_spec len : forall bytes bi pos, 0 <= bi <= 3 -> 0 <= pos <= len ->
  fill_warns len bytes bi pos = (4 * len <? 4 * pos + bi + zlen bytes).
Proof.
  induction bytes as [|b t IH]; intros bi pos Hb Hp; cbn [fill_warns].
  - unfold zlen. cbn [List.length]. destruct (Z.ltb_spec 0 bi); [|symmetry; apply Z.ltb_ge; lia]. destruct (Z.leb_spec len pos); symmetry; [apply Z.ltb_lt|apply Z.ltb_ge]; lia.
  - assert (E : zlen (b :: t) = 1 + zlen t) by (unfold zlen; cbn [List.length]; lia). assert (0 <= zlen t) by (unfold zlen; lia). rewrite E.
    destruct (Z.eqb_spec bi 3) as [->|].
    + destruct (Z.leb_spec len pos); [symmetry; apply Z.ltb_lt; lia|]. rewrite IH by lia. f_equal. lia.
    + rewrite IH by lia. f_equal. lia.
Qed.
(** The line keyboard warns exactly when it is told to ask for a line and the line has more bytes than its buffer; it says how many this is. *)
Lemma P_C93_line : forall l id input k addr w, 4 * zlen l + 4 < 2 ^ 32 -> in_range (4 * zlen l + 4) (Write addr w) ->
  let d := LineKeyboard l (zlen l) id input k in
  let too_long := addr = 4 * zlen l /\ w = 170 /\ 4 * zlen l < zlen (input k) in
  (too_long -> warns_too_long (4 * zlen l) (line_warning d addr w)) /\ (~ too_long -> line_warning d addr w = []).
Proof.
  intros l id input k addr w L (Ha & Hal & Hw) d too_long. assert (0 <= zlen l) by (unfold zlen; lia). unfold line_warning, d. cbn [lk_capacity lk_buffer lk_input lk_used].
  assert (A : (addr / 4 =? zlen l) = true <-> addr = 4 * zlen l) by (rewrite Z.eqb_eq; lia).
  rewrite fill_warns_spec by lia. replace (4 * 0 + 0 + zlen (input k)) with (zlen (input k)) by lia. split.
  - intros (X & -> & Y). rewrite (proj2 A X). cbn [negb Z.eqb Pos.eqb]. rewrite (proj2 (Z.ltb_lt _ _) Y). eexists. split; [reflexivity|]. rewrite Z.mul_comm. apply number_reads; [lia|]. split; [lia|]. eapply Z.lt_trans with (2 ^ 32); [lia|]. reflexivity.
  - intros N. destruct (addr / 4 =? zlen l) eqn:E; cbn [negb]; [|reflexivity]. apply Z.eqb_eq in E. destruct (Z.eqb_spec w 170) as [->|]; [|reflexivity]. destruct (Z.ltb_spec (4 * zlen l) (zlen (input k))); [|reflexivity]. destruct N. split; [lia|split; [reflexivity|assumption]].
Qed.

Lemma E_C93_read : exists (m : memory device), tidy true m /\ nothing_at m 100 /\ ~ nothing_at m 4 /\
  read_warning true true m 100 = ["Warning: tried to read non-mapped memory at address 0x00000064"] /\ read_warning true true m 4 = [] /\ read_warning false true m 100 = [].
Proof.
  exists (Memory [] [Mapping 0 0 0 64]). split; [|split; [|split]].
  - split; [|split]; cbn [mm_maps map].
    + constructor; [intros []|constructor].
    + intros mp [<-|[]]. unfold fits. cbn [mp_addr mp_size]. repeat split; lia.
    + intros mp mp' a [<-|[]] [<-|[]] _ _. reflexivity.
  - intros mp [<-|[]] (A & B). cbn in *. lia.
  - intros N. apply (N (Mapping 0 0 0 64)); [left; reflexivity|]. split; cbn; lia.
  - repeat split; vm_compute; reflexivity.
Qed.
Lemma E_C93_write : nothing_at (Memory [] [Mapping 0 0 0 64] : memory device) 100 /\
  write_warning true true (Memory [] [Mapping 0 0 0 64] : memory device) 100 = ["Warning: tried to write non-mapped memory at address 0x00000064"] /\
  write_warning true true (Memory [] [Mapping 0 0 0 64] : memory device) 60 = [].
Proof. split; [|split; vm_compute; reflexivity]. intros mp [<-|[]] (A & B). cbn in *. lia. Qed.
Lemma E_C93_harmless : write_warning true true (Memory [] [Mapping 0 0 0 64] : memory device) 64 <> [] /\ read_warning true true (Memory [] [Mapping 0 0 0 64] : memory device) 64 <> [].
Proof. split; vm_compute; discriminate. Qed.
Lemma E_C93_line : let d := LineKeyboard [0; 0] 2 5 (fun _ => [72; 101; 108; 108; 111; 33; 33; 33; 33]) 0 in
  in_range 12 (Write 8 170) /\ line_warning d 8 170 = ["Warning: input is too long for synchronous keyboard's buffer (max. 8 bytes)"] /\
  line_warning (LineKeyboard [0; 0] 2 5 (fun _ => [72; 101; 108; 108; 111; 33; 33; 33]) 0) 8 170 = [].
Proof. cbn zeta. split; [unfold in_range, is_u32; repeat split; lia|]. split; vm_compute; reflexivity. Qed.
Lemma E_C93_open : open_warning [1; 2; 3; 4; 5] = Some ["Warning: opened unaligned file as aligned (rounded size to nearest lower multiple of 4 bytes)"] /\ open_warning [1; 2; 3; 4] = Some [].
Proof. split; vm_compute; reflexivity. Qed.
