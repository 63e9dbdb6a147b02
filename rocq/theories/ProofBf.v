(** Proofs about the brainfuck example. *)
From Coq Require Import String ZArith List Bool Lia.
From Verif Require Import Base BaseFacts Board Mem Cpu Asm Tools Devices Runner LasmRules Lasm Sources Examples SpecMach SpecIsa SpecBus SpecObs SpecMap SpecDev SpecRun SpecPanic SpecBf.
From Verif Require Import Counter RegFacts MemFacts MapFacts CycleFacts CyclePost ReachFacts InvFacts DevTyped ProofMap ProofBoard ProofReg ProofRun ProofCrash ProofRom ProofDev ProofIo SymFacts BfFacts BfRun.
Import ListNotations.
Open Scope list_scope.
Open Scope Z_scope.
Ltac Zify.zify_post_hook ::= Z.div_mod_to_equations.

(** The line in the buffer of the keyboard. *)
Lemma byte_of_word a b c d k : is_u8 a -> is_u8 b -> is_u8 c -> is_u8 d -> 0 <= k < 4 ->
  m32 ((a * 2 ^ 24 + b * 2 ^ 16 + c * 2 ^ 8 + d) * 2 ^ (8 * k)) / 2 ^ 24 = if k =? 0 then a else if k =? 1 then b else if k =? 2 then c else d.
Proof.
  unfold is_u8, m32. intros A B C D K. change (2 ^ 24) with 16777216. change (2 ^ 16) with 65536. change (2 ^ 8) with 256.
  destruct (Z.eq_dec k 0) as [->|]; [change (2 ^ (8 * 0)) with 1; cbn [Z.eqb]; lia|].
  destruct (Z.eq_dec k 1) as [->|]; [change (2 ^ (8 * 1)) with 256; cbn [Z.eqb Pos.eqb]; lia|].
  destruct (Z.eq_dec k 2) as [->|]; [change (2 ^ (8 * 2)) with 65536; cbn [Z.eqb Pos.eqb]; lia|].
  assert (k = 3) as -> by lia. change (2 ^ (8 * 3)) with 16777216. cbn [Z.eqb Pos.eqb]. lia.
Qed.
Lemma firstn_nth (l : list Z) n k : nth k (firstn n l) 0 = if (k <? n)%nat then nth k l 0 else 0.
Proof.
  revert l k. induction n as [|n IH]; intros l k; [destruct k; reflexivity|]. destruct l as [|x l]; cbn [firstn]; [destruct k; destruct (_ <? _)%nat; reflexivity|].
  destruct k as [|k]; [reflexivity|]. cbn [nth]. rewrite IH. reflexivity.
Qed.
Lemma line_filled typed : Forall is_u8 typed -> exists l, lk_fill (zeros 1023) typed 0 0 0 = Ret l /\ zlen l = 1023 /\
  forall p, 0 <= p < 4096 -> is_u32 (nth (Z.to_nat (p / 4)) l 0) /\ line_byte l p = char_at (firstn 4092 typed) p.
Proof.
  intros H8. destruct (lk_fill_spec typed (zeros 1023) 0 H8 ltac:(lia)) as (l & El & Ll & G). rewrite zeros_length in Ll, G by lia. exists l. split; [exact El|]. split; [exact Ll|].
  intros p Hp. unfold line_byte, char_at. rewrite firstn_nth.
  assert (X8 : forall k, is_u8 (nth k typed 0)). { intros k. destruct (nth_in_or_default k typed 0) as [Y| ->]; [|unfold is_u8; lia]. rewrite Forall_forall in H8. auto. }
  destruct (Z.lt_ge_cases (p / 4) 1023) as [Lp|Lp].
  - assert (Hw : nth (Z.to_nat (p / 4)) l 0 = line_word typed (p / 4)).
    { rewrite G by lia. destruct (Z.leb_spec 0 (p / 4)); [|lia]. cbn [andb]. rewrite Z.sub_0_r. destruct (Z.ltb_spec (4 * (p / 4)) (zlen typed)) as [X|X]; [reflexivity|].
      assert (N : forall k, 0 <= k -> nth (Z.to_nat (4 * (p / 4) + k)) typed 0 = 0) by (intros k Hk; apply nth_overflow; unfold zlen in X; lia).
      unfold line_word, file_word. rewrite !N by lia. unfold zeros. rewrite nth_repeat. reflexivity. }
    rewrite Hw. split; [apply line_word_u32; exact H8|]. unfold line_word, file_word. rewrite byte_of_word; auto; [|lia].
    destruct (Nat.ltb_spec (Z.to_nat p) 4092) as [_|Y]; [|lia].
    destruct (Z.eqb_spec (p mod 4) 0); [f_equal; lia|]. destruct (Z.eqb_spec (p mod 4) 1); [f_equal; lia|]. destruct (Z.eqb_spec (p mod 4) 2); f_equal; lia.
  - rewrite nth_overflow by (unfold zlen in Ll; lia). split; [unfold is_u32; lia|]. destruct (Nat.ltb_spec (Z.to_nat p) 4092) as [Y|_]; [lia|]. unfold m32. rewrite Z.mul_0_l. reflexivity.
Qed.

(** Booting. *)
Definition bf_texts : list (nat * list Z) := [(192%nat, t_welcome); (216%nat, t_running); (226%nat, t_error); (234%nat, t_indent); (237%nat, t_exiting); (245%nat, chars "Unknown symbol ");
  (250%nat, chars "No loop opened, cannot close one."); (260%nat, chars "Program exited before closing all loops: "); (272%nat, chars " were not closed, last one at character "); (283%nat, t_goodbye)].
Lemma message_shown j t w : In (j, t) bf_texts -> w_shown (show_message j w) = w_shown w ++ [shows t].
Proof.
  intros I. assert (X : (false, words_to_bytes (message_at j ++ zeros (1023 - zlen (message_at j)))) = shows t).
  { unfold bf_texts in I. cbn [In] in I. repeat (destruct I as [I|I]; [injection I as <- <-; vm_compute; reflexivity|]). contradiction. }
  unfold show_message. cbn [w_shown set_disp]. rewrite X. reflexivity.
Qed.
Ltac intext := unfold bf_texts; cbn [In]; tauto.
Section Boot.
Context (oc : bool) (lines : nat -> list Z) (keys : nat -> Z) (id0 id1 id2 id3 id4 id5 id6 id7 : Z).
Hypothesis (H8 : Forall is_u8 (lines O)) (Hkeys : forall k, is_u32 (keys k)).
Notation line := (firstn 4092 (lines O)).
Notation ops := (dev_ops oc).
Notation Sim := (Sim id0 id1 id2 id3 id4 id5 id6 id7 1024 1024 lines keys).
Notation Halted := (Halted id0 id1 id2 id3 id4 id5 id6 id7 1024 1024 lines keys).
Notation rel := (rel line).
Definition bf_w0 (z : list Z) : bfw := Bfw z z (zeros 1023) [] (zeros 1023) 0 0 0 [] [].
Definition bf_ds : list device := [bf_rom id0; DRam (StoreMem (zeros 4096) 1024 id1); DRam (StoreMem (zeros 4096) 1024 id2);
  DBuf (BufDisplay (zeros 1023) 1023 id3 []); DKeyLine (LineKeyboard (zeros 1023) 1023 id4 lines 0); DKeyChar (CharKeyboard 0 id5 keys 0); DChar (CharDisplay id6 []); DNum (NumDisplay id7 [])].
Lemma bf_main_exec fuel : brainfuck_main oc fuel lines keys id0 id1 id2 id3 id4 id5 id6 id7 = exec_vm ops oc fuel (with_print_finish false config_halt_on_ex) bf_ds.
Proof.
  unfold brainfuck_main. rewrite bf_assembled. cbn [unwrap obind]. change (br_with_size bf_words 4096 id0) with (Some (BootRom bf_words 289 1024 id0)). cbn [unwrap obind].
  change (sm_new 4096 id1) with (Some (StoreMem (zeros 4096) 1024 id1)). change (sm_new 4096 id2) with (Some (StoreMem (zeros 4096) 1024 id2)). cbn [unwrap obind].
  change (bd_new 4096 id3) with (Some (BufDisplay (zeros 1023) 1023 id3 [])). change (lk_new 4096 id4 lines) with (Some (LineKeyboard (zeros 1023) 1023 id4 lines 0)). cbn [unwrap obind]. reflexivity.
Qed.
Lemma bf_boot : exists m0, prepare_vm ops oc bf_ds = Ret m0 /\ wf m0 /\ holds (bf_rom id0) bf_szs m0 /\
  exists n s w, quiet ops bf_words n (abs m0) s /\ Sim bf_init w s /\ rel bf_init w /\ w_out w = [] /\ w_num w = [] /\ w_shown w = map shows [t_welcome; t_running].
Proof.
  assert (HD : Forall2 (declares ops) bf_ds bf_szs).
  { unfold bf_ds, bf_szs, bf_rom. repeat (apply Forall2_cons; [unfold declares; destruct oc; eexists; split; reflexivity|]). apply Forall2_nil. }
  destruct (booted_board _ ops oc bf_ds bf_szs (dev_typed oc) HD) as (m0 & ds' & Em & W & Ea & Rs & B & _).
  { intros d I. unfold bf_ds in I. cbn [In] in I. repeat (destruct I as [<-|I]; [eexists; reflexivity|]). contradiction. }
  { repeat constructor; try (vm_compute; reflexivity); try (vm_compute; discriminate). }
  exists m0. split; [exact Em|]. split; [exact W|].
  assert (Z4 : zlen (zeros 4096) = 4096) by (apply zeros_length; lia). assert (Z3 : zlen (zeros 1023) = 1023) by (apply zeros_length; lia).
  assert (Hds : ds' = bf_devs id0 id1 id2 id3 id4 id5 id6 id7 1024 1024 lines keys (bf_w0 (zeros 4096))).
  { clear -Rs Z4 Z3. unfold bf_ds in Rs. inversion Rs as [|? d0 ? l1 X0 Rs1]; subst. inversion Rs1 as [|? d1 ? l2 X1 Rs2]; subst. inversion Rs2 as [|? d2 ? l3 X2 Rs3]; subst. inversion Rs3 as [|? d3 ? l4 X3 Rs4]; subst.
    inversion Rs4 as [|? d4 ? l5 X4 Rs5]; subst. inversion Rs5 as [|? d5 ? l6 X5 Rs6]; subst. inversion Rs6 as [|? d6 ? l7 X6 Rs7]; subst. inversion Rs7 as [|? d7 ? l8 X7 Rs8]; subst. inversion Rs8; subst. clear Rs Rs1 Rs2 Rs3 Rs4 Rs5 Rs6 Rs7 Rs8.
    unfold bf_devs, bf_w0, bf_rom in *. cbn [bo_reset dev_ops wrap_o sm_reset bd_clear lk_clear ck_reset sm_storage sm_size sm_hw_id bd_buffer bd_words bd_hw_id bd_calls lk_buffer lk_capacity lk_hw_id lk_input lk_used] in *.
    unfold wrap_o, sm_reset, bd_clear, lk_clear, ck_reset in *. cbn [obind sm_storage sm_size sm_hw_id bd_buffer bd_words bd_hw_id bd_calls lk_buffer lk_capacity lk_hw_id lk_input lk_used] in *. rewrite Z4 in *. rewrite Z3 in *.
    repeat match goal with H : Ret _ = Ret _ |- _ => apply Ret_inj in H; subst end. reflexivity. }
  subst ds'. split; [exists (bf_devs id0 id1 id2 id3 id4 id5 id6 id7 1024 1024 lines keys (bf_w0 (zeros 4096))); split; [exact B|reflexivity]|].
  destruct (line_filled (lines O) H8) as (l & El & Ll & Gl).
  destruct (bf_start oc id0 id1 id2 id3 id4 id5 id6 id7 1024 1024 lines keys (c_mem m0) 0 (bf_w0 (zeros 4096)) l B) as (n & s & Q & M).
  { cbn [w_stk bf_w0]. rewrite Z4. lia. } { reflexivity. } { exact El. }
  exists n, s. eexists. split; [rewrite Ea; exact Q|]. split; [exact M|]. split; [|split; [reflexivity|split; [reflexivity|]]].
  - split; [|split; [|split; [|split; [|split; [|split; [|split]]]]]].
    + intros i Hi. cbn [w_cells show_message set_disp set_line bf_w0 bf_init b_tape]. destruct (znth_some (zeros 4096) i) as (x & Ex); [rewrite Z4; lia|]. rewrite Ex. f_equal. unfold zeros in Ex. apply znth_In in Ex. apply repeat_spec in Ex. exact Ex.
    + intros i. cbn. unfold is_u32. lia.
    + reflexivity.
    + split; [exact Ll|exact Gl].
    + reflexivity.
    + cbn. lia.
    + constructor.
    + cbn. lia.
  - rewrite (message_shown 216 t_running) by intext. cbn [w_shown set_line]. rewrite (message_shown 192 t_welcome) by intext. reflexivity.
Qed.
Lemma bf_read j w : nth_error bf_words j = Some w -> bo_read ops (bf_rom id0) (4 * Z.of_nat j) = Ret (bf_rom id0, 0, w).
Proof.
  intros Hj. assert (Lj : (j < 289)%nat) by (change 289%nat with (length bf_words); apply nth_error_Some; congruence).
  assert (Uw : is_u32 w) by (eapply Forall_forall; [apply bf_words_u32|eapply nth_error_In; eauto]).
  unfold bf_rom. cbn [bo_read dev_ops]. unfold br_read. cbn [br_len br_storage]. destruct (Z.ltb_spec (4 * Z.of_nat j / 4) 289); [|lia].
  unfold vget. rewrite znth_nth by lia. replace (Z.to_nat (4 * Z.of_nat j / 4)) with j by lia. rewrite Hj. cbn [unwrap obind wrap_r]. rewrite (u32_id w Uw). reflexivity.
Qed.
Lemma bf_fixed r d' xs : serve ops (bf_rom id0) [r] = Ret (d', xs) -> d' = bf_rom id0.
Proof.
  destruct r as [a|a w|]; unfold bf_rom; cbn [serve bo_read bo_write bo_reset dev_ops]; unfold br_read, br_write; cbn [br_len br_storage]; [|intros X; injection X as <- _; reflexivity..].
  destruct (a / 4 <? 289); [|intros X; injection X as <- _; reflexivity]. destruct (vget bf_words (a / 4)); [|discriminate]. intros X; injection X as <- _; reflexivity.
Qed.
(** From a state where the program halts: what is displayed. *)
Lemma bf_ends n s w' : bf_steps line keys n bf_init s ->
  (forall w, rel s w -> w_out w = map char_from_u32 (b_out s) -> w_num w = [] -> w_shown w = map shows [t_welcome; t_running] -> leads oc (Sim s w) (Halted (w' w))) ->
  exists needed w, w_out w = map char_from_u32 (b_out s) /\ w_num w = [] /\ w_shown w = map shows [t_welcome; t_running] /\
    forall fuel, (needed <= fuel)%nat -> exists m cycles a, brainfuck_main oc fuel lines keys id0 id1 id2 id3 id4 id5 id6 id7 = Ret (Some (m, Stopped cycles a None)) /\ c_halted m = true /\
      texts_shown 3 m = Some (w_shown (w' w)) /\ chars_shown 6 m = Some (w_out (w' w)) /\ numbers_shown 7 m = Some (w_num (w' w)).
Proof.
  intros HS HE. destruct bf_boot as (m0 & Em & W & Hh & n0 & s0 & w & Q0 & S0 & R0 & O0 & N0 & Sh0).
  assert (LL : zlen line <= 4092) by (unfold zlen; pose proof (firstn_le_length 4092 (lines O)); lia).
  assert (L8 : Forall is_u8 line) by (apply Forall_forall; intros x I; rewrite Forall_forall in H8; apply H8; rewrite <- (firstn_skipn 4092 (lines O)); apply in_or_app; auto).
  destruct (sim_steps oc id0 id1 id2 id3 id4 id5 id6 id7 1024 1024 lines keys line L8 LL Hkeys n bf_init w s R0 HS) as (w1 & R1 & A1 & A2 & (o & A3 & A4) & X).
  destruct (X s0 S0) as (k & s1 & _ & Q1 & S1). assert (O1 : w_out w1 = map char_from_u32 (b_out s)). { rewrite A4, A3, O0. reflexivity. }
  destruct (HE w1 R1 O1 ltac:(congruence) ltac:(congruence) s1 S1) as (k2 & s2 & Q2 & (Hhalt & Het & stk & B2)).
  exists (S (n0 + (k + S k2)))%nat, w1. split; [exact O1|]. split; [congruence|]. split; [congruence|]. intros fuel Hf.
  destruct (gquiet_exec ops oc (dev_typed oc) bf_words (bf_rom id0) bf_szs 4096 bf_read bf_fixed eq_refl ltac:(cbn; lia) (n0 + (k + S k2)) bf_ds m0 s2 (with_print_finish false config_halt_on_ex) fuel Em W Hh eq_refl) as (m & a & E & A & _); auto.
  { eapply quiet_app; [exact Q0|]. eapply quiet_app; [exact Q1|exact Q2]. }
  exists m, (s_cyc s2), a. rewrite bf_main_exec. split; [exact E|]. split. { change (s_halt (abs m) = true). rewrite A. exact Hhalt. }
  rewrite <- A in B2. destruct B2 as (_ & _ & B2 & _). cbn [abs s_bus] in B2. unfold texts_shown, chars_shown, numbers_shown, c_hwb.
  destruct (devs_znth _ _ _ 3 _ B2 eq_refl) as (e3 & Z3 & D3). destruct (devs_znth _ _ _ 6 _ B2 eq_refl) as (e6 & Z6 & D6). destruct (devs_znth _ _ _ 7 _ B2 eq_refl) as (e7 & Z7 & D7).
  change (Z.of_nat 3) with 3 in Z3. change (Z.of_nat 6) with 6 in Z6. change (Z.of_nat 7) with 7 in Z7. rewrite Z3, Z6, Z7. destruct e3 as [d3 x3], e6 as [d6 x6], e7 as [d7 x7]. cbn [ae_dev] in D3, D6, D7. subst. auto.
Qed.
End Boot.

(** The brainfuck example, in release and debug builds, for any line typed (the keyboard keeps its first 4092 bytes) and any keys typed later:
    the program follows the interpreter of SpecBf.v. When the interpreter finishes, the virtual machine halts without exception; the buffered
    display was given the three messages, the character display the values shown by the program, and the number display nothing. *)
Lemma P_C78_finishes : forall oc lines keys id0 id1 id2 id3 id4 id5 id6 id7 n s, Forall is_u8 (lines O) -> (forall k, is_u32 (keys k)) ->
  bf_steps (firstn 4092 (lines O)) keys n bf_init s -> bf_step (firstn 4092 (lines O)) keys s = Finishes ->
  exists needed, forall fuel, (needed <= fuel)%nat -> exists m cycles a,
    brainfuck_main oc fuel lines keys id0 id1 id2 id3 id4 id5 id6 id7 = Ret (Some (m, Stopped cycles a None)) /\ c_halted m = true /\
    displays m [t_welcome; t_running; t_goodbye] (b_out s) [].
Proof.
  intros oc lines keys id0 id1 id2 id3 id4 id5 id6 id7 n s H8 Hk HS HF.
  destruct (bf_ends oc lines keys id0 id1 id2 id3 id4 id5 id6 id7 H8 Hk n s (show_message 283) HS) as (needed & w & O1 & N1 & S1 & K).
  { intros w R _ _ _. apply (sim_finishes oc _ _ _ _ _ _ _ _ _ _ _ _ (firstn 4092 (lines O)) s w R HF). }
  exists needed. intros fuel Hf. destruct (K fuel Hf) as (m & cycles & a & E & Hh & T1 & T2 & T3). exists m, cycles, a. split; [exact E|]. split; [exact Hh|].
  unfold displays. rewrite T1, T2, T3. rewrite (message_shown 283 t_goodbye) by intext. rewrite S1. cbn [show_message w_out w_num set_disp]. rewrite O1, N1. auto.
Qed.

(** When the interpreter fails, the virtual machine halts without exception; the displays were given what the program had shown, and the report
    of the error. *)
Lemma P_C78_fails : forall oc lines keys id0 id1 id2 id3 id4 id5 id6 id7 n s position e, Forall is_u8 (lines O) -> (forall k, is_u32 (keys k)) ->
  bf_steps (firstn 4092 (lines O)) keys n bf_init s -> bf_step (firstn 4092 (lines O)) keys s = Fails position e ->
  exists needed, forall fuel, (needed <= fuel)%nat -> exists m cycles a,
    brainfuck_main oc fuel lines keys id0 id1 id2 id3 id4 id5 id6 id7 = Ret (Some (m, Stopped cycles a None)) /\ c_halted m = true /\
    displays m ([t_welcome; t_running; t_error; t_indent] ++ error_texts e ++ [t_exiting]) (b_out s ++ error_chars e) (error_numbers position e).
Proof.
  intros oc lines keys id0 id1 id2 id3 id4 id5 id6 id7 n s position e H8 Hk HS HF.
  assert (LL : zlen (firstn 4092 (lines O)) <= 4092) by (unfold zlen; pose proof (firstn_le_length 4092 (lines O)); lia).
  assert (L8 : Forall is_u8 (firstn 4092 (lines O))) by (apply Forall_forall; intros x I; rewrite Forall_forall in H8; apply H8; rewrite <- (firstn_skipn 4092 (lines O)); apply in_or_app; auto).
  destruct (bf_ends oc lines keys id0 id1 id2 id3 id4 id5 id6 id7 H8 Hk n s (failed position e) HS) as (needed & w & O1 & N1 & S1 & K).
  { intros w R _ _ _. apply (sim_fails oc _ _ _ _ _ _ _ _ _ _ _ _ (firstn 4092 (lines O)) L8 LL s w position e R HF). }
  exists needed. intros fuel Hf. destruct (K fuel Hf) as (m & cycles & a & E & Hh & T1 & T2 & T3). exists m, cycles, a. split; [exact E|]. split; [exact Hh|].
  unfold displays. rewrite T1, T2, T3. clear -S1 O1 N1.
  assert (A1 : forall j v, w_out (show_message j v) = w_out v) by reflexivity. assert (A2 : forall j v, w_num (show_message j v) = w_num v) by reflexivity.
  assert (A3 : forall c v, w_out (show_char c v) = w_out v ++ [char_from_u32 c]) by reflexivity. assert (A4 : forall c v, w_num (show_char c v) = w_num v) by reflexivity. assert (A5 : forall c v, w_shown (show_char c v) = w_shown v) by reflexivity.
  assert (A6 : forall c v, w_out (show_dec c v) = w_out v) by reflexivity. assert (A7 : forall c v, w_num (show_dec c v) = w_num v ++ [(c, NDec, true)]) by reflexivity. assert (A8 : forall c v, w_shown (show_dec c v) = w_shown v) by reflexivity.
  assert (A9 : forall c v, w_out (show_hex c v) = w_out v) by reflexivity. assert (A10 : forall c v, w_num (show_hex c v) = w_num v ++ [(c, NHex, false)]) by reflexivity. assert (A11 : forall c v, w_shown (show_hex c v) = w_shown v) by reflexivity.
  pose proof (fun v => message_shown 226 t_error v ltac:(intext)) as M1. pose proof (fun v => message_shown 234 t_indent v ltac:(intext)) as M2. pose proof (fun v => message_shown 237 t_exiting v ltac:(intext)) as M3.
  pose proof (fun v => message_shown 245 (chars "Unknown symbol ") v ltac:(intext)) as M4. pose proof (fun v => message_shown 250 (chars "No loop opened, cannot close one.") v ltac:(intext)) as M5.
  pose proof (fun v => message_shown 260 (chars "Program exited before closing all loops: ") v ltac:(intext)) as M6. pose proof (fun v => message_shown 272 (chars " were not closed, last one at character ") v ltac:(intext)) as M7.
  destruct e as [b| |h q]; unfold failed, unknown_error, unclosed_error, header; cbn [error_texts error_chars error_numbers];
    repeat (rewrite ?A1, ?A2, ?A3, ?A4, ?A5, ?A6, ?A7, ?A8, ?A9, ?A10, ?A11, ?M1, ?M2, ?M3, ?M4, ?M5, ?M6, ?M7); rewrite O1, N1, S1, ?map_app, ?app_nil_r, <- ?app_assoc; cbn [map app]; auto.
Qed.

(** When the interpreter goes on for ever, so does the virtual machine. *)
Lemma P_C78_forever : forall oc lines keys id0 id1 id2 id3 id4 id5 id6 id7 fuel, Forall is_u8 (lines O) -> (forall k, is_u32 (keys k)) ->
  (forall n, exists s, bf_steps (firstn 4092 (lines O)) keys n bf_init s) ->
  brainfuck_main oc fuel lines keys id0 id1 id2 id3 id4 id5 id6 id7 = Ret None.
Proof.
  intros oc lines keys id0 id1 id2 id3 id4 id5 id6 id7 fuel H8 Hk HS. destruct (HS (S fuel)) as (s & Hs).
  assert (LL : zlen (firstn 4092 (lines O)) <= 4092) by (unfold zlen; pose proof (firstn_le_length 4092 (lines O)); lia).
  assert (L8 : Forall is_u8 (firstn 4092 (lines O))) by (apply Forall_forall; intros x I; rewrite Forall_forall in H8; apply H8; rewrite <- (firstn_skipn 4092 (lines O)); apply in_or_app; auto).
  destruct (bf_boot oc lines keys id0 id1 id2 id3 id4 id5 id6 id7 H8 Hk) as (m0 & Em & W & Hh & n0 & s0 & w & Q0 & S0 & R0 & _).
  destruct (sim_steps oc id0 id1 id2 id3 id4 id5 id6 id7 1024 1024 lines keys (firstn 4092 (lines O)) L8 LL Hk (S fuel) bf_init w s R0 Hs) as (w1 & _ & _ & _ & _ & X).
  destruct (X s0 S0) as (k & s1 & Lk & Q1 & _). rewrite bf_main_exec.
  apply (gquiet_forever (dev_ops oc) oc (dev_typed oc) bf_words (bf_rom id0) bf_szs 4096 (fun j w => bf_read oc keys id0 Hk j w) (bf_fixed oc id0) eq_refl ltac:(cbn; lia) (n0 + k) (bf_ds lines keys id0 id1 id2 id3 id4 id5 id6 id7) m0 s1 (with_print_finish false config_halt_on_ex) fuel Em W Hh eq_refl); [|lia].
  eapply quiet_app; eauto.
Qed.

(** ** Programs *)
Scheme entered_turns := Minimality for entered Sort Prop with turns_entered := Minimality for turns_of Sort Prop.
Combined Scheme entered_both from entered_turns, turns_entered.
(** The states correspond. *)
Definition agrees (s : bf_state) (r : bf_mem) : Prop :=
  b_ptr s = 4 * m_cell r /\ (forall i, b_tape s i = m_tape r i) /\ b_keys s = m_keys r /\ b_out s = m_out r.
Definition has_text (line : list Z) (pos : Z) (t : list Z) : Prop := exists pre post, line = pre ++ t ++ post /\ zlen pre = pos.
Lemma text_char line pos c t : has_text line pos (c :: t) -> char_at line pos = c /\ has_text line (pos + 1) t.
Proof.
  intros (pre & post & -> & <-). split.
  - unfold char_at, zlen. rewrite Nat2Z.id, app_nth2, Nat.sub_diag by lia. reflexivity.
  - exists (pre ++ [c]), post. rewrite <- app_assoc. split; [reflexivity|]. apply zlen_snoc.
Qed.
Lemma text_app line pos a b : has_text line pos (a ++ b) -> has_text line pos a /\ has_text line (pos + zlen a) b.
Proof.
  intros (pre & post & -> & <-). split; [exists pre, (b ++ post); rewrite <- app_assoc; auto|]. exists (pre ++ a), post. rewrite <- !app_assoc. split; [reflexivity|apply zlen_app].
Qed.
Lemma agrees_cell s r : agrees s r -> on_tape r -> cell_of s = Some (cur r).
Proof.
  intros (A1 & A2 & _) Ho. unfold on_tape in Ho. unfold cell_of, cur. replace ((b_ptr s mod 4 =? 0) && (0 <=? b_ptr s) && (b_ptr s <? 4096)) with true by (symmetry; lia).
  rewrite A2. do 2 f_equal. lia.
Qed.
Lemma steps_app line keys n1 : forall n2 a b c, bf_steps line keys n1 a b -> bf_steps line keys n2 b c -> bf_steps line keys (n1 + n2) a c.
Proof. induction n1 as [|n IH]; intros n2 a b c H1 H2; cbn [bf_steps Nat.add] in *; [subst; auto|]. destruct H1 as (t & E & H1). exists t. split; [exact E|]. eapply IH; eauto. Qed.
(** [s'] has the same opened loops as [s], and is [k] characters further. *)
Definition advanced (k : Z) (s s' : bf_state) : Prop := b_pos s' = b_pos s + k /\ b_loops s' = b_loops s.
Lemma step_move line keys s c : has_text line (b_pos s) [c] -> c = 62 \/ c = 60 ->
  bf_steps line keys 1 s (BfState (b_pos s + 1) (b_ptr s + (if c =? 62 then 1 else -1)) (b_tape s) (b_loops s) (b_keys s) (b_out s)).
Proof.
  intros Ht Hc. apply text_char in Ht. destruct Ht as (Hch & _). cbn [bf_steps]. eexists. split; [|reflexivity]. unfold bf_step. rewrite Hch. destruct Hc as [-> | ->]; reflexivity.
Qed.
Lemma steps_move line keys c : c = 62 \/ c = 60 -> forall n s, has_text line (b_pos s) (repeat c n) ->
  bf_steps line keys n s (BfState (b_pos s + Z.of_nat n) (b_ptr s + Z.of_nat n * (if c =? 62 then 1 else -1)) (b_tape s) (b_loops s) (b_keys s) (b_out s)).
Proof.
  intros Hc. induction n as [|n IH]; intros s Ht.
  - cbn [bf_steps]. destruct s as [a b t l k o]. cbn [b_pos b_ptr b_tape b_loops b_keys b_out]. f_equal; cbn [Z.of_nat]; lia.
  - cbn [repeat] in Ht. pose proof (text_char _ _ _ _ Ht) as (Hch & Ht'). change (c :: repeat c n) with ([c] ++ repeat c n) in Ht. apply text_app in Ht. destruct Ht as (Ht & _).
    pose proof (step_move line keys s c Ht Hc) as X. pose proof (IH (BfState (b_pos s + 1) (b_ptr s + (if c =? 62 then 1 else -1)) (b_tape s) (b_loops s) (b_keys s) (b_out s)) Ht') as Y.
    cbn [b_pos b_ptr b_tape b_loops b_keys b_out] in Y. pose proof (steps_app line keys 1 n _ _ _ X Y) as R. cbn [Nat.add] in R.
    replace (b_pos s + Z.of_nat (S n)) with (b_pos s + 1 + Z.of_nat n) by lia. replace (b_ptr s + Z.of_nat (S n) * (if c =? 62 then 1 else -1)) with (b_ptr s + (if c =? 62 then 1 else -1) + Z.of_nat n * (if c =? 62 then 1 else -1)) by lia. exact R.
Qed.
Lemma steps_simple line keys x r r1 s : agrees s r -> on_tape r -> simple keys x r = Some r1 -> has_text line (b_pos s) (text_of x) ->
  exists n s1, bf_steps line keys n s s1 /\ agrees s1 r1 /\ advanced (zlen (text_of x)) s s1.
Proof.
  intros A Ho E Ht. pose proof (agrees_cell s r A Ho) as C. destruct A as (A1 & A2 & A3 & A4).
  assert (TP : forall v, forall i, set_tape s v i = put_cur r v i). { intros v i. unfold set_tape, put_cur. rewrite A1, A2. replace (4 * m_cell r / 4) with (m_cell r) by lia. reflexivity. }
  destruct x; cbn [simple text_of] in E, Ht; try discriminate.
  1-4: injection E as <-; pose proof (text_char _ _ _ _ Ht) as (Hch & _); eexists 1%nat, _; (split; [cbn [bf_steps]; eexists; split; [unfold bf_step; rewrite Hch, C; cbn [Z.eqb Pos.eqb orb]; reflexivity|reflexivity]|]);
    (split; [|split; reflexivity]); unfold agrees; cbn [b_ptr b_tape b_keys b_out m_cell m_tape m_keys m_out]; rewrite ?A3, ?A4; auto.
  - injection E as <-. pose proof (steps_move line keys 62 ltac:(auto) 4 s Ht) as X. eexists 4%nat, _. split; [exact X|]. split; [|split; reflexivity].
    unfold agrees; cbn [b_ptr b_tape b_keys b_out m_cell m_tape m_keys m_out]. change (if 62 =? 62 then 1 else -1) with 1. rewrite A1. split; [lia|auto].
  - injection E as <-. pose proof (steps_move line keys 60 ltac:(auto) 4 s Ht) as X. eexists 4%nat, _. split; [exact X|]. split; [|split; reflexivity].
    unfold agrees; cbn [b_ptr b_tape b_keys b_out m_cell m_tape m_keys m_out]. change (if 60 =? 62 then 1 else -1) with (-1). rewrite A1. split; [lia|auto].
Qed.

Lemma depth_nonneg l : 0 <= depth l.
Proof. unfold depth. induction l as [|x l IH]; cbn [fold_right]; lia. Qed.
Lemma depth_cons x l : depth (x :: l) = Z.max (depth_of x) (depth l).
Proof. reflexivity. Qed.
Lemma depth_loop b : depth_of (Loop b) = 1 + depth b.
Proof. reflexivity. Qed.
Lemma text_cons x l : text (x :: l) = text_of x ++ text l.
Proof. reflexivity. Qed.
Lemma text_loop b : text_of (Loop b) = 91 :: text b ++ [93].
Proof. reflexivity. Qed.
Lemma text_pos line pos t q : has_text line pos t -> q = pos -> has_text line q t.
Proof. intros H ->. exact H. Qed.
Lemma step_open line keys s v : char_at line (b_pos s) = 91 -> cell_of s = Some v -> v <> 0 -> zlen (b_loops s) < 1021 ->
  bf_step line keys s = Goes (BfState (b_pos s + 1) (b_ptr s) (b_tape s) (b_pos s :: b_loops s) (b_keys s) (b_out s)).
Proof.
  intros Hch C Hv Hl. unfold bf_step. rewrite Hch, C. cbn [Z.eqb Pos.eqb orb]. destruct v; [contradiction| |]; destruct (Z.ltb_spec (zlen (b_loops s)) 1021); try lia; reflexivity.
Qed.
Lemma step_close line keys s v q rest : char_at line (b_pos s) = 93 -> cell_of s = Some v -> b_loops s = q :: rest ->
  bf_step line keys s = Goes (BfState (if v =? 0 then b_pos s + 1 else q) (b_ptr s) (b_tape s) rest (b_keys s) (b_out s)).
Proof. intros Hch C Hl. unfold bf_step. rewrite Hch, C, Hl. cbn [Z.eqb Pos.eqb orb]. destruct v; reflexivity. Qed.
Lemma programs_run line keys :
  (forall prog r r', entered keys prog r r' -> forall s, agrees s r -> has_text line (b_pos s) (text prog) -> zlen (b_loops s) + depth prog <= 1021 ->
     exists n s', bf_steps line keys n s s' /\ agrees s' r' /\ advanced (zlen (text prog)) s s') /\
  (forall body r r', turns_of keys body r r' -> forall s p rest, agrees s r -> b_pos s = p + 1 -> b_loops s = p :: rest -> has_text line p (91 :: text body ++ [93]) -> zlen rest + 1 + depth body <= 1021 ->
     exists n s', bf_steps line keys n s s' /\ agrees s' r' /\ b_pos s' = p + zlen (text body) + 2 /\ b_loops s' = rest).
Proof.
  apply entered_both.
  - intros r s A _ _. exists 0%nat, s. split; [reflexivity|]. split; [exact A|]. split; [cbn; lia|reflexivity].
  - intros x prog r r1 r' Ho E _ IH s A Ht Hd. rewrite text_cons in *. rewrite depth_cons in Hd. apply text_app in Ht. destruct Ht as (Ht1 & Ht2).
    destruct (steps_simple line keys x r r1 s A Ho E Ht1) as (n1 & s1 & S1 & A1 & (P1 & L1)).
    destruct (IH s1 A1) as (n2 & s2 & S2 & A2 & (P2 & L2)); [rewrite P1; exact Ht2|rewrite L1; lia|].
    exists (n1 + n2)%nat, s2. split; [eapply steps_app; eauto|]. split; [exact A2|]. split; [rewrite zlen_app; lia|congruence].
  - intros prog r r' Ho Hz _ IH s A Ht Hd. rewrite text_cons in *. rewrite depth_cons in Hd. apply text_app in Ht. destruct Ht as (Ht1 & Ht2). change (text_of (Loop [])) with [91; 93] in *.
    pose proof (text_char _ _ _ _ Ht1) as (C1 & Ht1'). pose proof (text_char _ _ _ _ Ht1') as (C2 & _). pose proof (agrees_cell s r A Ho) as C. rewrite Hz in C.
    destruct (IH (BfState (b_pos s + 2) (b_ptr s) (b_tape s) (b_loops s) (b_keys s) (b_out s))) as (n2 & s2 & S2 & A2 & (P2 & L2)); [exact A|exact Ht2|cbn [b_loops]; lia|].
    exists (S n2), s2. split; [|split; [exact A2|split; [rewrite zlen_app; change (zlen [91; 93]) with 2; cbn [b_pos] in P2; lia|exact L2]]].
    cbn [bf_steps]. eexists. split; [|exact S2]. unfold bf_step. rewrite C1, C, C2. reflexivity.
  - intros body prog r r1 r' Ho Hz _ IHb _ IH s A Ht Hd. rewrite text_cons in *. rewrite depth_cons, depth_loop in Hd. apply text_app in Ht. destruct Ht as (Ht1 & Ht2). rewrite text_loop in *.
    pose proof (text_char _ _ _ _ Ht1) as (C1 & _). pose proof (agrees_cell s r A Ho) as C. pose proof (depth_nonneg body) as D0.
    pose proof (step_open line keys s _ C1 C Hz ltac:(lia)) as E1.
    destruct (IHb (BfState (b_pos s + 1) (b_ptr s) (b_tape s) (b_pos s :: b_loops s) (b_keys s) (b_out s)) (b_pos s) (b_loops s)) as (n1 & s1 & S1 & A1 & P1 & L1); [exact A|reflexivity|reflexivity|exact Ht1|lia|].
    assert (ZL : zlen (91 :: text body ++ [93]) = zlen (text body) + 2) by (rewrite zlen_cons, zlen_app; change (zlen [93]) with 1; lia).
    destruct (IH s1 A1) as (n2 & s2 & S2 & A2 & (P2 & L2)); [eapply text_pos; [exact Ht2|lia]|rewrite L1; lia|].
    exists (S (n1 + n2))%nat, s2. split; [|split; [exact A2|split; [rewrite zlen_app, ZL; lia|congruence]]].
    cbn [bf_steps]. eexists. split; [exact E1|]. eapply steps_app; eauto.
  - intros body r r' _ IH Ho Hz s p rest A HP HL Ht Hd. pose proof (text_char _ _ _ _ Ht) as (C1 & Ht1). apply text_app in Ht1. destruct Ht1 as (Ht1 & Ht2).
    destruct (IH s A) as (n1 & s1 & S1 & A1 & (P1 & L1)); [eapply text_pos; [exact Ht1|lia]|rewrite HL, zlen_cons; lia|].
    pose proof (text_char _ _ _ _ Ht2) as (C2 & _). pose proof (agrees_cell s1 r' A1 Ho) as C. rewrite Hz in C.
    pose proof (step_close line keys s1 0 p rest ltac:(rewrite P1, HP; exact C2) C ltac:(congruence)) as E. cbn [Z.eqb] in E.
    eexists (n1 + 1)%nat, _. split; [eapply steps_app; [exact S1|]; cbn [bf_steps]; eexists; split; [exact E|reflexivity]|]. split; [exact A1|]. cbn [b_pos b_loops]. split; [lia|reflexivity].
  - intros body r r1 r' _ IH Ho Hz _ IHt s p rest A HP HL Ht Hd. pose proof (text_char _ _ _ _ Ht) as (C1 & Ht1). apply text_app in Ht1. destruct Ht1 as (Ht1 & Ht2). pose proof (depth_nonneg body) as D0.
    destruct (IH s A) as (n1 & s1 & S1 & A1 & (P1 & L1)); [eapply text_pos; [exact Ht1|lia]|rewrite HL, zlen_cons; lia|].
    pose proof (text_char _ _ _ _ Ht2) as (C2 & _). pose proof (agrees_cell s1 r1 A1 Ho) as C.
    pose proof (step_close line keys s1 _ p rest ltac:(rewrite P1, HP; exact C2) C ltac:(congruence)) as E. destruct (Z.eqb_spec (cur r1) 0); [contradiction|].
    set (s2 := BfState p (b_ptr s1) (b_tape s1) rest (b_keys s1) (b_out s1)) in *. assert (Cs : cell_of s2 = Some (cur r1)) by exact C.
    pose proof (step_open line keys s2 _ C1 Cs Hz ltac:(cbn [s2 b_loops]; lia)) as E2. cbn [s2 b_pos b_ptr b_tape b_loops b_keys b_out] in E2.
    destruct (IHt (BfState (p + 1) (b_ptr s1) (b_tape s1) (p :: rest) (b_keys s1) (b_out s1)) p rest) as (n3 & s3 & S3 & A3 & P3 & L3); [exact A1|reflexivity|reflexivity|exact Ht|exact Hd|].
    exists (n1 + S (S n3))%nat, s3. split; [|auto]. eapply steps_app; [exact S1|]. cbn [bf_steps]. eexists. split; [exact E|]. eexists. split; [exact E2|exact S3].
Qed.
Lemma usual_app typed l1 : forall r r1, usual typed l1 r r1 -> forall l2 r', usual typed l2 r1 r' -> usual typed (l1 ++ l2) r r'.
Proof.
  intros r r1 H. induction H as [s|x prog s s1 s' Ho E _ IH|body prog s s' Ho Hz _ IH|body prog s s1 s' Ho Hz Hb _ _ IH]; intros l2 r2 X2; cbn [app].
  - exact X2.
  - eapply usual_simple; eauto.
  - eapply usual_skip; eauto.
  - eapply usual_loop; eauto.
Qed.
Lemma entered_usual typed :
  (forall prog r r', entered typed prog r r' -> usual typed prog r r') /\
  (forall body r r', turns_of typed body r r' -> on_tape r -> cur r <> 0 -> usual typed [Loop body] r r').
Proof.
  apply entered_both.
  - constructor.
  - intros. eapply usual_simple; eauto.
  - intros. eapply usual_skip; eauto.
  - intros body prog r r1 r' Ho Hz _ IHb _ IH. exact (usual_app typed [Loop body] r r1 (IHb Ho Hz) prog r' IH).
  - intros body r r' _ IH Ho' Hz' Ho Hz. eapply usual_loop; eauto. apply usual_skip; auto. constructor.
  - intros body r r1 r' _ IH Ho1 Hz1 _ IHt Ho Hz. eapply usual_loop; eauto.
Qed.

(** A program whose moves are written four times, of at most 4092 bytes, with at most 1021 nested loops, which reaches no loop but an empty one
    while the current cell is zero, and which ends under the usual rules: the example runs it as these rules say, and says goodbye. *)
Lemma P_C78_runs : forall oc lines keys id0 id1 id2 id3 id4 id5 id6 id7 prog rest r, Forall is_u8 (lines O) -> (forall k, is_u32 (keys k)) ->
  lines O = text prog ++ rest -> rest = [] \/ In (hd 0 rest) [0; 13; 10] -> zlen (text prog) <= 4092 -> depth prog <= 1021 ->
  entered keys prog bf_zero r ->
  usual keys prog bf_zero r /\
  exists needed, forall fuel, (needed <= fuel)%nat -> exists m cycles a,
    brainfuck_main oc fuel lines keys id0 id1 id2 id3 id4 id5 id6 id7 = Ret (Some (m, Stopped cycles a None)) /\ c_halted m = true /\
    displays m [t_welcome; t_running; t_goodbye] (m_out r) [].
Proof.
  intros oc lines keys id0 id1 id2 id3 id4 id5 id6 id7 prog rest r H8 Hk EL Hrest HL HD HE. split; [apply entered_usual; exact HE|].
  assert (EF : firstn 4092 (lines O) = text prog ++ firstn (4092 - length (text prog)) rest). { rewrite EL, firstn_app. f_equal. apply firstn_all2. unfold zlen in HL. lia. }
  destruct (proj1 (programs_run (firstn 4092 (lines O)) keys) prog bf_zero r HE bf_init) as (n & s & HS & (_ & _ & _ & A4) & (P & L)).
  { unfold agrees. cbn. auto. } { rewrite EF. exists [], (firstn (4092 - length (text prog)) rest). auto. } { cbn [b_loops bf_init]. change (zlen []) with 0. lia. }
  rewrite <- A4. apply (P_C78_finishes oc lines keys id0 id1 id2 id3 id4 id5 id6 id7 n s H8 Hk HS).
  assert (C : In (char_at (firstn 4092 (lines O)) (b_pos s)) [0; 13; 10]).
  { rewrite P. cbn [b_pos bf_init]. rewrite Z.add_0_l, EF. unfold char_at, zlen. rewrite Nat2Z.id, app_nth2, Nat.sub_diag by lia.
    destruct rest as [|c rest]; [rewrite firstn_nil; left; reflexivity|]. destruct Hrest as [X|Hc]; [discriminate|]. cbn [hd] in Hc.
    destruct (4092 - length (text prog))%nat; [left; reflexivity|exact Hc]. }
  unfold bf_step. rewrite L. cbn [b_loops bf_init]. cbn [In] in C. destruct C as [<-|[<-|[<-|[]]]]; reflexivity.
Qed.

(** Under the usual rules, a loop reached while the current cell is zero is skipped: not by the example. The program "[+]." shows 0 under the usual
    rules; the example reports that a loop was not closed. *)
Lemma P_C78_loops_refuted : ~ (forall oc lines keys id0 id1 id2 id3 id4 id5 id6 id7 prog r, Forall is_u8 (lines O) -> (forall k, is_u32 (keys k)) ->
  lines O = text prog -> zlen (text prog) <= 4092 -> depth prog <= 1021 -> usual keys prog bf_zero r ->
  exists needed, forall fuel, (needed <= fuel)%nat -> exists m cycles a,
    brainfuck_main oc fuel lines keys id0 id1 id2 id3 id4 id5 id6 id7 = Ret (Some (m, Stopped cycles a None)) /\
    displays m [t_welcome; t_running; t_goodbye] (m_out r) []).
Proof.
  intros H. set (prog := [Loop [Plus]; Dot]). set (lines := fun _ : nat => text prog). set (keys := fun _ : nat => 0).
  assert (L8 : Forall is_u8 (lines O)) by (repeat constructor; unfold is_u8; lia). assert (K32 : forall k, is_u32 (keys k)) by (intros; unfold keys, is_u32; lia).
  destruct (H false lines keys 1 2 3 4 5 6 7 8 prog (BfMem (fun _ => 0) 0 0 [0]) L8 K32 eq_refl) as (n1 & X1).
  { vm_compute. discriminate. } { vm_compute. discriminate. }
  { apply usual_skip; [unfold on_tape; cbn; lia|reflexivity|]. eapply usual_simple; [unfold on_tape; cbn; lia|reflexivity|]. constructor. }
  destruct (P_C78_fails false lines keys 1 2 3 4 5 6 7 8 0 bf_init 1 (NotClosed 1 36) L8 K32 eq_refl eq_refl) as (n2 & X2).
  destruct (X1 (Nat.max n1 n2) ltac:(lia)) as (m & cycles & a & E & (_ & D & _)). destruct (X2 (Nat.max n1 n2) ltac:(lia)) as (m' & cycles' & a' & E' & _ & (_ & D' & _)).
  rewrite E in E'. apply Ret_inj in E'. injection E' as <- _ _. rewrite D in D'. discriminate.
Qed.
(** More fuel. *)
Lemma run_loop_more {D} (ops : bus_ops D) oc cfg : forall f f' a m x, run_loop ops oc f cfg a m = Ret (Some x) -> (f <= f')%nat -> run_loop ops oc f' cfg a m = Ret (Some x).
Proof.
  induction f as [|f IH]; intros f' a m x E L; [discriminate|]. destruct f' as [|f']; [lia|]. cbn [run_loop] in *.
  destruct (c_halted m); [exact E|]. destruct (match cf_limit cfg with Some l => l <? c_cycles m | None => false end); [exact E|].
  destruct (next ops oc m) as [m1|]; [|discriminate]. cbn [obind] in *. destruct (negb (r_et (c_regs m1) =? 0)); [|apply IH; [exact E|lia]].
  match type of E with obind ?c _ = _ => destruct c as [[]|]; [|discriminate] end. cbn [obind] in *. destruct (cf_halt_on_ex cfg); [exact E|]. apply IH; [exact E|lia].
Qed.
Lemma exec_more {D} (ops : bus_ops D) oc cfg ds f f' x : exec_vm ops oc f cfg ds = Ret (Some x) -> (f <= f')%nat -> exec_vm ops oc f' cfg ds = Ret (Some x).
Proof.
  unfold exec_vm. intros E L. destruct (prepare_vm ops oc ds) as [m|]; [|discriminate]. cbn [obind] in *. unfold run_vm in *.
  destruct (run_loop ops oc f cfg (r_pc (c_regs m)) m) as [[y|]|] eqn:E1; [|discriminate|discriminate]. rewrite (run_loop_more _ _ _ _ _ _ _ _ E1 L). exact E.
Qed.
Lemma two_ends (m1 m2 : cpu device) c1 a1 e c2 a2 : Ret (Some (m1, Stopped c1 a1 (Some e))) = Ret (Some (m2, Stopped c2 a2 None)) -> False.
Proof. discriminate. Qed.
(** Under the usual rules, the moves go from a cell to the next: not in the example, where they move by one byte. With the program ">+", written as
    usual, the virtual machine stops with an exception. *)
Lemma P_C78_moves_refuted : ~ (forall oc lines keys id0 id1 id2 id3 id4 id5 id6 id7 prog r, Forall is_u8 (lines O) -> (forall k, is_u32 (keys k)) ->
  lines O = usual_text prog -> zlen (usual_text prog) <= 4092 -> depth prog <= 1021 -> entered keys prog bf_zero r ->
  exists needed, forall fuel, (needed <= fuel)%nat -> exists m cycles a,
    brainfuck_main oc fuel lines keys id0 id1 id2 id3 id4 id5 id6 id7 = Ret (Some (m, Stopped cycles a None)) /\
    displays m [t_welcome; t_running; t_goodbye] (m_out r) []).
Proof.
  intros H. set (prog := [Right; Plus]). set (lines := fun _ : nat => usual_text prog). set (keys := fun _ : nat => 0).
  assert (L8 : Forall is_u8 (lines O)) by (repeat constructor; unfold is_u8; lia). assert (K32 : forall k, is_u32 (keys k)) by (intros; unfold keys, is_u32; lia).
  edestruct (H false lines keys 1 2 3 4 5 6 7 8 prog) as (n1 & X1); [exact L8|exact K32|reflexivity|vm_compute; discriminate|vm_compute; discriminate| |].
  { eapply entered_simple; [unfold on_tape; cbn; lia|reflexivity|]. eapply entered_simple; [unfold on_tape; cbn; lia|reflexivity|]. constructor. }
  destruct (X1 (Nat.max n1 400) ltac:(lia)) as (m & cycles & a & E & _). clear X1 H.
  assert (B : match brainfuck_main false 400 (fun _ => usual_text [Right; Plus]) (fun _ => 0) 1 2 3 4 5 6 7 8 with Ret (Some (_, Stopped _ _ (Some _))) => true | _ => false end = true) by (vm_compute; reflexivity).
  change (fun _ => usual_text [Right; Plus]) with lines in B. change (fun _ : nat => 0) with keys in B.
  destruct (brainfuck_main false 400 lines keys 1 2 3 4 5 6 7 8) as [[[m2 [c2 a2 [e|]]]|]|] eqn:E2; try discriminate B. clear B.
  rewrite bf_main_exec in E, E2. pose proof (exec_more _ _ _ _ _ (Nat.max n1 400) _ E2 ltac:(lia)) as Y. rewrite Y in E. exact (two_ends _ _ _ _ _ _ _ E).
Qed.

(** The line "+." and a new line: the interpreter shows 1, then finishes. *)
Lemma E_C78_finishes : exists s, Forall is_u8 (chars "+." ++ [10]) /\ bf_steps (firstn 4092 (chars "+." ++ [10])) (fun _ => 0) 2 bf_init s /\
  bf_step (firstn 4092 (chars "+." ++ [10])) (fun _ => 0) s = Finishes /\ b_out s = [1].
Proof.
  eexists. split; [repeat constructor; unfold is_u8; cbn; lia|]. split; [cbn [bf_steps]; eexists; split; [reflexivity|]; eexists; split; reflexivity|]. split; reflexivity.
Qed.
(** The line "+.x": the interpreter shows 1, then fails at its third character. *)
Lemma E_C78_fails : exists s, Forall is_u8 (chars "+.x") /\ bf_steps (firstn 4092 (chars "+.x")) (fun _ => 0) 2 bf_init s /\
  bf_step (firstn 4092 (chars "+.x")) (fun _ => 0) s = Fails 2 (UnknownSymbol 120) /\ b_out s = [1].
Proof.
  eexists. split; [repeat constructor; unfold is_u8; cbn; lia|]. split; [cbn [bf_steps]; eexists; split; [reflexivity|]; eexists; split; reflexivity|]. split; reflexivity.
Qed.
(** The line "+[]": the interpreter goes on for ever. *)
Lemma E_C78_forever : Forall is_u8 (chars "+[]") /\ forall n, exists s, bf_steps (firstn 4092 (chars "+[]")) (fun _ => 0) n bf_init s.
Proof.
  split; [repeat constructor; unfold is_u8; cbn; lia|]. set (line := firstn 4092 (chars "+[]")). set (s1 := BfState 1 0 (set_tape bf_init 1) [] 0 []). set (s2 := BfState 2 0 (set_tape bf_init 1) [1] 0 []).
  assert (X : forall n, (exists s, bf_steps line (fun _ => 0) n s1 s) /\ (exists s, bf_steps line (fun _ => 0) n s2 s)).
  { induction n as [|n ((t1 & H1) & (t2 & H2))]; [split; eexists; reflexivity|]. split; [exists t2; exists s2|exists t1; exists s1]; (split; [reflexivity|assumption]). }
  intros [|n]; [exists bf_init; reflexivity|]. destruct (X n) as ((t & H) & _). exists t. exists s1. split; [reflexivity|exact H].
Qed.
(** The program ",[.-]>+." with the key 2: it shows 2, 1 and 1. *)
Lemma E_C78_runs : let prog := [Comma; Loop [Dot; Minus]; Right; Plus; Dot] in exists r, text prog = chars ",[.-]>>>>+." /\
  Forall is_u8 (text prog) /\ zlen (text prog) <= 4092 /\ depth prog <= 1021 /\ entered (fun _ => 2) prog bf_zero r /\ m_out r = [2; 1; 1].
Proof.
  eexists. split; [reflexivity|]. split; [repeat constructor; unfold is_u8; lia|]. split; [vm_compute; discriminate|]. split; [vm_compute; discriminate|]. split.
  - eapply entered_simple; [unfold on_tape; cbn; lia|reflexivity|]. eapply entered_loop; [unfold on_tape; cbn; lia|cbn; lia| |].
    + eapply turns_more.
      { do 2 (eapply entered_simple; [unfold on_tape; cbn; lia|reflexivity|]). constructor. } { unfold on_tape; cbn; lia. } { cbn. lia. }
      eapply turns_last.
      { do 2 (eapply entered_simple; [unfold on_tape; cbn; lia|reflexivity|]). constructor. } { unfold on_tape; cbn; lia. } { reflexivity. }
    + do 3 (eapply entered_simple; [unfold on_tape; cbn; lia|reflexivity|]). constructor.
  - reflexivity.
Qed.
