(** Proofs about the "hello world" example. *)
From Coq Require Import String ZArith List Bool Lia.
From Verif Require Import Base BaseFacts Board Mem Cpu Asm Tools Devices Runner LasmRules Lasm Sources Examples SpecMach SpecIsa SpecBus SpecObs SpecMap SpecDev SpecRun SpecPanic.
From Verif Require Import Counter RegFacts MemFacts MapFacts CycleFacts CyclePost ReachFacts InvFacts DevTyped ProofMap ProofBoard ProofReg ProofRun ProofCrash ProofRom SymFacts.
Import ListNotations.
Open Scope list_scope.
Open Scope Z_scope.
Ltac Zify.zify_post_hook ::= Z.div_mod_to_equations.

Definition hello_code : list Z := [201982004; 202055680; 202121468; 2785020416; 1811939328; 2281701376; 202768428; 3037396992; 470417412; 470482948; 202768396;
  3020685482; 4026531840].
Lemma hello_assembled : assemble_words hello_source = Some (hello_code ++ [1214606444; 1865162871; 1869769828; 554303488; 0]).
Proof. vm_compute. reflexivity. Qed.
Definition hello_file (a0 ac0 ac1 ac2 pc af : Z) : list Z :=
  [a0; 0; 0; 0; 0; 0; 0; 0; 0; 0; ac0; ac1; ac2; 0; 0; 0; 0; 0; 0; 0; 0; 0; pc; af; 0; 0; 0; 0; 0; 0; 0; 1].

Section Hello.
Context (oc : bool) (prog : list Z) (rom ram : device) (id0 id2 : Z).
Hypothesis (Hrom : rom = DRom (BootRom prog (zlen prog) 1024 id0)) (Hlen : zlen prog <= 1024) (Hu : Forall is_u32 prog).
Notation ops := (dev_ops oc).
Definition hello_devs (buf : list Z) (calls : list (bool * list Z)) : list device := [rom; ram; DBuf (BufDisplay buf 63 id2 calls)].
Definition hello_szs : list Z := [4096; 4096; 256].
Lemma hello_fetch buf calls mem j w : board hello_szs (hello_devs buf calls) mem -> nth_error prog j = Some w ->
  exists mem', mem_read ops false mem (4 * Z.of_nat j) = Ret (mem', 0, w) /\ board hello_szs (hello_devs buf calls) mem'.
Proof.
  intros B Hj. assert (Lj : (j < length prog)%nat) by (apply nth_error_Some; congruence). unfold zlen in Hlen.
  assert (Uw : is_u32 w) by (eapply Forall_forall; [exact Hu|eapply nth_error_In; eauto]).
  destruct (board_read _ ops _ _ mem (4 * Z.of_nat j) 0 rom (4 * Z.of_nat j) rom 0 w B) as (mem' & E & B' & _).
  - exists 4096. unfold zlen in Hlen. split; [reflexivity|]. split; [reflexivity|]. cbn [firstn sum fold_right]. lia.
  - rewrite Hrom. cbn [bo_read dev_ops]. unfold br_read. cbn [br_len br_storage]. unfold zlen. destruct (Z.ltb_spec (4 * Z.of_nat j / 4) (Z.of_nat (length prog))); [|lia].
    unfold vget. rewrite znth_nth by lia. replace (Z.to_nat (4 * Z.of_nat j / 4)) with j by lia. rewrite Hj. cbn. rewrite (u32_id w Uw). reflexivity.
  - exists mem'. split; auto.
Qed.
Lemma hello_put msg calls mem w : board hello_szs (hello_devs (msg ++ zeros (63 - zlen msg)) calls) mem -> zlen msg < 63 ->
  exists mem', mem_write ops false mem (8192 + 4 * zlen msg) w = Ret (mem', 0) /\ board hello_szs (hello_devs ((msg ++ [w]) ++ zeros (63 - zlen (msg ++ [w]))) calls) mem'.
Proof.
  intros B Hl. assert (0 <= zlen msg) by (unfold zlen; lia).
  destruct (board_write _ ops _ _ mem (8192 + 4 * zlen msg) 2 (DBuf (BufDisplay (msg ++ zeros (63 - zlen msg)) 63 id2 calls)) (4 * zlen msg) (DBuf (BufDisplay ((msg ++ [w]) ++ zeros (63 - zlen (msg ++ [w]))) 63 id2 calls)) 0 w B) as (mem' & E & B' & _).
  - exists 256. split; [reflexivity|]. split; [reflexivity|]. cbn [firstn sum fold_right hello_szs]. lia.
  - cbn [bo_write dev_ops]. unfold bd_write. cbn [bd_words bd_buffer bd_hw_id bd_calls]. destruct (Z.ltb_spec (4 * zlen msg / 4) 63); [|lia]. replace (4 * zlen msg / 4) with (zlen msg) by lia.
    rewrite (zeros_S (63 - zlen msg)) by lia. unfold vset. rewrite zset_app. cbn [unwrap obind wrap_w].
    rewrite <- app_assoc. cbn [app]. replace (zlen (msg ++ [w])) with (zlen msg + 1) by (unfold zlen; rewrite app_length; cbn; lia). replace (63 - (zlen msg + 1)) with (63 - zlen msg - 1) by lia. reflexivity.
  - exists mem'. auto.
Qed.
End Hello.

Definition hello_prog (msg rest : list Z) : list Z := hello_code ++ msg ++ 0 :: rest.
Section Loop.
Context (oc : bool) (msg rest : list Z) (ram : device) (id0 id2 : Z).
Notation ops := (dev_ops oc).
Notation prog := (hello_prog msg rest).
Let rom := DRom (BootRom prog (zlen prog) 1024 id0).
Hypothesis (Hlen : zlen prog <= 1024) (Hu : Forall is_u32 prog) (Hmsg : Forall (fun w => w <> 0) msg) (Hml : zlen msg <= 63).
Lemma hello_loop_code : forall todo got calls mem a0 af c, msg = got ++ todo ->
  board hello_szs (hello_devs rom ram id2 (got ++ zeros (63 - zlen got)) calls) mem ->
  exists mem' a0' af', quiet ops prog (7 * length todo + 6)
    (St (hello_file a0 (52 + 4 * zlen got) (8192 + 4 * zlen got) 8444 12 af) mem c false)
    (St (hello_file a0' (52 + 4 * zlen msg) (8192 + 4 * zlen msg) 8444 52 af') mem' ((c + (7 * zlen todo + 6)) mod 2 ^ 128) true) /\
    board hello_szs (hello_devs rom ram id2 (msg ++ zeros (63 - zlen msg)) (calls ++ [(false, words_to_bytes (msg ++ zeros (63 - zlen msg)))])) mem'.
Proof.
  induction todo as [|w todo IH]; intros got calls mem a0 af c E B.
  - rewrite app_nil_r in E. subst got. 
    destruct (hello_fetch oc prog rom ram id0 id2 eq_refl Hlen Hu _ _ mem (13 + length msg) 0 B) as (mem1 & E1 & B1).
    { unfold hello_prog. rewrite nth_error_app2 by (cbn; lia). cbn [length hello_code]. replace (13 + length msg - 13)%nat with (length msg + 0)%nat by lia.
      rewrite nth_error_app2 by lia. replace (length msg + 0 - length msg)%nat with 0%nat by lia. reflexivity. }
    assert (0 <= zlen msg) by (unfold zlen; lia).
    destruct (board_write _ ops _ _ mem1 8444 2 (DBuf (BufDisplay (msg ++ zeros (63 - zlen msg)) 63 id2 calls)) 252
      (DBuf (BufDisplay (msg ++ zeros (63 - zlen msg)) 63 id2 (calls ++ [(false, words_to_bytes (msg ++ zeros (63 - zlen msg)))]))) 0 170 B1) as (mem2 & E2 & B2 & _).
    { exists 256. split; [reflexivity|]. split; [reflexivity|]. cbn [firstn sum fold_right hello_szs]. lia. }
    { reflexivity. }
    exists mem2. do 2 eexists. split; [|exact B2].
    cbn [length Nat.mul Nat.add]. unfold hello_file.
    replace (4 * Z.of_nat (13 + length msg)) with (52 + 4 * zlen msg) in E1 by (unfold zlen; lia).
    istep_with ltac:(replace (m32 (52 + 4 * zlen msg + 0)) with (52 + 4 * zlen msg) by (unfold m32, zlen in *; lia);
       replace ((52 + 4 * zlen msg) mod 4) with 0 by lia; sym1; rewrite E1; sym1).
    istep. istep. istep. istep_with ltac:(change (m32 (8444 + 0)) with 8444; change (8444 mod 4) with 0; sym1; rewrite E2; sym1). istep.
    change (zlen (@nil Z)) with 0. apply quiet_0.
  - assert (Hw : w <> 0). { rewrite E in Hmsg. apply Forall_app in Hmsg. destruct Hmsg as (_ & K). inversion K; auto. }
    assert (Hk : nth_error prog (13 + length got) = Some w).
    { unfold hello_prog. rewrite nth_error_app2 by (cbn; lia). cbn [length hello_code]. replace (13 + length got - 13)%nat with (length got + 0)%nat by lia.
      rewrite nth_error_app1 by (rewrite E, app_length; cbn; lia). rewrite E, nth_error_app2 by lia. replace (length got + 0 - length got)%nat with 0%nat by lia. reflexivity. }
    assert (Uw : is_u32 w) by (eapply Forall_forall; [exact Hu|eapply nth_error_In; eauto]).
    destruct (hello_fetch oc prog rom ram id0 id2 eq_refl Hlen Hu _ _ mem (13 + length got) w B Hk) as (mem1 & E1 & B1).
    unfold is_u32 in Uw. assert (G : 0 <= zlen got) by (unfold zlen; lia).
    assert (L : zlen msg = zlen got + zlen todo + 1) by (rewrite E; unfold zlen; rewrite app_length; cbn [length]; lia). assert (0 <= zlen todo) by (unfold zlen; lia).
    destruct (hello_put oc rom ram id2 got calls mem1 w B1 ltac:(lia)) as (mem2 & E2 & B2).
    replace (4 * Z.of_nat (13 + length got)) with (52 + 4 * zlen got) in E1 by (unfold zlen; lia).
    destruct (IH (got ++ [w]) calls mem2 w (flags_spec (m32 (8192 + 4 * zlen got + 4)) (4294967296 <=? 8192 + 4 * zlen got + 4) (negb (fits_signed (signed (8192 + 4 * zlen got) + signed 4)))) ((c + 7) mod 2 ^ 128)) as (mem3 & a0' & af' & Q & B3).
    { rewrite <- app_assoc. exact E. } { exact B2. }
    exists mem3, a0', af'. split; [|exact B3].
    replace (7 * length (w :: todo) + 6)%nat with (7 + (7 * length todo + 6))%nat by (cbn [length]; lia).
    eapply quiet_app.
    + unfold hello_file.
      istep_with ltac:(replace (m32 (52 + 4 * zlen got + 0)) with (52 + 4 * zlen got) by (unfold m32, zlen in *; lia);
       replace ((52 + 4 * zlen got) mod 4) with 0 by lia; sym1; rewrite E1; sym1).
      istep. istep_with ltac:(iftac false). 
      istep_with ltac:(replace (m32 (8192 + 4 * zlen got + 0)) with (8192 + 4 * zlen got) by (unfold m32, zlen in *; lia);
       replace ((8192 + 4 * zlen got) mod 4) with 0 by lia; sym1; rewrite E2; sym1).
      istep. istep. istep. apply quiet_0.
    + replace (zlen (got ++ [w])) with (zlen got + 1) in Q by (unfold zlen; rewrite app_length; cbn [length]; lia).
      rewrite Zplus_mod_idemp_l in Q. rewrite zlen_cons.
      replace (m32 (52 + 4 * zlen got + 4)) with (52 + 4 * (zlen got + 1)) by (unfold m32; lia).
      replace (m32 (8192 + 4 * zlen got + 4)) with (8192 + 4 * (zlen got + 1)) in * by (unfold m32; lia).
      replace (c + (7 * (zlen todo + 1) + 6)) with (c + 7 + (7 * zlen todo + 6)) by lia. 
      exact Q.
Qed.
End Loop.

Lemma hello_loop_run oc : forall n fuel m m', wf m -> (forall k mk, (k < n)%nat -> run (dev_ops oc) oc k m = Ret mk -> c_halted mk = false) ->
  (forall k mk, (0 < k <= n)%nat -> run (dev_ops oc) oc k m = Ret mk -> R mk R_et = 0) ->
  run (dev_ops oc) oc n m = Ret m' -> c_halted m' = true -> (n < fuel)%nat -> hello_loop oc fuel m = Ret (Some m').
Proof.
  induction n as [|n IH]; intros fuel m m' W H1 H2 E Hh Hf; (destruct fuel as [|fuel]; [lia|]); cbn [hello_loop].
  - injection E as ->. rewrite Hh. reflexivity.
  - rewrite (H1 O m ltac:(lia) eq_refl). cbn [run] in E. destruct (next (dev_ops oc) oc m) as [m1|] eqn:E1; [|discriminate]. cbn [obind] in *.
    assert (X : run (dev_ops oc) oc 1 m = Ret m1) by (cbn [run]; rewrite E1; reflexivity).
    assert (W1 : wf m1) by (eapply next_wf; [apply dev_typed|exact W|exact E1]). rewrite (r_et_R m1) by apply W1. rewrite (H2 1%nat m1 ltac:(lia) X). cbn [Z.eqb negb].
    apply IH; auto; [| |lia]; intros k mk Hk Ek; [apply (H1 (S k) mk)|apply (H2 (S k) mk)]; try lia; cbn [run]; rewrite E1; exact Ek.
Qed.

Lemma hello_any : forall oc msg rest id0 id1 id2 fuel, Forall is_u32 msg -> Forall is_u32 rest -> Forall (fun w => w <> 0) msg -> zlen msg <= 63 ->
  zlen msg + zlen rest <= 1010 -> 9 + 7 * zlen msg < Z.of_nat fuel ->
  exists m, hello_run oc fuel (hello_prog msg rest) id0 id1 id2 = Ret (Some m) /\ c_halted m = true /\ c_cycles m = 9 + 7 * zlen msg /\
    hello_shown m = Some [(false, words_to_bytes (msg ++ zeros (63 - zlen msg)))].
Proof.
  intros oc msg rest id0 id1 id2 fuel Um Ur Hm Hl Hs Hf.
  assert (Hp : Forall is_u32 (hello_prog msg rest)).
  { unfold hello_prog. apply Forall_app. split; [repeat constructor; unfold is_u32; lia|]. apply Forall_app. split; auto. constructor; [unfold is_u32; lia|auto]. }
  assert (HL : zlen (hello_prog msg rest) = 14 + zlen msg + zlen rest) by (unfold hello_prog, zlen; rewrite !app_length; cbn [length hello_code]; lia).
  set (prog := hello_prog msg rest) in *.
  assert (0 <= zlen msg /\ 0 <= zlen rest) by (unfold zlen; lia).
  unfold hello_run, br_with_size. destruct (Z.ltb_spec (zlen prog) 4294967296); [|lia]. destruct (Z.ltb_spec 4096 (zlen prog)); [lia|]. cbn [negb Z.eqb unwrap obind].
  change (4096 mod 4 =? 0) with true. cbn [negb unwrap obind]. change (4096 / 4) with 1024.
  assert (Er : exists ram, sm_new 4096 id1 = Some ram) by (eexists; reflexivity). destruct Er as (ram & Er). rewrite Er. cbn [unwrap obind].
  change (bd_new 256 id2) with (Some (BufDisplay (zeros 63) 63 id2 [])). cbn [unwrap obind].
  set (rom := DRom (BootRom prog (zlen prog) 1024 id0)).
  set (ds := [rom; DRam ram; DBuf (BufDisplay (zeros 63) 63 id2 [])]).
  assert (Dr : declares (dev_ops oc) rom 4096) by (unfold declares; destruct oc; eexists; split; reflexivity).
  destruct (booted_board _ (dev_ops oc) oc ds hello_szs (dev_typed oc)) as (m0 & ds' & Em & W & Ea & Rs & B & _).
  { repeat constructor; auto; clear -Er; (unfold sm_new in Er; injection Er as <-) || idtac; unfold declares; destruct oc; eexists; split; reflexivity. }
  { intros d [<-|[<-|[<-|[]]]]; eexists; reflexivity. } { repeat constructor; try (vm_compute; reflexivity); try (vm_compute; discriminate). }
  inversion Rs as [|? d0 ? l1 X0 Rs1]; subst. inversion Rs1 as [|? d1 ? l2 X1 Rs2]; subst. inversion Rs2 as [|? d2 ? l3 X2 Rs3]; subst. inversion Rs3; subst.
  injection X0 as <-. injection X1 as <-. injection X2 as <-.
  destruct (hello_loop_code oc msg rest (DRam (StoreMem (zeros (zlen (sm_storage ram))) (sm_size ram) (sm_hw_id ram))) id0 id2 ltac:(fold prog; lia) Hp Hm Hl msg [] [] (c_mem m0) 0 0 3 eq_refl B) as (mem' & a0' & af' & Q & B').
  change (52 + 4 * zlen (@nil Z)) with 52 in Q. change (8192 + 4 * zlen (@nil Z)) with 8192 in Q. fold prog in Q.
  assert (Q0 : quiet (dev_ops oc) prog 3 (abs m0) (St (hello_file 0 52 8192 8444 12 0) (c_mem m0) 3 false)).
  { rewrite Ea. unfold prog, reset_file, hello_file. istep. istep. istep. apply quiet_0. }
  pose proof (quiet_app _ _ _ _ _ _ _ _ Q0 Q) as Q1.
  destruct (romed_boot oc prog 1024 id0 [DRam ram; DBuf (BufDisplay (zeros 63) 63 id2 [])] 4096 m0 Dr Em) as (HR & _ & _).
  assert (HB : oc = true -> ends_below (c_mem m0)).
  { intros Ho. destruct (boot_history _ _ _ _ _ Em) as (c & cs & Ec & Hc & Hn & Et). subst oc. eapply P_C03_mappings; [apply dev_typed|exact Hc|exact Hn|exact Ec|exact Et]. }
  destruct (quiet_run oc prog Hp 1024 id0 _ 4096 m0 _ HR W HB ltac:(lia) Q1) as (m' & E & A & W' & K).
  assert (Hf' : (3 + (7 * length msg + 6) < fuel)%nat) by (unfold zlen in *; lia).
  exists m'. split; [|split; [|split]].
  - unfold prepare_vm in Em. fold ds rom. change (zrange (length ds)) with [0; 1; 2] in Em.
    destruct (board_new (dev_ops oc) ds) as [c0|]; cbn [obind] in *; [|discriminate].
    destruct (map_contiguous oc (c_mem c0) 0 [0; 1; 2]) as [[[mm [rg|er]] sts]|]; cbn [obind] in *; try discriminate. rewrite Em. cbn [obind].
    eapply hello_loop_run; [exact W| | |exact E| |exact Hf'].
    + intros k mk Hk Ek. apply (K k mk Hk Ek).
    + intros k mk Hk Ek. destruct (Nat.eq_dec k (3 + (7 * length msg + 6))) as [->|]; [|apply (K k mk ltac:(lia) Ek)].
      assert (mk = m') by congruence. subst mk. change (get (abs m') R_et = 0). rewrite A. reflexivity.
    + change (s_halt (abs m') = true). rewrite A. reflexivity.
  - change (s_halt (abs m') = true). rewrite A. reflexivity.
  - change (s_cyc (abs m') = 9 + 7 * zlen msg). rewrite A. cbn [s_cyc]. rewrite Z.mod_small; lia.
  - assert (X : c_mem m' = mem') by (change (s_bus (abs m') = mem'); rewrite A; reflexivity).
    destruct B' as (_ & _ & B' & _). rewrite <- X in B'. unfold hello_shown. 
    destruct (devs_znth _ _ _ 2 _ B' eq_refl) as (e & Ee & Ed). change (mm_hwb (c_mem m')) with (c_hwb m') in Ee. change (Z.of_nat 2) with 2 in Ee. rewrite Ee. destruct e. cbn in Ed. subst. reflexivity.
Qed.

(** The code of the hello_world example (its first 13 words), followed by any message of at most 63 non-zero words, a zero and
    anything else: the program halts without exception after 9 + 7 cycles per word, and the display's handler was called exactly once,
    with the bytes of the message followed by zeros. *)
Lemma P_C74_hello_any : forall words oc msg rest id0 id1 id2 fuel, assemble_words hello_source = Some words ->
  Forall is_u32 msg -> Forall is_u32 rest -> Forall (fun w => w <> 0) msg -> zlen msg <= 63 -> zlen msg + zlen rest <= 1010 ->
  9 + 7 * zlen msg < Z.of_nat fuel ->
  exists m, hello_run oc fuel (firstn 13 words ++ msg ++ 0 :: rest) id0 id1 id2 = Ret (Some m) /\ c_halted m = true /\ c_cycles m = 9 + 7 * zlen msg /\
    hello_shown m = Some [(false, words_to_bytes (msg ++ zeros (63 - zlen msg)))].
Proof.
  intros words oc msg rest id0 id1 id2 fuel E. rewrite hello_assembled in E. assert (words = hello_code ++ [1214606444; 1865162871; 1869769828; 554303488; 0]) as -> by congruence.
  change (firstn 13 (hello_code ++ [1214606444; 1865162871; 1869769828; 554303488; 0])) with hello_code. apply hello_any.
Qed.
Lemma E_C74_hello_any : exists m words, assemble_words hello_source = Some words /\
  hello_run true 100 (firstn 13 words ++ [4294967295; 2; 3] ++ [0]) 7 8 9 = Ret (Some m) /\ c_cycles m = 30.
Proof.
  destruct (P_C74_hello_any _ true [4294967295; 2; 3] [] 7 8 9 100 hello_assembled) as (m & E & _ & C & _).
  - repeat constructor; unfold is_u32; lia.
  - constructor.
  - repeat constructor; lia.
  - vm_compute; discriminate.
  - vm_compute; discriminate.
  - vm_compute; reflexivity.
  - exists m. eexists. split; [exact hello_assembled|]. auto.
Qed.

(** The hello_world example, in release and debug builds, whatever the random identifiers: it halts without exception after 37 cycles,
    and the display's handler was called exactly once, with "Hello, world!", a line feed and 238 zero bytes. *)
Lemma P_C74_hello : forall oc id0 id1 id2 fuel, 37 < Z.of_nat fuel ->
  exists m, hello_main oc fuel id0 id1 id2 = Ret (Some m) /\ c_halted m = true /\ c_cycles m = 37 /\
    hello_shown m = Some [(false, chars "Hello, world!" ++ [10] ++ zeros 238)].
Proof.
  intros oc id0 id1 id2 fuel Hf. unfold hello_main. rewrite hello_assembled. cbn [unwrap obind].
  destruct (hello_any oc [1214606444; 1865162871; 1869769828; 554303488] [] id0 id1 id2 fuel) as (m & E & Hh & C & S).
  - repeat constructor; unfold is_u32; lia.
  - constructor.
  - repeat constructor; lia.
  - vm_compute; discriminate.
  - vm_compute; discriminate.
  - exact Hf.
  - exists m. split; [exact E|]. split; [exact Hh|]. split; [exact C|]. rewrite S. vm_compute. reflexivity.
Qed.

(* Concrete cases for the theorems above that have none beside them. *)
Lemma E_C74_hello : 37 < Z.of_nat 38 /\ exists m, hello_main false 38 7 8 9 = Ret (Some m) /\ c_cycles m = 37.
Proof. split; [reflexivity|]. destruct (P_C74_hello false 7 8 9 38) as (m & E & _ & C & _); [reflexivity|]. eauto. Qed.
