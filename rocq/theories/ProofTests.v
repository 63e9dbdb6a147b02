(** Proofs of C86: components driven by generated programs, as in the unit tests of lrvm_aux (lrvm_aux/src/tests). *)
From Coq Require Import ZArith List Bool Lia.
From Verif Require Import Base BaseFacts Board Mem Cpu Asm Tools Devices Runner SpecMach SpecIsa SpecBus SpecObs SpecAsm SpecMap SpecDev SpecRun SpecPanic SpecScript.
From Verif Require Import Counter RegFacts MemFacts MonoFacts MapFacts CycleFacts CyclePost ReachFacts InvFacts DevTyped ProofAsm ProofMap ProofBoard ProofReg ProofRun ProofCrash ProofRom ProofDev ProofIo ProofPanic SymFacts ProofScript.
Import ListNotations.
Open Scope Z_scope.
Ltac Zify.zify_post_hook ::= Z.div_mod_to_equations.

Lemma board_write_oc D (ops : bus_ops D) oc szs ds mem a k d off d' ex w : board szs ds mem -> tidy oc mem -> at_slot szs ds a k d off -> bo_write ops d off w = Ret (d', ex) ->
  exists mem', mem_write ops oc mem a w = Ret (mem', ex) /\ board szs (set_nth ds k d') mem' /\ frame mem mem'.
Proof.
  intros B T (sz & Hs & Hd & -> & Ho & Ha) HR. pose proof B as (W & _ & E & L). destruct (L k sz Hs) as (mp & Hm & H1 & H2 & H3).
  destruct (P_C33_dispatch _ ops oc mem a mp W T Ha (nth_error_In _ _ Hm)) as (e & En & _ & _ & _ & X). { unfold occupies. lia. }
  destruct (devs_znth _ _ _ _ _ E Hd) as (e' & En' & Ed). rewrite H1 in En. assert (e' = e) by congruence. subst e'. specialize (X w). rewrite Ed, H2, HR in X.
  eexists. split; [exact X|]. rewrite H1. eapply board_set; eauto.
Qed.
Lemma set_nth_same A (l : list A) : forall k x y, nth_error l k = Some y -> nth_error (set_nth l k x) k = Some x.
Proof. induction l as [|z l IH]; intros [|k] x y H; cbn in *; try discriminate; eauto. Qed.
Lemma set_nth_twice A (l : list A) : forall k x y, set_nth (set_nth l k x) k y = set_nth l k y.
Proof. induction l as [|z l IH]; intros [|k] x y; cbn; auto. f_equal. auto. Qed.
Lemma set_nth_id A (l : list A) : forall k x, nth_error l k = Some x -> set_nth l k x = l.
Proof. induction l as [|z l IH]; intros [|k] x H; cbn in *; try discriminate; [congruence|]. f_equal. auto. Qed.

Section Tests.
Context (oc : bool).
Notation ops := (dev_ops oc).
Lemma serves_host szs k sz base : nth_error szs k = Some sz -> base = sum (firstn k szs) -> base mod 4 = 0 -> forall h ds mem d d' xs f, board szs ds mem -> tidy oc mem -> nth_error ds k = Some d ->
  Forall (in_range sz) h -> ~ In ResetReq h -> serve ops d h = Ret (d', xs) -> Forall silent xs ->
  exists f' mem', host_runs ops oc (request_script base h) f mem f' mem' /\ board szs (set_nth ds k d') mem' /\ tidy oc mem'.
Proof.
  intros Hk Hb Hb4. induction h as [|r h IH]; intros ds mem d d' xs f B T Hd HF HN S HS.
  { cbn in S. injection S as <- <-. exists f, mem. split; [apply hr_done|]. split; [|exact T]. rewrite set_nth_id by exact Hd. exact B. }
  pose proof (Forall_inv HF) as H1. pose proof (Forall_inv_tail HF) as H2. assert (HN' : ~ In ResetReq h) by (intros X; apply HN; right; exact X).
  destruct r as [a|a w|]; [| |exfalso; apply HN; left; reflexivity]; cbn [serve] in S; cbn [in_range] in H1.
  - destruct (bo_read ops d a) as [[[d1 ex] v]|] eqn:E; [|discriminate]. destruct (serve ops d1 h) as [[d2 ys]|] eqn:E2; [|discriminate]. injection S as <- <-.
    pose proof (Forall_inv HS) as X. cbn in X. subst ex.
    destruct (board_read_oc _ ops oc szs ds mem (base + a) k d a d1 0 v B T) as (mem1 & R1 & B1 & F1); [exists sz; repeat split; auto; lia|exact E|].
    destruct (IH (set_nth ds k d1) mem1 d1 d2 ys (changed f R_avr v) B1) as (f' & mem' & HR & B' & T'); auto.
    { unfold tidy in *. destruct F1 as (-> & _). exact T. } { eapply set_nth_same; eauto. } { apply (Forall_inv_tail HS). }
    exists f', mem'. split; [|split; [rewrite set_nth_twice in B'; exact B'|exact T']]. cbn [request_script flat_map app]. eapply hr_get; [lia|exact R1|exact HR].
  - destruct (bo_write ops d a w) as [[d1 ex]|] eqn:E; [|discriminate]. destruct (serve ops d1 h) as [[d2 ys]|] eqn:E2; [|discriminate]. injection S as <- <-.
    pose proof (Forall_inv HS) as X. cbn in X. subst ex.
    destruct (board_write_oc _ ops oc szs ds mem (base + a) k d a d1 0 w B T) as (mem1 & R1 & B1 & F1); [exists sz; repeat split; auto; lia|exact E|].
    destruct (IH (set_nth ds k d1) mem1 d1 d2 ys (changed (changed f R_rr0 (base + a)) R_avr w) B1) as (f' & mem' & HR & B' & T'); auto.
    { unfold tidy in *. destruct F1 as (-> & _). exact T. } { eapply set_nth_same; eauto. } { apply (Forall_inv_tail HS). }
    exists f', mem'. split; [|split; [rewrite set_nth_twice in B'; exact B'|exact T']]. cbn [request_script flat_map app]. eapply hr_put; [lia|exact R1|exact HR].
Qed.
End Tests.
Lemma request_wf base sz h : 0 <= base -> base + sz <= 2 ^ 32 -> Forall (in_range sz) h -> Forall errand_wf (request_script base h).
Proof.
  intros Hb Hs. induction 1 as [|r h H _ IH]; [constructor|]. cbn [request_script flat_map]. apply Forall_app. split; [|exact IH].
  destruct r; cbn in H; repeat (apply Forall_cons || apply Forall_nil); cbn; unfold is_u32 in *; lia.
Qed.
Lemma good_sum l : Forall (fun s => 0 < s /\ s mod 4 = 0) l -> 0 <= sum l /\ sum l mod 4 = 0.
Proof. induction 1 as [|s l H _ IH]; [cbn; lia|]. unfold sum in *. cbn [fold_right]. lia. Qed.

(** Requests made by a generated program. The program made with the builders from a list of requests to a component [d] of a machine runs from the boot to its HALT
    without exception if the component, reset then asked the same requests directly, answers all of them without exception; the component ends in the same state,
    and the host then reads from it through the mapped memory what the component answers. *)
Lemma P_C86_serves : forall oc h size id rom rest szs k d sz d' xs cfg, is_u64 id -> is_u32 size ->
  let base := size + sum (firstn k szs) in let prog := script_words (request_script base h) in
  br_with_size prog size id = Some rom -> zlen prog * 4 <= size ->
  Forall2 (declares (dev_ops oc)) rest szs -> bootable oc (size :: szs) -> (forall x, In x rest -> exists x', bo_reset (dev_ops oc) x = Ret x') ->
  nth_error rest k = Some d -> nth_error szs k = Some sz -> Forall (in_range sz) h -> ~ In ResetReq h ->
  serve (dev_ops oc) d (ResetReq :: h) = Ret (d', xs) -> Forall silent xs -> cf_limit cfg = None ->
  forall fuel, script_length (request_script base h) + 1 < Z.of_nat fuel ->
  exists m', ran (exec_vm (dev_ops oc) oc fuel cfg (DRom rom :: rest)) (script_length (request_script base h)) m' /\ component m' (S k) d' /\
    forall a d'' w, 0 <= a < sz -> a mod 4 = 0 -> bo_read (dev_ops oc) d' a = Ret (d'', 0, w) -> host_reads (dev_ops oc) oc m' (base + a) w.
Proof.
  intros oc h size id rom rest szs k d sz d' xs cfg Hid Hsize base prog Hrom Hlen HD HB HR Hd Hsz HF HN S HS Hl fuel Hf.
  assert (Er : rom = BootRom prog (zlen prog) (br_size rom) id /\ declares (dev_ops oc) (DRom rom) size).
  { pose proof Hrom as X. unfold br_with_size in X. destruct (negb (zlen prog <? 4294967296)); [discriminate|]. destruct (size <? zlen prog); [discriminate|].
    destruct (Z.eqb_spec size 0); [discriminate|]. destruct (negb (size mod 4 =? 0)) eqn:E4; [discriminate|]. injection X as <-. split; [reflexivity|].
    apply negb_false_iff, Z.eqb_eq in E4. unfold is_u32 in Hsize.
    pose proof (br_declares oc (BootRom prog (zlen prog) (size / 4) id)) as Y. cbn [br_size br_hw_id] in Y. replace (4 * (size / 4)) with size in Y by lia. apply Y; auto; lia. }
  destruct Er as (Er & Dr).
  assert (HD' : Forall2 (declares (dev_ops oc)) (DRom rom :: rest) (size :: szs)) by (constructor; assumption).
  assert (HR' : forall x, In x (DRom rom :: rest) -> exists x', bo_reset (dev_ops oc) x = Ret x'). { intros x [<-|I]; [eexists; reflexivity|auto]. }
  destruct (booted_board _ (dev_ops oc) oc _ _ (dev_typed oc) HD' HR' HB) as (m0 & ds' & Em & W & Ea & Rs & B & Lm & Ht & _).
  destruct HB as (HG & HB1 & HB2). cbn [serve] in S. destruct (bo_reset (dev_ops oc) d) as [d1|] eqn:Ed1; [|discriminate]. destruct (serve (dev_ops oc) d1 h) as [[d2 ys]|] eqn:E2; [|discriminate].
  injection S as <- <-.
  assert (Hd1 : nth_error ds' (S k) = Some d1).
  { inversion Rs as [|? ? ? ? _ X]; subst. cbn [nth_error]. clear - X Hd Ed1. revert k Hd. induction X as [|? ? ? ? E _ IH]; intros [|k] Hd; cbn in Hd; try discriminate; [injection Hd as ->; cbn; congruence|]. apply IH, Hd. }
  assert (Hb : base = sum (firstn (S k) (size :: szs))) by reflexivity.
  destruct (good_sum (firstn (S k) (size :: szs))) as (P1 & P2).
  { apply Forall_forall. intros x I. rewrite Forall_forall in HG. apply HG. rewrite <- (firstn_skipn (S k) (size :: szs)). apply in_or_app. left. exact I. }
  destruct (serves_host oc (size :: szs) (S k) sz base Hsz Hb ltac:(rewrite Hb; exact P2) h ds' (c_mem m0) d1 d2 ys (fun _ => 0) B Ht Hd1 HF HN E2 (Forall_inv_tail HS)) as (f' & mem' & HH & B' & T').
  assert (Top : base + sz <= 2 ^ 32).
  { clear - HG HB1 Hsz Hb. subst base. assert (X : forall l j, Forall (fun s => 0 < s /\ s mod 4 = 0) l -> nth_error l j = Some sz -> sum (firstn j l) + sz <= sum l).
    { induction l as [|y l IH]; intros [|j] HL H; cbn in H; try discriminate; inversion HL as [|? ? Y1 Y2]; subst.
      - injection H as ->. pose proof (good_sum l Y2). unfold sum in *. cbn. lia.
      - specialize (IH j Y2 H). unfold sum in *. cbn [firstn fold_right]. lia. }
    specialize (X (size :: szs) (S k) HG Hsz). lia. }
  rewrite Er in Dr, Em |- *.
  destruct (P_C85_runs oc (request_script base h) (br_size rom) id size rest m0 f' mem' cfg (request_wf base sz h ltac:(rewrite Hb; exact P1) Top HF) Dr Hlen Em Hl HH fuel Hf) as (m' & E & Hh & Hm & _).
  exists m'. split; [split; [exact E|exact Hh]|]. destruct B' as (W' & B2 & B3 & B4). split.
  - unfold component. rewrite <- Hm in B3. apply (devs_znth _ _ _ (S k) d2 B3). eapply set_nth_same; eauto.
  - intros a d'' w Ha H4 E'. unfold host_reads. rewrite Hm.
    destruct (board_read_oc _ (dev_ops oc) oc (size :: szs) (set_nth ds' (S k) d2) mem' (base + a) (S k) d2 a d'' 0 w) as (mem2 & X & _).
    { exact (conj W' (conj B2 (conj B3 B4))). } { exact T'. } { exists sz. rewrite <- Hb. split; [exact Hsz|]. split; [eapply set_nth_same; eauto|]. split; [lia|]. split; [lia|]. rewrite <- Hb in P2. lia. } { exact E'. }
    exists mem2. exact X.
Qed.

(** ** Each component of the unit tests *)
Lemma puts_range sz ps : Forall (fun p => 0 <= fst p < sz /\ fst p mod 4 = 0 /\ is_u32 (snd p)) ps -> Forall (in_range sz) (puts ps).
Proof. intros H. unfold puts. apply Forall_forall. intros x I. apply in_map_iff in I. destruct I as (p & <- & I). rewrite Forall_forall in H. exact (H p I). Qed.
Lemma puts_no_reset ps : ~ In ResetReq (puts ps).
Proof. unfold puts. intros I. apply in_map_iff in I. destruct I as (p & X & _). discriminate X. Qed.

Lemma puts_length base ps : script_length (request_script base (puts ps)) = 7 * zlen ps.
Proof. induction ps as [|p ps IH]; [reflexivity|]. cbn [puts map request_script flat_map app script_length fold_right]. fold (puts ps). fold (request_script base (puts ps)). fold (script_length (request_script base (puts ps))). rewrite IH, zlen_cons. cbn [errand_length]. lia. Qed.
Lemma last_put_word ps a : last_word erased (ResetReq :: puts ps) a 0 = last_put ps a.
Proof. change (last_word erased (puts ps) a 0 = last_put ps a). unfold last_word, last_put. generalize 0 at 1 2. induction ps as [|p ps IH]; intros v; [reflexivity|]. cbn [puts map fold_left]. apply IH. Qed.
Lemma one_bootable oc size msize : 0 < size -> size mod 4 = 0 -> 0 < msize -> msize mod 4 = 0 -> size + msize < 2 ^ 32 -> bootable oc [size; msize].
Proof. intros. split; [repeat (apply Forall_cons || apply Forall_nil); lia|]. unfold sum. cbn [fold_right]. lia. Qed.
Lemma rom_good prog size id rom : is_u32 size -> br_with_size prog size id = Some rom -> 0 < size /\ size mod 4 = 0.
Proof.
  unfold br_with_size, is_u32. intros Hs X. destruct (negb (zlen prog <? 4294967296)); [discriminate|]. destruct (size <? zlen prog); [discriminate|].
  destruct (Z.eqb_spec size 0); [discriminate|]. destruct (negb (size mod 4 =? 0)) eqn:E4; [discriminate|]. apply negb_false_iff, Z.eqb_eq in E4. lia.
Qed.
(** The same with one component after the boot ROM. *)
Lemma one_component oc h size id rom d sz d' xs cfg : is_u64 id -> is_u32 size -> let prog := script_words (request_script size h) in
  br_with_size prog size id = Some rom -> zlen prog * 4 <= size -> declares (dev_ops oc) d sz -> 0 < sz -> sz mod 4 = 0 -> size + sz < 2 ^ 32 ->
  Forall (in_range sz) h -> ~ In ResetReq h -> serve (dev_ops oc) d (ResetReq :: h) = Ret (d', xs) -> Forall silent xs -> cf_limit cfg = None ->
  forall fuel, script_length (request_script size h) + 1 < Z.of_nat fuel ->
  exists m', ran (exec_vm (dev_ops oc) oc fuel cfg [DRom rom; d]) (script_length (request_script size h)) m' /\ component m' 1 d' /\
    forall a d'' w, 0 <= a < sz -> a mod 4 = 0 -> bo_read (dev_ops oc) d' a = Ret (d'', 0, w) -> host_reads (dev_ops oc) oc m' (size + a) w.
Proof.
  intros Hid Hs prog Hr Hlen HD H0 H4 Ht HF HN S HS Hl fuel Hf. destruct (rom_good _ _ _ _ Hs Hr) as (Hs0 & Hs4).
  pose proof (P_C86_serves oc h size id rom [d] [sz] 0 d sz d' xs cfg Hid Hs) as X. cbn [firstn sum fold_right] in X. rewrite Z.add_0_r in X.
  apply X; auto; try reflexivity.
  - apply one_bootable; auto.
  - intros x [<-|[]]. cbn [serve] in S. destruct (bo_reset (dev_ops oc) d) as [d1|]; [eauto|discriminate].
Qed.

(** Words a generated program writes to a RAM or a flash memory are what the host reads after the run: the last one put at each address, 0 elsewhere (unit tests ram, flash). *)
Lemma P_C86_memory : forall oc ps size id rom msize mid d x cfg, is_u64 id -> is_u64 mid -> is_u32 size -> is_u32 msize ->
  let prog := script_words (request_script size (puts ps)) in br_with_size prog size id = Some rom -> zlen prog * 4 <= size ->
  sm_new msize mid = Some d -> x = DRam d \/ x = DFlash d -> size + msize < 2 ^ 32 ->
  Forall (fun p => 0 <= fst p < msize /\ fst p mod 4 = 0 /\ is_u32 (snd p)) ps -> cf_limit cfg = None ->
  forall fuel, 7 * zlen ps + 1 < Z.of_nat fuel ->
  exists m', ran (exec_vm (dev_ops oc) oc fuel cfg [DRom rom; x]) (7 * zlen ps) m' /\
    forall a, 0 <= a < msize -> a mod 4 = 0 -> host_reads (dev_ops oc) oc m' (size + a) (last_put ps a).
Proof.
  intros oc ps size id rom msize mid d x cfg Hid Hmid Hs Hms prog Hr Hlen Hd Hx Ht HP Hl fuel Hf. rewrite <- (puts_length size ps) in *.
  assert (Hm : 0 < msize /\ msize mod 4 = 0). { unfold sm_new in Hd. unfold is_u32 in Hms. destruct (Z.eqb_spec msize 0); [discriminate|]. destruct (Z.eqb_spec (msize mod 4) 0); [|discriminate]. lia. }
  destruct (P_C59_new oc msize mid Hms Hmid) as (_ & X). destruct (X d Hd) as (D1 & D2 & S1 & S2).
  assert (DS : declares (dev_ops oc) x msize /\ word_store (dev_ops oc) erased msize (fun _ => 0) x) by (destruct Hx as [-> | ->]; auto). destruct DS as (D & S).
  destruct (S (ResetReq :: puts ps)) as (d' & xs & E & HS & HR). { apply Forall_cons; [exact I|]. apply puts_range, HP. }
  destruct (one_component oc (puts ps) size id rom x msize d' xs cfg Hid Hs Hr Hlen D (proj1 Hm) (proj2 Hm) Ht (puts_range _ _ HP) (puts_no_reset ps) E HS Hl fuel Hf) as (m' & R' & C & G).
  exists m'. split; [exact R'|]. intros a Ha H4. destruct (HR a Ha H4) as (d'' & Y). rewrite last_put_word in Y. eapply G; eauto.
Qed.
(** Words a generated program writes to a character display reach its handler once each, in order, as the character of that number if there is one (unit test of character.rs). *)
Lemma P_C86_characters : forall oc ws size id rom mid cfg, is_u64 id -> is_u64 mid -> is_u32 size ->
  let prog := script_words (request_script size (puts (map (fun w => (0, w)) ws))) in br_with_size prog size id = Some rom -> zlen prog * 4 <= size ->
  size + 4 < 2 ^ 32 -> Forall is_u32 ws -> cf_limit cfg = None ->
  forall fuel, 7 * zlen ws + 1 < Z.of_nat fuel ->
  exists m' calls, ran (exec_vm (dev_ops oc) oc fuel cfg [DRom rom; DChar (CharDisplay mid [])]) (7 * zlen ws) m' /\ component m' 1 (DChar (CharDisplay mid calls)) /\
    Forall2 (fun w c => (scalar w /\ c = ROk w) \/ (~ scalar w /\ c = RErr w)) ws calls.
Proof.
  intros oc ws size id rom mid cfg Hid Hmid Hs prog Hr Hlen Ht HW Hl fuel Hf. set (ps := map (fun w => (0, w)) ws) in *.
  assert (L : zlen ws = zlen ps) by (unfold ps, zlen; rewrite map_length; reflexivity). rewrite L, <- (puts_length size ps) in *.
  assert (HP : Forall (fun p => 0 <= fst p < 4 /\ fst p mod 4 = 0 /\ is_u32 (snd p)) ps).
  { apply Forall_forall. intros p I. apply in_map_iff in I. destruct I as (w & <- & I). rewrite Forall_forall in HW. cbn [fst snd]. specialize (HW w I). split; [lia|]. split; [lia|exact HW]. }
  destruct (P_C61_character oc mid [] 4 (ResetReq :: puts ps)) as (new & E & F). { apply Forall_cons; [exact I|]. apply puts_range, HP. }
  assert (HS : Forall silent (map write_only (ResetReq :: puts ps))). { apply Forall_cons; [exact I|]. clear. induction ps as [|p ps IH]; [constructor|]. constructor; [reflexivity|exact IH]. }
  assert (D : declares (dev_ops oc) (DChar (CharDisplay mid [])) 4) by (unfold declares; destruct oc; eexists; split; reflexivity).
  destruct (one_component oc (puts ps) size id rom _ 4 _ _ cfg Hid Hs Hr Hlen D ltac:(lia) eq_refl Ht (puts_range _ _ HP) (puts_no_reset ps) E HS Hl fuel Hf) as (m' & R' & C & _).
  exists m', new. split; [exact R'|]. split; [exact C|]. change (writes (ResetReq :: puts ps)) with (writes (puts ps)) in F.
  replace (writes (puts ps)) with ps in F by (clear; induction ps as [|[a w] ps IH]; [reflexivity|]; cbn; f_equal; exact IH).
  unfold ps in F. clear - F. revert new F. induction ws as [|w ws IH]; intros new F; inversion F as [|? ? ? ? Y1 Y2]; subst; constructor; auto.
Qed.

Lemma text_shown n ws o : forall k (content : Z -> Z), o = 170 \/ o = 187 -> Z.of_nat k + zlen ws <= n ->
  shown n content (puts (combine (map (fun i => 4 * Z.of_nat i) (seq k (length ws))) ws ++ [(4 * n, o)])) =
  [(o =? 187, flat_map bytes_of (words_upto n (fun i => if (Z.of_nat k <=? i) && (i <? Z.of_nat k + zlen ws) then nth (Z.to_nat i - k) ws 0 else content i)))].
Proof.
  induction ws as [|w ws IH]; intros k content Ho Hn.
  - cbn [length seq map combine app puts fst snd shown]. rewrite Z.eqb_refl. replace (zlen (@nil Z)) with 0 by reflexivity.
    assert (X : forall i, (if (Z.of_nat k <=? i) && (i <? Z.of_nat k + 0) then nth (Z.to_nat i - k) [] 0 else content i) = content i).
    { intros i. destruct (Z.leb_spec (Z.of_nat k) i), (Z.ltb_spec i (Z.of_nat k + 0)); cbn [andb]; reflexivity || lia. }
    unfold words_upto. rewrite (map_ext _ _ X). destruct Ho as [-> | ->]; reflexivity.
  - rewrite zlen_cons in *. pose proof (zlen_nonneg ws). cbn [length seq map combine app puts fst snd shown].
    destruct (Z.eqb_spec (4 * Z.of_nat k) (4 * n)); [lia|]. fold (puts (combine (map (fun i => 4 * Z.of_nat i) (seq (S k) (length ws))) ws ++ [(4 * n, o)])).
    rewrite (IH (S k)) by (auto; lia). do 3 f_equal. unfold words_upto. apply map_ext_in. intros i I. apply in_map_iff in I. destruct I as (j & <- & _).
    destruct (Z.leb_spec (Z.of_nat (S k)) (Z.of_nat j)), (Z.ltb_spec (Z.of_nat j) (Z.of_nat (S k) + zlen ws)), (Z.leb_spec (Z.of_nat k) (Z.of_nat j)), (Z.ltb_spec (Z.of_nat j) (Z.of_nat k + (zlen ws + 1))); cbn [andb]; try lia.
    all: destruct (Z.eqb_spec (Z.of_nat j) (4 * Z.of_nat k / 4)); try lia; try reflexivity.
    + replace (Z.to_nat (Z.of_nat j) - k)%nat with (S (Z.to_nat (Z.of_nat j) - S k)) by lia. reflexivity.
    + replace (Z.to_nat (Z.of_nat j) - k)%nat with O by lia. reflexivity.
Qed.
(** A text a generated program writes to a buffered display, followed by an order to show it (0xAA strictly, 0xBB lossily), reaches its handler once, completed by zero bytes (unit test of buffered.rs). *)
Lemma P_C86_text : forall oc ws o size id rom capacity mid d cfg, is_u64 id -> is_u64 mid -> is_u32 size -> is_u32 capacity -> bd_new capacity mid = Some d ->
  4 * zlen ws + 4 <= capacity -> Forall is_u32 ws -> o = 170 \/ o = 187 ->
  let ps := text_puts ws ++ [(capacity - 4, o)] in
  let prog := script_words (request_script size (puts ps)) in br_with_size prog size id = Some rom -> zlen prog * 4 <= size ->
  size + capacity < 2 ^ 32 -> cf_limit cfg = None -> forall fuel, 7 * (zlen ws + 1) + 1 < Z.of_nat fuel ->
  exists m' d', ran (exec_vm (dev_ops oc) oc fuel cfg [DRom rom; DBuf d]) (7 * (zlen ws + 1)) m' /\ component m' 1 (DBuf d') /\
    bd_calls d' = [(o =? 187, flat_map bytes_of (ws ++ zeros (capacity / 4 - 1 - zlen ws)))].
Proof.
  intros oc ws o size id rom capacity mid d cfg Hid Hmid Hs Hc Hd Hcap HW Ho ps prog Hr Hlen Ht Hl fuel Hf. pose proof (zlen_nonneg ws) as Z0.
  destruct (P_C61_buffered_new oc capacity mid Hc Hmid) as (_ & X). destruct (X d Hd) as (D & Hn & HL & H0 & Hcalls). clear X.
  destruct d as [l n mid' calls]. cbn [bd_words bd_buffer bd_calls] in *. subst calls n. unfold is_u32 in Hc.
  assert (Ll : length (text_puts ws) = length ws) by (unfold text_puts; rewrite combine_length, map_length, seq_length; apply Nat.min_id).
  assert (L : zlen ws + 1 = zlen ps) by (unfold ps, zlen; rewrite app_length, Ll; cbn [length]; lia). rewrite L, <- (puts_length size ps) in *.
  assert (HP : Forall (fun p => 0 <= fst p < capacity /\ fst p mod 4 = 0 /\ is_u32 (snd p)) ps).
  { unfold ps. apply Forall_app. split; [|apply Forall_cons; [cbn [fst snd]; unfold is_u32; destruct Ho; subst o; lia|apply Forall_nil]].
    apply Forall_forall. intros (a, w) I. pose proof (in_combine_l _ _ _ _ I) as I1. pose proof (in_combine_r _ _ _ _ I) as I2. apply in_map_iff in I1. destruct I1 as (j & <- & I1). apply in_seq in I1. rewrite Forall_forall in HW.
    cbn [fst snd]. specialize (HW w I2). unfold zlen in *. split; [lia|]. split; [lia|exact HW]. }
  assert (Ul : Forall is_u32 l) by (eapply Forall_impl; [|exact H0]; intros ? <-; unfold is_u32; lia).
  destruct (P_C61_buffered oc l mid' [] (ResetReq :: puts ps) Ul) as (l' & E & _). { rewrite Hn. apply Forall_cons; [exact I|]. apply puts_range, HP. }
  assert (HS : Forall silent (map (buffered_answer (zlen l)) (ResetReq :: puts ps))).
  { rewrite map_cons. apply Forall_cons; [exact I|]. unfold ps, puts. rewrite map_app, map_app, map_map. apply Forall_app. split.
    - apply Forall_forall. intros x I. apply in_map_iff in I. destruct I as ((a, w) & <- & I). pose proof (in_combine_l _ _ _ _ I) as I1. apply in_map_iff in I1. destruct I1 as (j & <- & I1). apply in_seq in I1.
      cbn [fst snd buffered_answer]. destruct (Z.eqb_spec (4 * Z.of_nat j) (4 * zlen l)); [unfold zlen in *; lia|]. reflexivity.
    - apply Forall_cons; [|apply Forall_nil]. cbn [fst snd buffered_answer]. destruct (Z.eqb_spec (capacity - 4) (4 * zlen l)); destruct Ho; subst o; reflexivity. }
  destruct (one_component oc (puts ps) size id rom _ capacity _ _ cfg Hid Hs Hr Hlen D ltac:(lia) ltac:(lia) Ht (puts_range _ _ HP) (puts_no_reset ps) E HS Hl fuel Hf) as (m' & R' & C & _).
  exists m'. eexists. split; [exact R'|]. split; [exact C|]. cbn [bd_calls app shown]. unfold ps, text_puts. replace (capacity - 4) with (4 * zlen l) by lia. rewrite (text_shown (zlen l) ws o 0 (fun _ => 0) Ho) by lia.
  do 3 f_equal. unfold words_upto. replace (capacity / 4 - 1 - zlen ws) with (zlen l - zlen ws) by lia.
  apply nth_ext with (d := 0) (d' := 0). { rewrite !map_length, seq_length, app_length. unfold zeros. rewrite repeat_length. unfold zlen in *. lia. }
  intros i Hi. rewrite !map_length, seq_length in Hi. rewrite map_map. erewrite nth_indep; [|rewrite map_length, seq_length; exact Hi]. rewrite (map_nth (fun x : nat => _) _ O i) at 1. rewrite seq_nth by exact Hi.
  cbn [Z.of_nat]. rewrite Nat.add_0_l. destruct (Z.leb_spec 0 (Z.of_nat i)); [|lia]. destruct (Z.ltb_spec (Z.of_nat i) (0 + zlen ws)); cbn [andb].
  - rewrite Nat2Z.id, Nat.sub_0_r. rewrite app_nth1 by (unfold zlen in *; lia). reflexivity.
  - rewrite app_nth2 by (unfold zlen in *; lia). unfold zeros. rewrite nth_repeat. reflexivity.
Qed.
(** Characters a generated program asks a character keyboard for: it asks the user exactly as many times, and the host reads the last one (unit test sync_char). *)
Lemma P_C86_key : forall oc n size id rom mid c input cfg, is_u64 id -> is_u64 mid -> is_u32 size -> (forall k, is_u32 (input k)) ->
  let h := repeat (Write 4 1) (S n) in let prog := script_words (request_script size h) in br_with_size prog size id = Some rom -> zlen prog * 4 <= size ->
  size + 8 < 2 ^ 32 -> cf_limit cfg = None -> forall fuel, 7 * (Z.of_nat n + 1) + 1 < Z.of_nat fuel ->
  exists m' b, ran (exec_vm (dev_ops oc) oc fuel cfg [DRom rom; DKeyChar (CharKeyboard c mid input 0)]) (7 * (Z.of_nat n + 1)) m' /\
    component m' 1 (DKeyChar (CharKeyboard b mid input (S n))) /\ host_reads (dev_ops oc) oc m' size (input n).
Proof.
  intros oc n size id rom mid c input cfg Hid Hmid Hs Hin h prog Hr Hlen Ht Hl fuel Hf.
  assert (L : script_length (request_script size h) = 7 * (Z.of_nat n + 1)).
  { unfold h. replace (repeat (Write 4 1) (S n)) with (puts (repeat (4, 1) (S n))). { rewrite puts_length. unfold zlen. rewrite repeat_length. lia. } generalize (S n). intros q. induction q as [|q IH]; [reflexivity|]. cbn. f_equal. exact IH. }
  assert (HF : Forall (in_range 8) h). { apply Forall_forall. intros x I. apply repeat_spec in I. subst x. cbn. unfold is_u32. lia. }
  assert (HN : ~ In ResetReq h). { intros I. apply repeat_spec in I. discriminate I. }
  assert (E : exists xs, serve (dev_ops oc) (DKeyChar (CharKeyboard c mid input 0)) (ResetReq :: h) = Ret (DKeyChar (CharKeyboard (input n) mid input (S n)), xs) /\ Forall silent xs).
  { cbn [serve]. change (bo_reset (dev_ops oc) (DKeyChar (CharKeyboard c mid input 0))) with (Ret (DKeyChar (CharKeyboard 0 mid input 0))).
    assert (G : forall q b u, exists xs, serve (dev_ops oc) (DKeyChar (CharKeyboard b mid input u)) (repeat (Write 4 1) (S q)) = Ret (DKeyChar (CharKeyboard (input (q + u)%nat) mid input (S q + u)), xs) /\ Forall silent xs).
    { induction q as [|q IH]; intros b u. { eexists. split; [reflexivity|]. repeat constructor. }
      destruct (IH (input u) (S u)) as (xs & X & Y). change (repeat (Write 4 1) (S (S q))) with (Write 4 1 :: repeat (Write 4 1) (S q)). remember (repeat (Write 4 1) (S q)) as hh. cbn [serve].
      change (bo_write (dev_ops oc) (DKeyChar (CharKeyboard b mid input u)) 4 1) with (Ret (DKeyChar (CharKeyboard (input u) mid input (S u)), 0) : outcome (device * Z)). cbn iota. rewrite X. exists (Put 0 :: xs). split; [|constructor; [reflexivity|exact Y]].
      rewrite <- !plus_n_Sm. reflexivity. }
    destruct (G n 0 O) as (xs & X & Y). fold h in X. rewrite X. rewrite !Nat.add_0_r. exists (Done :: xs). split; [reflexivity|]. constructor; [exact I|exact Y]. }
  destruct E as (xs & E & HS). rewrite <- L in *.
  assert (D : declares (dev_ops oc) (DKeyChar (CharKeyboard c mid input 0)) 8) by (unfold declares; destruct oc; eexists; split; reflexivity).
  destruct (one_component oc h size id rom _ 8 _ xs cfg Hid Hs Hr Hlen D ltac:(lia) eq_refl Ht HF HN E HS Hl fuel Hf) as (m' & R' & C & G).
  exists m', (input n). split; [exact R'|]. split; [exact C|]. rewrite <- (Z.add_0_r size). eapply G; [lia|reflexivity|].
  cbn [bo_read dev_ops]. unfold ck_read, wrap_r. cbn [Z.eqb ck_buffer obind]. rewrite u32_id by apply Hin. reflexivity.
Qed.
(** A line a generated program asks a line keyboard for: the user is asked once, and the host reads the words of its text, cut to the capacity, completed by zero bytes (unit test sync_line). *)
Lemma P_C86_line : forall oc size id rom capacity mid input d cfg, is_u64 id -> is_u64 mid -> is_u32 size -> is_u32 capacity -> (forall j, Forall is_u8 (input j)) ->
  lk_new capacity mid input = Some d ->
  let h := [Write (capacity - 4) 170] in let prog := script_words (request_script size h) in br_with_size prog size id = Some rom -> zlen prog * 4 <= size ->
  size + capacity < 2 ^ 32 -> cf_limit cfg = None -> forall fuel, 8 < Z.of_nat fuel ->
  exists m' d', ran (exec_vm (dev_ops oc) oc fuel cfg [DRom rom; DKeyLine d]) 7 m' /\ component m' 1 (DKeyLine d') /\ lk_used d' = 1%nat /\
    forall i, 0 <= i -> 4 * i < capacity - 4 -> host_reads (dev_ops oc) oc m' (size + 4 * i) (line_word (input 0%nat) i).
Proof.
  intros oc size id rom capacity mid input d cfg Hid Hmid Hs Hc Hin Hd h prog Hr Hlen Ht Hl fuel Hf.
  destruct (P_C62_line_new oc capacity mid input Hc Hmid) as (_ & X). destruct (X d Hd) as (D & Hn & HL & H0 & Hi & Hu). clear X.
  destruct d as [l n mid' inp u]. cbn [lk_capacity lk_buffer lk_input lk_used] in *. subst inp u n. unfold is_u32 in Hc. pose proof (zlen_nonneg l) as Z0.
  assert (HF : Forall (in_range capacity) h). { apply Forall_cons; [|apply Forall_nil]. cbn. unfold is_u32. lia. }
  assert (HN : ~ In ResetReq h) by (intros [X|[]]; discriminate X).
  assert (Ul : Forall is_u32 l) by (eapply Forall_impl; [|exact H0]; intros ? <-; unfold is_u32; lia).
  destruct (P_C62_line oc l mid' input 0 (ResetReq :: h) Ul Hin) as (l' & xs & E & HL' & HR & _). { rewrite Hn. apply Forall_cons; [exact I|exact HF]. }
  assert (T : typed_line (zlen l) input (ResetReq :: h) (0%nat, fun i => word_at l (4 * i)) = (1%nat, fun i => if 4 * i <? zlen (input 0%nat) then line_word (input 0%nat) i else 0)).
  { unfold typed_line, h. cbn [fold_left fst snd]. destruct (Z.eqb_spec (capacity - 4) (4 * zlen l)); [|lia]. reflexivity. }
  rewrite T in E, HR. cbn [fst snd] in E, HR. clear T.
  assert (HS : Forall silent xs).
  { clear - E Hn. cbn [serve h bo_reset dev_ops wrap_o obind] in E. unfold lk_clear in E. cbn [lk_buffer lk_capacity lk_hw_id lk_input lk_used] in E. cbn [bo_write dev_ops] in E. unfold lk_write, wrap_w in E. cbn [lk_capacity] in E.
    destruct (Z.eqb_spec ((capacity - 4) / 4) (zlen l)); [|lia]. cbn [negb lk_buffer lk_input lk_used] in E.
    destruct (lk_fill _ _ _ _ _) as [b|]; [|discriminate]. cbn [obind] in E. injection E. intros X _. rewrite <- X. repeat constructor. }
  destruct (one_component oc h size id rom _ capacity _ xs cfg Hid Hs Hr Hlen D ltac:(lia) ltac:(lia) Ht HF HN E HS Hl fuel Hf) as (m' & R' & C & G).
 exists m'. eexists. split; [exact R'|]. split; [exact C|]. split; [reflexivity|]. intros i Hi Hi2. destruct (HR i ltac:(lia)) as (d'' & Y).
  assert (W : (if 4 * i <? zlen (input 0%nat) then line_word (input 0%nat) i else 0) = line_word (input 0%nat) i).
  { destruct (Z.ltb_spec (4 * i) (zlen (input 0%nat))); [reflexivity|]. unfold line_word, file_word. rewrite !nth_overflow by (unfold zlen in *; lia). reflexivity. }
  rewrite W in Y. eapply G; [lia|lia|exact Y].
Qed.

(** ** Witnesses: the cases of the unit tests *)
Definition witness_rom (h : list request) : boot_rom := let prog := script_words (request_script 256 h) in BootRom prog (zlen prog) 64 1.
Definition mixed_requests : list request := [Write 0 305419896; Read 0; Write 8 7; Write 0 9].
Lemma E_C86_serves : exists d' xs m', br_with_size (script_words (request_script 320 mixed_requests)) 256 1 = Some (BootRom (script_words (request_script 320 mixed_requests)) 26 64 1) /\
  serve (dev_ops true) (DRam (StoreMem (zeros 64) 16 3)) (ResetReq :: mixed_requests) = Ret (d', xs) /\ Forall silent xs /\
  ran (exec_vm (dev_ops true) true 100 config_default [DRom (BootRom (script_words (request_script 320 mixed_requests)) 26 64 1); DRam (StoreMem (zeros 64) 16 2); DRam (StoreMem (zeros 64) 16 3)]) 25 m' /\
  component m' 2 d' /\ host_reads (dev_ops true) true m' 320 9.
Proof.
  destruct (serve (dev_ops true) (DRam (StoreMem (zeros 64) 16 3)) (ResetReq :: mixed_requests)) as [(d', xs)|] eqn:E; [|vm_compute in E; discriminate E].
  exists d', xs. assert (HS : Forall silent xs). { vm_compute in E. injection E as _ <-. repeat (apply Forall_cons; [first [exact I|reflexivity]|]). apply Forall_nil. }
  assert (Er : br_with_size (script_words (request_script 320 mixed_requests)) 256 1 = Some (BootRom (script_words (request_script 320 mixed_requests)) 26 64 1)) by (vm_compute; reflexivity).
  assert (D : forall i, is_u64 i -> declares (dev_ops true) (DRam (StoreMem (zeros 64) 16 i)) 64).
  { intros i Hi. destruct (P_C59_new true 64 i ltac:(unfold is_u32; lia) Hi) as (_ & X). apply (X (StoreMem (zeros 64) 16 i)). reflexivity. }
  destruct (P_C86_serves true mixed_requests 256 1 (BootRom (script_words (request_script 320 mixed_requests)) 26 64 1) [DRam (StoreMem (zeros 64) 16 2); DRam (StoreMem (zeros 64) 16 3)] [64; 64] 1 (DRam (StoreMem (zeros 64) 16 3)) 64 d' xs config_default
    ltac:(unfold is_u64; lia) ltac:(unfold is_u32; lia) Er ltac:(vm_compute; discriminate)) with (fuel := 100%nat) as (m' & X & C & G); auto.
  - repeat (apply Forall2_cons; [apply D; unfold is_u64; lia|]). apply Forall2_nil.
  - split; [repeat (apply Forall_cons; [lia|]); apply Forall_nil|]. unfold sum. cbn [fold_right]. lia.
  - intros x [<-|[<-|[]]]; eexists; reflexivity.
  - repeat (apply Forall_cons; [cbn; unfold is_u32; lia|]). apply Forall_nil.
  - intros [X|[X|[X|[X|[]]]]]; discriminate X.
  - vm_compute. reflexivity.
  - exists m'. split; [exact Er|]. split; [reflexivity|]. split; [exact HS|]. split; [exact X|]. split; [exact C|]. vm_compute in E. injection E as <- _. eapply (G 0); [lia|reflexivity|]. vm_compute. reflexivity.
Qed.
Definition memory_puts : list (Z * Z) := [(0, 305419896); (8, 7); (0, 9)].
Lemma E_C86_memory : exists rom d m', br_with_size (script_words (request_script 256 (puts memory_puts))) 256 1 = Some rom /\ sm_new 64 2 = Some d /\
  ran (exec_vm (dev_ops true) true 100 config_default [DRom rom; DFlash d]) 21 m' /\
  host_reads (dev_ops true) true m' 256 9 /\ host_reads (dev_ops true) true m' 260 0 /\ host_reads (dev_ops true) true m' 264 7.
Proof.
  exists (witness_rom (puts memory_puts)), (StoreMem (zeros 64) 16 2).
  assert (Er : br_with_size (script_words (request_script 256 (puts memory_puts))) 256 1 = Some (witness_rom (puts memory_puts))) by (vm_compute; reflexivity).
  destruct (P_C86_memory true memory_puts 256 1 (witness_rom (puts memory_puts)) 64 2 (StoreMem (zeros 64) 16 2) (DFlash (StoreMem (zeros 64) 16 2)) config_default
    ltac:(unfold is_u64; lia) ltac:(unfold is_u64; lia) ltac:(unfold is_u32; lia) ltac:(unfold is_u32; lia) Er ltac:(vm_compute; discriminate) eq_refl (or_intror eq_refl) ltac:(lia)) with (fuel := 100%nat) as (m' & X & G); auto.
  - repeat (apply Forall_cons; [cbn; unfold is_u32; lia|]). apply Forall_nil.
  - vm_compute. reflexivity.
  - exists m'. split; [exact Er|]. split; [reflexivity|]. split; [exact X|]. split; [apply (G 0); [lia|reflexivity]|]. split; [apply (G 4); [lia|reflexivity]|apply (G 8); [lia|reflexivity]].
Qed.
Definition char_words : list Z := [72; 233; 128512; 55296].
Definition char_puts : list (Z * Z) := map (fun w => (0, w)) char_words.
Lemma E_C86_characters : exists rom m', br_with_size (script_words (request_script 256 (puts char_puts))) 256 1 = Some rom /\
  ran (exec_vm (dev_ops true) true 100 config_default [DRom rom; DChar (CharDisplay 2 [])]) 28 m' /\
  component m' 1 (DChar (CharDisplay 2 [ROk 72; ROk 233; ROk 128512; RErr 55296])).
Proof.
  exists (witness_rom (puts char_puts)).
  assert (Er : br_with_size (script_words (request_script 256 (puts char_puts))) 256 1 = Some (witness_rom (puts char_puts))) by (vm_compute; reflexivity).
  destruct (P_C86_characters true char_words 256 1 (witness_rom (puts char_puts)) 2 config_default
    ltac:(unfold is_u64; lia) ltac:(unfold is_u64; lia) ltac:(unfold is_u32; lia) Er ltac:(vm_compute; discriminate) ltac:(lia)) with (fuel := 100%nat) as (m' & calls & X & C & G); auto.
  - repeat (apply Forall_cons; [cbn; unfold is_u32; lia|]). apply Forall_nil.
  - vm_compute. reflexivity.
  - exists m'. split; [exact Er|]. split; [exact X|]. unfold char_words in G. repeat match goal with H : Forall2 _ (_ :: _) _ |- _ => inversion H; subst; clear H end.
    match goal with H : Forall2 _ [] _ |- _ => inversion H; subst; clear H end.
    repeat match goal with H : _ \/ _ |- _ => destruct H as [[? ->]|[? ->]] end; try exact C; exfalso; unfold scalar in *; lia.
Qed.
Definition text_words : list Z := [1214606444; 1865162839; 1869769828].
Lemma E_C86_text : exists rom d m' d', br_with_size (script_words (request_script 256 (puts (text_puts text_words ++ [(60, 170)])))) 256 1 = Some rom /\ bd_new 64 2 = Some d /\
  ran (exec_vm (dev_ops true) true 100 config_default [DRom rom; DBuf d]) 28 m' /\ component m' 1 (DBuf d') /\
  bd_calls d' = [(false, [72; 101; 108; 108; 111; 44; 32; 87; 111; 114; 108; 100] ++ zeros 48)].
Proof.
  exists (witness_rom (puts (text_puts text_words ++ [(60, 170)]))).
  destruct (bd_new 64 2) as [d|] eqn:Ed; [|vm_compute in Ed; discriminate Ed].
  assert (Er : br_with_size (script_words (request_script 256 (puts (text_puts text_words ++ [(60, 170)])))) 256 1 = Some (witness_rom (puts (text_puts text_words ++ [(60, 170)])))) by (vm_compute; reflexivity).
  destruct (P_C86_text true text_words 170 256 1 (witness_rom (puts (text_puts text_words ++ [(60, 170)]))) 64 2 d config_default
    ltac:(unfold is_u64; lia) ltac:(unfold is_u64; lia) ltac:(unfold is_u32; lia) ltac:(unfold is_u32; lia) Ed ltac:(vm_compute; discriminate)) with (fuel := 100%nat) as (m' & d' & X & C & G); auto.
  - repeat (apply Forall_cons; [cbn; unfold is_u32; lia|]). apply Forall_nil.
  - vm_compute. discriminate.
  - vm_compute. reflexivity.
  - vm_compute. reflexivity.
  - exists d, m', d'. split; [exact Er|]. split; [reflexivity|]. split; [exact X|]. split; [exact C|]. rewrite G. vm_compute. reflexivity.
Qed.
Lemma E_C86_key : exists rom m' b, br_with_size (script_words (request_script 256 (repeat (Write 4 1) 2))) 256 1 = Some rom /\
  ran (exec_vm (dev_ops true) true 100 config_default [DRom rom; DKeyChar (CharKeyboard 0 2 (fun k => 97 + Z.of_nat (k mod 26)) 0)]) 14 m' /\
  component m' 1 (DKeyChar (CharKeyboard b 2 (fun k => 97 + Z.of_nat (k mod 26)) 2)) /\ host_reads (dev_ops true) true m' 256 98.
Proof.
  exists (witness_rom (repeat (Write 4 1) 2)).
  assert (Er : br_with_size (script_words (request_script 256 (repeat (Write 4 1) 2))) 256 1 = Some (witness_rom (repeat (Write 4 1) 2))) by (vm_compute; reflexivity).
  destruct (P_C86_key true 1 256 1 (witness_rom (repeat (Write 4 1) 2)) 2 0 (fun k => 97 + Z.of_nat (k mod 26)) config_default
    ltac:(unfold is_u64; lia) ltac:(unfold is_u64; lia) ltac:(unfold is_u32; lia)) with (fuel := 100%nat) as (m' & b & X & C & G); auto.
  - intros k. pose proof (Nat.mod_upper_bound k 26 ltac:(discriminate)). unfold is_u32. lia.
  - vm_compute. discriminate.
  - vm_compute. reflexivity.
  - vm_compute. reflexivity.
  - exists m', b. split; [exact Er|]. split; [exact X|]. split; [exact C|exact G].
Qed.
Lemma E_C86_line : exists rom d m' d', br_with_size (script_words (request_script 256 [Write 28 170])) 256 1 = Some rom /\ lk_new 32 2 (fun _ => [72; 101; 108; 108; 111; 33]) = Some d /\
  ran (exec_vm (dev_ops true) true 100 config_default [DRom rom; DKeyLine d]) 7 m' /\ component m' 1 (DKeyLine d') /\ lk_used d' = 1%nat /\
  host_reads (dev_ops true) true m' 256 1214606444 /\ host_reads (dev_ops true) true m' 260 1864433664 /\ host_reads (dev_ops true) true m' 264 0.
Proof.
  exists (witness_rom [Write 28 170]).
  destruct (lk_new 32 2 (fun _ => [72; 101; 108; 108; 111; 33])) as [d|] eqn:Ed; [|vm_compute in Ed; discriminate Ed].
  assert (Er : br_with_size (script_words (request_script 256 [Write 28 170])) 256 1 = Some (witness_rom [Write 28 170])) by (vm_compute; reflexivity).
  destruct (P_C86_line true 256 1 (witness_rom [Write 28 170]) 32 2 (fun _ => [72; 101; 108; 108; 111; 33]) d config_default
    ltac:(unfold is_u64; lia) ltac:(unfold is_u64; lia) ltac:(unfold is_u32; lia) ltac:(unfold is_u32; lia)) with (fuel := 100%nat) as (m' & d' & X & C & U & G); auto.
  - intros _. repeat (apply Forall_cons; [unfold is_u8; lia|]). apply Forall_nil.
  - vm_compute. discriminate.
  - vm_compute. reflexivity.
  - vm_compute. reflexivity.
  - exists d, m', d'. split; [exact Er|]. split; [reflexivity|]. split; [exact X|]. split; [exact C|]. split; [exact U|]. split; [apply (G 0); lia|]. split; [apply (G 1); lia|apply (G 2); lia].
Qed.
