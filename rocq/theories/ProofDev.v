(** Proofs about the memories of lrvm_aux: RAM, flash, BootROM, file-backed. *)
From Coq Require Import String ZArith List Bool Lia.
From Verif Require Import Base Board Mem Cpu Asm Tools Devices SpecMach SpecAsm SpecDev BaseFacts MemFacts DevTyped ReachFacts ProofTools ProofHist.
Import ListNotations.
Open Scope list_scope.
Open Scope Z_scope.
Ltac Zify.zify_post_hook ::= Z.div_mod_to_equations.

(** ** Stores of words *)
Lemma word_store_intro {D} (ops : bus_ops D) on_reset sz (rep : (Z -> Z) -> D -> Prop) :
  (forall f d a, rep f d -> 0 <= a < sz -> a mod 4 = 0 -> exists d', bo_read ops d a = Ret (d', 0, f a) /\ rep f d') ->
  (forall f d a w, rep f d -> 0 <= a < sz -> a mod 4 = 0 -> is_u32 w ->
     exists d', bo_write ops d a w = Ret (d', 0) /\ rep (fun b => if a =? b then w else f b) d') ->
  (forall f d, rep f d -> exists d', bo_reset ops d = Ret d' /\ rep (fun b => on_reset (f b)) d') ->
  forall h f d, rep f d -> Forall (in_range sz) h ->
    exists d' xs, serve ops d h = Ret (d', xs) /\ Forall silent xs /\ rep (fun a => last_word on_reset h a (f a)) d'.
Proof.
  intros HR HW HS h. induction h as [|r t IH]; intros f d Hr HF.
  - exists d, []. auto.
  - inversion HF as [|? ? H1 H2]; subst. destruct r as [a|a w|]; cbn [serve].
    + destruct (HR f d a Hr) as (d1 & E & H3); try (apply H1). rewrite E.
      destruct (IH _ _ H3 H2) as (d2 & xs & -> & F & H4). exists d2, (Got 0 (f a) :: xs). split; [reflexivity|]. split; [constructor; cbn; auto|exact H4].
    + destruct H1 as (A1 & A2 & A3). destruct (HW f d a w Hr A1 A2 A3) as (d1 & E & H3). rewrite E.
      destruct (IH _ _ H3 H2) as (d2 & xs & -> & F & H4). exists d2, (Put 0 :: xs). split; [reflexivity|]. split; [constructor; cbn; auto|exact H4].
    + destruct (HS f d Hr) as (d1 & E & H3). rewrite E.
      destruct (IH _ _ H3 H2) as (d2 & xs & -> & F & H4). exists d2, (Done :: xs). split; [reflexivity|]. split; [constructor; cbn; auto|exact H4].
Qed.

Definition sm_rep (mk : store_mem -> device) (sz : Z) (f : Z -> Z) (x : device) : Prop :=
  exists l s id, x = mk (StoreMem l s id) /\ sz <= 4 * zlen l /\ Forall is_u32 l /\
    forall a, 0 <= a < sz -> a mod 4 = 0 -> word_at l a = f a.
Lemma word_at_znth l a : 0 <= a -> a / 4 < zlen l -> znth l (a / 4) = Some (word_at l a).
Proof.
  intros Ha Hl. rewrite znth_nth by lia. unfold word_at. apply nth_error_nth'. unfold zlen in Hl. lia.
Qed.
Lemma word_at_u32 l a : Forall is_u32 l -> is_u32 (word_at l a).
Proof. intros H. unfold word_at. destruct (nth_in_or_default (Z.to_nat (a / 4)) l 0) as [X| ->]; [|unfold is_u32; lia]. rewrite Forall_forall in H. auto. Qed.
Lemma zset_u32 l i w l' : Forall is_u32 l -> is_u32 w -> zset l i w = Some l' -> Forall is_u32 l'.
Proof.
  revert i l'. induction l as [|x t IH]; intros i l' HF Hw; cbn [zset]; [discriminate|]. inversion HF; subst.
  destruct (i =? 0). { intros E; injection E as <-. auto. }
  destruct (zset t (i - 1) w) eqn:E; [|discriminate]. intros X; injection X as <-. constructor; eauto.
Qed.
Lemma zeros_length n : 0 <= n -> zlen (zeros n) = n.
Proof. intros. unfold zlen, zeros. rewrite repeat_length. lia. Qed.
Lemma zeros_u32 n : Forall is_u32 (zeros n).
Proof. unfold zeros. apply Forall_forall. intros x Hx. apply repeat_spec in Hx. subst. unfold is_u32; lia. Qed.
Lemma zeros_at n a : word_at (zeros n) a = 0.
Proof.
  unfold word_at, zeros. destruct (nth_in_or_default (Z.to_nat (a / 4)) (repeat 0 (Z.to_nat n)) 0) as [X| ->]; auto. apply repeat_spec in X. auto.
Qed.
Lemma sm_store oc (mk : store_mem -> device) :
  (forall d a, bo_read (dev_ops oc) (mk d) a = wrap_r mk (sm_read d a)) ->
  (forall d a w, bo_write (dev_ops oc) (mk d) a w = wrap_w mk (sm_write d a w)) ->
  (forall d, bo_reset (dev_ops oc) (mk d) = wrap_o mk (sm_reset d)) ->
  forall sz h f x, sm_rep mk sz f x -> Forall (in_range sz) h ->
    exists x' xs, serve (dev_ops oc) x h = Ret (x', xs) /\ Forall silent xs /\ sm_rep mk sz (fun a => last_word erased h a (f a)) x'.
Proof.
  intros HR HW HS sz. apply word_store_intro.
  - intros f x a (l & s & id & -> & Hl & Hu & Hf) Ha Hal. rewrite HR. unfold sm_read, vget. cbn [sm_storage].
    rewrite word_at_znth by lia. cbn [unwrap obind wrap_r]. exists (mk (StoreMem l s id)). rewrite u32_id by (apply word_at_u32; auto).
    rewrite Hf by auto. split; [reflexivity|]. exists l, s, id. auto.
  - intros f x a w (l & s & id & -> & Hl & Hu & Hf) Ha Hal Hw. rewrite HW. unfold sm_write, vset. cbn [sm_storage].
    destruct (zset_some l (a / 4) w) as (l' & El); [lia|]. rewrite El. cbn [unwrap obind wrap_w sm_size sm_hw_id].
    exists (mk (StoreMem l' s id)). split; [reflexivity|]. exists l', s, id. split; [reflexivity|].
    pose proof (zset_length _ _ _ _ El) as L. split; [unfold zlen in *; lia|]. split; [eapply zset_u32; eauto|].
    intros b Hb Hbl. 
    assert (X : znth l' (b / 4) = Some (word_at l' b)) by (apply word_at_znth; unfold zlen in *; lia).
    rewrite (zset_get _ _ _ _ (b / 4) El) in X. destruct (Z.eqb_spec a b) as [->|N].
    + rewrite Z.eqb_refl in X. congruence.
    + destruct (Z.eqb_spec (b / 4) (a / 4)); [lia|]. rewrite word_at_znth in X by lia. injection X as <-. auto.
  - intros f x (l & s & id & -> & Hl & Hu & Hf). rewrite HS. unfold sm_reset. cbn [obind wrap_o sm_storage sm_size sm_hw_id].
    exists (mk (StoreMem (zeros (zlen l)) s id)). split; [reflexivity|]. exists (zeros (zlen l)), s, id. split; [reflexivity|].
    pose proof (zlen_nonneg l). rewrite zeros_length by auto. split; auto. split; [apply zeros_u32|]. intros. apply zeros_at.
Qed.
Lemma sm_word_store oc (mk : store_mem -> device) :
  (forall d a, bo_read (dev_ops oc) (mk d) a = wrap_r mk (sm_read d a)) ->
  (forall d a w, bo_write (dev_ops oc) (mk d) a w = wrap_w mk (sm_write d a w)) ->
  (forall d, bo_reset (dev_ops oc) (mk d) = wrap_o mk (sm_reset d)) ->
  forall sz l s id, sz <= 4 * zlen l -> Forall is_u32 l -> word_store (dev_ops oc) erased sz (word_at l) (mk (StoreMem l s id)).
Proof.
  intros HR HW HS sz l s id Hl Hu h HF.
  destruct (sm_store oc mk HR HW HS sz h (word_at l) (mk (StoreMem l s id))) as (x' & xs & E & F & (l' & s' & id' & -> & Hl' & Hu' & Hf)); auto.
  { exists l, s, id. auto. }
  exists (mk (StoreMem l' s' id')), xs. split; auto. split; auto. intros a Ha Hal. exists (mk (StoreMem l' s' id')).
  rewrite HR. unfold sm_read, vget. cbn [sm_storage]. rewrite word_at_znth by lia. cbn [unwrap obind wrap_r].
  rewrite u32_id by (apply word_at_u32; auto). rewrite Hf by auto. reflexivity.
Qed.

(** * C56 *)
(** RAM over any history of requests: never a panic nor an exception, reads give the last word written, 0 after a reset, or the
    initial word. *)
Lemma P_C56_ram : forall oc l s id sz, Forall is_u32 l -> sz <= 4 * zlen l ->
  word_store (dev_ops oc) erased sz (word_at l) (DRam (StoreMem l s id)).
Proof. intros. apply sm_word_store; auto. Qed.
(** In particular one built by [Ram::new], for its whole size. *)
Lemma P_C56_new : forall oc size id d, is_u32 size -> sm_new size id = Some d -> word_store (dev_ops oc) erased size (fun _ => 0) (DRam d).
Proof.
  intros oc size id d Hs E. unfold sm_new in E. destruct (Z.eqb_spec size 0); [discriminate|]. destruct (Z.eqb_spec (size mod 4) 0); [|discriminate].
  injection E as <-. unfold is_u32 in Hs. 
  assert (X : word_store (dev_ops oc) erased size (word_at (zeros size)) (DRam (StoreMem (zeros size) (size / 4) id))).
  { apply P_C56_ram; [apply zeros_u32|]. rewrite zeros_length; lia. }
  intros h Hh. destruct (X h Hh) as (d' & xs & E & F & G). exists d', xs. split; auto. split; auto. intros a Ha Hal. 
  destruct (G a Ha Hal) as (d'' & Er). exists d''. rewrite zeros_at in Er. exact Er.
Qed.
Lemma E_C56_ram : exists d, sm_new 16 7 = Some d /\
  let h := [Write 4 9; Write 8 5; Write 4 6; Read 8] in
  Forall (in_range 16) h /\ last_word erased h 4 0 = 6 /\ last_word erased (h ++ [ResetReq; Write 12 3]) 4 0 = 0 /\
  match serve (dev_ops false) (DRam d) (h ++ [Read 4; ResetReq; Read 4]) with
  | Ret (_, xs) => xs = [Put 0; Put 0; Put 0; Got 0 5; Got 0 6; Done; Got 0 0] | Panic => False end.
Proof.
  eexists. split; [reflexivity|]. split; [repeat constructor; cbn; unfold is_u32; lia|]. split; [reflexivity|]. split; [reflexivity|]. vm_compute. reflexivity.
Qed.

(** * C57 *)
(** A BootROM over any history: it answers with its words, 0 beyond them, refuses every write with MemoryNotWritable, and never
    changes. *)
Lemma P_C57_rom : forall oc l s id sz h, Forall is_u32 l -> Forall (in_range sz) h ->
  let d := DRom (BootRom l (zlen l) s id) in serve (dev_ops oc) d h = Ret (d, map (rom_answer l) h).
Proof.
  intros oc l s id sz h Hl HF d. induction h as [|r t IH]; [reflexivity|]. inversion HF as [|? ? H1 H2]; subst. cbn [serve map].
  assert (X : match r with
              | Read a => match bo_read (dev_ops oc) d a with Ret (d', ex, v) => Ret (d', Got ex v) | Panic => Panic end
              | Write a w => match bo_write (dev_ops oc) d a w with Ret (d', ex) => Ret (d', Put ex) | Panic => Panic end
              | ResetReq => match bo_reset (dev_ops oc) d with Ret d' => Ret (d', Done) | Panic => Panic end
              end = Ret (d, rom_answer l r)).
  { destruct r as [a|a w|]; cbn [bo_read bo_write bo_reset dev_ops d rom_answer]; [| |reflexivity].
    - unfold br_read. cbn [br_len br_storage]. destruct (Z.ltb_spec (a / 4) (zlen l)).
      + unfold vget. rewrite word_at_znth; [|cbn in H1; lia|lia]. cbn [unwrap obind wrap_r].
        rewrite u32_id by (apply word_at_u32; auto). reflexivity.
      + cbn [obind wrap_r]. unfold word_at. rewrite nth_overflow by (unfold zlen in *; lia). reflexivity.
    - reflexivity. }
  rewrite X. rewrite IH by auto. reflexivity.
Qed.
(** Whatever programs run, mapped or not, reset or not: the ROM's contents are those the board was built with. *)
Lemma P_C57_program : forall oc cs m m' k e d, wf m -> Forall api_wf cs -> api_run (dev_ops oc) oc cs m = Ret m' ->
  znth (c_hwb m) k = Some e -> ae_dev e = DRom d -> br_len d = zlen (br_storage d) -> Forall is_u32 (br_storage d) -> znth (c_hwb m') k = Some e.
Proof.
  intros oc cs m m' k e d Hw Hc E Hk Hd Hl Hu.
  destruct (P_C71_invariant _ (dev_ops oc) oc (fun x => x = DRom d) cs m m' k e (dev_typed oc) Hw Hc E Hk Hd) as (x & -> & X).
  - intros x r x' xs -> Hr Hs. destruct d as [l n s id]. cbn [br_len br_storage] in *. subst n.
    rewrite (P_C57_rom oc l s id _ [r] Hu (Forall_cons _ Hr (Forall_nil _))) in Hs. injection Hs as <- _. reflexivity.
  - rewrite X. destruct e as [x c]. cbn in *. congruence.
Qed.
Lemma E_C57_rom : exists d, br_new [7; 8] 1 = Some d /\ br_len d = zlen (br_storage d) /\ Forall is_u32 (br_storage d) /\
  match serve (dev_ops false) (DRom d) [Read 4; Write 4 1; ResetReq; Read 4; Read 12] with
  | Ret (_, xs) => xs = [Got 0 8; Put 12544; Done; Got 0 8; Got 0 0] | Panic => False end.
Proof. eexists. split; [reflexivity|]. split; [reflexivity|]. split; [repeat constructor; unfold is_u32; lia|]. vm_compute. reflexivity. Qed.

(** * C58 *)
(** Flash memory between resets: reads give the last word written. A reset erases it. *)
Lemma P_C58_flash : forall oc l s id sz, Forall is_u32 l -> sz <= 4 * zlen l ->
  word_store (dev_ops oc) erased sz (word_at l) (DFlash (StoreMem l s id)).
Proof. intros. apply sm_word_store; auto. Qed.
(** The documented behaviour, content kept across resets, is false. *)
Lemma P_C58_survives_reset_refuted : ~ (forall oc size id d, is_u32 size -> sm_new size id = Some d ->
  word_store (dev_ops oc) kept size (fun _ => 0) (DFlash d)).
Proof.
  intros H. destruct (H false 16 7 _ ltac:(unfold is_u32; lia) eq_refl [Write 4 9; ResetReq]) as (d' & xs & E & _ & G).
  - repeat constructor; unfold is_u32; lia.
  - destruct (G 4 ltac:(lia) eq_refl) as (d'' & Er). vm_compute in E. injection E as <- _. vm_compute in Er. discriminate.
Qed.
Lemma E_C58_flash : exists d, sm_new 16 7 = Some d /\
  match serve (dev_ops false) (DFlash d) [Write 4 9; Read 4; ResetReq; Read 4] with
  | Ret (_, xs) => xs = [Put 0; Got 0 9; Done; Got 0 0] | Panic => False end.
Proof. eexists. split; [reflexivity|]. vm_compute. reflexivity. Qed.

(** * C59 *)
Lemma sm_declares oc c d (x : device) : bo_metadata (dev_ops oc) x = sm_metadata oc c d -> category_wf c -> is_u64 (sm_hw_id d) ->
  0 <= sm_size d -> 4 * sm_size d < 2 ^ 32 -> declares (dev_ops oc) x (4 * sm_size d).
Proof.
  intros E Hc Hi H0 H1. change (2 ^ 32) with 4294967296 in H1. unfold sm_metadata, mul_u32 in E. destruct (Z.ltb_spec (sm_size d * 4) 4294967296); [|lia]. cbn [obind] in E.
  destruct (P_C54_new (sm_hw_id d) (sm_size d * 4) c None None) as (_ & X); cbn; auto.
  { unfold is_u32; lia. }
  eexists. split; [rewrite E; apply X; exists (sm_size d); lia|]. apply Z.mul_comm.
Qed.
(** [new(size)] refuses exactly 0 and unaligned sizes, and otherwise gives a memory of [size] zero bytes that declares [size]. *)
Lemma P_C59_new : forall oc size id, is_u32 size -> is_u64 id ->
  (sm_new size id = None <-> size = 0 \/ ~ Z.divide 4 size) /\
  forall d, sm_new size id = Some d ->
    declares (dev_ops oc) (DRam d) size /\ declares (dev_ops oc) (DFlash d) size /\
    word_store (dev_ops oc) erased size (fun _ => 0) (DRam d) /\ word_store (dev_ops oc) erased size (fun _ => 0) (DFlash d).
Proof.
  intros oc size id Hs Hi. split.
  - unfold sm_new. destruct (Z.eqb_spec size 0); [tauto|]. destruct (Z.eqb_spec (size mod 4) 0) as [E|E].
    + apply Z.mod_divide in E; [|lia]. split; [discriminate|tauto].
    + rewrite Z.mod_divide in E by lia. cbn. tauto.
  - intros d E. pose proof E as E'. unfold sm_new in E. destruct (Z.eqb_spec size 0); [discriminate|]. destruct (Z.eqb_spec (size mod 4) 0); [|discriminate].
    injection E as <-. unfold is_u32 in Hs.
    assert (Q : 4 * (size / 4) = size) by lia.
    split; [|split; [|split]].
    + pose proof (sm_declares oc (CatMemory TRam) (StoreMem (zeros size) (size / 4) id) (DRam (StoreMem (zeros size) (size / 4) id)) eq_refl I Hi) as X. cbn [sm_size] in X. rewrite Q in X. apply X; lia.
    + pose proof (sm_declares oc (CatStorage TFlash) (StoreMem (zeros size) (size / 4) id) (DFlash (StoreMem (zeros size) (size / 4) id)) eq_refl I Hi) as X. cbn [sm_size] in X. rewrite Q in X. apply X; lia.
    + eapply P_C56_new; eauto.
    + assert (X : word_store (dev_ops oc) erased size (word_at (zeros size)) (DFlash (StoreMem (zeros size) (size / 4) id))).
      { apply P_C58_flash; [apply zeros_u32|]. rewrite zeros_length; lia. }
      intros h Hh. destruct (X h Hh) as (d' & xs & E & F & G). exists d', xs. split; auto. split; auto. intros a Ha Hal.
      destruct (G a Ha Hal) as (d'' & Er). exists d''. rewrite zeros_at in Er. exact Er.
Qed.
Lemma E_C59_new : exists d, sm_new 64 5 = Some d /\ declares (dev_ops false) (DRam d) 64.
Proof. eexists. split; [reflexivity|]. eexists. split; [vm_compute; reflexivity|reflexivity]. Qed.
(** [from(list)] exposes only the first quarter of the list: it declares as many bytes as it should declare words (rounded down). *)
Lemma P_C59_from : forall oc l id d, is_u64 id -> Forall is_u32 l -> sm_from l id = Some d ->
  declares (dev_ops oc) (DRam d) (4 * (zlen l / 4)) /\ declares (dev_ops oc) (DFlash d) (4 * (zlen l / 4)) /\
  word_store (dev_ops oc) erased (4 * (zlen l / 4)) (word_at l) (DRam d) /\ word_store (dev_ops oc) erased (4 * (zlen l / 4)) (word_at l) (DFlash d).
Proof.
  intros oc l id d Hi Hl E. unfold sm_from in E. destruct (Z.ltb_spec (zlen l) 4294967296) as [H|]; [|discriminate]. injection E as <-.
  pose proof (zlen_nonneg l).
  assert (G : 4 * (zlen l / 4) < 2 ^ 32) by (change (2 ^ 32) with 4294967296; lia).
  split; [|split; [|split]].
  - apply (sm_declares oc (CatMemory TRam) (StoreMem l (zlen l / 4) id) (DRam (StoreMem l (zlen l / 4) id)) eq_refl I Hi); cbn [sm_size]; lia.
  - apply (sm_declares oc (CatStorage TFlash) (StoreMem l (zlen l / 4) id) (DFlash (StoreMem l (zlen l / 4) id)) eq_refl I Hi); cbn [sm_size]; lia.
  - apply P_C56_ram; auto. lia.
  - apply P_C58_flash; auto. lia.
Qed.
(** It should expose the whole list. *)
Lemma P_C59_from_whole_refuted : ~ (forall oc l id d, is_u64 id -> Forall is_u32 l -> 4 * zlen l < 2 ^ 32 -> sm_from l id = Some d ->
  declares (dev_ops oc) (DRam d) (4 * zlen l)).
Proof.
  intros H. destruct (H false [1; 2; 3; 4] 5 _ ltac:(unfold is_u64; lia) ltac:(repeat constructor; unfold is_u32; lia) ltac:(reflexivity) eq_refl) as (md & E & X).
  vm_compute in E. injection E as <-. vm_compute in X. discriminate.
Qed.
Lemma resize_at l n a : 0 <= n -> 0 <= a < 4 * n -> word_at (resize l n) a = word_at l a.
Proof.
  intros Hn Ha. unfold resize, word_at. destruct (Z_lt_ge_dec (a / 4) (zlen l)) as [L|L]; unfold zlen in L.
  - rewrite app_nth1 by (rewrite firstn_length; lia).
    assert (N : (Z.to_nat (a / 4) < Z.to_nat n)%nat) by lia. clear - N. revert l N. generalize (Z.to_nat (a / 4)) as i, (Z.to_nat n) as k.
    induction i as [|i IH]; intros [|k] [|x l] N; cbn; auto; try lia. apply IH. lia.
  - rewrite (nth_overflow l) by lia. rewrite app_nth2; rewrite firstn_length; [|lia]. unfold zeros.
    match goal with |- nth ?i (repeat 0 ?k) 0 = 0 => destruct (nth_in_or_default i (repeat 0 k) 0) as [X| ->]; [apply repeat_spec in X; auto|auto] end.
Qed.
Lemma resize_length l n : 0 <= n -> zlen (resize l n) = n.
Proof. intros. unfold resize, zlen, zeros. rewrite app_length, firstn_length, repeat_length. unfold zlen. lia. Qed.
Lemma resize_u32 l n : Forall is_u32 l -> Forall is_u32 (resize l n).
Proof.
  intros H. unfold resize. apply Forall_app. split; [|apply zeros_u32]. apply Forall_forall. intros x Hx. rewrite Forall_forall in H. apply H. clear - Hx.
  revert l Hx. generalize (Z.to_nat n) as k. induction k; intros [|y l]; cbn; try tauto. intros [->|X]; auto.
Qed.
(** [from_with_size(list, size)] refuses sizes that are 0, unaligned or below the length of the list (compared as words, although the
    size is in bytes); otherwise it declares [size] bytes, holding as much of the list as fits, then zeros. *)
Lemma P_C59_from_with_size : forall oc l size id, is_u64 id -> is_u32 size -> Forall is_u32 l -> zlen l < 2 ^ 32 ->
  (sm_from_with_size l size id = None <-> size < zlen l \/ size = 0 \/ ~ Z.divide 4 size) /\
  forall d, sm_from_with_size l size id = Some d ->
    declares (dev_ops oc) (DRam d) size /\ declares (dev_ops oc) (DFlash d) size /\
    word_store (dev_ops oc) erased size (word_at l) (DRam d) /\ word_store (dev_ops oc) erased size (word_at l) (DFlash d).
Proof.
  intros oc l size id Hi Hs Hl Hz. change (2 ^ 32) with 4294967296 in Hz. unfold sm_from_with_size. rewrite (proj2 (Z.ltb_lt _ _) Hz). cbn [negb].
  destruct (Z.ltb_spec size (zlen l)) as [L|L]; [split; [tauto|discriminate]|].
  destruct (Z.eqb_spec size 0) as [N|N]; [split; [tauto|discriminate]|].
  destruct (Z.eqb_spec (size mod 4) 0) as [E|E]; cbn [negb].
  2:{ rewrite Z.mod_divide in E by lia. split; [tauto|discriminate]. }
  split. { apply Z.mod_divide in E; [|lia]. split; [discriminate|]. lia || (intros [?|[?|?]]; [lia|lia|tauto]). }
  intros d X; injection X as <-. unfold is_u32 in Hs. assert (Q : 4 * (size / 4) = size) by lia.
  assert (WS : forall x, word_store (dev_ops oc) erased size (word_at (resize l (size / 4))) x -> word_store (dev_ops oc) erased size (word_at l) x).
  { intros x X h Hh. destruct (X h Hh) as (d' & xs & Es & F & G). exists d', xs. split; auto. split; auto. intros a Ha Hal.
    destruct (G a Ha Hal) as (d'' & Er). exists d''. rewrite resize_at in Er by lia. exact Er. }
  split; [|split; [|split]].
  - pose proof (sm_declares oc (CatMemory TRam) (StoreMem (resize l (size / 4)) (size / 4) id) (DRam (StoreMem (resize l (size / 4)) (size / 4) id)) eq_refl I Hi) as X.
    cbn [sm_size] in X. rewrite Q in X. apply X; lia.
  - pose proof (sm_declares oc (CatStorage TFlash) (StoreMem (resize l (size / 4)) (size / 4) id) (DFlash (StoreMem (resize l (size / 4)) (size / 4) id)) eq_refl I Hi) as X.
    cbn [sm_size] in X. rewrite Q in X. apply X; lia.
  - apply WS, P_C56_ram; [apply resize_u32; auto|]. rewrite resize_length; lia.
  - apply WS, P_C58_flash; [apply resize_u32; auto|]. rewrite resize_length; lia.
Qed.
(** It should keep the whole list, or refuse it. *)
Lemma P_C59_from_with_size_whole_refuted : ~ (forall oc l size id d, is_u64 id -> is_u32 size -> Forall is_u32 l -> sm_from_with_size l size id = Some d ->
  exists sz, declares (dev_ops oc) (DRam d) sz /\ 4 * zlen l <= sz).
Proof.
  intros H. destruct (H false [1; 2; 3; 4] 4 5 _ ltac:(unfold is_u64; lia) ltac:(unfold is_u32; lia) ltac:(repeat constructor; unfold is_u32; lia) eq_refl) as (sz & (md & E & X) & Y).
  vm_compute in E. injection E as <-. cbn [w2] in X. subst. vm_compute in Y. apply Y. reflexivity.
Qed.
Lemma br_declares oc d : is_u64 (br_hw_id d) -> 0 <= br_size d -> 4 * br_size d < 2 ^ 32 -> declares (dev_ops oc) (DRom d) (4 * br_size d).
Proof.
  intros Hi H0 H1. change (2 ^ 32) with 4294967296 in H1. unfold declares. cbn [bo_metadata dev_ops]. unfold br_metadata, mul_u32.
  destruct (Z.ltb_spec (br_size d * 4) 4294967296); [|lia]. cbn [obind].
  destruct (P_C54_new (br_hw_id d) (br_size d * 4) (CatStorage TReadonly) None None) as (_ & X); cbn; auto. { unfold is_u32; lia. }
  eexists. split; [apply X; exists (br_size d); lia|]. apply Z.mul_comm.
Qed.
(** [BootRom::new(list)] declares the whole list (when its bytes can be addressed); [with_size] declares [size] bytes. *)
Lemma P_C59_rom : forall oc l size id, is_u64 id -> is_u32 size -> 4 * zlen l < 2 ^ 32 ->
  (exists d, br_new l id = Some d /\ br_storage d = l /\ br_len d = zlen l /\ declares (dev_ops oc) (DRom d) (4 * zlen l)) /\
  (br_with_size l size id = None <-> size < zlen l \/ size = 0 \/ ~ Z.divide 4 size) /\
  forall d, br_with_size l size id = Some d -> br_storage d = l /\ br_len d = zlen l /\ declares (dev_ops oc) (DRom d) size.
Proof.
  intros oc l size id Hi Hs Hz. pose proof (zlen_nonneg l). unfold is_u32 in Hs. change (2 ^ 32) with 4294967296 in Hz. split; [|split].
  - unfold br_new. rewrite (proj2 (Z.ltb_lt (zlen l) 4294967296)) by lia. eexists. split; [reflexivity|]. split; [reflexivity|]. split; [reflexivity|].
    apply (br_declares oc (BootRom l (zlen l) (zlen l) id)); cbn; auto.
  - unfold br_with_size. rewrite (proj2 (Z.ltb_lt (zlen l) 4294967296)) by lia. cbn [negb].
    destruct (Z.ltb_spec size (zlen l)); [tauto|]. destruct (Z.eqb_spec size 0); [tauto|].
    destruct (Z.eqb_spec (size mod 4) 0) as [E|E]; cbn [negb].
    + apply Z.mod_divide in E; [|lia]. split; [discriminate|]. intros [?|[?|?]]; [lia|lia|tauto].
    + rewrite Z.mod_divide in E by lia. tauto.
  - unfold br_with_size. rewrite (proj2 (Z.ltb_lt (zlen l) 4294967296)) by lia. cbn [negb].
    destruct (Z.ltb_spec size (zlen l)); [discriminate|]. destruct (Z.eqb_spec size 0); [discriminate|].
    destruct (Z.eqb_spec (size mod 4) 0) as [E|E]; cbn [negb]; [|discriminate]. intros d X; injection X as <-. split; [reflexivity|]. split; [reflexivity|].
    pose proof (br_declares oc (BootRom l (zlen l) (size / 4) id) Hi) as X. cbn [br_size] in X. replace (4 * (size / 4)) with size in X by lia.
    apply X; change (2 ^ 32) with 4294967296; lia.
Qed.
(** [with_size] should keep the whole list, or refuse it. *)
Lemma P_C59_rom_with_size_whole_refuted : ~ (forall oc l size id d, is_u64 id -> is_u32 size -> Forall is_u32 l -> br_with_size l size id = Some d ->
  exists sz, declares (dev_ops oc) (DRom d) sz /\ 4 * zlen l <= sz).
Proof.
  intros H. destruct (H false [1; 2; 3; 4] 4 5 _ ltac:(unfold is_u64; lia) ltac:(unfold is_u32; lia) ltac:(repeat constructor; unfold is_u32; lia) eq_refl) as (sz & (md & E & X) & Y).
  vm_compute in E. injection E as <-. cbn [w2] in X. subst. vm_compute in Y. apply Y. reflexivity.
Qed.
Lemma E_C59_rom : exists d, br_with_size [1; 2; 3] 32 5 = Some d /\ declares (dev_ops true) (DRom d) 32.
Proof. eexists. split; [reflexivity|]. eexists. split; [vm_compute; reflexivity|reflexivity]. Qed.

(** * C60 *)
Lemma nth_firstn {A} (l : list A) n i x : (i < n)%nat -> nth i (firstn n l) x = nth i l x.
Proof. revert n i. induction l as [|y t IH]; intros [|n] [|i] H; cbn; auto; try lia. apply IH. lia. Qed.
Lemma nth_skipn {A} (l : list A) n i x : nth i (skipn n l) x = nth (n + i) l x.
Proof. revert l. induction n as [|n IH]; intros [|y t]; cbn; auto. destruct i; reflexivity. Qed.
Lemma write_at_length f p w : 0 <= p -> p + 4 <= zlen f -> zlen (write_at f p (be_bytes32 w)) = zlen f.
Proof.
  intros Hp Hl. unfold write_at. change (zlen (be_bytes32 w)) with 4. destruct (Z.ltb_spec (zlen f) (p + 4)); [lia|].
  unfold zlen in *. rewrite !app_length, firstn_length, skipn_length. cbn [length be_bytes32]. lia.
Qed.
Lemma write_at_nth f p w i : 0 <= p -> p + 4 <= zlen f -> 0 <= i ->
  nth (Z.to_nat i) (write_at f p (be_bytes32 w)) 0 = if (p <=? i) && (i <? p + 4) then nth (Z.to_nat (i - p)) (be_bytes32 w) 0 else nth (Z.to_nat i) f 0.
Proof.
  intros Hp Hl Hi. unfold write_at. change (zlen (be_bytes32 w)) with 4. destruct (Z.ltb_spec (zlen f) (p + 4)); [lia|]. unfold zlen in *.
  assert (L : length (firstn (Z.to_nat p) f) = Z.to_nat p) by (rewrite firstn_length; lia).
  destruct (Z.leb_spec p i); cbn [andb].
  - rewrite app_nth2 by lia. rewrite L. destruct (Z.ltb_spec i (p + 4)).
    + rewrite app_nth1 by (cbn [length be_bytes32]; lia). f_equal. lia.
    + rewrite app_nth2 by (cbn [length be_bytes32]; lia). rewrite nth_skipn. f_equal. cbn [length be_bytes32]. lia.
  - rewrite app_nth1 by lia. apply nth_firstn. lia.
Qed.
Lemma write_at_word f p w a : 0 <= p -> p + 4 <= zlen f -> p mod 4 = 0 -> 0 <= a -> a mod 4 = 0 -> is_u32 w ->
  file_word (write_at f p (be_bytes32 w)) a = if p =? a then w else file_word f a.
Proof.
  intros Hp Hl Hpa Ha Haa Hw. unfold file_word. rewrite !write_at_nth by lia. destruct (Z.eqb_spec p a) as [->|N].
  - repeat match goal with |- context [(a <=? ?x) && (?x <? a + 4)] => rewrite (proj2 (Z.leb_le a x)), (proj2 (Z.ltb_lt x (a + 4))) by lia end. cbn [andb].
    replace (a + 0 - a) with 0 by lia. replace (a + 1 - a) with 1 by lia. replace (a + 2 - a) with 2 by lia. replace (a + 3 - a) with 3 by lia.
    change (Z.to_nat 0) with 0%nat.
    change (Z.to_nat 1) with 1%nat. change (Z.to_nat 2) with 2%nat. change (Z.to_nat 3) with 3%nat. cbn [nth be_bytes32].
    unfold u8, is_u32 in *. change (2 ^ 24) with 16777216. change (2 ^ 16) with 65536. change (2 ^ 8) with 256. lia.
  - repeat match goal with |- context [(p <=? ?x) && (?x <? p + 4)] =>
      replace ((p <=? x) && (x <? p + 4)) with false by (symmetry; apply andb_false_iff; rewrite Z.leb_gt, Z.ltb_ge; lia) end. reflexivity.
Qed.
Lemma be32_bytes w : Forall is_u8 (be_bytes32 w).
Proof. apply be32_u8. Qed.
Lemma write_at_u8 f p w : 0 <= p -> p + 4 <= zlen f -> Forall is_u8 f -> Forall is_u8 (write_at f p (be_bytes32 w)).
Proof.
  intros Hp Hl HF. unfold write_at. change (zlen (be_bytes32 w)) with 4. destruct (Z.ltb_spec (zlen f) (p + 4)); [lia|].
  assert (X : forall n, Forall is_u8 (firstn n f) /\ Forall is_u8 (skipn n f)).
  { intros n. rewrite <- Forall_app. rewrite firstn_skipn. auto. }
  apply Forall_app. split; [apply X|]. apply Forall_app. split; [apply be32_bytes|apply X].
Qed.
(** The readable part of a file: its whole words. *)
Definition whole (f : list Z) : Z := zlen f / 4 * 4.
Lemma fm_read_rs oc f s rs wr id a : rs <= zlen f -> rs mod 4 = 0 -> Forall is_u8 f -> 0 <= a -> a mod 4 = 0 ->
  bo_read (dev_ops oc) (DFile (FileMem f s (rs) wr id)) a = Ret (DFile (FileMem f s (rs) wr id), 0, if a <? rs then file_word f a else 0).
Proof.
  intros Hz Hrs HF Ha Hal. cbn [bo_read dev_ops]. unfold fm_read. cbn [fm_real_size fm_file].
  destruct (Z.leb_spec (rs) a) as [L|L]; [destruct (Z.ltb_spec a (rs)); [lia|reflexivity]|]. destruct (Z.ltb_spec a (rs)); [|lia].
  assert (La : a + 4 <= zlen f) by lia.
  pose proof (skipn_length (Z.to_nat a) f) as SL. unfold zlen in La.
  assert (SF : Forall is_u8 (skipn (Z.to_nat a) f)).
  { rewrite Forall_forall in *. intros x Hx. apply HF. rewrite <- (firstn_skipn (Z.to_nat a) f). apply in_or_app. auto. }
  assert (SN : forall k, nth (Z.to_nat (a + k)) f 0 = nth (Z.to_nat (a + k) - Z.to_nat a) (skipn (Z.to_nat a) f) 0 \/ k < 0).
  { intros k. destruct (Z_lt_ge_dec k 0); auto. left. rewrite nth_skipn. f_equal. lia. }
  unfold file_word. destruct (SN 0) as [-> |]; [|lia]. destruct (SN 1) as [-> |]; [|lia]. destruct (SN 2) as [-> |]; [|lia]. destruct (SN 3) as [-> |]; [|lia].
  replace (Z.to_nat (a + 0) - Z.to_nat a)%nat with 0%nat by lia. replace (Z.to_nat (a + 1) - Z.to_nat a)%nat with 1%nat by lia.
  replace (Z.to_nat (a + 2) - Z.to_nat a)%nat with 2%nat by lia. replace (Z.to_nat (a + 3) - Z.to_nat a)%nat with 3%nat by lia.
  destruct (skipn (Z.to_nat a) f) as [|b0 [|b1 [|b2 [|b3 t]]]]; cbn [length] in SL; try lia. cbn [obind wrap_r nth].
  unfold wrap_r. cbn [obind]. repeat match goal with H : Forall _ (_ :: _) |- _ => inversion H; subst; clear H end.
  rewrite u32_id; [reflexivity|]. unfold of_be4, is_u8, is_u32 in *. lia.
Qed.
Lemma fm_serve_rs oc s rs id sz h : 0 <= rs -> rs mod 4 = 0 -> forall f, rs <= zlen f -> Forall is_u8 f -> Forall (in_range sz) h ->
  exists f' xs, serve (dev_ops oc) (DFile (FileMem f s (rs) true id)) h = Ret (DFile (FileMem f' s (rs) true id), xs) /\
    Forall silent xs /\ zlen f' = zlen f /\ Forall is_u8 f' /\
    (forall a, 0 <= a < rs -> a mod 4 = 0 -> file_word f' a = last_word kept h a (file_word f a)) /\
    (forall i, rs <= i -> nth (Z.to_nat i) f' 0 = nth (Z.to_nat i) f 0).
Proof.
  intros H0 Hrs. induction h as [|r t IH]; intros f Hz Hu HF.
  - exists f, []. split; [reflexivity|]. repeat split; auto.
  - inversion HF as [|? ? H1 H2]; subst. destruct r as [a|a w|]; cbn [serve].
    + destruct H1 as [H1 H3]. rewrite fm_read_rs by (auto; lia).
      destruct (IH f Hz Hu H2) as (f' & xs & -> & G1 & G2 & G3 & G4 & G5). exists f', (Got 0 (if a <? rs then file_word f a else 0) :: xs).
      split; [reflexivity|]. split; [constructor; cbn; auto|]. auto.
    + destruct H1 as (H1 & H3 & H4). cbn [bo_write dev_ops]. unfold fm_write. cbn [fm_writable negb fm_real_size fm_file fm_size fm_hw_id].
      destruct (Z.ltb_spec a (rs)) as [L|L].
      * assert (L' : a + 4 <= zlen f) by lia.
        unfold wrap_w. cbn [obind].
        pose proof (IH (write_at f a (be_bytes32 w))) as IH'. rewrite write_at_length in IH' by lia.
        destruct (IH' Hz (write_at_u8 _ _ _ (proj1 H1) L' Hu) H2) as (f' & xs & -> & G1 & G2 & G3 & G4 & G5). exists f', (Put 0 :: xs).
        split; [reflexivity|]. split; [constructor; cbn; auto|]. split; [lia|]. split; auto. split.
        { intros b Hb Hbl. rewrite G4 by auto. unfold last_word. cbn [fold_left]. rewrite write_at_word by (auto; lia). reflexivity. }
        intros i Hi. rewrite G5 by auto. rewrite write_at_nth by lia.
        replace (i <? a + 4) with false by (symmetry; rewrite Z.ltb_ge; lia). rewrite andb_false_r. reflexivity.
      * unfold wrap_w. cbn [obind]. destruct (IH f Hz Hu H2) as (f' & xs & -> & G1 & G2 & G3 & G4 & G5). exists f', (Put 0 :: xs).
        split; [reflexivity|]. split; [constructor; cbn; auto|]. split; auto. split; auto. split; auto.
        intros b Hb Hbl. rewrite G4 by auto. unfold last_word. cbn [fold_left]. destruct (Z.eqb_spec a b); [lia|reflexivity].
    + cbn [bo_reset dev_ops]. destruct (IH f Hz Hu H2) as (f' & xs & -> & G1 & G2 & G3 & G4 & G5). exists f', (Done :: xs).
      split; [reflexivity|]. split; [constructor; cbn; auto|]. auto.
Qed.
Lemma whole_bounds f : 0 <= whole f <= zlen f /\ whole f mod 4 = 0.
Proof. pose proof (zlen_nonneg f). unfold whole. lia. Qed.
Lemma fm_read_at oc f s wr id a : zlen f < 4294967296 -> Forall is_u8 f -> 0 <= a -> a mod 4 = 0 ->
  bo_read (dev_ops oc) (DFile (FileMem f s (whole f) wr id)) a = Ret (DFile (FileMem f s (whole f) wr id), 0, if a <? whole f then file_word f a else 0).
Proof. intros _. destruct (whole_bounds f) as (H1 & H2). apply fm_read_rs; lia. Qed.
Lemma fm_serve oc s id sz h : forall f, zlen f < 4294967296 -> Forall is_u8 f -> Forall (in_range sz) h ->
  exists f' xs, serve (dev_ops oc) (DFile (FileMem f s (whole f) true id)) h = Ret (DFile (FileMem f' s (whole f') true id), xs) /\
    Forall silent xs /\ zlen f' = zlen f /\ Forall is_u8 f' /\
    (forall a, 0 <= a < whole f -> a mod 4 = 0 -> file_word f' a = last_word kept h a (file_word f a)) /\
    (forall i, whole f <= i -> nth (Z.to_nat i) f' 0 = nth (Z.to_nat i) f 0).
Proof.
  intros f Hz Hu HF. destruct (whole_bounds f) as (H1 & H2). destruct (fm_serve_rs oc s (whole f) id sz h) with (f := f) as (f' & xs & G0 & G1 & G2 & G3); auto; try lia.
  exists f', xs. replace (whole f') with (whole f) by (unfold whole; rewrite G2; reflexivity). auto.
Qed.
(** A writable file-backed memory over any history of aligned requests, in range or not: no panic nor exception; the file keeps its length; each of
    its whole words holds the last word written there, resets included; bytes beyond the whole words are untouched; words beyond the
    end read as 0. *)
Lemma P_C60_writable : forall oc f id sz h d, zlen f < 2 ^ 32 -> Forall is_u8 f -> fm_writable_new f id = Ret d -> Forall (in_range sz) h ->
  exists d' xs, serve (dev_ops oc) (DFile d) h = Ret (DFile d', xs) /\ Forall silent xs /\
    zlen (fm_file d') = zlen f /\
    (forall a, 0 <= a -> a + 4 <= zlen f -> a mod 4 = 0 ->
       file_word (fm_file d') a = last_word kept h a (file_word f a) /\ reads_as (dev_ops oc) (DFile d') a (last_word kept h a (file_word f a))) /\
    (forall i, zlen f - zlen f mod 4 <= i -> nth (Z.to_nat i) (fm_file d') 0 = nth (Z.to_nat i) f 0) /\
    (forall a, zlen f < a + 4 -> a mod 4 = 0 -> reads_as (dev_ops oc) (DFile d') a 0).
Proof.
  intros oc f id sz h d Hz Hu E HF. change (2 ^ 32) with 4294967296 in Hz. unfold fm_writable_new, fm_open in E. rewrite (proj2 (Z.ltb_lt _ _) Hz) in E. injection E as <-.
  fold (whole f). destruct (fm_serve oc (whole f) id sz h f Hz Hu HF) as (f' & xs & E & F & L & U & G1 & G2).
  exists (FileMem f' (whole f) (whole f') true id), xs. cbn [fm_file]. split; [exact E|]. split; [exact F|]. split; [exact L|].
  assert (W : whole f' = whole f) by (unfold whole; rewrite L; reflexivity).
  split; [|split].
  - intros a Ha Hl Hal. assert (Hw : a < whole f) by (unfold whole; lia). split; [apply G1; auto|].
    eexists. rewrite fm_read_at by (auto; lia). rewrite W. rewrite (proj2 (Z.ltb_lt _ _) Hw). rewrite G1 by auto. reflexivity.
  - intros i Hi. apply G2. unfold whole. lia.
  - intros a Ha Hal. eexists. rewrite fm_read_at; [|lia|auto| |auto].
    + rewrite W. replace (a <? whole f) with false by (symmetry; rewrite Z.ltb_ge; unfold whole; lia). reflexivity.
    + pose proof (zlen_nonneg f). lia.
Qed.
Lemma last_word_app on_reset h1 h2 a v : last_word on_reset (h1 ++ h2) a v = last_word on_reset h2 a (last_word on_reset h1 a v).
Proof. unfold last_word. apply fold_left_app. Qed.
(** Reopening: over any number of successive instances on one file, every whole word of the file is the last one written by any of them. *)
Lemma P_C60_reopen : forall oc sz hs f, zlen f < 2 ^ 32 -> Forall is_u8 f -> Forall (fun s => Forall (in_range sz) (snd s)) hs ->
  exists f', sessions oc f hs = Ret f' /\ zlen f' = zlen f /\
    forall a, 0 <= a -> a + 4 <= zlen f -> a mod 4 = 0 -> file_word f' a = last_word kept (concat (map snd hs)) a (file_word f a).
Proof.
  intros oc sz hs. induction hs as [|[id h] t IH]; intros f Hz Hu HF.
  - exists f. split; [reflexivity|]. split; auto.
  - inversion HF as [|? ? H1 H2]; subst. cbn [snd] in H1. cbn [sessions].
    unfold fm_writable_new, fm_open. change (2 ^ 32) with 4294967296 in *. rewrite (proj2 (Z.ltb_lt _ _) Hz). cbn [obind]. fold (whole f).
    destruct (fm_serve oc (whole f) id sz h f Hz Hu H1) as (f1 & xs & E & F & L & U & G1 & G2). rewrite E. cbn [obind fm_file].
    destruct (IH f1) as (f2 & E2 & L2 & G3); auto; [lia|]. exists f2. split; auto. split; [lia|].
    intros a Ha Hl Hal. rewrite G3 by lia. cbn [map concat snd]. rewrite last_word_app. rewrite G1; [reflexivity|unfold whole; lia|auto].
Qed.
(** A read-only instance: its answers are those of a ROM; it never changes the file. *)
Lemma P_C60_readonly : forall oc f id sz h d, zlen f < 2 ^ 32 -> Forall is_u8 f -> (fm_readonly f id = Ret d \/ exists size, fm_readonly_with_size f size id = Ret d) ->
  Forall (in_range sz) h -> fm_file d = f /\
  serve (dev_ops oc) (DFile d) h = Ret (DFile d, map (fun r =>
    match r with
    | Read a => Got 0 (if a + 4 <=? zlen f then file_word f a else 0)
    | Write _ _ => Put (49 * 2 ^ 8)
    | ResetReq => Done
    end) h).
Proof.
  intros oc f id sz h d Hz Hu E HF. change (2 ^ 32) with 4294967296 in *.
  assert (X : exists s, d = FileMem f s (whole f) false id).
  { destruct E as [E|[size E]]; unfold fm_readonly, fm_readonly_with_size, fm_open in E; rewrite (proj2 (Z.ltb_lt _ _) Hz) in E; injection E as <-; eauto. }
  destruct X as [s ->]. split; [reflexivity|]. induction h as [|r t IH]; [reflexivity|]. inversion HF as [|? ? H1 H2]; subst. cbn [serve map].
  assert (Y : match r with
              | Read a => match bo_read (dev_ops oc) (DFile (FileMem f s (whole f) false id)) a with Ret (d', ex, v) => Ret (d', Got ex v) | Panic => Panic end
              | Write a w => match bo_write (dev_ops oc) (DFile (FileMem f s (whole f) false id)) a w with Ret (d', ex) => Ret (d', Put ex) | Panic => Panic end
              | ResetReq => match bo_reset (dev_ops oc) (DFile (FileMem f s (whole f) false id)) with Ret d' => Ret (d', Done) | Panic => Panic end
              end = Ret (DFile (FileMem f s (whole f) false id), match r with
                                  | Read a => Got 0 (if a + 4 <=? zlen f then file_word f a else 0)
                                  | Write _ _ => Put (49 * 2 ^ 8)
                                  | ResetReq => Done
                                  end)).
  { destruct r as [a|a w|]; [|reflexivity|reflexivity]. cbn in H1. rewrite fm_read_at by (auto; lia).
    replace (a + 4 <=? zlen f) with (a <? whole f); [reflexivity|].
    destruct (Z.ltb_spec a (whole f)), (Z.leb_spec (a + 4) (zlen f)); auto; unfold whole in *; lia. }
  rewrite Y. rewrite IH by auto. reflexivity.
Qed.
(** Opening panics exactly on files of 4 GB or more. *)
Lemma P_C60_open : forall f wr id, fm_open f wr id = Panic <-> 2 ^ 32 <= zlen f.
Proof.
  intros f wr id. unfold fm_open. change (2 ^ 32) with 4294967296. destruct (Z.ltb_spec (zlen f) 4294967296); split; auto; try discriminate; lia.
Qed.
Lemma fm_declares oc d : is_u64 (fm_hw_id d) -> 0 <= fm_size d -> 4 * fm_size d < 2 ^ 32 -> declares (dev_ops oc) (DFile d) (4 * fm_size d).
Proof.
  intros Hi H0 H1. change (2 ^ 32) with 4294967296 in H1. unfold declares. cbn [bo_metadata dev_ops]. unfold fm_metadata, mul_u32.
  destruct (Z.ltb_spec (fm_size d * 4) 4294967296); [|lia]. cbn [obind].
  destruct (P_C54_new (fm_hw_id d) (fm_size d * 4) (CatStorage TPersistent) None None) as (_ & X); cbn; auto. { unfold is_u32; lia. }
  eexists. split; [apply X; exists (fm_size d); lia|]. apply Z.mul_comm.
Qed.
(** It declares four times the size of the file (when that can be addressed). *)
Lemma P_C60_declares : forall oc f id d wr, is_u64 id -> fm_open f wr id = Ret d -> Z.divide 4 (zlen f) -> 4 * zlen f < 2 ^ 32 ->
  declares (dev_ops oc) (DFile d) (4 * zlen f).
Proof.
  intros oc f id d wr Hi E Hd Hz. unfold fm_open in E. change (2 ^ 32) with 4294967296 in Hz. pose proof (zlen_nonneg f).
  rewrite (proj2 (Z.ltb_lt (zlen f) 4294967296)) in E by lia. injection E as <-. apply Z.mod_divide in Hd; [|lia].
  pose proof (fm_declares oc (FileMem f (zlen f / 4 * 4) (zlen f / 4 * 4) wr id) Hi) as X. cbn [fm_size] in X. replace (zlen f / 4 * 4) with (zlen f) in X by lia.
  replace (zlen f / 4 * 4) with (zlen f) by lia. apply X; auto.
Qed.
(** It should declare the size of the file. *)
Lemma P_C60_declares_size_refuted : ~ (forall oc f id d, is_u64 id -> Forall is_u8 f -> fm_writable_new f id = Ret d -> Z.divide 4 (zlen f) -> 4 * zlen f < 2 ^ 32 ->
  declares (dev_ops oc) (DFile d) (zlen f)).
Proof.
  intros H. destruct (H false [1; 2; 3; 4] 5 _ ltac:(unfold is_u64; lia) ltac:(repeat constructor; unfold is_u8; lia) eq_refl ltac:(exists 1; reflexivity) ltac:(reflexivity)) as (md & E & X).
  vm_compute in E. injection E as <-. vm_compute in X. discriminate.
Qed.
(** [writable_with_size(size)] should give a memory of [size] bytes: false when the file is shorter. *)
Lemma P_C60_with_size_refuted : ~ (forall oc f size id d, is_u64 id -> is_u32 size -> Z.divide 4 size -> Forall is_u8 f -> fm_writable_with_size f size id = Ret d ->
  word_store (dev_ops oc) kept size (file_word (fm_file d)) (DFile d)).
Proof.
  intros H. destruct (H false [] 8 5 _ ltac:(unfold is_u64; lia) ltac:(unfold is_u32; lia) ltac:(exists 2; reflexivity) ltac:(constructor) eq_refl [Write 4 9]) as (d' & xs & E & _ & G).
  - repeat constructor; unfold is_u32; lia.
  - destruct (G 4 ltac:(lia) eq_refl) as (d'' & Er). vm_compute in E. injection E as <- _. vm_compute in Er. discriminate.
Qed.
(** What [writable_with_size(size)] gives instead: the file is set to [size] bytes, zeros being added, when it has fewer whole words, and is
    left alone otherwise; then, over any history of aligned requests, the words the file had when it was opened, and only these, are kept as
    [writable] keeps them, also beyond [size]; the others read as 0. The size declared is four times [size], or four times the file's when
    the file was shorter. *)
Lemma P_C60_with_size : forall oc f size id sz h d, zlen f < 2 ^ 32 -> Forall is_u8 f -> is_u64 id -> is_u32 size -> fm_writable_with_size f size id = Ret d ->
  Forall (in_range sz) h ->
  let kept_bytes := zlen f - zlen f mod 4 in
  (4 * Z.min size kept_bytes < 2 ^ 32 -> declares (dev_ops oc) (DFile d) (4 * Z.min size kept_bytes)) /\
  (zlen (fm_file d) = if kept_bytes <? size then size else zlen f) /\
  (forall i, 0 <= i -> nth (Z.to_nat i) (fm_file d) 0 = if i <? zlen (fm_file d) then nth (Z.to_nat i) f 0 else 0) /\
  exists d' xs, serve (dev_ops oc) (DFile d) h = Ret (DFile d', xs) /\ Forall silent xs /\
    zlen (fm_file d') = zlen (fm_file d) /\
    (forall a, 0 <= a < kept_bytes -> a mod 4 = 0 ->
       file_word (fm_file d') a = last_word kept h a (file_word f a) /\ reads_as (dev_ops oc) (DFile d') a (last_word kept h a (file_word f a))) /\
    (forall i, kept_bytes <= i -> nth (Z.to_nat i) (fm_file d') 0 = nth (Z.to_nat i) (fm_file d) 0) /\
    (forall a, kept_bytes <= a -> a mod 4 = 0 -> reads_as (dev_ops oc) (DFile d') a 0).
Proof.
  intros oc f size id sz h d Hz Hu Hi Hs E HF kb. change (2 ^ 32) with 4294967296 in *. unfold is_u32 in Hs.
  pose proof (zlen_nonneg f) as Hf0. destruct (whole_bounds f) as (W1 & W2). assert (Ek : kb = whole f) by (unfold kb, whole; lia).
  unfold fm_writable_with_size, fm_open in E. rewrite (proj2 (Z.ltb_lt _ _) Hz) in E. fold (whole f) in E. cbn [obind fm_real_size fm_file fm_size] in E. rewrite Ek. clearbody kb. subst kb.
  assert (X : exists f1, d = FileMem f1 (Z.min size (whole f)) (whole f) true id /\ (zlen f1 = if whole f <? size then size else zlen f) /\ Forall is_u8 f1 /\
    forall i, 0 <= i -> nth (Z.to_nat i) f1 0 = if i <? zlen f1 then nth (Z.to_nat i) f 0 else 0).
  { assert (SELF : forall i, 0 <= i -> nth (Z.to_nat i) f 0 = if i <? zlen f then nth (Z.to_nat i) f 0 else 0).
    { intros i Hi0. destruct (Z.ltb_spec i (zlen f)); auto. apply nth_overflow. unfold zlen in *. lia. }
    destruct (Z.ltb_spec size (whole f)); [|destruct (Z.ltb_spec (whole f) size)]; injection E as <-.
    - exists f. rewrite Z.min_l by lia. replace (whole f <? size) with false by lia. auto.
    - assert (L : zlen (set_len f size) = size) by (unfold set_len, resize, zlen, zeros; rewrite app_length, firstn_length, repeat_length; unfold zlen; lia).
      exists (set_len f size). rewrite Z.min_r by lia. split; [reflexivity|]. split; [exact L|]. split.
      + unfold set_len, resize. apply Forall_app. split; [rewrite <- (firstn_skipn (Z.to_nat size) f) in Hu; apply Forall_app in Hu; apply Hu|]. unfold zeros. apply Forall_forall. intros x Hx. apply repeat_spec in Hx. subst. unfold is_u8. lia.
      + intros i Hi0. rewrite L. destruct (Z.ltb_spec i size); [|apply nth_overflow; unfold zlen in L; lia]. unfold set_len, resize.
        destruct (Z_lt_ge_dec i (zlen f)) as [Li|Li].
        * rewrite app_nth1 by (rewrite firstn_length; unfold zlen in *; lia). apply nth_firstn. lia.
        * rewrite app_nth2 by (rewrite firstn_length; unfold zlen in *; lia). unfold zeros. rewrite nth_repeat. symmetry. apply nth_overflow. unfold zlen in *. lia.
    - exists f. rewrite Z.min_r by lia. replace (whole f <? size) with false by lia. auto. }
  destruct X as (f1 & -> & L1 & U1 & N1). cbn [fm_file].
  assert (LW : whole f <= zlen f1) by (rewrite L1; destruct (Z.ltb_spec (whole f) size); lia).
  assert (FW : forall a, 0 <= a < whole f -> a mod 4 = 0 -> file_word f1 a = file_word f a).
  { intros a Ha Hal. unfold file_word. rewrite !N1 by lia. repeat match goal with |- context [?x <? zlen f1] => replace (x <? zlen f1) with true by lia end. reflexivity. }
  split; [intros Hd; apply fm_declares; cbn [fm_size fm_hw_id]; auto; lia|]. split; [exact L1|]. split; [exact N1|].
  destruct (fm_serve_rs oc (Z.min size (whole f)) (whole f) id sz h) with (f := f1) as (f' & xs & G0 & G1 & G2 & G3 & G4 & G5); auto; try lia.
  exists (FileMem f' (Z.min size (whole f)) (whole f) true id), xs. cbn [fm_file]. split; [exact G0|]. split; [exact G1|]. split; [exact G2|]. split; [|split].
  - intros a Ha Hal. rewrite <- FW by auto. split; [apply G4; auto|]. eexists. rewrite fm_read_rs by (auto; lia). rewrite (proj2 (Z.ltb_lt _ _) (proj2 Ha)). rewrite G4 by auto. reflexivity.
  - exact G5.
  - intros a Ha Hal. eexists. rewrite fm_read_rs by (auto; lia). replace (a <? whole f) with false by lia. reflexivity.
Qed.
Lemma E_C60_with_size : exists d, fm_writable_with_size [0; 0; 1; 2; 9] 12 5 = Ret d /\ fm_file d = [0; 0; 1; 2; 9; 0; 0; 0; 0; 0; 0; 0] /\
  match serve (dev_ops false) (DFile d) [Read 0; Write 4 7; Read 4; Write 0 8; Read 0] with
  | Ret (DFile d', xs) => xs = [Got 0 258; Put 0; Got 0 0; Put 0; Got 0 8] /\ fm_file d' = [0; 0; 0; 8; 9; 0; 0; 0; 0; 0; 0; 0]
  | _ => False end.
Proof. eexists. split; [reflexivity|]. vm_compute. repeat split; reflexivity. Qed.
Lemma be32_u32 x : be_bytes32 (u32 x) = be_bytes32 x.
Proof.
  assert (K : forall k m, 0 < k -> k * (m * 256) = 4294967296 -> u8 (u32 x / k) = u8 (x / k)).
  { intros k m Hk E. unfold u8, u32. assert (X : x / k = (x / 4294967296) * m * 256 + (x mod 4294967296) / k).
    { rewrite (Z.div_mod x 4294967296) at 1 by lia. rewrite <- E at 1. replace (k * (m * 256) * (x / 4294967296)) with (((x / 4294967296) * m * 256) * k) by ring.
      apply Z.div_add_l. lia. }
    rewrite X. rewrite Z.add_comm. rewrite Z_mod_plus_full. reflexivity. }
  assert (K0 : u8 (u32 x) = u8 x). { generalize (K 1 16777216 eq_refl eq_refl). rewrite !Z.div_1_r. auto. }
  unfold be_bytes32. rewrite (K 16777216 1), (K 65536 256), (K 256 65536), K0 by reflexivity. reflexivity.
Qed.
Lemma encode_u32 id sz c md : obind (metadata_new id sz c None None) metadata_encode = Ret md -> obind (metadata_new id (u32 sz) c None None) metadata_encode = Ret md.
Proof.
  unfold metadata_new. replace (u32 sz mod 4) with (sz mod 4) by (unfold u32; lia). destruct (sz mod 4 =? 0); auto. cbn [obind].
  unfold metadata_encode, metadata_to_bytes. cbn [md_hw_id md_size md_category md_model md_data]. rewrite be32_u32. auto.
Qed.
Lemma request_identity oc d r d' x : (match r with
             | Read a => match bo_read (dev_ops oc) d a with Ret (d', ex, v) => Ret (d', Got ex v) | Panic => Panic end
             | Write a w => match bo_write (dev_ops oc) d a w with Ret (d', ex) => Ret (d', Put ex) | Panic => Panic end
             | ResetReq => match bo_reset (dev_ops oc) d with Ret d' => Ret (d', Done) | Panic => Panic end
             end) = Ret (d', x) -> identity d' = identity d.
Proof.
  Ltac split_matches E := repeat match type of E with
    | obind ?b _ = _ => destruct b; cbn [obind] in E; try discriminate E
    | context [match ?b with _ => _ end] => lazymatch b with context [match _ with _ => _ end] => fail | _ => destruct b; cbn [obind] in E; try discriminate E end end.
  intros E.
  assert (R : forall A (f : A -> device) (x : outcome (A * Z * Z)) ex v, wrap_r f x = Ret (d', ex, v) -> exists y ex' v', x = Ret (y, ex', v') /\ d' = f y).
  { intros A f [[[y e1] e2]|] ex v Ex; [|discriminate]. cbn in Ex. injection Ex as <- _ _. eauto. }
  assert (W : forall A (f : A -> device) (x : outcome (A * Z)) ex, wrap_w f x = Ret (d', ex) -> exists y ex', x = Ret (y, ex') /\ d' = f y).
  { intros A f [[y e1]|] ex Ex; [|discriminate]. cbn in Ex. injection Ex as <- _. eauto. }
  assert (O : forall A (f : A -> device) (x : outcome A), wrap_o f x = Ret d' -> exists y, x = Ret y /\ d' = f y).
  { intros A f [y|] Ex; [|discriminate]. cbn in Ex. injection Ex as <-. eauto. }
  destruct r as [a|a w|].
  - destruct (bo_read (dev_ops oc) d a) as [[[d1 ex] v]|] eqn:E1; [|discriminate]. injection E as <- <-.
    destruct d; cbn [bo_read dev_ops] in E1; apply R in E1; destruct E1 as (y & ex' & v' & E1 & ->); cbn [identity];
    unfold not_readable, sm_read, br_read, fm_read, ck_read, lk_read, rc_read, unwrap, vget in E1; split_matches E1; injection E1 as <- _ _; reflexivity.
  - destruct (bo_write (dev_ops oc) d a w) as [[d1 ex]|] eqn:E1; [|discriminate]. injection E as <- <-.
    destruct d; cbn [bo_write dev_ops] in E1; apply W in E1; destruct E1 as (y & ex' & E1 & ->); cbn [identity];
    unfold sm_write, br_write, fm_write, nd_write, cd_write, bd_write, ck_write, lk_write, rc_write, dbg_write, vset, unwrap in E1; split_matches E1; injection E1 as <- _; reflexivity.
  - destruct (bo_reset (dev_ops oc) d) as [d1|] eqn:E1; [|discriminate]. injection E as <- <-.
    destruct d; cbn [bo_reset dev_ops] in E1; try (injection E1 as <-; reflexivity); apply O in E1; destruct E1 as (y & E1 & ->); cbn [identity];
    unfold sm_reset, ck_reset, rc_reset in E1; split_matches E1; injection E1 as <-; reflexivity.
Qed.
(** What a component says it is: its name, and in its metadata its identifier, category and type (no model, no data); a request never changes it. *)
Lemma P_C59_identity : forall oc d name id c, identity d = (name, id, c) -> is_u64 id ->
  bo_name (dev_ops oc) d = chars name /\
  (forall md, bo_metadata (dev_ops oc) d = Ret md -> w0 md * 2 ^ 32 + w1 md = id /\ w3 md = category_code c /\ w4 md = type_code c /\ w5 md = 0 /\ w6 md = 0 /\ w7 md = 0) /\
  (forall h d' xs, serve (dev_ops oc) d h = Ret (d', xs) -> identity d' = identity d).
Proof.
  intros oc d name id c E Hi. split; [|split].
  - destruct d; injection E as <- _ _; reflexivity.
  - assert (K : forall sz cat md, (obind (metadata_new id sz cat None None) metadata_encode = Ret md) -> category_wf cat ->
      w0 md * 2 ^ 32 + w1 md = id /\ w3 md = category_code cat /\ w4 md = type_code cat /\ w5 md = 0 /\ w6 md = 0 /\ w7 md = 0).
    { intros sz cat md Em Hc. apply encode_u32 in Em. destruct (P_C54_new id (u32 sz) cat None None) as (N1 & N2); try exact I; auto. { unfold is_u32, u32. lia. }
      destruct (Z.eq_dec (u32 sz mod 4) 0) as [D|D].
      - apply Z.mod_divide in D; [|lia]. rewrite N2 in Em by auto. injection Em as <-. cbn [w0 w1 w3 w4 w5 w6 w7 opt_or0]. unfold is_u64 in Hi. change (2 ^ 32) with 4294967296. repeat split; try reflexivity. lia.
      - rewrite Z.mod_divide in D by lia. apply N1 in D. rewrite D in Em. discriminate. }
    intros md Em.
    destruct d; injection E as _ <- <-; cbn [bo_metadata dev_ops] in Em;
      unfold sm_metadata, br_metadata, fm_metadata, nd_metadata, cd_metadata, bd_metadata, ck_metadata, lk_metadata, rc_metadata, dbg_metadata in Em;
      repeat match type of Em with
      | obind (mul_u32 ?a ?b ?c) _ = _ => destruct (mul_u32 a b c); [cbn [obind] in Em|discriminate Em]
      | obind (add_u32 ?a ?b ?c) _ = _ => destruct (add_u32 a b c); [cbn [obind] in Em|discriminate Em]
      end; eapply K; try exact Em; exact I.
  - intros h. revert d E. induction h as [|r t IH]; intros d E d' xs Es; cbn [serve] in Es; [injection Es as <- _; reflexivity|].
    match type of Es with match ?X with _ => _ end = _ => destruct X as [[d1 x]|] eqn:E1 end; [|discriminate].
    apply request_identity in E1. destruct (serve (dev_ops oc) d1 t) as [[d2 ys]|] eqn:E2; [|discriminate]. injection Es as <- _. rewrite (IH d1) with (2 := E2); congruence.
Qed.
Lemma E_C59_identity : exists d, sm_new 4096 7 = Some d /\ identity (DRam d) = ("RAM"%string, 7, CatMemory TRam) /\
  option_map (fun md => [w0 md; w1 md; w2 md; w3 md; w4 md; w5 md; w6 md; w7 md]) (match bo_metadata (dev_ops true) (DRam d) with Ret md => Some md | Panic => None end) = Some [0; 7; 4096; 135168; 256; 0; 0; 0].
Proof. eexists. split; [reflexivity|]. split; vm_compute; reflexivity. Qed.
Lemma E_C60_writable : exists d, fm_writable_new [0; 0; 1; 2; 3; 4; 5; 6; 7] 5 = Ret d /\
  match serve (dev_ops false) (DFile d) [Read 0; Write 4 4278190081; ResetReq; Read 4; Read 8] with
  | Ret (DFile d', xs) => xs = [Got 0 258; Put 0; Done; Got 0 4278190081; Got 0 0] /\ fm_file d' = [0; 0; 1; 2; 255; 0; 0; 1; 7]
  | _ => False end.
Proof. eexists. split; [reflexivity|]. vm_compute. split; reflexivity. Qed.

(* Concrete cases for the theorems above that have none beside them. *)
Lemma E_C56_new : exists d, is_u32 16 /\ sm_new 16 7 = Some d.
Proof. eexists. split; [unfold is_u32; lia|reflexivity]. Qed.
(** A program that tries to write over its own ROM. *)
Lemma E_C57_program : exists m0 m e d, board_new (dev_ops false) [DRom (BootRom (map encode_word [Wsa (Lit1 0) (Lit1 4) (Lit1 9); Halt]) 2 2 1)] = Ret m0 /\ wf m0 /\ Forall api_wf [AMap 0 0; AReset; ANext; ANext] /\
  api_run (dev_ops false) false [AMap 0 0; AReset; ANext; ANext] m0 = Ret m /\ znth (c_hwb m0) 0 = Some e /\ ae_dev e = DRom d /\ br_len d = zlen (br_storage d) /\ Forall is_u32 (br_storage d) /\ R m R_et <> 0.
Proof.
  assert (H : exists m0, board_new (dev_ops false) [DRom (BootRom (map encode_word [Wsa (Lit1 0) (Lit1 4) (Lit1 9); Halt]) 2 2 1)] = Ret m0) by (vm_compute; eauto).
  destruct H as [m0 H0]. exists m0. pose proof (board_new_spec _ (dev_typed false) _ _ H0) as (Hw & _).
  vm_compute in H0. injection H0 as <-. eexists. eexists. eexists. split; [vm_compute; reflexivity|]. split; [exact Hw|].
  split; [constructor; [split; unfold is_u32; lia|]; constructor; [exact I|]; constructor; [exact I|]; constructor; [exact I|constructor]|].
  split; [vm_compute; reflexivity|]. split; [reflexivity|]. split; [reflexivity|]. split; [reflexivity|]. split; [repeat constructor; vm_compute; congruence|]. vm_compute. discriminate.
Qed.
Lemma E_C59_from : exists d, is_u64 5 /\ Forall is_u32 [1; 2; 3; 4; 5; 6; 7; 8] /\ sm_from [1; 2; 3; 4; 5; 6; 7; 8] 5 = Some d /\
  match serve (dev_ops false) (DRam d) [Read 4; Write 4 9; Read 4; Read 0] with Ret (_, xs) => xs = [Got 0 2; Put 0; Got 0 9; Got 0 1] | Panic => False end.
Proof. eexists. split; [unfold is_u64; lia|]. split; [repeat constructor; unfold is_u32; lia|]. split; [reflexivity|]. vm_compute. reflexivity. Qed.
Lemma E_C59_from_with_size : exists d, is_u64 5 /\ is_u32 32 /\ Forall is_u32 [1; 2; 3] /\ sm_from_with_size [1; 2; 3] 32 5 = Some d /\ sm_from_with_size [1; 2; 3] 2 5 = None /\
  match serve (dev_ops false) (DFlash d) [Read 4; Write 28 9; Read 28; Read 12] with Ret (_, xs) => xs = [Got 0 2; Put 0; Got 0 9; Got 0 0] | Panic => False end.
Proof. eexists. split; [unfold is_u64; lia|]. split; [unfold is_u32; lia|]. split; [repeat constructor; unfold is_u32; lia|]. split; [reflexivity|]. split; [reflexivity|]. vm_compute. reflexivity. Qed.
(** A file of nine bytes used by two instances. *)
Lemma E_C60_reopen : let f := [0; 0; 1; 2; 3; 4; 5; 6; 7] in let hs := [(5, [Write 4 9; ResetReq]); (6, [Read 4; Write 0 4278190081])] in
  zlen f < 2 ^ 32 /\ Forall is_u8 f /\ Forall (fun s => Forall (in_range 8) (snd s)) hs /\ sessions true f hs = Ret [255; 0; 0; 1; 0; 0; 0; 9; 7].
Proof.
  split; [reflexivity|]. split; [repeat constructor; vm_compute; congruence|]. split; [|vm_compute; reflexivity].
  repeat constructor; cbn; unfold is_u32; lia.
Qed.
Lemma E_C60_readonly : let f := [0; 0; 1; 2; 3; 4; 5; 6; 7] in exists d, zlen f < 2 ^ 32 /\ Forall is_u8 f /\ fm_readonly f 5 = Ret d /\ Forall (in_range 12) [Read 0; Write 4 9; Read 4; Read 8] /\
  match serve (dev_ops true) (DFile d) [Read 0; Write 4 9; Read 4; Read 8] with Ret (_, xs) => xs = [Got 0 258; Put 12544; Got 0 50595078; Got 0 0] | Panic => False end.
Proof.
  eexists. split; [reflexivity|]. split; [repeat constructor; vm_compute; congruence|]. split; [reflexivity|]. split; [repeat constructor; cbn; unfold is_u32; lia|]. vm_compute. reflexivity.
Qed.
Lemma E_C60_open : exists d, fm_open [1; 2; 3; 4; 5] true 7 = Ret d /\ exists big, 2 ^ 32 <= zlen big /\ fm_open big true 7 = Panic.
Proof.
  eexists. split; [reflexivity|]. exists (repeat 0 (Z.to_nat (2 ^ 32))). assert (X : 2 ^ 32 <= zlen (repeat 0 (Z.to_nat (2 ^ 32)))). { unfold zlen. rewrite repeat_length, Z2Nat.id; lia. }
  split; [exact X|]. apply P_C60_open. exact X.
Qed.
Lemma E_C60_declares : exists d, is_u64 7 /\ fm_open [1; 2; 3; 4; 5; 6; 7; 8] true 7 = Ret d /\ Z.divide 4 (zlen [1; 2; 3; 4; 5; 6; 7; 8]) /\ declares (dev_ops true) (DFile d) 32.
Proof. eexists. split; [unfold is_u64; lia|]. split; [reflexivity|]. split; [exists 2; reflexivity|]. eexists. split; vm_compute; reflexivity. Qed.
