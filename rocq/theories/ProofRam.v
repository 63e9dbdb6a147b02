(** What a cycle does to the components, and the words of memory components (C72). *)
From Coq Require Import ZArith List Bool Lia.
From Verif Require Import Base Board Mem Cpu Asm Devices SpecMach SpecIsa SpecBus SpecObs SpecMap SpecMemory BaseFacts RegFacts MemFacts
  CycleFacts CyclePost InvFacts DevTyped ExecFacts ProofMap ProofMem ProofRun ProofRom ProofEffect Demo.
Import ListNotations.
Open Scope Z_scope.
Ltac Zify.zify_post_hook ::= Z.div_mod_to_equations.

Lemma contents_znth (l : list Z) i d : 0 <= i < zlen l -> znth l i = Some (nth (Z.to_nat i) l d).
Proof. intros H. destruct (znth_some l i H) as (v & E). rewrite E. f_equal. rewrite znth_nth in E by lia. symmetry. eapply nth_error_nth; eauto. Qed.
Lemma zset_upd l i w : 0 <= i < zlen l -> zset l i w = Some (upd l (Z.to_nat i) w).
Proof.
  revert i. induction l as [|x t IH]; intros i H. { unfold zlen in H; cbn in H; lia. }
  rewrite zlen_cons in H. cbn [zset]. destruct (Z.eqb_spec i 0) as [->|]; [reflexivity|]. rewrite IH by lia.
  replace (Z.to_nat i) with (S (Z.to_nat (i - 1))) by lia. reflexivity.
Qed.

Section Ram.
Variable oc : bool.
Notation ops := (dev_ops oc).
Implicit Types mem : memory device.

Lemma ram_index mem mp l a : ram_at mem mp l -> occupies mp a -> a mod 4 = 0 ->
  0 <= (a - mp_addr mp) / 4 < zlen l /\ (a - mp_addr mp) mod 4 = 0.
Proof. intros (T & I & U & S & _) O Ha. destruct (tidy_mapping _ _ _ T I) as (?&?&?&?&_). unfold occupies in O. split; lia. Qed.

Lemma found_occupies mem a mp : tidy false mem -> find_o (covers false a) (mm_maps mem) = Ret (Some mp) -> In mp (mm_maps mem) /\ occupies mp a.
Proof.
  intros T F. apply find_o_some in F. destruct F as (I & C). split; auto. rewrite (tidy_covers _ _ _ _ T I) in C.
  injection C as C. apply andb_prop in C. unfold occupies. lia.
Qed.
Lemma same_id mem mp mp' : tidy false mem -> In mp (mm_maps mem) -> In mp' (mm_maps mem) -> mp_aux_id mp = mp_aux_id mp' -> mp = mp'.
Proof.
  intros (N & _) I I' E. revert N I I'. induction (mm_maps mem) as [|x t IH]; cbn [map In]; [tauto|]. intros N. inversion_clear N as [|? ? N1 N2].
  intros [->|I] [->|I']; auto; exfalso; apply N1; [rewrite E|rewrite <- E]; apply in_map; auto.
Qed.

(** Reading memory words changes nothing. *)
Lemma ram_read mem mp l a : ram_at mem mp l -> occupies mp a -> a mod 4 = 0 ->
  mem_read ops false mem a = Ret (mem, 0, nth (word_index mp a) l 0).
Proof.
  intros HR O Ha. destruct (ram_index _ _ _ _ HR O Ha) as (Hi & Hm). destruct HR as (T & I & U & S & e & En & Ec).
  unfold mem_read. destruct (Z.eqb_spec (a mod 4) 0); [|lia]. rewrite (tidy_find _ _ _ _ T I O). cbn [obind].
  unfold hwb_read. destruct (Z.eqb_spec ((a - mp_addr mp) mod 4) 0); [|lia]. rewrite En.
  assert (X : bo_read ops (ae_dev e) (a - mp_addr mp) = Ret (ae_dev e, 0, nth (word_index mp a) l 0)).
  { assert (Hu : u32 (nth (word_index mp a) l 0) = nth (word_index mp a) l 0). { apply u32_id, Forall_nth; auto. unfold word_index, zlen in *. lia. }
    destruct (ae_dev e); cbn [contents] in Ec; try discriminate; injection Ec as Ec; cbn [bo_read dev_ops]; unfold sm_read, vget;
      rewrite Ec, (contents_znth _ _ 0 Hi); cbn [obind unwrap wrap_r]; unfold wrap_r; cbn [obind]; fold (word_index mp a); rewrite Hu; reflexivity. }
  rewrite X. cbn [obind]. rewrite (set_dev_same _ _ _ _ En). destruct mem; reflexivity.
Qed.
Lemma ram_write mem mp l a w : ram_at mem mp l -> is_u32 w -> occupies mp a -> a mod 4 = 0 ->
  exists mem', mem_write ops false mem a w = Ret (mem', 0) /\ ram_at mem' mp (upd l (word_index mp a) w) /\
    mm_maps mem' = mm_maps mem /\ forall k, k <> mp_aux_id mp -> znth (mm_hwb mem') k = znth (mm_hwb mem) k.
Proof.
  intros HR Hw O Ha. destruct (ram_index _ _ _ _ HR O Ha) as (Hi & Hm). destruct HR as (T & I & U & S & e & En & Ec).
  unfold mem_write. destruct (Z.eqb_spec (a mod 4) 0); [|lia]. rewrite (tidy_find _ _ _ _ T I O). cbn [obind].
  unfold hwb_write. destruct (Z.eqb_spec ((a - mp_addr mp) mod 4) 0); [|lia]. rewrite En.
  assert (X : exists d, bo_write ops (ae_dev e) (a - mp_addr mp) w = Ret (d, 0) /\ contents d = Some (upd l (word_index mp a) w)).
  { destruct (ae_dev e); cbn [contents] in Ec; try discriminate; injection Ec as Ec; cbn [bo_write dev_ops]; unfold sm_write, vset;
      rewrite Ec, (zset_upd _ _ _ Hi); cbn [obind unwrap wrap_w]; eexists; split; reflexivity. }
  destruct X as (d & -> & Ed). cbn [obind]. eexists. split; [reflexivity|]. split.
  - split; [exact T|]. split; [exact I|]. split; [apply upd_Forall; auto|]. split. { unfold zlen in *. rewrite upd_length. exact S. }
    cbn [mm_hwb]. exists (AuxEntry d (ae_cache e)). rewrite (set_dev_znth _ _ _ _ _ En), Z.eqb_refl. auto.
  - split; [reflexivity|]. intros k Hk. cbn [mm_hwb]. rewrite (set_dev_znth _ _ _ _ _ En). destruct (Z.eqb_spec k (mp_aux_id mp)); congruence.
Qed.
Lemma ram_other mem mp l id d : ram_at mem mp l -> id <> mp_aux_id mp -> ram_at (Memory (set_dev (mm_hwb mem) id d) (mm_maps mem)) mp l.
Proof.
  intros (T & I & U & S & e & En & Ec) N. split; [exact T|]. split; [exact I|]. split; [exact U|]. split; auto. cbn [mm_hwb]. exists e. split; auto.
  rewrite P_C33_others, En. destruct (Z.eqb_spec (mp_aux_id mp) id); congruence.
Qed.
Lemma ram_read_any mem mp l a mem' ex w : ram_at mem mp l -> mem_read ops false mem a = Ret (mem', ex, w) -> ram_at mem' mp l.
Proof.
  intros HR E. pose proof HR as (T & I & _). pose proof E as E'. apply mem_read_inv in E'. destruct E' as (Ha & [(_ & -> & _)|(mp' & e & d & F & En & _ & ->)]); auto.
  destruct (found_occupies _ _ _ T F) as (I' & O'). destruct (Z.eq_dec (mp_aux_id mp') (mp_aux_id mp)) as [Ei|Ei]; [|apply ram_other; auto].
  assert (mp' = mp) by (eapply same_id; eauto). subst mp'. rewrite (ram_read _ _ _ _ HR O' Ha) in E. injection E as E _ _. rewrite <- E. exact HR.
Qed.
Lemma ram_write_any mem mp l a w mem' ex : ram_at mem mp l -> is_u32 w -> mem_write ops false mem a w = Ret (mem', ex) ->
  (ram_at mem' mp l /\ ~ occupies mp a) \/ (a mod 4 = 0 /\ occupies mp a /\ ram_at mem' mp (upd l (word_index mp a) w)).
Proof.
  intros HR Hw E. pose proof HR as (T & I & _).
  assert (DO : occupies mp a \/ ~ occupies mp a) by (unfold occupies; lia).
  pose proof E as E'. apply mem_write_inv in E'. destruct E' as (Ha & C). destruct DO as [O|NO].
  - right. split; auto. split; auto. destruct (ram_write _ _ _ _ w HR Hw O Ha) as (m2 & E2 & R2 & _). rewrite E2 in E. injection E as -> _. exact R2.
  - left. split; auto. destruct C as [(_ & -> & _)|(mp' & e & d & F & En & _ & ->)]; auto.
    destruct (found_occupies _ _ _ T F) as (I' & O'). apply ram_other; auto. intros Ei. apply NO. rewrite <- (same_id _ _ _ T I' I Ei). exact O'.
Qed.
Lemma ram_reads ok mem mp l mem' : ram_at mem mp l -> reads_at ops ok mem mem' -> ram_at mem' mp l.
Proof. intros HR. induction 1; auto. eapply ram_read_any; [|eassumption]. auto. Qed.
Lemma ram_reset sel mem mp l mem' : ram_at mem mp l -> mm_maps mem' = mm_maps mem -> resets_exactly ops sel (mm_hwb mem) (mm_hwb mem') ->
  (sel (mp_aux_id mp) -> ram_at mem' mp (repeat 0 (length l))) /\ (~ sel (mp_aux_id mp) -> ram_at mem' mp l).
Proof.
  intros (T & I & U & S & e & En & Ec) M (_ & HX). destruct (HX _ _ En) as (H1 & H2).
  assert (T' : tidy false mem') by (unfold tidy in *; rewrite M; exact T). rewrite <- M in I. split; intros HS.
  - destruct (H1 HS) as (d & Ed & Ez). split; auto. split; auto. split; [apply Forall_forall; intros x Hx; apply repeat_spec in Hx; subst; unfold is_u32; lia|]. split. { unfold zlen in *. rewrite repeat_length. exact S. }
    exists (AuxEntry d (ae_cache e)). split; auto. cbn [ae_dev]. destruct (ae_dev e); cbn [contents] in Ec; try discriminate; injection Ec as Ec;
      cbn [bo_reset dev_ops] in Ed; unfold sm_reset in Ed; cbn [wrap_o obind] in Ed; injection Ed as <-; cbn [contents sm_storage]; rewrite Ec; unfold zeros, zlen; rewrite Nat2Z.id; reflexivity.
  - split; auto. split; auto. split; auto. split; auto. exists e. split; auto.
Qed.
Lemma picks_dec mode avr id : reset_picks mode avr id \/ ~ reset_picks mode avr id.
Proof. unfold reset_picks. destruct (mode mod 16) as [|p|]; auto; try (do 4 (try (destruct p as [p|p|])); auto; lia). Qed.
End Ram.

Lemma operand1_u32 D (m : cpu D) v x : wf m -> HoareFacts.ok1 v -> operand1 m v = Some x -> is_u32 x.
Proof.
  intros W Ok E. destruct v as [r|n]; cbn [operand1] in E.
  - unfold reg_value in E. destruct (can_read _ _); [|discriminate]. injection E as <-. apply R_u32, W.
  - injection E as <-. cbn in Ok. unfold is_u8, is_u32 in *. lia.
Qed.
Lemma operand2_u32 D (m : cpu D) v x : wf m -> HoareFacts.ok2 v -> operand2 m v = Some x -> is_u32 x.
Proof.
  intros W Ok E. destruct v as [r|n]; cbn [operand2] in E.
  - unfold reg_value in E. destruct (can_read _ _); [|discriminate]. injection E as <-. apply R_u32, W.
  - injection E as <-. cbn in Ok. unfold is_u16, is_u32 in *. lia.
Qed.
Lemma stores_word_u32 D (ops : bus_ops D) (m : cpu D) i memf a w : wf m -> fetches ops m i memf -> stores_word m i a w -> is_u32 w.
Proof.
  intros W (x & _ & Hd) Hs. apply decode_ok_instr in Hd. destruct Hs as [Hs|(v & add & r & -> & _ & Hr)].
  - destruct i; cbn [store_access] in Hs; try discriminate; cbn [HoareFacts.ok_instr] in Hd.
    + destruct Hd as (H1 & H2 & H3). destruct (operand1 m a0), (operand1 m b) , (operand1 m c) eqn:E; try discriminate. injection Hs as _ <-. exact (operand1_u32 _ _ _ _ W H3 E).
    + destruct (operand1 m a0), (operand1 m b) , (operand1 m c) eqn:E; try discriminate. injection Hs as _ <-. apply R_u32, W.
    + destruct (operand2 m a0) eqn:E; [|discriminate]. injection Hs as _ <-. exact (operand2_u32 _ _ _ _ W Hd E).
    + destruct (operand2 m a0) eqn:E; [|discriminate]. injection Hs as _ <-. unfold is_u32. lia.
  - unfold reg_value in Hr. destruct (can_read _ _); [|discriminate]. injection Hr as <-. apply R_u32, W.
Qed.

(** What one instruction may do to the components, whichever they are: it reads at the address of the instruction, at the address
    it loads from, and at the page entries for these and for the address it stores to when translation is on; then it writes at
    most one word, the one it is to store, where it is to store it; RESET makes no such write, and resets exactly the
    components its mode selects. (Also when it ends in an exception.) *)
Lemma P_C72_effect : forall D (ops : bus_ops D) oc m i memf m', typed ops -> wf m -> executes ops oc m i memf m' ->
  memory_effect ops m i (c_mem m) (c_mem m').
Proof. intros D ops oc m i memf m' T W H. exact (cycle_effect ops T _ _ _ _ _ W H). Qed.
(** A cycle that fetches no instruction (the fetch fails, or the word is not an instruction) only reads. *)
Lemma P_C72_no_fetch : forall D (ops : bus_ops D) oc m m', typed ops -> wf m -> next ops oc m = Ret m' ->
  (forall i memf, ~ fetches ops m i memf) -> reads_at ops (fun _ => True) (c_mem m) (c_mem m').
Proof. intros D ops oc m m' T W E N. exact (cycle_nofetch ops T _ _ _ W E N). Qed.

(** The words of a RAM or flash memory on the board, over one instruction: they are as before, except the word the instruction
    stores there, or all zero after a RESET that selects this component. *)
Lemma P_C72_ram : forall oc m i memf m' mp l, wf m -> executes (dev_ops oc) oc m i memf m' -> ram_at (c_mem m) mp l ->
  ram_at (c_mem m') mp l \/
  (exists a w, stores_word m i a w /\ a mod 4 = 0 /\ occupies mp a /\ ram_at (c_mem m') mp (upd l (word_index mp a) w)) \/
  (exists v mode, i = Reset v /\ operand1 m v = Some mode /\ reset_picks mode (R m R_avr) (mp_aux_id mp) /\
     ram_at (c_mem m') mp (repeat 0 (length l))).
Proof.
  intros oc m i memf m' mp l W H HR. pose proof (P_C72_effect _ _ _ _ _ _ _ (dev_typed oc) W H) as (mem1 & Hr & C).
  pose proof (ram_reads _ _ _ _ _ _ HR Hr) as HR1. destruct C as [->|[(a & w & ex & Hs & Hw)|(v & mode & Ei & Em & M & X)]]; auto.
  - assert (U : is_u32 w) by (eapply stores_word_u32; [exact W|apply H|exact Hs]).
    destruct (ram_write_any _ _ _ _ _ _ _ _ HR1 U Hw) as [(? & _)|(Ha & O & R2)]; auto. right; left. eauto 7.
  - destruct (ram_reset _ _ _ _ _ _ HR1 M X) as (X1 & X2). destruct (picks_dec mode (R m R_avr) (mp_aux_id mp)) as [P|P]; auto.
    right; right. exists v, mode. auto.
Qed.
(** And over a cycle that fetches no instruction, or of a halted processor. *)
Lemma P_C72_ram_no_fetch : forall oc m m' mp l, wf m -> next (dev_ops oc) oc m = Ret m' ->
  c_halted m = true \/ (forall i memf, ~ fetches (dev_ops oc) m i memf) -> ram_at (c_mem m) mp l -> ram_at (c_mem m') mp l.
Proof.
  intros oc m m' mp l W E C HR. destruct C as [Hh|N].
  - unfold next in E. rewrite Hh in E. injection E as <-. exact HR.
  - eapply ram_reads; [exact HR|]. exact (P_C72_no_fetch _ _ _ _ _ (dev_typed oc) W E N).
Qed.

Lemma fetch_dec oc (m1 : cpu device) : (exists i memf, fetches (dev_ops oc) m1 i memf) \/ forall i memf, ~ fetches (dev_ops oc) m1 i memf.
Proof.
  unfold fetches, loads, passes.
    destruct (Z.eq_dec (R m1 R_pc mod 4) 0) as [Hp|Hp]; [|right; intros i memf (? & (? & _) & _); lia].
    assert (DP : forall mem1, (exists i memf w0, mem_read (dev_ops oc) false mem1 (R m1 R_pc) = Ret (memf, 0, w0) /\ decode (bytes_of_word w0) = ROk i) \/
        (forall i memf w0, ~ (mem_read (dev_ops oc) false mem1 (R m1 R_pc) = Ret (memf, 0, w0) /\ decode (bytes_of_word w0) = ROk i))).
    { intros mem1. destruct (mem_read (dev_ops oc) false mem1 (R m1 R_pc)) as [[[mf ex] w0]|]; [|right; intros ? ? ? (? & _); discriminate].
      destruct (Z.eq_dec ex 0) as [->|]; [|right; intros ? ? ? (X & _); congruence].
      destruct (decode (bytes_of_word w0)) as [i|] eqn:Ed; [left; exists i, mf, w0; auto|right]. intros ? ? ? (X & Y). injection X as _ <-. congruence. }
    destruct (R m1 R_mtt =? 0).
    - destruct (DP (c_mem m1)) as [(i & mf & w0 & X & Y)|N]; [left; exists i, mf, w0; split; eauto|right].
      intros i memf (w0 & (_ & mem1 & -> & X) & Y). eapply N; eauto.
    - set (pa := (R m1 R_pda + 4 * (R m1 R_pc mod 1024)) mod 2 ^ 32).
      destruct (mem_read (dev_ops oc) false (c_mem m1) pa) as [[[mem1 ex] e]|] eqn:Ep;
        [|right; intros i memf (w0 & (_ & mem1 & (e & X & _) & _) & _); congruence].
      destruct (Z.eq_dec ex 0) as [->|]; [|right; intros i memf (w0 & (_ & mem2 & (e' & X & _) & _) & _); congruence].
      destruct (Z.testbit e (if sup_mode m1 then 31 else 30)) eqn:Eb; [right; intros i memf (w0 & (_ & mem2 & (e' & X & B) & _) & _); congruence|].
      destruct (DP mem1) as [(i & mf & w0 & X & Y)|N].
      + left. exists i, mf, w0. split; auto. split; auto. exists mem1. split; auto. exists e. auto.
      + right. intros i memf (w0 & (_ & mem2 & (e' & X & B) & X2) & Y). injection X as <- <-. eapply N; eauto.
Qed.
(** A word of memory keeps its value over any number of cycles, as long as no instruction executed is to store at its address
    or is a RESET. *)
Lemma P_C72_persist : forall oc n m m' mp a w, wf m -> run (dev_ops oc) oc n m = Ret m' -> a mod 4 = 0 -> occupies mp a ->
  holds (c_mem m) mp a w ->
  (forall k mk, (k < n)%nat -> run (dev_ops oc) oc k m = Ret mk -> ~ may_change (dev_ops oc) mk a) ->
  holds (c_mem m') mp a w.
Proof.
  intros oc n m m' mp a w W E Ha O H0 NC. revert m' E. induction n as [|n IH]; intros m' E.
  { injection E as <-. exact H0. }
  destruct (run_split _ _ _ _ _ E) as (m1 & E1 & E2).
  assert (H1 : holds (c_mem m1) mp a w). { apply IH; auto. intros k mk Hk. apply NC. lia. }
  assert (W1 : wf m1) by (eapply run_wf; [exact (dev_typed oc)|exact W|exact E1]).
  assert (N1 : ~ may_change (dev_ops oc) m1 a) by (apply (NC n); auto).
  destruct H1 as (l & HR & Hl). destruct (c_halted m1) eqn:Hh.
  { exists l. split; auto. eapply P_C72_ram_no_fetch; eauto. }
  destruct (fetch_dec oc m1) as [(i & memf & Hf)|NF].
  2:{ exists l. split; auto. eapply P_C72_ram_no_fetch; eauto. }
  destruct (P_C72_ram oc m1 i memf m' mp l W1 (conj Hh (conj Hf E2)) HR) as [X|[(b & v & Hs & Hb & Ob & X)|(v & mode & Ei & _)]].
  - exists l. auto.
  - exists (upd l (word_index mp b) v). split; auto. rewrite upd_nth.
    destruct (Nat.eqb_spec (word_index mp a) (word_index mp b)) as [Ew|]; [|exact Hl]. exfalso. apply N1. split; auto. exists i, memf. split; auto. left. exists v.
    replace a with b; auto. destruct HR as (T & I & _). destruct (tidy_mapping _ _ _ T I) as (?&?&_). unfold word_index, occupies in *. lia.
  - exfalso. apply N1. split; auto. exists i, memf. split; auto. right. eauto.
Qed.

(** Loading from such an address yields the word held there, storing makes it hold the word stored (through the translation
    check when it is on; neither touches any other word of this memory, and neither can raise a hardware exception). *)
Lemma P_C72_load : forall oc m mp l a w mem2, ram_at (c_mem m) mp l -> occupies mp a ->
  loads (dev_ops oc) m (c_mem m) a w mem2 -> w = nth (word_index mp a) l 0 /\ ram_at mem2 mp l.
Proof.
  intros oc m mp l a w mem2 HR O (Ha & mem1 & Hp & Hr).
  assert (R1 : ram_at mem1 mp l). { unfold passes in Hp. destruct (_ =? 0); [subst; auto|]. destruct Hp as (e & E & _). eapply ram_read_any; eauto. }
  rewrite (ram_read oc _ _ _ _ R1 O Ha) in Hr. injection Hr as <- <-. auto.
Qed.
(** A store on a RAM changes the word at its address and no other. *)
Lemma P_C72_store : forall oc m mp l a w mem2, ram_at (c_mem m) mp l -> is_u32 w -> occupies mp a ->
  stores (dev_ops oc) m (c_mem m) a w mem2 ->
  ram_at mem2 mp (upd l (word_index mp a) w) /\ holds mem2 mp a w /\
  forall b, occupies mp b -> b mod 4 = 0 -> b <> a -> holds mem2 mp b (nth (word_index mp b) l 0).
Proof.
  intros oc m mp l a w mem2 HR U O (Ha & mem1 & Hp & Hr).
  assert (R1 : ram_at mem1 mp l). { unfold passes in Hp. destruct (_ =? 0); [subst; auto|]. destruct Hp as (e & E & _). eapply ram_read_any; eauto. }
  destruct (ram_write oc _ _ _ _ w R1 U O Ha) as (m3 & E3 & R3 & _). rewrite E3 in Hr. injection Hr as <-.
  split; auto. destruct (ram_index _ _ _ _ R1 O Ha) as (B & _). split.
  - exists (upd l (word_index mp a) w). split; auto. rewrite upd_nth, Nat.eqb_refl. unfold word_index, zlen in *. destruct (Nat.ltb_spec (Z.to_nat ((a - mp_addr mp) / 4)) (length l)); [reflexivity|lia].
  - intros b Ob Hb Nb. exists (upd l (word_index mp a) w). split; auto. rewrite upd_nth. destruct (Nat.eqb_spec (word_index mp b) (word_index mp a)) as [E|]; [|reflexivity].
    exfalso. apply Nb. destruct HR as (T & I & _). destruct (tidy_mapping _ _ _ T I) as (?&?&_). unfold word_index, occupies in *. lia.
Qed.
(** Mapping a memory component makes its words available at the addresses of the mapping. *)
Lemma P_C72_mapped : forall m a id mem' r e l, mem_wf m -> tidy false m -> is_u32 a -> mem_map false m a id = Ret (mem', ROk r) ->
  znth (mm_hwb m) id = Some e -> contents (ae_dev e) = Some l -> Forall is_u32 l -> ac_size (ae_cache e) <= 4 * zlen l ->
  ram_at mem' (Mapping id (ac_hw_id (ae_cache e)) a (ac_size (ae_cache e))) l.
Proof.
  intros m a id mem' r e l W T Ha E En Ec U S. pose proof (mem_map_tidy _ _ _ _ _ _ W T Ha E) as T'.
  pose proof (P_C32_map _ m false a id W T Ha) as H. rewrite E in H. destruct H as (sz & mp & _ & _ & (e' & En' & ->) & ->).
  rewrite En in En'. injection En' as <-. split; [exact T'|]. split; [cbn [mm_maps]; apply in_or_app; right; left; reflexivity|]. split; auto. split; auto.
  exists e. auto.
Qed.

Lemma fetches_det D (ops : bus_ops D) m i j mem1 mem2 : fetches ops m i mem1 -> fetches ops m j mem2 -> i = j.
Proof.
  intros (w & (_ & m1 & P1 & R1) & D1) (w' & (_ & m2 & P2 & R2) & D2). unfold passes in *.
  assert (m1 = m2). { destruct (_ =? 0); [congruence|]. destruct P1 as (? & ? & _), P2 as (? & ? & _). congruence. } subst. congruence.
Qed.
(** The RAM of the demonstration board, and its words. *)
Definition demo_mp : mapping := Mapping 1 2 256 256.
Definition demo_words (m : cpu device) : option (list Z) :=
  match mm_maps (c_mem m), znth (mm_hwb (c_mem m)) 1 with
  | [_; Mapping 1 2 256 256], Some e => match contents (ae_dev e) with
      | Some l => if (zlen l =? 256) && forallb (fun x => (0 <=? x) && (x <? 4294967296)) l then Some l else None | None => None end
  | _, _ => None end.
Lemma demo_ram prog n m l : demo_run false prog n = Ret m -> demo_words m = Some l -> ram_at (c_mem m) demo_mp l.
Proof.
  intros E H. unfold demo_run in E. destruct (board_new _ _) as [m0|] eqn:E0; [|discriminate].
  assert (T : tidy false (c_mem m)).
  { eapply P_C31_tidy; [exact (dev_typed false)|apply (demo_calls_wf n)| |exact E0|exact E].
    unfold demo_calls. repeat (constructor; [exact I|]). apply Forall_forall. intros c Hc. apply repeat_spec in Hc. subst. exact I. }
  unfold demo_words in H. split; auto. destruct (mm_maps (c_mem m)) as [|x [|y [|]]]; try discriminate.
  - destruct y as [a b c d].
    assert (X : Mapping a b c d = demo_mp /\ match znth (mm_hwb (c_mem m)) 1 with Some e => match contents (ae_dev e) with
      | Some l => if (zlen l =? 256) && forallb (fun x => (0 <=? x) && (x <? 4294967296)) l then Some l else None | None => None end | None => None end = Some l).
    { repeat (first [discriminate H | match type of H with match ?z with _ => _ end = _ => is_var z; destruct z end]); split; auto. }
    destruct X as (X & Y). split; [right; left; exact X|]. destruct (znth _ 1) as [e|] eqn:En; [|discriminate]. destruct (contents (ae_dev e)) as [l'|] eqn:Ec; [|discriminate].
    destruct (Z.eqb_spec (zlen l') 256); [|discriminate]. cbn [andb] in Y. destruct (forallb _ l') eqn:Ef; [|discriminate]. injection Y as <-.
    split. { apply Forall_forall. intros z Hz. rewrite forallb_forall in Ef. apply Ef in Hz. apply andb_prop in Hz. unfold is_u32. lia. }
    split. { change (mp_size demo_mp) with 256. lia. } exists e. auto.
  - destruct y as [a b c d]. repeat (first [discriminate H | match type of H with match ?z with _ => _ end = _ => is_var z; destruct z end]).
Qed.
Definition quiet (m : cpu device) (a : Z) : bool :=
  match exec_check m with
  | Some (Srm _ _ _, _, _) | Some (Reset _, _, _) | None => false
  | Some (i, _, _) => match store_access m i with Some (b, _) => negb (b =? a) | None => true end
  end.
Lemma quiet_sound m a : quiet m a = true -> ~ may_change (dev_ops false) m a.
Proof.
  unfold quiet. destruct (exec_check m) as [[[i mem1] m']|] eqn:E; [|discriminate]. apply exec_check_sound in E. destruct E as (_ & Hf & _).
  intros Q (_ & j & mem2 & Hj & C). pose proof (fetches_det _ _ _ _ _ _ _ Hf Hj) as <-. destruct C as [(w & [S|(v & add & r & -> & _)])|(v & ->)]; try discriminate.
  destruct i; cbn [store_access] in Q, S; try discriminate; rewrite S, Z.eqb_refl in Q; discriminate.
Qed.
(** A program that stores 7 at 0x104 in RAM (cycle 1), computes, and loads it back (cycle 5). *)
Definition keep_prog : list Z :=
  asm [Cpy R_a0 (Lit2 256); Wsa (Reg1 R_a0) (Lit1 4) (Lit1 7); Wsa (Reg1 R_a0) (Lit1 8) (Lit1 9); Cpy R_a1 (Lit2 1); Add R_a1 (Lit2 3);
       Lsa R_a2 (Reg1 R_a0) (Lit1 4)].
Lemma E_C72_effect : demo_case keep_prog 1 (fun m i _ m' => exists add val, i = Wsa (Reg1 R_a0) add val /\ stores_word m i 260 7 /\
  memory_effect (dev_ops false) m i (c_mem m) (c_mem m')).
Proof.
  assert (X : demo_case keep_prog 1 (fun m i _ m' => i = Wsa (Reg1 R_a0) (Lit1 4) (Lit1 7) /\ store_access m i = Some (260, 7))) by demo_tac.
  destruct X as (m & i & mem1 & m' & Hr & He & Ei & Hs). exists m, i, mem1, m'. split; auto. split; auto. exists (Lit1 4), (Lit1 7). split; auto. split; [left; auto|].
  eapply P_C72_effect; [exact (dev_typed false)| |exact He]. eapply ReachFacts.reachable_wf; [exact (dev_typed false)|exact Hr].
Qed.
Lemma E_C72_ram : exists m m' i memf l, demo_run false keep_prog 1 = Ret m /\ executes (dev_ops false) false m i memf m' /\
  ram_at (c_mem m) demo_mp l /\ nth 1 l 5 = 0 /\ ram_at (c_mem m') demo_mp (upd l 1 7).
Proof.
  destruct (demo_run false keep_prog 1) as [m|] eqn:E; [|vm_compute in E; discriminate].
  destruct (demo_run false keep_prog 2) as [m2|] eqn:E2; [|vm_compute in E2; discriminate].
  assert (C1 : match demo_run false keep_prog 1, demo_run false keep_prog 2 with Ret m, Ret m2 =>
     exists l, demo_words m = Some l /\ nth 1 l 5 = 0 /\ demo_words m2 = Some (upd l 1 7) | _, _ => False end).
  { vm_compute. eexists. split; [reflexivity|]. split; reflexivity. }
  assert (C2 : match demo_run false keep_prog 1, demo_run false keep_prog 2 with Ret m, Ret m2 =>
     exists i memf m', exec_check m = Some (i, memf, m') /\ m' = m2 | _, _ => False end).
  { vm_compute. do 3 eexists. split; reflexivity. }
  rewrite E, E2 in C1, C2. destruct C1 as (l & L1 & L2 & L3), C2 as (i & memf & m' & X & ->). exists m, m2, i, memf, l.
  split; auto. split; [apply exec_check_sound; auto|]. split; [eapply demo_ram; eauto|]. split; auto. eapply demo_ram; eauto.
Qed.
Lemma E_C72_persist : exists m m', demo_run false keep_prog 2 = Ret m /\ run (dev_ops false) false 4 m = Ret m' /\ wf m /\
  holds (c_mem m) demo_mp 260 7 /\ (forall k mk, (k < 4)%nat -> run (dev_ops false) false k m = Ret mk -> ~ may_change (dev_ops false) mk 260) /\
  holds (c_mem m') demo_mp 260 7 /\ R m' R_a2 = 7.
Proof.
  destruct (demo_run false keep_prog 2) as [m|] eqn:E; [|vm_compute in E; discriminate].
  assert (C : match demo_run false keep_prog 2 with Ret m => match demo_words m, run (dev_ops false) false 4 m with
     | Some l, Ret m' => nth 1 l 0 = 7 /\ R m' R_a2 = 7 /\
        forallb (fun k => match run (dev_ops false) false k m with Ret mk => quiet mk 260 | Panic => true end) [0;1;2;3]%nat = true | _, _ => False end | Panic => False end).
  { vm_compute. repeat split. }
  rewrite E in C. destruct (demo_words m) as [l|] eqn:El; [|destruct C]. destruct (run _ _ 4 m) as [m'|] eqn:Er; [|destruct C]. destruct C as (C1 & C2 & C3).
  assert (W : wf m) by (eapply ReachFacts.reachable_wf; [exact (dev_typed false)|eapply demo_reachable; eauto]).
  assert (H : holds (c_mem m) demo_mp 260 7). { exists l. split; [eapply demo_ram; eauto|]. exact C1. }
  assert (N : forall k mk, (k < 4)%nat -> run (dev_ops false) false k m = Ret mk -> ~ may_change (dev_ops false) mk 260).
  { intros k mk Hk Ek. apply quiet_sound. rewrite forallb_forall in C3. assert (I : In k [0;1;2;3]%nat) by (cbn; lia). apply C3 in I. rewrite Ek in I. exact I. }
  exists m, m'. split; auto. split; auto. split; auto. split; auto. split; auto. split; auto.
  eapply P_C72_persist; eauto. unfold occupies. cbn. lia.
Qed.

(* Concrete cases for the theorems above that have none beside them. *)
(** The program counter is not a multiple of four. *)
Lemma E_C72_no_fetch : exists m m', reachable (dev_ops false) false m /\ c_halted m = false /\ (forall i memf, ~ fetches (dev_ops false) m i memf) /\ next (dev_ops false) false m = Ret m' /\ R m' R_et <> 0.
Proof.
  assert (H : match demo_run false (asm [Cpy R_pc (Lit2 18)]) 1 with
    | Ret m => match next (dev_ops false) false m with
        | Ret m' => c_halted m = false /\ R m R_pc = 18 /\ R m' R_et <> 0
        | _ => False end
    | Panic => False end) by (vm_compute; repeat split; discriminate).
  destruct (demo_run false _ 1) as [m|] eqn:E; [|destruct H]. destruct (next _ _ m) as [m'|] eqn:En; [|destruct H]. destruct H as (Hh & Hpc & He).
  exists m, m'. split; [eapply demo_reachable; eauto|]. split; auto. split; [|auto]. intros i memf (w & (X & _) & _). rewrite Hpc in X. discriminate X.
Qed.
Lemma E_C72_ram_no_fetch : exists m m' l, reachable (dev_ops false) false m /\ c_halted m = false /\ (forall i memf, ~ fetches (dev_ops false) m i memf) /\ next (dev_ops false) false m = Ret m' /\
  ram_at (c_mem m) demo_mp l /\ nth 1 l 0 = 7.
Proof.
  pose (p := asm [Cpy R_a0 (Lit2 256); Wsa (Reg1 R_a0) (Lit1 4) (Lit1 7); Cpy R_pc (Lit2 18)]).
  assert (H : match demo_run false p 3 with
    | Ret m => match next (dev_ops false) false m, demo_words m with
        | Ret m', Some l => c_halted m = false /\ R m R_pc = 18 /\ nth 1 l 0 = 7
        | _, _ => False end
    | Panic => False end) by (vm_compute; repeat split).
  destruct (demo_run false p 3) as [m|] eqn:E; [|destruct H]. destruct (next _ _ m) as [m'|] eqn:En; [|destruct H]. destruct (demo_words m) as [l|] eqn:El; [|destruct H]. destruct H as (Hh & Hpc & He).
  exists m, m', l. split; [eapply demo_reachable; eauto|]. split; auto. split; [|split; [auto|split; [eapply demo_ram; eauto|auto]]]. intros i memf (w & (X & _) & _). rewrite Hpc in X. discriminate X.
Qed.
Lemma E_C72_load : exists m l mem2, reachable (dev_ops false) false m /\ ram_at (c_mem m) demo_mp l /\ occupies demo_mp 260 /\ loads (dev_ops false) m (c_mem m) 260 7 mem2.
Proof.
  assert (H : match demo_run false keep_prog 2 with
    | Ret m => match demo_words m, mem_read (dev_ops false) false (c_mem m) 260 with
        | Some l, Ret (mem2, ex, w) => R m R_mtt = 0 /\ ex = 0 /\ w = 7
        | _, _ => False end
    | Panic => False end) by (vm_compute; repeat split).
  destruct (demo_run false _ 2) as [m|] eqn:E; [|destruct H]. destruct (demo_words m) as [l|] eqn:El; [|destruct H]. destruct (mem_read _ _ _ _) as [[[mem2 ex] w]|] eqn:Er; [|destruct H].
  destruct H as (Ht & -> & ->). exists m, l, mem2. split; [eapply demo_reachable; eauto|]. split; [eapply demo_ram; eauto|]. split; [unfold occupies; cbn; lia|].
  split; [reflexivity|]. exists (c_mem m). split; auto. unfold passes. rewrite Ht. reflexivity.
Qed.
Lemma E_C72_store : exists m l mem2, reachable (dev_ops false) false m /\ ram_at (c_mem m) demo_mp l /\ is_u32 9 /\ occupies demo_mp 260 /\ stores (dev_ops false) m (c_mem m) 260 9 mem2 /\ nth 1 l 0 = 7.
Proof.
  assert (H : match demo_run false keep_prog 2 with
    | Ret m => match demo_words m, mem_write (dev_ops false) false (c_mem m) 260 9 with
        | Some l, Ret (mem2, ex) => R m R_mtt = 0 /\ ex = 0 /\ nth 1 l 0 = 7
        | _, _ => False end
    | Panic => False end) by (vm_compute; repeat split).
  destruct (demo_run false _ 2) as [m|] eqn:E; [|destruct H]. destruct (demo_words m) as [l|] eqn:El; [|destruct H]. destruct (mem_write _ _ _ _ _) as [[mem2 ex]|] eqn:Er; [|destruct H].
  destruct H as (Ht & -> & Hn). exists m, l, mem2. split; [eapply demo_reachable; eauto|]. split; [eapply demo_ram; eauto|]. split; [unfold is_u32; lia|]. split; [unfold occupies; cbn; lia|].
  split; [|exact Hn]. split; [reflexivity|]. exists (c_mem m). split; auto. unfold passes. rewrite Ht. reflexivity.
Qed.
Lemma E_C72_mapped : exists m0 mem' r e, board_new (dev_ops false) (demo_devs [1; 2; 3]) = Ret m0 /\ mem_wf (c_mem m0) /\ tidy false (c_mem m0) /\ is_u32 512 /\
  mem_map false (c_mem m0) 512 1 = Ret (mem', ROk r) /\ znth (mm_hwb (c_mem m0)) 1 = Some e /\ contents (ae_dev e) = Some (zeros 256) /\ Forall is_u32 (zeros 256) /\ ac_size (ae_cache e) <= 4 * zlen (zeros 256).
Proof.
  assert (X : exists m0, board_new (dev_ops false) (demo_devs [1; 2; 3]) = Ret m0) by (vm_compute; eauto). destruct X as [m0 E].
  destruct (ReachFacts.board_new_spec (dev_ops false) (dev_typed false) _ _ E) as (W0 & _). destruct W0 as (_ & W0 & _).
  vm_compute in E. injection E as <-. do 4 eexists. split; [reflexivity|]. split; [exact W0|]. split; [split; [constructor|split; cbn; tauto]|]. split; [unfold is_u32; lia|].
  split; [vm_compute; reflexivity|]. split; [reflexivity|]. split; [reflexivity|]. split; [apply Forall_forall; intros x Hx; apply repeat_spec in Hx; subst; unfold is_u32; lia|].
  vm_compute. discriminate.
Qed.
