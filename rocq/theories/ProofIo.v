(** Proofs about the input/output components of lrvm_aux: displays, keyboards, clock, debug interface. *)
From Coq Require Import ZArith List Bool Lia.
From Verif Require Import Base Board Mem Cpu Asm Tools Devices SpecMach SpecAsm SpecDev BaseFacts MemFacts DevTyped ReachFacts ProofAsm ProofTools ProofHist ProofDev.
Import ListNotations.
Open Scope Z_scope.
Ltac Zify.zify_post_hook ::= Z.div_mod_to_equations.

(** A component whose every request has a known answer and effect, the state being [mk s]. *)
Lemma serve_steps {D S} (ops : bus_ops D) (mk : S -> D) (step : S -> request -> S) (ans : S -> request -> answer) (ok : S -> Prop) (P : request -> Prop) :
  (forall s r, ok s -> P r -> serve ops (mk s) [r] = Ret (mk (step s r), [ans s r]) /\ ok (step s r)) ->
  forall h s, ok s -> Forall P h -> ok (fold_left step h s) /\ exists xs, serve ops (mk s) h = Ret (mk (fold_left step h s), xs).
Proof.
  intros H h. induction h as [|r t IH]; intros s Hs HF; [split; auto; exists []; reflexivity|]. inversion HF as [|? ? H1 H2]; subst. cbn [fold_left].
  destruct (H s r Hs H1) as (E & Hs'). destruct (IH _ Hs' H2) as (X & xs & Y). split; auto. exists (ans s r :: xs).
  change (r :: t) with ([r] ++ t). change (ans s r :: xs) with ([ans s r] ++ xs). eapply serve_app; eauto.
Qed.
Lemma serve_map {D S} (ops : bus_ops D) (mk : S -> D) (step : S -> request -> S) (ans : request -> answer) (ok : S -> Prop) (P : request -> Prop) :
  (forall s r, ok s -> P r -> serve ops (mk s) [r] = Ret (mk (step s r), [ans r]) /\ ok (step s r)) ->
  forall h s, ok s -> Forall P h -> serve ops (mk s) h = Ret (mk (fold_left step h s), map ans h).
Proof.
  intros H h. induction h as [|r t IH]; intros s Hs HF; [reflexivity|]. inversion HF as [|? ? H1 H2]; subst. cbn [fold_left map].
  destruct (H s r Hs H1) as (E & Hs'). 
  change (r :: t) with ([r] ++ t). change (ans r :: map ans t) with ([ans r] ++ map ans t). eapply serve_app; eauto.
Qed.

(** * C61 *)
(** The number display calls its handler once per write, in order, with the word, the format of the address and the newline flag;
    reads raise MemoryNotReadable and call nothing. *)
Lemma P_C61_number : forall oc id calls sz h, Forall (in_range sz) h ->
  serve (dev_ops oc) (DNum (NumDisplay id calls)) h = Ret (DNum (NumDisplay id (calls ++ map number_call (writes h))), map write_only h).
Proof.
  intros oc id calls sz h HF. revert calls. induction h as [|r t IH]; intros calls; [cbn; rewrite app_nil_r; reflexivity|].
  inversion HF as [|? ? H1 H2]; subst. destruct r as [a|a w|]; cbn [serve writes map].
  - cbn [bo_read dev_ops]. unfold not_readable, wrap_r. cbn [obind]. rewrite IH by auto. reflexivity.
  - cbn [bo_write dev_ops]. unfold nd_write. destruct H1 as (H1 & H3 & H4).
    assert (X : exists f, match a mod 16 with | 0 => Ret NHex | 4 => Ret NHexLong | 8 => Ret NDec | 12 => Ret NDecLong | _ => Panic end = Ret f /\
      (w, f, a <? 16) = number_call (a, w)).
    { unfold number_call. cbn [fst snd]. 
      assert (B : (a <? 16) = (a / 4 <? 4)) by (destruct (Z.ltb_spec a 16), (Z.ltb_spec (a / 4) 4); auto; lia). rewrite B.
      assert (C : a mod 16 = 0 \/ a mod 16 = 4 \/ a mod 16 = 8 \/ a mod 16 = 12) by lia.
      destruct C as [C|[C|[C|C]]]; rewrite C.
      - replace (a / 4 mod 4) with 0 by lia. eexists; split; reflexivity.
      - replace (a / 4 mod 4) with 1 by lia. eexists; split; reflexivity.
      - replace (a / 4 mod 4) with 2 by lia. eexists; split; reflexivity.
      - replace (a / 4 mod 4) with 3 by lia. eexists; split; reflexivity. }
    destruct X as (f & Ef & Ec). rewrite Ef. cbn [obind wrap_w nd_hw_id nd_calls]. unfold wrap_w. cbn [obind]. rewrite Ec. rewrite IH by auto.
    rewrite <- app_assoc. reflexivity.
  - cbn [bo_reset dev_ops]. rewrite IH by auto. reflexivity.
Qed.
Lemma E_C61_number : match serve (dev_ops false) (DNum (NumDisplay 1 [])) [Write 4 300; Read 0; Write 24 7] with
  | Ret (DNum d, xs) => nd_calls d = [(300, NHexLong, true); (7, NDec, false)] /\ xs = [Put 0; Got 8448 0; Put 0] | _ => False end.
Proof. vm_compute. split; reflexivity. Qed.
(** Its documentation says it is 8 words long: it declares 16. *)
Lemma P_C61_number_size_refuted : ~ (forall oc id, is_u64 id -> declares (dev_ops oc) (DNum (NumDisplay id [])) 32).
Proof. intros H. destruct (H false 5 ltac:(unfold is_u64; lia)) as (md & E & X). vm_compute in E. injection E as <-. vm_compute in X. discriminate. Qed.
(** The character display calls its handler once per write, in order, with the character, or with the word if it is no character. *)
Lemma P_C61_character : forall oc id calls sz h, Forall (in_range sz) h ->
  exists new, serve (dev_ops oc) (DChar (CharDisplay id calls)) h = Ret (DChar (CharDisplay id (calls ++ new)), map write_only h) /\
    Forall2 (fun x c => (scalar (snd x) /\ c = ROk (snd x)) \/ (~ scalar (snd x) /\ c = RErr (snd x))) (writes h) new.
Proof.
  intros oc id calls sz h HF. revert calls. induction h as [|r t IH]; intros calls; [exists []; cbn; rewrite app_nil_r; auto|].
  inversion HF as [|? ? H1 H2]; subst. destruct r as [a|a w|]; cbn [serve writes map].
  - cbn [bo_read dev_ops]. unfold not_readable, wrap_r. cbn [obind]. destruct (IH H2 calls) as (new & -> & F). exists new. split; auto.
  - cbn [bo_write dev_ops]. unfold cd_write, wrap_w. cbn [obind cd_hw_id cd_calls]. destruct (IH H2 (calls ++ [char_from_u32 w])) as (new & -> & F).
    exists (char_from_u32 w :: new). rewrite <- app_assoc. split; [reflexivity|]. constructor; auto. cbn [snd]. unfold char_from_u32, scalar.
    destruct H1 as (_ & _ & H1). unfold is_u32 in H1.
    destruct (Z.ltb_spec w 55296); cbn [orb]; [left; split; [lia|auto]|]. destruct (Z.leb_spec 57344 w), (Z.ltb_spec w 1114112); cbn [andb]; 
      first [left; split; [lia|reflexivity] | right; split; [lia|reflexivity]].
  - cbn [bo_reset dev_ops]. destruct (IH H2 calls) as (new & -> & F). exists new. split; auto.
Qed.
Lemma E_C61_character : match serve (dev_ops false) (DChar (CharDisplay 1 [])) [Write 0 65; Write 0 55297] with
  | Ret (DChar d, xs) => cd_calls d = [ROk 65; RErr 55297] | _ => False end.
Proof. vm_compute. reflexivity. Qed.
(** It describes itself as a buffered display. *)
Lemma P_C61_character_type_refuted : ~ (forall oc id md, is_u64 id -> bo_metadata (dev_ops oc) (DChar (CharDisplay id [])) = Ret md ->
  w4 md = type_code (CatDisplay TCharacter)).
Proof. intros H. specialize (H false 5 _ ltac:(unfold is_u64; lia) eq_refl). vm_compute in H. discriminate. Qed.

Lemma bytes_of_be w : is_u32 w -> be_bytes32 w = bytes_of w.
Proof. unfold is_u32, be_bytes32, bytes_of, u8. change (2 ^ 24) with 16777216. change (2 ^ 16) with 65536. change (2 ^ 8) with 256. intros. f_equal. lia. Qed.
Lemma words_upto_list (l : list Z) f : (forall i, 0 <= i < zlen l -> nth (Z.to_nat i) l 0 = f i) -> words_upto (zlen l) f = l.
Proof.
  intros H. unfold words_upto. apply nth_ext with 0 0.
  - rewrite !map_length, seq_length. unfold zlen. lia.
  - intros n Hn. rewrite !map_length, seq_length in Hn. unfold zlen in Hn. rewrite Nat2Z.id in Hn.
    rewrite map_map. rewrite (nth_indep _ 0 (f (Z.of_nat 0))) by (rewrite map_length, seq_length; unfold zlen; lia).
    rewrite (map_nth (fun x => f (Z.of_nat x))). rewrite seq_nth by (unfold zlen; lia). cbn [Nat.add]. rewrite <- H by (unfold zlen; lia).
    rewrite Nat2Z.id. reflexivity.
Qed.
Lemma w2b_bytes l : Forall is_u32 l -> words_to_bytes l = flat_map bytes_of l.
Proof. unfold words_to_bytes. induction 1; cbn [flat_map]; auto. rewrite bytes_of_be by auto. congruence. Qed.
Lemma zset_nth l i w l' j : zset l i w = Some l' -> 0 <= j -> nth (Z.to_nat j) l' 0 = if j =? i then w else nth (Z.to_nat j) l 0.
Proof.
  intros E Hj. pose proof (zset_bound _ _ _ _ E) as B. pose proof (zset_length _ _ _ _ E) as L. unfold zlen in B.
  pose proof (zset_get _ _ _ _ j E) as G. destruct (Z.eqb_spec j i) as [->|N].
  - rewrite znth_nth in G by lia. apply (nth_error_nth _ _ 0) in G. auto.
  - rewrite !znth_nth in G by lia. destruct (Nat.lt_ge_cases (Z.to_nat j) (length l)) as [X|X].
    + rewrite (nth_error_nth' l 0 X) in G. apply nth_error_nth; auto.
    + rewrite !nth_overflow by lia. reflexivity.
Qed.
(** The buffered display: over any history its handler is called exactly as [shown] says. *)
Lemma P_C61_buffered : forall oc l id calls h, Forall is_u32 l -> Forall (in_range (4 * zlen l + 4)) h ->
  exists l', serve (dev_ops oc) (DBuf (BufDisplay l (zlen l) id calls)) h =
    Ret (DBuf (BufDisplay l' (zlen l) id (calls ++ shown (zlen l) (fun i => word_at l (4 * i)) h)), map (buffered_answer (zlen l)) h) /\ zlen l' = zlen l.
Proof.
  intros oc l id calls h.
  assert (G : forall l f calls, Forall is_u32 l -> (forall i, 0 <= i < zlen l -> nth (Z.to_nat i) l 0 = f i) -> Forall (in_range (4 * zlen l + 4)) h ->
    exists l', serve (dev_ops oc) (DBuf (BufDisplay l (zlen l) id calls)) h =
      Ret (DBuf (BufDisplay l' (zlen l) id (calls ++ shown (zlen l) f h)), map (buffered_answer (zlen l)) h) /\ zlen l' = zlen l).
  2:{ intros Hl HF. apply G; auto. intros i Hi. unfold word_at. f_equal. lia. }
  clear l calls. induction h as [|r t IH]; intros l f calls Hl Hf HF; [exists l; cbn; rewrite app_nil_r; auto|].
  inversion HF as [|? ? H1 H2]; subst.
  assert (Z0 : zlen (zeros (zlen l)) = zlen l) by (apply zeros_length, zlen_nonneg).
  assert (CL : forall calls, exists l', serve (dev_ops oc) (DBuf (BufDisplay (zeros (zlen l)) (zlen l) id calls)) t =
      Ret (DBuf (BufDisplay l' (zlen l) id (calls ++ shown (zlen l) (fun _ => 0) t)), map (buffered_answer (zlen l)) t) /\ zlen l' = zlen l).
  { intros c. pose proof (IH (zeros (zlen l)) (fun _ => 0) c (zeros_u32 _)) as X. rewrite Z0 in X. apply X; auto.
    intros i Hi. pose proof (zeros_at (zlen l) (4 * i)) as Y. unfold word_at in Y. replace (4 * i / 4) with i in Y by lia. exact Y. }
  destruct r as [a|a w|]; cbn [serve map].
  - cbn [bo_read dev_ops]. unfold not_readable, wrap_r. cbn [obind]. destruct (IH l f calls Hl Hf H2) as (l' & -> & L). exists l'. split; auto.
  - destruct H1 as (H1 & H3 & H4). cbn [bo_write dev_ops]. unfold bd_write. cbn [bd_words bd_buffer bd_hw_id bd_calls].
    destruct (Z.ltb_spec (a / 4) (zlen l)) as [L|L].
    + destruct (zset_some l (a / 4) w) as (l1 & E1); [lia|]. unfold vset. rewrite E1. cbn [unwrap obind]. unfold wrap_w. cbn [obind].
      assert (L1 : zlen l1 = zlen l) by (unfold zlen; rewrite (zset_length _ _ _ _ E1); reflexivity).
      pose proof (IH l1 (fun i => if i =? a / 4 then w else f i) calls) as X. rewrite L1 in X. destruct X as (l' & E & L'); auto.
      { eapply zset_u32; eauto. }
      { intros i Hi. rewrite (zset_nth _ _ _ _ _ E1) by lia. destruct (i =? a / 4); auto. }
      rewrite E. exists l'. split; [|auto]. cbn [shown buffered_answer]. destruct (Z.eqb_spec a (4 * zlen l)); [lia|]. reflexivity.
    + assert (Ea : a = 4 * zlen l) by lia. cbn [shown buffered_answer]. rewrite (proj2 (Z.eqb_eq _ _) Ea). cbn [andb].
      rewrite words_upto_list by auto. rewrite <- w2b_bytes by auto.
      destruct (Z.eqb_spec w 170) as [->|]; [|destruct (Z.eqb_spec w 187) as [->|]; [|destruct (Z.eqb_spec w 255) as [->|]]]; cbn [orb negb].
      * unfold wrap_w. cbn [obind]. destruct (IH l f (calls ++ [(false, words_to_bytes l)]) Hl Hf H2) as (l' & -> & L'). exists l'. rewrite <- app_assoc. split; auto.
      * unfold wrap_w. cbn [obind]. destruct (IH l f (calls ++ [(true, words_to_bytes l)]) Hl Hf H2) as (l' & -> & L'). exists l'. rewrite <- app_assoc. split; auto.
      * unfold wrap_w, bd_clear. cbn [obind bd_words bd_buffer bd_hw_id bd_calls]. destruct (CL calls) as (l' & -> & L'). exists l'. split; auto.
      * assert (X : forall A (x y z k : A), match w with 170 => x | 187 => y | 255 => z | _ => k end = k).
        { intros. destruct w as [|p|]; auto. do 8 (try (destruct p as [p|p|]); auto); lia. }
        rewrite X. unfold wrap_w. cbn [obind]. destruct (IH l f calls Hl Hf H2) as (l' & -> & L'). exists l'. split; auto. f_equal. f_equal. f_equal. f_equal.
        unfold aux_encode, u16, u8. cbn [aux_code aux_data opt_or0]. change (2 ^ 8) with 256. lia.
  - cbn [bo_reset dev_ops]. unfold bd_clear. cbn [bd_words bd_buffer bd_hw_id bd_calls]. destruct (CL calls) as (l' & -> & L'). exists l'. split; auto.
Qed.
Lemma E_C61_buffered : exists d, bd_new 12 3 = Some d /\ zlen (bd_buffer d) = bd_words d /\
  match serve (dev_ops false) (DBuf d) [Write 0 1; Write 8 170; Write 4 2; Write 8 187; Write 8 3; Write 8 255; Write 8 170] with
  | Ret (DBuf d', xs) => bd_calls d' = [(false, [0; 0; 0; 1; 0; 0; 0; 0]); (true, [0; 0; 0; 1; 0; 0; 0; 2]); (false, [0; 0; 0; 0; 0; 0; 0; 0])] /\
      xs = [Put 0; Put 0; Put 0; Put 0; Put 4099; Put 0; Put 0]
  | _ => False end.
Proof. eexists. split; [reflexivity|]. split; [reflexivity|]. vm_compute. split; reflexivity. Qed.
(** Displaying should clear the buffer. *)
Lemma P_C61_clears_refuted : ~ (forall oc l id calls h, Forall is_u32 l -> Forall (in_range (4 * zlen l + 4)) h ->
  exists l' xs, serve (dev_ops oc) (DBuf (BufDisplay l (zlen l) id calls)) h =
    Ret (DBuf (BufDisplay l' (zlen l) id (calls ++ shown_doc (zlen l) (fun i => word_at l (4 * i)) h)), xs)).
Proof.
  intros H. destruct (H false [9] 3 [] [Write 4 170; Write 4 170]) as (l' & xs & E).
  - repeat constructor; unfold is_u32; lia.
  - repeat constructor; unfold is_u32; cbn; lia.
  - vm_compute in E. discriminate.
Qed.
(** [BufferedDisplay::new(capacity)] refuses exactly 0 and unaligned capacities; otherwise it declares [capacity] bytes: a zero buffer
    and the control word. *)
Lemma P_C61_buffered_new : forall oc capacity id, is_u32 capacity -> is_u64 id ->
  (bd_new capacity id = None <-> capacity = 0 \/ ~ Z.divide 4 capacity) /\
  forall d, bd_new capacity id = Some d -> declares (dev_ops oc) (DBuf d) capacity /\ 4 * bd_words d + 4 = capacity /\
    zlen (bd_buffer d) = bd_words d /\ Forall (eq 0) (bd_buffer d) /\ bd_calls d = [].
Proof.
  intros oc capacity id Hc Hi. unfold is_u32 in Hc. unfold bd_new. destruct (Z.eqb_spec capacity 0); [split; [tauto|discriminate]|].
  destruct (Z.eqb_spec (capacity mod 4) 0) as [E|E]; cbn [negb].
  2:{ rewrite Z.mod_divide in E by lia. split; [tauto|discriminate]. }
  split. { pose proof E as E'. apply Z.mod_divide in E'; [|lia]. split; [discriminate|]. intros [?|?]; [lia|tauto]. }
  intros d X; injection X as <-. cbn [bd_words bd_buffer bd_calls]. split; [|split; [lia|split; [|split; [|reflexivity]]]].
  - unfold declares. cbn [bo_metadata dev_ops]. unfold bd_metadata, mul_u32, add_u32. cbn [bd_words bd_hw_id].
    destruct (Z.ltb_spec ((capacity / 4 - 1) * 4) 4294967296); [|lia]. cbn [obind]. destruct (Z.ltb_spec ((capacity / 4 - 1) * 4 + 4) 4294967296); [|lia]. cbn [obind].
    destruct (P_C54_new id ((capacity / 4 - 1) * 4 + 4) (CatDisplay TBuffered) None None) as (_ & X); cbn; auto. { unfold is_u32; lia. }
    eexists. split; [apply X; exists (capacity / 4); lia|]. cbn. lia.
  - apply zeros_length. lia.
  - unfold zeros. apply Forall_forall. intros x Hx. apply repeat_spec in Hx. auto.
Qed.
Lemma E_C61_buffered_new : exists d, bd_new 64 3 = Some d /\ bd_words d = 15.
Proof. eexists. split; reflexivity. Qed.

(** * C62 *)
(** The character keyboard after any history: it asked the user for as many characters as it was told to, and holds the last one, or 0 after
    a clear or a reset. *)
Lemma P_C62_character : forall oc c id input n h, is_u32 c -> (forall k, is_u32 (input k)) -> Forall (in_range 8) h ->
  let s := typed_char input h (n, c) in
  exists xs, serve (dev_ops oc) (DKeyChar (CharKeyboard c id input n)) h = Ret (DKeyChar (CharKeyboard (snd s) id input (fst s)), xs) /\
    reads_as (dev_ops oc) (DKeyChar (CharKeyboard (snd s) id input (fst s))) 0 (snd s).
Proof.
  intros oc c id input n h Hc Hi HF.
  assert (G : is_u32 (snd (typed_char input h (n, c))) /\ exists xs, serve (dev_ops oc) (DKeyChar (CharKeyboard c id input n)) h =
    Ret (DKeyChar (CharKeyboard (snd (typed_char input h (n, c))) id input (fst (typed_char input h (n, c)))), xs)).
  { revert c n Hc. induction h as [|r t IH]; intros c n Hc; [split; auto; exists []; reflexivity|]. inversion HF as [|? ? H1 H2]; subst.
    destruct r as [a|a w|]; cbn [serve].
    - destruct (IH H2 c n Hc) as (U & xs & E). cbn [bo_read dev_ops]. unfold ck_read. destruct H1 as [H1 H3].
      destruct (Z.eqb_spec a 0); [|destruct (Z.eqb_spec a 4); [|lia]]; unfold wrap_r; cbn [obind ck_buffer]; rewrite E; (split; [exact U|eexists; reflexivity]).
    - destruct H1 as (H1 & H3 & H4). cbn [bo_write dev_ops]. unfold ck_write. destruct (Z.eqb_spec a 0) as [->|].
      + destruct (IH H2 c n Hc) as (U & xs & E). unfold wrap_w. cbn [obind]. rewrite E. split; [exact U|]. eexists. reflexivity.
      + destruct (Z.eqb_spec a 4) as [->|]; [|lia].
        assert (X : w = 1 \/ w = 2 \/ (w <> 1 /\ w <> 2)) by lia. destruct X as [->|[->|[N1 N2]]].
        * destruct (IH H2 (input n) (S n) (Hi n)) as (U & xs & E). unfold wrap_w. cbn [obind ck_input ck_used ck_hw_id]. rewrite E. split; [exact U|]. eexists. reflexivity.
        * destruct (IH H2 0 n) as (U & xs & E). { unfold is_u32; lia. } unfold wrap_w. cbn [obind ck_input ck_used ck_hw_id]. rewrite E. split; [exact U|]. eexists. reflexivity.
        * assert (X : forall A (x y k : A), match w with 1 => x | 2 => y | _ => k end = k).
          { intros. destruct w as [|p|]; auto. do 2 (try (destruct p as [p|p|]); auto); lia. }
          rewrite X. destruct (IH H2 c n Hc) as (U & xs & E). unfold wrap_w. cbn [obind]. rewrite E.
          assert (Y : typed_char input (Write 4 w :: t) (n, c) = typed_char input t (n, c)).
          { unfold typed_char. cbn [fold_left]. rewrite X. reflexivity. }
          rewrite Y. split; [exact U|]. eexists. reflexivity.
    - destruct (IH H2 0 n) as (U & xs & E). { unfold is_u32; lia. } cbn [bo_reset dev_ops]. unfold ck_reset, wrap_o. cbn [obind ck_input ck_used ck_hw_id]. rewrite E.
      split; [exact U|]. eexists. reflexivity. }
  destruct G as (U & xs & E). cbn zeta. exists xs. split; [exact E|]. eexists. cbn [bo_read dev_ops]. unfold ck_read. cbn [Z.eqb]. unfold wrap_r. cbn [obind ck_buffer].
  rewrite u32_id by auto. reflexivity.
Qed.
(** The control word cannot be read, the buffer cannot be written, unknown commands are refused; nothing changes then. *)
Lemma P_C62_character_errors : forall oc d w, is_u32 w -> let x := DKeyChar d in
  bo_read (dev_ops oc) x 4 = Ret (x, 33 * 2 ^ 8, 0) /\ bo_write (dev_ops oc) x 0 w = Ret (x, 49 * 2 ^ 8) /\
  (w <> 1 -> w <> 2 -> bo_write (dev_ops oc) x 4 w = Ret (x, 16 * 2 ^ 8 + w mod 2 ^ 8)).
Proof.
  intros oc d w Hw x. split; [reflexivity|]. split; [reflexivity|]. intros N1 N2. cbn [bo_write dev_ops x]. unfold ck_write. change (4 =? 0) with false. change (4 =? 4) with true. cbv iota.
  assert (X : forall A (x y k : A), match w with 1 => x | 2 => y | _ => k end = k).
  { intros. destruct w as [|p|]; auto. do 2 (try (destruct p as [p|p|]); auto); lia. }
  rewrite X. unfold wrap_w. cbn [obind]. f_equal. f_equal. unfold aux_encode, u16, u8. cbn [aux_code aux_data opt_or0]. change (2 ^ 8) with 256. lia.
Qed.
Lemma E_C62_character : match serve (dev_ops false) (DKeyChar (CharKeyboard 0 1 (fun n => 65 + Z.of_nat n) 0)) [Write 4 1; Read 0; Write 4 1; Read 0; Write 4 2; Read 0; Write 4 9] with
  | Ret (_, xs) => xs = [Put 0; Got 0 65; Put 0; Got 0 66; Put 0; Got 0 0; Put 4105] | _ => False end.
Proof. vm_compute. reflexivity. Qed.

Lemma be_shift a b c d : is_u8 a -> is_u8 b -> is_u8 c -> is_u8 d ->
  0 + Z.shiftl a 24 + Z.shiftl b 16 + Z.shiftl c 8 + Z.shiftl d 0 = a * 2 ^ 24 + b * 2 ^ 16 + c * 2 ^ 8 + d.
Proof. intros. rewrite !Z.shiftl_mul_pow2 by lia. lia. Qed.
Lemma line_word_tail a b c d t i : 1 <= i -> line_word (a :: b :: c :: d :: t) i = line_word t (i - 1).
Proof.
  intros Hi. unfold line_word, file_word.
  assert (X : forall k, 0 <= k -> nth (Z.to_nat (4 * i + k)) (a :: b :: c :: d :: t) 0 = nth (Z.to_nat (4 * (i - 1) + k)) t 0).
  { intros k Hk. replace (Z.to_nat (4 * i + k)) with (S (S (S (S (Z.to_nat (4 * (i - 1) + k)))))) by lia. reflexivity. }
  rewrite !X by lia. reflexivity.
Qed.
Ltac line_tac := unfold line_word, file_word; change (Z.to_nat (4 * 0 + 0)) with 0%nat; change (Z.to_nat (4 * 0 + 1)) with 1%nat;
  change (Z.to_nat (4 * 0 + 2)) with 2%nat; change (Z.to_nat (4 * 0 + 3)) with 3%nat; cbn [nth]; rewrite !Z.shiftl_mul_pow2 by lia; lia.
(** The loop storing a line. *)
Lemma lk_fill_spec bytes : forall buffer pos, Forall is_u8 bytes -> 0 <= pos ->
  exists b', lk_fill buffer bytes 0 0 pos = Ret b' /\ zlen b' = zlen buffer /\
    forall i, 0 <= i < zlen buffer ->
      nth (Z.to_nat i) b' 0 = if (pos <=? i) && (4 * (i - pos) <? zlen bytes) then line_word bytes (i - pos) else nth (Z.to_nat i) buffer 0.
Proof.
  assert (LAST : forall buffer (line : list Z) pos w, 0 <= pos -> 0 < zlen line < 4 -> w = line_word line 0 ->
    exists b', (if zlen buffer <=? pos then Ret buffer else vset buffer pos w) = Ret b' /\ zlen b' = zlen buffer /\
    forall i, 0 <= i < zlen buffer ->
      nth (Z.to_nat i) b' 0 = if (pos <=? i) && (4 * (i - pos) <? zlen line) then line_word line (i - pos) else nth (Z.to_nat i) buffer 0).
  { intros buffer line pos w Hp Hl ->. destruct (Z.leb_spec (zlen buffer) pos) as [L|L].
    - exists buffer. split; [reflexivity|]. split; [reflexivity|]. intros i Hi. destruct (Z.leb_spec pos i); [lia|reflexivity].
    - destruct (zset_some buffer pos (line_word line 0)) as (b' & E); [lia|]. exists b'. unfold vset. rewrite E. split; [reflexivity|].
      split; [unfold zlen; rewrite (zset_length _ _ _ _ E); reflexivity|]. intros i Hi. rewrite (zset_nth _ _ _ _ _ E) by lia.
      destruct (Z.eqb_spec i pos) as [->|N].
      + rewrite Z.leb_refl, Z.sub_diag. cbn [andb]. destruct (Z.ltb_spec (4 * 0) (zlen line)); [reflexivity|lia].
      + destruct (Z.leb_spec pos i); cbn [andb]; [|reflexivity]. destruct (Z.ltb_spec (4 * (i - pos)) (zlen line)); [lia|reflexivity]. }
  induction bytes as [| a | a b | a b c | a b c d t IH] using list4_ind; intros buffer pos HF Hp;
    repeat match goal with H : Forall _ (_ :: _) |- _ => inversion H; subst; clear H end.
  - exists buffer. split; [reflexivity|]. split; [reflexivity|]. intros i Hi. change (zlen []) with 0.
    destruct (Z.leb_spec pos i); cbn [andb]; [|reflexivity]. destruct (Z.ltb_spec (4 * (i - pos)) 0); [lia|reflexivity].
  - cbn [lk_fill]. change (0 =? 3) with false. cbv iota. change (0 <? 0 + 1) with true. cbv iota. apply (LAST buffer [a] pos); auto; [cbn; lia|].
    line_tac.
  - cbn [lk_fill]. change (0 =? 3) with false. cbv iota. change (0 + 1 =? 3) with false. cbv iota. change (0 <? 0 + 1 + 1) with true. cbv iota. apply (LAST buffer [a; b] pos); auto; [cbn; lia|].
    line_tac.
  - cbn [lk_fill]. change (0 =? 3) with false. cbv iota. change (0 + 1 =? 3) with false. cbv iota. change (0 + 1 + 1 =? 3) with false. cbv iota.
    change (0 <? 0 + 1 + 1 + 1) with true. cbv iota. apply (LAST buffer [a; b; c] pos); auto; [cbn; lia|].
    line_tac.
  - cbn [lk_fill]. change (0 =? 3) with false. cbv iota. change (0 + 1 =? 3) with false. cbv iota. change (0 + 1 + 1 =? 3) with false. cbv iota.
    change (0 + 1 + 1 + 1 =? 3) with true. cbv iota.
    set (w := 0 + Z.shiftl a ((3 - 0) * 8) + Z.shiftl b ((3 - (0 + 1)) * 8) + Z.shiftl c ((3 - (0 + 1 + 1)) * 8) + Z.shiftl d ((3 - (0 + 1 + 1 + 1)) * 8)).
    assert (Ew : w = line_word (a :: b :: c :: d :: t) 0).
    { unfold w. line_tac. }
    assert (Zl : zlen (a :: b :: c :: d :: t) = zlen t + 4) by (unfold zlen; cbn [length]; lia).
    pose proof (zlen_nonneg t).
    destruct (Z.leb_spec (zlen buffer) pos) as [L|L].
    + exists buffer. split; [reflexivity|]. split; [reflexivity|]. intros i Hi. destruct (Z.leb_spec pos i); [lia|reflexivity].
    + destruct (zset_some buffer pos w) as (b1 & E1); [lia|]. unfold vset. rewrite E1. cbn [unwrap obind].
      assert (L1 : zlen b1 = zlen buffer) by (unfold zlen; rewrite (zset_length _ _ _ _ E1); reflexivity).
      destruct (IH b1 (pos + 1)) as (b2 & E2 & L2 & G); auto; [lia|]. exists b2. split; [exact E2|]. split; [lia|].
      intros i Hi. rewrite G by lia. rewrite (zset_nth _ _ _ _ _ E1) by lia. rewrite Zl.
      destruct (Z.eqb_spec i pos) as [->|N].
      * replace (pos + 1 <=? pos) with false by (symmetry; rewrite Z.leb_gt; lia). cbn [andb]. rewrite Z.leb_refl, Z.sub_diag. cbn [andb].
        replace (4 * 0 <? zlen t + 4) with true by (symmetry; rewrite Z.ltb_lt; lia). exact Ew.
      * destruct (Z.leb_spec pos i), (Z.leb_spec (pos + 1) i); cbn [andb]; try lia; try reflexivity.
        rewrite line_word_tail by lia. replace (i - pos - 1) with (i - (pos + 1)) by lia.
        destruct (Z.ltb_spec (4 * (i - (pos + 1))) (zlen t)), (Z.ltb_spec (4 * (i - pos)) (zlen t + 4)); auto; lia.
Qed.
Lemma line_word_u32 l i : Forall is_u8 l -> is_u32 (line_word l i).
Proof.
  intros H. unfold line_word, file_word.
  assert (X : forall k, is_u8 (nth k l 0)).
  { intros k. destruct (nth_in_or_default k l 0) as [Y| ->]; [|unfold is_u8; lia]. rewrite Forall_forall in H. auto. }
  pose proof (X (Z.to_nat (4 * i + 0))). pose proof (X (Z.to_nat (4 * i + 1))). pose proof (X (Z.to_nat (4 * i + 2))). pose proof (X (Z.to_nat (4 * i + 3))).
  unfold is_u8, is_u32 in *. change (2 ^ 24) with 16777216. change (2 ^ 16) with 65536. change (2 ^ 8) with 256. lia.
Qed.
(** [SyncLineKeyboard::new] refuses a capacity of zero or that is not a multiple of 4; the keyboard it gives declares its capacity, its last word being
    the one of orders, and holds no text and has asked for none. *)
Lemma P_C62_line_new : forall oc capacity id input, is_u32 capacity -> is_u64 id ->
  (lk_new capacity id input = None <-> capacity = 0 \/ ~ Z.divide 4 capacity) /\
  forall d, lk_new capacity id input = Some d -> declares (dev_ops oc) (DKeyLine d) capacity /\ 4 * lk_capacity d + 4 = capacity /\
    zlen (lk_buffer d) = lk_capacity d /\ Forall (eq 0) (lk_buffer d) /\ lk_input d = input /\ lk_used d = O.
Proof.
  intros oc capacity id input Hc Hi. unfold is_u32 in Hc. unfold lk_new. 
  destruct (Z.eqb_spec (capacity mod 4) 0) as [E|E]; cbn [negb].
  2:{ rewrite Z.mod_divide in E by lia. split; [tauto|discriminate]. }
  destruct (Z.eqb_spec capacity 0); [split; [tauto|discriminate]|].
  split. { pose proof E as E'. apply Z.mod_divide in E'; [|lia]. split; [discriminate|]. intros [?|?]; [lia|tauto]. }
  intros d X; injection X as <-. cbn [lk_capacity lk_buffer lk_input lk_used]. split; [|split; [lia|split; [|split; [|split; reflexivity]]]].
  - unfold declares. cbn [bo_metadata dev_ops]. unfold lk_metadata, mul_u32, add_u32. cbn [lk_capacity lk_hw_id].
    destruct (Z.ltb_spec ((capacity / 4 - 1) * 4) 4294967296); [|lia]. cbn [obind]. destruct (Z.ltb_spec ((capacity / 4 - 1) * 4 + 4) 4294967296); [|lia]. cbn [obind].
    destruct (P_C54_new id ((capacity / 4 - 1) * 4 + 4) (CatKeyboard TReadLine) None None) as (_ & X); cbn; auto. { unfold is_u32; lia. }
    eexists. split; [apply X; exists (capacity / 4); lia|]. cbn. lia.
  - apply zeros_length. lia.
  - unfold zeros. apply Forall_forall. intros x Hx. apply repeat_spec in Hx. auto.
Qed.
Lemma E_C62_line_new : exists d, lk_new 64 3 (fun _ => [65]) = Some d /\ lk_capacity d = 15.
Proof. eexists. split; reflexivity. Qed.
(** The line keyboard of [n] words after any history: it asked for as many lines as it was told to; a line overwrites the words it
    reaches, cut at the end of the buffer, the last one padded with zero bytes; clearing and resetting store zeros. *)
Lemma P_C62_line : forall oc l id input k h, Forall is_u32 l -> (forall j, Forall is_u8 (input j)) -> Forall (in_range (4 * zlen l + 4)) h ->
  let s := typed_line (zlen l) input h (k, fun i => word_at l (4 * i)) in
  exists l' xs, serve (dev_ops oc) (DKeyLine (LineKeyboard l (zlen l) id input k)) h = Ret (DKeyLine (LineKeyboard l' (zlen l) id input (fst s)), xs) /\
    zlen l' = zlen l /\
    (forall i, 0 <= i < zlen l -> reads_as (dev_ops oc) (DKeyLine (LineKeyboard l' (zlen l) id input (fst s))) (4 * i) (snd s i)) /\
    reads_as (dev_ops oc) (DKeyLine (LineKeyboard l' (zlen l) id input (fst s))) (4 * zlen l) 0.
Proof.
  intros oc l id input k h Hl Hi HF.
  assert (G : forall l f k, Forall is_u32 l -> (forall i, 0 <= i < zlen l -> nth (Z.to_nat i) l 0 = f i) -> Forall (in_range (4 * zlen l + 4)) h ->
    let s := typed_line (zlen l) input h (k, f) in
    exists l' xs, serve (dev_ops oc) (DKeyLine (LineKeyboard l (zlen l) id input k)) h = Ret (DKeyLine (LineKeyboard l' (zlen l) id input (fst s)), xs) /\
      zlen l' = zlen l /\ Forall is_u32 l' /\ forall i, 0 <= i < zlen l -> nth (Z.to_nat i) l' 0 = snd s i).
  2:{ destruct (G l (fun i => word_at l (4 * i)) k Hl) as (l' & xs & E & L & U & X); auto.
      { intros i Hr. unfold word_at. f_equal. lia. }
      cbn zeta. exists l', xs. split; [exact E|]. split; [exact L|]. split.
      - intros i Hr. eexists. cbn [bo_read dev_ops]. unfold lk_read. cbn [lk_capacity lk_buffer]. replace (4 * i / 4) with i by lia.
        destruct (Z.eqb_spec i (zlen l)); [lia|]. unfold vget. rewrite znth_nth by lia. rewrite (nth_error_nth' l' 0) by (unfold zlen in *; lia).
        cbn [unwrap obind]. unfold wrap_r. cbn [obind]. rewrite X by auto. rewrite u32_id; [reflexivity|].
        rewrite <- X by auto. rewrite Forall_forall in U. apply U, nth_In. unfold zlen in *. lia.
      - eexists. cbn [bo_read dev_ops]. unfold lk_read. cbn [lk_capacity lk_buffer]. replace (4 * zlen l / 4) with (zlen l) by lia. rewrite Z.eqb_refl. reflexivity. }
  clear l k Hl HF. induction h as [|r t IH]; intros l f k Hl Hf HF; [exists l, []; cbn; auto|]. inversion HF as [|? ? H1 H2]; subst. cbn zeta in *.
  assert (Z0 : zlen (zeros (zlen l)) = zlen l) by (apply zeros_length, zlen_nonneg).
  assert (CL : let s := typed_line (zlen l) input t (k, fun _ => 0) in exists l' xs, serve (dev_ops oc) (DKeyLine (LineKeyboard (zeros (zlen l)) (zlen l) id input k)) t =
      Ret (DKeyLine (LineKeyboard l' (zlen l) id input (fst s)), xs) /\ zlen l' = zlen l /\ Forall is_u32 l' /\ forall i, 0 <= i < zlen l -> nth (Z.to_nat i) l' 0 = snd s i).
  { pose proof (IH (zeros (zlen l)) (fun _ => 0) k (zeros_u32 _)) as X. rewrite Z0 in X. apply X; auto.
    intros i Hr. pose proof (zeros_at (zlen l) (4 * i)) as Y. unfold word_at in Y. replace (4 * i / 4) with i in Y by lia. exact Y. }
  cbn zeta in CL. unfold typed_line. cbn [fold_left]. fold (typed_line (zlen l) input t).
  destruct r as [a|a w|]; cbn [serve].
  - destruct H1 as (H1 & H3). destruct (IH l f k Hl Hf H2) as (l' & xs & E & X). cbn [bo_read dev_ops]. unfold lk_read. cbn [lk_capacity lk_buffer].
    destruct (Z.eqb_spec (a / 4) (zlen l)).
    + unfold wrap_r. cbn [obind]. rewrite E. do 2 eexists. split; [reflexivity|exact X].
    + destruct (znth_some l (a / 4)) as (v & Ev); [lia|]. unfold vget. rewrite Ev. cbn [unwrap obind]. unfold wrap_r. cbn [obind]. rewrite E. do 2 eexists. split; [reflexivity|exact X].
  - destruct H1 as (H1 & H3 & H4). cbn [bo_write dev_ops]. unfold lk_write. cbn [lk_capacity lk_buffer lk_input lk_used lk_hw_id].
    destruct (Z.eqb_spec (a / 4) (zlen l)) as [Ea|Ea]; cbn [negb].
    2:{ destruct (Z.eqb_spec a (4 * zlen l)); [lia|]. destruct (IH l f k Hl Hf H2) as (l' & xs & E & X). unfold wrap_w. cbn [obind]. rewrite E. do 2 eexists. split; [reflexivity|exact X]. }
    destruct (Z.eqb_spec a (4 * zlen l)); [|lia].
    destruct (Z.eqb_spec w 170) as [->|]; [|destruct (Z.eqb_spec w 255) as [->|]].
    + destruct (lk_fill_spec (input k) l 0 (Hi k)) as (b' & Eb & Lb & Gb); [lia|]. rewrite Eb. cbn [obind]. unfold wrap_w. cbn [obind].
      pose proof (IH b' (fun i => if 4 * i <? zlen (input k) then line_word (input k) i else f i) (S k)) as X. rewrite Lb in X.
      assert (Y : forall i, 0 <= i < zlen l -> nth (Z.to_nat i) b' 0 = if 4 * i <? zlen (input k) then line_word (input k) i else f i).
      { intros i Hr. rewrite Gb by auto. rewrite (proj2 (Z.leb_le 0 i)) by lia. cbn [andb]. rewrite Z.sub_0_r. destruct (4 * i <? zlen (input k)); auto. }
      destruct X as (l' & xs & E & X); auto.
      { apply Forall_nth. intros j d Hj. rewrite (nth_indep _ d 0) by auto. replace j with (Z.to_nat (Z.of_nat j)) by lia.
        assert (Hr : 0 <= Z.of_nat j < zlen l) by (rewrite <- Lb; unfold zlen; lia). rewrite Y by auto.
        destruct (4 * Z.of_nat j <? zlen (input k)); [apply line_word_u32; auto|]. rewrite <- Hf by auto. rewrite Forall_forall in Hl. apply Hl, nth_In. unfold zlen in Hr. lia. }
      rewrite E. do 2 eexists. split; [reflexivity|exact X].
    + unfold wrap_w, lk_clear. cbn [obind lk_capacity lk_buffer lk_input lk_used lk_hw_id fst]. destruct CL as (l' & xs & E & X). rewrite E. do 2 eexists. split; [reflexivity|exact X].
    + assert (X : forall A (x y k : A), match w with 170 => x | 255 => y | _ => k end = k).
      { intros. destruct w as [|p|]; auto. do 8 (try (destruct p as [p|p|]); auto); lia. }
      rewrite X. destruct (IH l f k Hl Hf H2) as (l' & xs & E & Y). unfold wrap_w. cbn [obind]. rewrite E. do 2 eexists. split; [reflexivity|exact Y].
  - cbn [bo_reset dev_ops]. unfold lk_clear. cbn [lk_capacity lk_buffer lk_input lk_used lk_hw_id fst]. destruct CL as (l' & xs & E & X). rewrite E. do 2 eexists. split; [reflexivity|exact X].
Qed.
Lemma line_word_past l i : 0 <= i -> zlen l <= 4 * i -> line_word l i = 0.
Proof. intros H B. unfold zlen in B. unfold line_word, file_word. rewrite !nth_overflow by lia. reflexivity. Qed.
(** In a cleared buffer a line is found exactly: its bytes, zero-padded, cut at the capacity. *)
Lemma P_C62_line_cleared : forall oc l id input k h, Forall is_u32 l -> (forall j, Forall is_u8 (input j)) -> Forall (in_range (4 * zlen l + 4)) h ->
  exists l' k' xs, let x := DKeyLine (LineKeyboard l' (zlen l) id input (S k')) in
    serve (dev_ops oc) (DKeyLine (LineKeyboard l (zlen l) id input k)) (h ++ [Write (4 * zlen l) 255; Write (4 * zlen l) 170]) = Ret (x, xs) /\
    forall i, 0 <= i < zlen l -> reads_as (dev_ops oc) x (4 * i) (line_word (input k') i).
Proof.
  intros oc l id input k h Hl Hi HF. pose proof (zlen_nonneg l).
  destruct (P_C62_line oc l id input k (h ++ [Write (4 * zlen l) 255; Write (4 * zlen l) 170]) Hl Hi) as (l' & xs & E & L & G & _).
  - apply Forall_app. split; auto. repeat constructor; unfold is_u32; lia.
  - exists l'. unfold typed_line in *. rewrite fold_left_app in *. cbn [fold_left] in *. rewrite Z.eqb_refl in *. change (255 =? 170) with false in *. change (255 =? 255) with true in *.
    change (170 =? 170) with true in *. cbv iota in *. cbn [fst snd] in *. eexists. exists xs. cbn zeta. split; [exact E|].
    intros i Hr. specialize (G i Hr). cbn beta in G. match type of G with context [if ?b then _ else 0] => destruct b eqn:B end; [exact G|].
    replace (line_word _ i) with 0; [exact G|]. apply Z.ltb_ge in B. symmetry. apply line_word_past; [lia|exact B].
Qed.
(** Without clearing first, a shorter line should replace a longer one: false, its end remains. *)
Lemma P_C62_line_stale_refuted : ~ (forall oc l id input k h, Forall is_u32 l -> (forall j, Forall is_u8 (input j)) -> Forall (in_range (4 * zlen l + 4)) h ->
  exists l' k' xs, let x := DKeyLine (LineKeyboard l' (zlen l) id input (S k')) in
    serve (dev_ops oc) (DKeyLine (LineKeyboard l (zlen l) id input k)) (h ++ [Write (4 * zlen l) 170]) = Ret (x, xs) /\
    forall i, 0 <= i < zlen l -> reads_as (dev_ops oc) x (4 * i) (line_word (input k') i)).
Proof.
  intros H. destruct (H false [0; 0] 1 (fun j => match j with O => [1; 2; 3; 4; 5; 6; 7; 8] | _ => [9] end) O [Write 8 170]) as (l' & k' & xs & E & G).
  - repeat constructor; unfold is_u32; lia.
  - intros [|j]; repeat constructor; unfold is_u8; lia.
  - repeat constructor; unfold is_u32; cbn; lia.
  - vm_compute in E. injection E as <- <- _. destruct (G 1 ltac:(cbn; lia)) as (d & X). vm_compute in X. discriminate.
Qed.
Lemma E_C62_line : match lk_new 12 1 (fun j => match j with O => [72; 101; 108; 108; 111; 33; 33; 33; 33; 33] | _ => [79; 75] end) with
  | Some d => zlen (lk_buffer d) = lk_capacity d /\
      match serve (dev_ops false) (DKeyLine d) [Write 8 170; Read 0; Read 4; Write 8 170; Read 0; Read 4; Write 8 255; Read 4; Read 8] with
      | Ret (_, xs) => xs = [Put 0; Got 0 1214606444; Got 0 1864442145; Put 0; Got 0 1330315264; Got 0 1864442145; Put 0; Got 0 0; Got 0 0] | _ => False end
  | None => False end.
Proof. vm_compute. split; reflexivity. Qed.

(** * C63 *)
(** What the six words of the clock are, [t] being the system time since the epoch and [e] the time since the last reset (both in
    nanoseconds) when the word is read. Words 2 and 5 count the sub-second part up to three times; word 3 is that of the system time. *)
Lemma P_C63_words : forall oc d t e, rc_system d (rc_used d) = Some t -> 0 <= t < 2 ^ 64 * second ->
  e = Z.max 0 (rc_instant d (rc_used d) - rc_reset_at d) -> e < 2 ^ 64 * second ->
  let x := DClock d in let r := dev_ops oc in
  reads_as r x 0 (t / second / 2 ^ 32) /\ reads_as r x 4 (t / second mod 2 ^ 32) /\ reads_as r x 8 (subsec_word t) /\
  reads_as r x 12 (t / second / 2 ^ 32) /\ reads_as r x 16 (e / second mod 2 ^ 32) /\ reads_as r x 20 (subsec_word e).
Proof.
  intros oc d t e Ht Hr He Her x r. unfold second in *. change (2 ^ 64 * 10 ^ 9) with 18446744073709551616000000000 in *.
  change (10 ^ 9) with 1000000000.
  assert (He0 : 0 <= e) by lia.
  assert (HI : forall v, 0 <= v < 18446744073709551616000000000 -> u32 (u32 (Z.shiftr (as_secs v) 32)) = v / 1000000000 / 2 ^ 32).
  { intros v Hv. unfold as_secs. rewrite Z.shiftr_div_pow2 by lia. rewrite u32_id by apply u32_range. apply u32_id. change (2 ^ 32) with 4294967296. unfold is_u32. lia. }
  assert (LO : forall v, 0 <= v -> u32 (u32 (Z.land (as_secs v) 4294967295)) = v / 1000000000 mod 2 ^ 32).
  { intros v Hv. unfold as_secs. rewrite (land_mod _ 4294967296 32) by lia. rewrite u32_id by apply u32_range. change (2 ^ 32) with 4294967296. unfold u32. apply Z.mod_mod. lia. }
  assert (SU : forall v, 0 <= v -> (do! a <- mul_u32 oc (subsec_millis v) 1000000; do! b <- mul_u32 oc (subsec_micros v) 1000; do! s <- add_u32 oc a b; add_u32 oc s (subsec_nanos v)) = Ret (subsec_word v) /\ is_u32 (subsec_word v)).
  { intros v Hv. unfold subsec_word, second, subsec_millis, subsec_micros, subsec_nanos, mul_u32, add_u32, is_u32.
    change (10 ^ 9) with 1000000000. change (10 ^ 6) with 1000000. change (10 ^ 3) with 1000.
    assert (N : 0 <= v mod 1000000000 < 1000000000) by lia. set (n := v mod 1000000000) in *. clearbody n.
    destruct (Z.ltb_spec (n / 1000000 * 1000000) 4294967296); [|lia]. cbn [obind].
    destruct (Z.ltb_spec (n / 1000 * 1000) 4294967296); [|lia]. cbn [obind].
    destruct (Z.ltb_spec (n / 1000000 * 1000000 + n / 1000 * 1000) 4294967296); [|lia]. cbn [obind].
    destruct (Z.ltb_spec (n / 1000000 * 1000000 + n / 1000 * 1000 + n) 4294967296); [|lia]. split; [reflexivity|lia]. }
  destruct (SU t (proj1 Hr)) as (SUt & Ut). destruct (SU e He0) as (SUe & Ue).
  unfold x, r, reads_as. cbn [bo_read dev_ops]. unfold rc_read, wrap_r.
  split; [|split; [|split; [|split; [|split]]]].
  - change (0 <? 14) with true. change (0 mod 3) with 0. cbv iota zeta. rewrite Ht. cbn [obind]. rewrite HI by auto. eexists; reflexivity.
  - change (4 <? 14) with true. change (4 mod 3) with 1. cbv iota zeta. rewrite Ht. cbn [obind]. rewrite LO by lia. eexists; reflexivity.
  - change (8 <? 14) with true. change (8 mod 3) with 2. cbv iota zeta. rewrite Ht, SUt. cbn [obind]. rewrite u32_id by auto. eexists; reflexivity.
  - change (12 <? 14) with true. change (12 mod 3) with 0. cbv iota zeta. rewrite Ht. cbn [obind]. rewrite HI by auto. eexists; reflexivity.
  - change (16 <? 14) with false. change (16 mod 3) with 1. cbv iota zeta. rewrite <- He. cbn [obind]. rewrite LO by lia. eexists; reflexivity.
  - change (20 <? 14) with false. change (20 mod 3) with 2. cbv iota zeta. rewrite <- He, SUe. cbn [obind]. rewrite u32_id by auto. eexists; reflexivity.
Qed.
(** Before the epoch, the words of the system time raise TimeSynchronizationError; the clock cannot be written; a reset makes now the reference. *)
Lemma P_C63_errors : forall oc d a w, In a [0; 4; 8; 12] ->
  (rc_system d (rc_used d) = None -> exists d', bo_read (dev_ops oc) (DClock d) a = Ret (d', 2 * 2 ^ 8, 0)) /\
  bo_write (dev_ops oc) (DClock d) a w = Ret (DClock d, 49 * 2 ^ 8) /\
  exists d', bo_reset (dev_ops oc) (DClock d) = Ret (DClock d') /\ rc_reset_at d' = rc_instant d (rc_used d).
Proof.
  intros oc d a w Ha. split; [|split; [reflexivity|eexists; split; reflexivity]]. intros E. cbn [bo_read dev_ops]. unfold rc_read, wrap_r.
  repeat (destruct Ha as [<-|Ha]; [cbn [Z.ltb Z.compare Pos.compare Pos.compare_cont]; cbv iota zeta; rewrite E; eexists; reflexivity|]). destruct Ha.
Qed.
(** The documented meaning of the words (each pair of words a 64-bit number of seconds, then the nanoseconds of the sub-second part) is false
    of the sub-second words... *)
Lemma P_C63_nanoseconds_refuted : ~ (forall oc d t, rc_system d (rc_used d) = Some t -> 0 <= t < 2 ^ 64 * second ->
  reads_as (dev_ops oc) (DClock d) 8 (t mod second)).
Proof.
  intros H. destruct (H false (Clock 1 0 (fun _ => Some 1000001) (fun _ => 0) 0) 1000001 eq_refl) as (d' & E); [unfold second; cbn; lia|]. vm_compute in E. discriminate.
Qed.
(** ... and of word 3, which is that of the system time. *)
Lemma P_C63_since_reset_refuted : ~ (forall oc d t e, rc_system d (rc_used d) = Some t -> 0 <= t < 2 ^ 64 * second ->
  e = Z.max 0 (rc_instant d (rc_used d) - rc_reset_at d) -> e < 2 ^ 64 * second -> reads_as (dev_ops oc) (DClock d) 12 (e / second / 2 ^ 32)).
Proof.
  intros H. destruct (H false (Clock 1 0 (fun _ => Some (2 ^ 32 * 10 ^ 9)) (fun _ => 0) 0) (2 ^ 32 * 10 ^ 9) 0 eq_refl) as (d' & E).
  - unfold second. lia.
  - reflexivity.
  - reflexivity.
  - vm_compute in E. discriminate.
Qed.
Lemma E_C63_words : let d := Clock 1 5 (fun _ => Some 1700000000123456789) (fun _ => 3000000007) 0 in
  rc_system d (rc_used d) = Some 1700000000123456789 /\ rc_instant d (rc_used d) - rc_reset_at d = 3000000002 /\
  match serve (dev_ops false) (DClock d) [Read 0; Read 4; Read 8; Read 16; Read 20] with
  | Ret (_, xs) => xs = [Got 0 0; Got 0 1700000000; Got 0 369912789; Got 0 3; Got 0 2] | _ => False end.
Proof. vm_compute. auto. Qed.

(** * C64 *)
Lemma signed_i8 w : i8 w = signed_bits 8 w.
Proof. reflexivity. Qed.
(** The debug interface reports each word written, once and in order, in the format documented for its address. *)
Lemma P_C64_formats : forall oc id calls h, Forall (in_range 64) h ->
  serve (dev_ops oc) (DDebug (BasicDebug id calls)) h = Ret (DDebug (BasicDebug id (calls ++ map debug_report (writes h))), map write_only h).
Proof.
  intros oc id calls h HF. revert calls. induction h as [|r t IH]; intros calls; [cbn; rewrite app_nil_r; reflexivity|].
  inversion HF as [|? ? H1 H2]; subst. destruct r as [a|a w|]; cbn [serve writes map].
  - cbn [bo_read dev_ops]. unfold not_readable, wrap_r. cbn [obind]. rewrite IH by auto. reflexivity.
  - cbn [bo_write dev_ops]. unfold dbg_write. destruct H1 as (H1 & H3 & H4).
    assert (X : dbg_info (a / 4) w = Some (debug_report (a, w))).
    { assert (C : 0 <= a / 4 < 16) by lia. unfold debug_report. cbn [fst snd]. set (k := a / 4) in *. clearbody k.
      assert (D : k = 0 \/ k = 1 \/ k = 2 \/ k = 3 \/ k = 4 \/ k = 5 \/ k = 6 \/ k = 7 \/ k = 8 \/ k = 9 \/ k = 10 \/ k = 11 \/ k = 12 \/ k = 13 \/ k = 14 \/ k = 15) by lia.
      repeat (destruct D as [->|D]; [reflexivity|]). subst k. reflexivity. }
    rewrite X. cbn [unwrap obind]. unfold wrap_w. cbn [obind dbg_hw_id dbg_calls]. rewrite IH by auto. rewrite <- app_assoc. reflexivity.
  - cbn [bo_reset dev_ops]. rewrite IH by auto. reflexivity.
Qed.
(** It declares 32 bytes, so that only the first eight of its sixteen words can be reached. *)
Lemma P_C64_declares : forall oc id calls, is_u64 id -> declares (dev_ops oc) (DDebug (BasicDebug id calls)) 32.
Proof.
  intros oc id calls Hi. unfold declares. cbn [bo_metadata dev_ops]. unfold dbg_metadata. cbn [dbg_hw_id].
  destruct (P_C54_new id 32 (CatDebug TBasic) None None) as (_ & X); cbn; auto. { unfold is_u32; lia. } eexists. split; [apply X; exists 8; reflexivity|reflexivity].
Qed.
(** It should declare its sixteen words. *)
Lemma P_C64_declares_all_refuted : ~ (forall oc id, is_u64 id -> declares (dev_ops oc) (DDebug (BasicDebug id [])) 64).
Proof. intros H. destruct (H false 5 ltac:(unfold is_u64; lia)) as (md & E & X). vm_compute in E. injection E as <-. vm_compute in X. discriminate. Qed.
Lemma E_C64_formats : match serve (dev_ops false) (DDebug (BasicDebug 1 [])) [Write 12 255; Write 28 65537; Write 48 7] with
  | Ret (DDebug d, _) => dbg_calls d = [SignedByteHex (-1); UnsignedHalfWordDec 1; DbgBoolean true] | _ => False end.
Proof. vm_compute. reflexivity. Qed.

(** * The components of the crate never panic on the requests they can get. *)
(** The states the constructors produce and the operations preserve, for a component that declares [sz] bytes. *)
Definition dev_inv (sz : Z) (x : device) : Prop :=
  match x with
  | DRam d | DFlash d => sz <= 4 * zlen (sm_storage d)
  | DRom d => br_len d = zlen (br_storage d)
  | DFile _ | DNum _ | DChar _ | DClock _ => True
  | DBuf d => bd_words d = zlen (bd_buffer d)
  | DKeyChar _ => sz <= 8
  | DKeyLine d => lk_capacity d = zlen (lk_buffer d) /\ sz <= 4 * zlen (lk_buffer d) + 4 /\ forall k, Forall is_u8 (lk_input d k)
  | DDebug _ => sz <= 64
  end.
Lemma dev_behaved oc : behaved (dev_ops oc) dev_inv.
Proof.
  constructor.
  - intros sz x a Hi Ha Hal. destruct x; cbn [bo_read dev_ops dev_inv] in *; unfold wrap_r, not_readable.
    + unfold sm_read, vget. destruct (znth_some (sm_storage d) (a / 4)) as (v & ->); [lia|]. cbn. eauto 6.
    + unfold sm_read, vget. destruct (znth_some (sm_storage d) (a / 4)) as (v & ->); [lia|]. cbn. eauto 6.
    + unfold br_read. destruct (Z.ltb_spec (a / 4) (br_len d)); [|cbn; eauto 6]. unfold vget. destruct (znth_some (br_storage d) (a / 4)) as (v & ->); [lia|]. cbn. eauto 6.
    + unfold fm_read. destruct (fm_real_size d <=? a); [cbn; eauto 6|]. destruct (skipn _ _) as [|? [|? [|? [|? ?]]]]; cbn; eauto 6.
    + cbn; eauto 6.
    + cbn; eauto 6.
    + cbn; eauto 6.
    + unfold ck_read. destruct (Z.eqb_spec a 0); [cbn; eauto 6|]. destruct (Z.eqb_spec a 4); [cbn; eauto 6|lia].
    + unfold lk_read, vget. destruct (Z.eqb_spec (a / 4) (lk_capacity d)); [cbn; eauto 8|].
      destruct (znth_some (lk_buffer d) (a / 4)) as (v & ->); [lia|]. cbn. eauto 8.
    + unfold rc_read. destruct (if a <? 14 then _ else _) as [t|]; [|cbn; eauto 6].
      assert (C : a mod 3 = 0 \/ a mod 3 = 1 \/ a mod 3 = 2) by lia. destruct C as [->|[->| ->]]; [cbn; eauto 6|cbn; eauto 6|].
      unfold subsec_millis, subsec_micros, mul_u32, add_u32. assert (N : 0 <= subsec_nanos t < 1000000000) by (unfold subsec_nanos; lia).
      set (n := subsec_nanos t) in *. clearbody n.
      destruct (Z.ltb_spec (n / 1000000 * 1000000) 4294967296); [|lia]. cbn [obind].
      destruct (Z.ltb_spec (n / 1000 * 1000) 4294967296); [|lia]. cbn [obind].
      destruct (Z.ltb_spec (n / 1000000 * 1000000 + n / 1000 * 1000) 4294967296); [|lia]. cbn [obind].
      destruct (Z.ltb_spec (n / 1000000 * 1000000 + n / 1000 * 1000 + n) 4294967296); [|lia]. cbn. eauto 6.
    + cbn; eauto 6.
  - intros sz x a w Hi Ha Hal Hw. destruct x; cbn [bo_write dev_ops dev_inv] in *; unfold wrap_w.
    + unfold sm_write, vset. destruct (zset_some (sm_storage d) (a / 4) w) as (l & E); [lia|]. rewrite E. cbn. do 2 eexists. split; [reflexivity|].
      cbn. unfold zlen in *. rewrite (zset_length _ _ _ _ E). auto.
    + unfold sm_write, vset. destruct (zset_some (sm_storage d) (a / 4) w) as (l & E); [lia|]. rewrite E. cbn. do 2 eexists. split; [reflexivity|].
      cbn. unfold zlen in *. rewrite (zset_length _ _ _ _ E). auto.
    + cbn. eauto 6.
    + unfold fm_write. destruct (fm_writable d); cbn [negb]; [|cbn; eauto 6]. destruct (a <? fm_real_size d); cbn; eauto 6.
    + unfold nd_write. assert (C : a mod 16 = 0 \/ a mod 16 = 4 \/ a mod 16 = 8 \/ a mod 16 = 12) by lia.
      destruct C as [->|[->|[->| ->]]]; cbn; eauto 6.
    + cbn; eauto 6.
    + unfold bd_write. destruct (Z.ltb_spec (a / 4) (bd_words d)).
      * unfold vset. destruct (zset_some (bd_buffer d) (a / 4) w) as (l & E); [lia|]. rewrite E. cbn. do 2 eexists. split; [reflexivity|].
        cbn. unfold zlen in *. rewrite (zset_length _ _ _ _ E). auto.
      * assert (Y : forall y, (exists d', y = Ret (d', 0) /\ dev_inv sz (DBuf d')) \/ (exists ex, y = Ret (d, ex)) ->
          exists d' ex, (do! (d0, e) <- y; Ret (DBuf d0, u16 e)) = Ret (d', ex) /\ dev_inv sz d').
        { intros y [(d' & -> & X)|(ex & ->)]; cbn; do 2 eexists; (split; [reflexivity|auto]). }
        assert (M : forall A (x y z k : A) (P : A -> Prop), P x -> P y -> P z -> P k -> P (match w with 170 => x | 187 => y | 255 => z | _ => k end)).
        { intros A u v s t P ? ? ? ?. destruct w as [|p|]; auto. do 8 (try (destruct p as [p|p|]); auto). }
        apply M; apply Y.
        -- left. eexists. split; [reflexivity|auto].
        -- left. eexists. split; [reflexivity|auto].
        -- left. eexists. split; [reflexivity|]. cbn. rewrite zeros_length by apply zlen_nonneg. auto.
        -- right. eauto.
    + unfold ck_write. destruct (Z.eqb_spec a 0); [cbn; eauto 6|]. destruct (Z.eqb_spec a 4); [|lia].
      assert (Y : forall y, (exists d' ex, y = Ret (d', ex)) -> exists d' ex, (do! (d0, e) <- y; Ret (DKeyChar d0, u16 e)) = Ret (d', ex) /\ dev_inv sz d').
      { intros y (d' & ex & ->); cbn; do 2 eexists; (split; [reflexivity|auto]). }
      apply Y. destruct w as [|p|]; eauto. do 2 (try (destruct p as [p|p|]); eauto).
    + unfold lk_write. destruct Hi as (H1 & H2 & H3).
      assert (Y : forall y, (exists d' ex, y = Ret (d', ex) /\ dev_inv sz (DKeyLine d')) -> exists d' ex, (do! (d0, e) <- y; Ret (DKeyLine d0, u16 e)) = Ret (d', ex) /\ dev_inv sz d').
      { intros y (d' & ex & -> & X); cbn; do 2 eexists; (split; [reflexivity|auto]). }
      assert (M : forall A (x y k : A) (P : A -> Prop), P x -> P y -> P k -> P (match w with 170 => x | 255 => y | _ => k end)).
      { intros A u v t P ? ? ?. destruct w as [|p|]; auto. do 8 (try (destruct p as [p|p|]); auto). }
      destruct (a / 4 =? lk_capacity d); cbn [negb]; apply Y; [|cbn; eauto 8]. apply M.
      * destruct (lk_fill_spec (lk_input d (lk_used d)) (lk_buffer d) 0 (H3 _)) as (b & -> & L & _); [lia|]. cbn [obind]. do 2 eexists. split; [reflexivity|].
        cbn. rewrite L. auto.
      * do 2 eexists. split; [reflexivity|]. cbn. rewrite zeros_length by apply zlen_nonneg. auto.
      * cbn; eauto 8.
    + cbn; eauto 6.
    + unfold dbg_write. assert (X : exists i, dbg_info (a / 4) w = Some i).
      { assert (C : 0 <= a / 4 < 16) by lia. set (k := a / 4) in *. clearbody k.
        assert (Dk : k = 0 \/ k = 1 \/ k = 2 \/ k = 3 \/ k = 4 \/ k = 5 \/ k = 6 \/ k = 7 \/ k = 8 \/ k = 9 \/ k = 10 \/ k = 11 \/ k = 12 \/ k = 13 \/ k = 14 \/ k = 15) by lia.
        repeat (destruct Dk as [->|Dk]; [eexists; reflexivity|]). subst k. eexists; reflexivity. }
      destruct X as (i & ->). cbn. eauto 6.
  - intros sz x Hi. destruct x; cbn [bo_reset dev_ops dev_inv] in *; try (eexists; split; [reflexivity|]; cbn; auto; fail).
    + eexists. split; [reflexivity|]. cbn. rewrite zeros_length by apply zlen_nonneg. auto.
    + eexists. split; [reflexivity|]. cbn. rewrite zeros_length by apply zlen_nonneg. auto.
    + eexists. split; [reflexivity|]. cbn. rewrite zeros_length by apply zlen_nonneg. auto.
    + eexists. split; [reflexivity|]. cbn. rewrite zeros_length by apply zlen_nonneg. auto.
Qed.

(* Concrete cases for the theorems above that have none beside them. *)
Lemma E_C62_character_errors : is_u32 259 /\ match serve (dev_ops false) (DKeyChar (CharKeyboard 0 1 (fun n => 65 + Z.of_nat n) 0)) [Write 4 259; Read 4; Write 0 1; Read 0] with
  | Ret (_, xs) => xs = [Put 4099; Got 8448 0; Put 12544; Got 0 0] | _ => False end.
Proof. split; [unfold is_u32; lia|]. vm_compute. reflexivity. Qed.
Lemma E_C62_line_cleared : let l := [1; 2; 3] in let input := fun j : nat => [72; 105; 33; 33; 33] in let h := [Write 0 7; Read 12; Write 12 170] in
  Forall is_u32 l /\ (forall j, Forall is_u8 (input j)) /\ Forall (in_range (4 * zlen l + 4)) h /\
  match serve (dev_ops false) (DKeyLine (LineKeyboard l (zlen l) 1 input 0)) (h ++ [Write 12 255; Write 12 170; Read 0; Read 4; Read 8]) with
  | Ret (_, xs) => skipn 3 xs = [Put 0; Put 0; Got 0 (line_word (input 1%nat) 0); Got 0 (line_word (input 1%nat) 1); Got 0 0] | _ => False end.
Proof.
  cbv zeta. split; [repeat constructor; unfold is_u32; lia|]. split; [intros; repeat constructor; unfold is_u8; lia|].
  split; [repeat constructor; cbn; unfold is_u32; lia|]. vm_compute. reflexivity.
Qed.
(** A host clock that is before 1970 once. *)
Lemma E_C63_errors : let d := Clock 1 5 (fun n => match n with O => None | _ => Some 1000000007 end) (fun n => 9 + Z.of_nat n) 0 in
  rc_system d (rc_used d) = None /\
  match serve (dev_ops false) (DClock d) [Read 4; Read 4; Write 8 1] with
  | Ret (_, xs) => xs = [Got 512 0; Got 0 1; Put 12544] | _ => False end.
Proof. vm_compute. auto. Qed.
Lemma E_C64_declares : is_u64 7 /\ match bo_metadata (dev_ops true) (DDebug (BasicDebug 7 [])) with Ret md => w1 md = 7 /\ w2 md = 32 | Panic => False end.
Proof. split; [unfold is_u64; lia|]. vm_compute. auto. Qed.
