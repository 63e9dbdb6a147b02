(** Proofs of C97: constructors say why they refuse, and what the components tell of their sizes. *)
From Coq Require Import String ZArith List Bool Lia Znumtheory.
From Verif Require Import Base Board Mem Cpu Asm Tools Devices Makers SpecMach SpecAsm SpecDev ProofTools ProofDev.
Import ListNotations.
Open Scope string_scope.
Open Scope Z_scope.

Lemma div4 n : n mod 4 = 0 <-> (4 | n).
Proof. apply Z.mod_divide. lia. Qed.
Ltac rules :=
  repeat match goal with
  | |- context [?a <? ?b] => destruct (Z.ltb_spec a b)
  | |- context [?a =? ?b] => destruct (Z.eqb_spec a b)
  end; cbn [negb].
Ltac said :=
  rewrite ?div4 in *; split; intros X; try discriminate X;
  first [congruence
  |injection X as X; subst; intuition lia
  |destruct X as [X|X]; intuition (subst; auto; try lia; try contradiction)
  |intuition (subst; auto; try lia; try contradiction)].

(** A memory is refused for its size exactly as the message says: the size is 0, or is not a multiple of 4 bytes. Otherwise the component is the one of C59. *)
Lemma P_C97_new : forall k size id,
  (forall t, store_new k size id = RErr t <->
     size = 0 /\ t = kind_text k ++ "'s size cannot be 0" \/
     size <> 0 /\ ~ (4 | size) /\ t = kind_text k ++ "'s size must be a multiple of 4 bytes") /\
  (forall d, store_new k size id = ROk d <-> sm_new size id = Some d).
Proof.
  intros k size id. unfold store_new, sm_new. split; intros t; rules; said.
Qed.
(** The same for a memory made from given words: the reasons, in the order they are looked for. *)
Lemma P_C97_from_with_size : forall k l size id,
  (forall t, store_from_with_size k l size id = RErr t <->
     2 ^ 32 <= zlen l /\ t = kind_text k ++ "'s length cannot be larger than 2^32 words" \/
     zlen l < 2 ^ 32 /\ size < zlen l /\ t = kind_text k ++ "'s size cannot be lower than its initial storage's size" \/
     zlen l <= size /\ zlen l < 2 ^ 32 /\ size = 0 /\ t = kind_text k ++ "'s size cannot be 0" \/
     zlen l <= size /\ zlen l < 2 ^ 32 /\ size <> 0 /\ ~ (4 | size) /\ t = kind_text k ++ "'s size must be a multiple of 4 bytes") /\
  (forall d, store_from_with_size k l size id = ROk d <-> sm_from_with_size l size id = Some d) /\
  (forall t, store_from k l id = RErr t <-> 2 ^ 32 <= zlen l /\ t = kind_text k ++ "'s length cannot be larger than 2^32 words") /\
  (forall d, store_from k l id = ROk d <-> sm_from l id = Some d).
Proof.
  intros k l size id. unfold store_from_with_size, sm_from_with_size, store_from, sm_from. change (2 ^ 32) with 4294967296.
  split; [|split; [|split]]; intros t; rules; said.
Qed.
(** A display or keyboard buffer is refused exactly as the message says. *)
Lemma P_C97_buffers : forall capacity id input,
  (forall t, buffered_new capacity id = RErr t <->
     capacity = 0 /\ t = "Buffered display's capacity cannot be 0" \/ capacity <> 0 /\ ~ (4 | capacity) /\ t = "Buffered display's capacity must be aligned") /\
  (forall d, buffered_new capacity id = ROk d <-> bd_new capacity id = Some d) /\
  (forall t, line_new capacity id input = RErr t <->
     capacity = 0 /\ t = "Synchronous keyboard's buffer capacity cannot be 0" \/ capacity <> 0 /\ ~ (4 | capacity) /\ t = "Synchronous keyboard's buffer capacity must be aligned") /\
  (forall d, line_new capacity id input = ROk d <-> lk_new capacity id input = Some d).
Proof.
  intros c id input. unfold buffered_new, bd_new, line_new, lk_new. split; [|split; [|split]]; intros t.
  - rules; said.
  - rules; said.
  - destruct (Z.eqb_spec c 0) as [->|]; [cbn [negb Z.modulo Z.eqb]|rules]; said.
  - rules; said.
Qed.
(** A boot ROM is refused for the same reasons as a flash memory made from the same words with the same size, and with the same messages, which call it a flash memory,
    except when the words are too many. *)
Lemma P_C97_rom : forall l size id,
  (forall d, rom_new l id = ROk d <-> br_new l id = Some d) /\ (forall d, rom_with_size l size id = ROk d <-> br_with_size l size id = Some d) /\
  (forall t, rom_new l id = RErr t <-> 2 ^ 32 <= zlen l /\ t = "Storage's length cannot be larger than 2^32 words") /\
  (2 ^ 32 <= zlen l -> rom_with_size l size id = RErr "Storage's length cannot be larger than 2^32 words") /\
  (zlen l < 2 ^ 32 -> forall t, rom_with_size l size id = RErr t <-> store_from_with_size KFlash l size id = RErr t).
Proof.
  intros l size id. unfold rom_new, br_new, rom_with_size, br_with_size, store_from_with_size. change (2 ^ 32) with 4294967296.
  split; [|split; [|split; [|split]]].
  - intros t. rules; said.
  - intros t. rules; said.
  - intros t. rules; said.
  - intros H. destruct (Z.ltb_spec (zlen l) 4294967296); [lia|reflexivity].
  - intros H t. rules; try lia; cbn [kind_text String.append]; split; intros X; first [discriminate X|injection X as X; subst t; reflexivity].
Qed.
(** What the methods [size] and [len] tell the host: words, of which the size declared to the board (and given to the constructor) holds four times as many bytes. *)
Lemma P_C97_sizes : forall oc k l size id d, is_u64 id -> is_u32 size -> Forall is_u32 l -> zlen l < 2 ^ 32 ->
  (store_new k size id = ROk d -> 4 * store_size d = size /\ declares (dev_ops oc) (DRam d) (4 * store_size d)) /\
  (store_from_with_size k l size id = ROk d -> 4 * store_size d = size /\ declares (dev_ops oc) (DRam d) (4 * store_size d)) /\
  (store_from k l id = ROk d -> store_size d = zlen l / 4 /\ declares (dev_ops oc) (DRam d) (4 * store_size d)).
Proof.
  intros oc k l size id d Hi Hs Hl Hz. split; [|split]; intros H.
  - apply P_C97_new in H. destruct (P_C59_new oc size id Hs Hi) as (E & F). destruct (F d H) as (F1 & _). assert (X : 4 * store_size d = size). { unfold sm_new in H. revert H. rules; intros Hd; try discriminate Hd. injection Hd as <-. cbn [store_size sm_size]. Z.div_mod_to_equations. lia. }
    split; [exact X|]. rewrite X. exact F1.
  - apply P_C97_from_with_size in H. destruct (P_C59_from_with_size oc l size id Hi Hs Hl Hz) as (E & F). destruct (F d H) as (F1 & _).
    assert (X : 4 * store_size d = size). { unfold sm_from_with_size in H. revert H. rules; intros Hd; try discriminate Hd. injection Hd as <-. cbn [store_size sm_size]. Z.div_mod_to_equations. lia. }
    split; [exact X|]. rewrite X. exact F1.
  - apply (P_C97_from_with_size k l size id) in H. destruct (P_C59_from oc l id d Hi Hl H) as (F1 & _).
    assert (X : store_size d = zlen l / 4). { unfold sm_from in H. revert H. rules; intros Hd; try discriminate Hd. injection Hd as <-. reflexivity. }
    split; [exact X|]. rewrite X. exact F1.
Qed.
(** Of a boot ROM: [len] is the number of words it was given, [size] the declared size in words. *)
Lemma P_C97_rom_sizes : forall oc l size id d, is_u64 id -> is_u32 size -> 4 * zlen l < 2 ^ 32 ->
  (rom_new l id = ROk d -> rom_len d = zlen l /\ rom_size d = zlen l /\ declares (dev_ops oc) (DRom d) (4 * rom_size d)) /\
  (rom_with_size l size id = ROk d -> rom_len d = zlen l /\ 4 * rom_size d = size /\ declares (dev_ops oc) (DRom d) (4 * rom_size d)).
Proof.
  intros oc l size id d Hi Hs Hz. destruct (P_C59_rom oc l size id Hi Hs Hz) as ((d0 & A1 & A2 & A3 & A4) & _ & B). split; intros H.
  - apply (P_C97_rom l size id) in H. assert (X : rom_size d = zlen l). { unfold br_new in H. revert H. rules; intros Hd; try discriminate Hd. injection Hd as <-. reflexivity. }
    assert (d0 = d) by congruence. subst d0. split; [exact A3|]. split; [exact X|]. rewrite X. exact A4.
  - apply (P_C97_rom l size id) in H. assert (X : 4 * rom_size d = size). { unfold br_with_size in H. revert H. rules; intros Hd; try discriminate Hd. injection Hd as <-. cbn [rom_size br_size]. Z.div_mod_to_equations. lia. }
    destruct (B d H) as (B1 & B2 & B3). split; [exact B2|]. split; [exact X|]. rewrite X. exact B3.
Qed.
(** A boot ROM larger than its storage, as the constructor is said to make, is not what one always gets: the number of words is compared with the size in bytes. *)
Lemma P_C97_rom_larger_refuted : ~ (forall l size id d, is_u32 size -> rom_with_size l size id = ROk d -> rom_len d <= rom_size d).
Proof. intros H. specialize (H [1; 2; 3; 4] 4 0 _ ltac:(unfold is_u32; lia) eq_refl). cbv in H. apply H. reflexivity. Qed.
(** The reasons of a refusal. *)
Lemma E_C97_new : store_new KRam 0 1 = RErr "RAM's size cannot be 0" /\ store_new KFlash 6 1 = RErr "Flash memory's size must be a multiple of 4 bytes" /\ exists d, store_new KRam 8 1 = ROk d /\ store_size d = 2.
Proof. split; [reflexivity|]. split; [reflexivity|]. eexists. split; reflexivity. Qed.
Lemma E_C97_from_with_size : store_from_with_size KFlash [1; 2; 3] 2 1 = RErr "Flash memory's size cannot be lower than its initial storage's size" /\ store_from_with_size KRam [] 0 1 = RErr "RAM's size cannot be 0" /\
  store_from_with_size KRam [1] 5 1 = RErr "RAM's size must be a multiple of 4 bytes" /\ exists d, store_from_with_size KRam [1] 8 1 = ROk d /\ store_size d = 2.
Proof. split; [reflexivity|]. split; [reflexivity|]. split; [reflexivity|]. eexists. split; reflexivity. Qed.
Lemma E_C97_buffers : buffered_new 0 1 = RErr "Buffered display's capacity cannot be 0" /\ line_new 6 1 (fun _ => []) = RErr "Synchronous keyboard's buffer capacity must be aligned" /\ exists d, buffered_new 64 1 = ROk d /\ bd_words d = 15.
Proof. split; [reflexivity|]. split; [reflexivity|]. eexists. split; reflexivity. Qed.
Lemma E_C97_rom : rom_with_size [1] 6 1 = RErr "Flash memory's size must be a multiple of 4 bytes" /\ exists d, rom_with_size [1] 8 1 = ROk d /\ rom_len d = 1 /\ rom_size d = 2.
Proof. split; [reflexivity|]. eexists. split; [reflexivity|]. split; reflexivity. Qed.
Lemma E_C97_sizes : exists d1 d2 d3, is_u64 1 /\ is_u32 8 /\ Forall is_u32 [1; 2; 3; 4; 5] /\ store_new KRam 8 1 = ROk d1 /\ store_from_with_size KFlash [1; 2; 3; 4; 5] 8 1 = ROk d2 /\ store_from KRam [1; 2; 3; 4; 5] 1 = ROk d3 /\ store_size d3 = 1.
Proof. do 3 eexists. split; [split; lia|]. split; [split; lia|]. split; [repeat (constructor; [split; lia|]); constructor|]. repeat split. Qed.
Lemma E_C97_rom_sizes : exists d1 d2, is_u64 1 /\ is_u32 8 /\ rom_new [1; 2; 3] 1 = ROk d1 /\ rom_size d1 = 3 /\ rom_with_size [1; 2; 3] 8 1 = ROk d2 /\ rom_len d2 = 3 /\ rom_size d2 = 2.
Proof. do 2 eexists. split; [split; lia|]. split; [split; lia|]. repeat split. Qed.
