(** Proofs of C81-C84: messages, the lines of the runner, the printing components, the lines of the preparation. *)
From Coq Require Import String Ascii ZArith List Bool Lia.
From Verif Require Import Base BaseFacts Board Mem Cpu Asm Tools Devices Runner LasmRules Lasm LasmFacts Console
  SpecMach SpecIsa SpecBus SpecRun SpecAsm RegFacts SpecConsole ConsoleFacts ProofAsm ProofTools InvFacts CyclePost ReachFacts Demo ProofPanic ProofState ProofRun.
Import ListNotations.
Open Scope string_scope.
Open Scope Z_scope.
Ltac Zify.zify_post_hook ::= Z.div_mod_to_equations.

(** ** C81: messages *)

Lemma ret_eq' {A} (x y : A) : Ret x = Ret y -> x = y.
Proof. congruence. Qed.

Lemma hex_inj w n n' : 0 <= n < 2 ^ 128 -> 0 <= n' < 2 ^ 128 -> "0x" ++ number 16 w n = "0x" ++ number 16 w n' -> n = n'.
Proof. intros A B H. apply append_cancel in H. apply number_inj in H; lia. Qed.
Lemma hex4_inj n n' : 0 <= n < 2 ^ 128 -> 0 <= n' < 2 ^ 128 -> fmt_hex4 n = fmt_hex4 n' -> n = n'.
Proof. apply hex_inj. Qed.
Lemma hex6_inj n n' : 0 <= n < 2 ^ 128 -> 0 <= n' < 2 ^ 128 -> fmt_hex6 n = fmt_hex6 n' -> n = n'.
Proof. apply hex_inj. Qed.
Lemma hex10_inj n n' : 0 <= n < 2 ^ 128 -> 0 <= n' < 2 ^ 128 -> fmt_hex10 n = fmt_hex10 n' -> n = n'.
Proof. apply hex_inj. Qed.
Lemma dec_inj n n' : 0 <= n < 2 ^ 128 -> 0 <= n' < 2 ^ 128 -> fmt_dec n = fmt_dec n' -> n = n'.
Proof. intros A B H. apply number_inj in H; lia. Qed.

(** Messages of hardware exceptions are all different. *)
Lemma P_C81_aux : forall e e', aux_wf e -> aux_wf e' -> aux_text e = aux_text e' -> e = e'.
Proof.
  intros e e' We We' H. destruct e, e'; cbn [aux_text] in H; try reflexivity; try discriminate H; cbn [aux_wf] in *; unfold is_u8 in *.
  apply append_cancel in H. apply hex4_inj in H; [congruence|lia|lia].
Qed.
Lemma E_C81_aux : aux_wf (UnknownOperation 171) /\ aux_text (UnknownOperation 171) = "Unknown operation 0xAB".
Proof. split; [unfold aux_wf, is_u8; lia|reflexivity]. Qed.

Lemma reg_split r : forall r' s s', reg_name r ++ String " " s = reg_name r' ++ String " " s' -> r = r' /\ s = s'.
Proof. intros r' s s' H. destruct r, r'; cbn [reg_name String.append] in H; try discriminate H; injection H as H; auto. Qed.

(** A text that a message can have belongs to one exception only, data included. *)
Lemma P_C81_native : forall e e' t, native_wf e -> native_wf e' -> native_text e = Ret t -> native_text e' = Ret t -> e = e'.
Proof.
  intros e e' t We We' H1 H2. assert (H : native_text e = native_text e') by congruence.
  destruct e, e'; cbn [native_text native_wf] in *; unfold is_u8, is_u16 in *; try reflexivity;
  repeat match type of H with context[unwrap (reg_from_code ?c)] => let r := fresh "r" in let Er := fresh "Er" in destruct (reg_from_code c) as [r|] eqn:Er; cbn [unwrap obind] in H, H1, H2 end;
  try discriminate H1; try discriminate H2; clear H1 H2; try apply ret_eq' in H; try discriminate H;
  try (apply append_cancel in H; apply reg_split in H as (<- & H); try discriminate H;
       apply reg_code_from_code in Er; apply reg_code_from_code in Er0; congruence);
  apply append_cancel in H; try apply append_cancel_r in H; f_equal;
  first [apply hex4_inj in H; [exact H|lia|lia]|apply hex6_inj in H; [exact H|lia|lia]|apply dec_inj in H; [exact H|lia|lia]|apply P_C81_aux; assumption].
Qed.
Lemma E_C81_native : native_wf (NHardwareException (UnknownOperation 7)) /\
  native_text (NHardwareException (UnknownOperation 7)) = Ret "Hardware exception: Unknown operation 0x07" /\
  native_text (NReadProtectedRegister 26) = Ret "Register et cannot be read in this mode" /\
  native_text (NMmuRefusedExec 4660) = Ret "Address cannot be executed in this mode (address' weakest bits are 0x1234)" /\
  native_text (NUnalignedMemoryAddress 3) = Ret "Unaligned memory address (unalignment is 3)".
Proof. split; [cbn; unfold is_u8; lia|]. repeat split. Qed.

(** Printing an exception panics exactly when it names a register that does not exist. *)
Lemma P_C81_panics : forall e, native_wf e ->
  (native_text e = Panic <-> exists c, 32 <= c /\ (e = NReadProtectedRegister c \/ e = NWriteProtectedRegister c)).
Proof.
  intros e W.
  assert (X : forall c, is_u8 c -> (reg_from_code c = None <-> 32 <= c)).
  { intros c Hc. unfold is_u8 in Hc. split; intros H; [|apply reg_from_code_none; exact H]. destruct (Z.lt_ge_cases c 32); [|lia].
    destruct (reg_from_code_total c ltac:(lia)). congruence. }
  destruct e; cbn [native_text native_wf] in *; try (split; [discriminate|intros (c' & _ & [E|E]); discriminate E]);
  (split; [intros H; destruct (reg_from_code c) eqn:E; [discriminate H|]; exists c; split; [apply X; auto|auto]|
           intros (c' & Hc & [E|E]); try discriminate E; injection E as <-; rewrite (proj2 (X c W)) by exact Hc; reflexivity]).
Qed.
Lemma E_C81_panics : native_wf (NReadProtectedRegister 200) /\ native_text (NReadProtectedRegister 200) = Panic.
Proof. split; [cbn; unfold is_u8; lia|reflexivity]. Qed.

(** Categories have different texts. *)
Lemma P_C81_category : forall c c', category_wf c -> category_wf c' -> category_text c = category_text c' -> c = c'.
Proof.
  intros c c' W W' H.
  destruct c, c'; cbn [category_text category_wf] in *; try discriminate H;
  repeat match goal with t : debug_type |- _ => destruct t | t : clock_type |- _ => destruct t | t : display_type |- _ => destruct t
    | t : keyboard_type |- _ => destruct t | t : memory_type |- _ => destruct t | t : storage_type |- _ => destruct t end;
  try reflexivity; try discriminate H.
  apply append_cancel in H. apply append_cancel_r in H. unfold is_u32 in *. apply hex10_inj in H; [congruence|lia|lia].
Qed.
Lemma E_C81_category : category_text (CatPlatform 48879) = "PlatformSpecific:(Code=0x0000BEEF)" /\ category_text (CatDisplay TCharacter) = "Display:Character".
Proof. split; reflexivity. Qed.

(** Decoding errors have different texts; parameters are counted from 1. *)
Lemma P_C81_decode_error : forall e e', decode_error_wf e -> decode_error_wf e' -> decode_error_text e = decode_error_text e' -> e = e'.
Proof.
  intros e e' W W' H. destruct e, e'; cbn [decode_error_text decode_error_wf] in *; unfold is_u8 in *; try reflexivity; try discriminate H.
  - apply append_cancel in H. apply hex4_inj in H; [congruence|lia|lia].
  - apply append_cancel in H. unfold fmt_dec in H. apply digits_cancel in H; try reflexivity; [|apply number_digits; lia|apply number_digits; lia].
    destruct H as (H & H'). apply number_inj in H; [|lia|lia|lia]. change (" uses unknown register: " ++ fmt_hex4 code = " uses unknown register: " ++ fmt_hex4 code0) in H'.
    apply append_cancel in H'. apply hex4_inj in H'; [|lia|lia]. f_equal; lia.
Qed.
Lemma E_C81_decode_error : decode_error_wf (UnknownRegister 1 255) /\ decode_error_text (UnknownRegister 1 255) = "Parameter 2 uses unknown register: 0xFF".
Proof. split; [cbn; unfold is_u8; lia|reflexivity]. Qed.

(** Messages hold on one line. *)
Ltac lit := repeat first [apply one_line_app|apply digits_one_line, number_digits; lia|apply reg_one_line|match goal with |- one_line (String _ _) => cbn [one_line]; repeat split; discriminate end|exact I].
Lemma hex_one_line w n : 0 <= n -> one_line ("0x" ++ number 16 w n).
Proof. intros H. lit. Qed.
Lemma aux_one_line e : aux_wf e -> one_line (aux_text e).
Proof. destruct e; cbn [aux_text aux_wf]; unfold is_u8; intros H; lit. Qed.
(** The description of a native exception is one line. *)
Lemma P_C81_one_line : forall e t, native_wf e -> native_text e = Ret t -> one_line t.
Proof.
  intros e t W H. destruct e; cbn [native_text native_wf] in *; unfold is_u8, is_u16 in *;
  try (destruct (reg_from_code c) as [r|]; cbn [unwrap obind] in H; [|discriminate H]); apply ret_eq' in H; subst t; unfold fmt_dec; lit;
  try (apply hex_one_line; lia). apply aux_one_line, W.
Qed.

(** Messages say which exception it is, and its data. *)
Lemma P_C81_says : forall e t, native_wf e -> native_text e = Ret t -> native_says e t.
Proof.
  assert (HX : forall w n, (1 <= w)%nat -> is_u16 n -> hex_of w ("0x" ++ number 16 w n) n) by (intros w n Hw Hn; apply hex_reads; unfold is_u16 in *; lia).
  assert (HB : forall n, is_u8 n -> is_u16 n) by (unfold is_u8, is_u16; lia).
  assert (HA : forall e, aux_wf e -> aux_says e (aux_text e)).
  { intros e W. destruct e; cbn [aux_wf aux_text aux_says] in *; try reflexivity. eexists. split; [reflexivity|]. apply HX; [lia|auto]. }
  intros e t W H. destruct e; cbn [native_wf native_text native_says] in *;
    try (destruct (reg_from_code c) as [r|] eqn:Er; cbn [unwrap obind] in H; [|discriminate H]); apply ret_eq' in H; subst t; try reflexivity;
    try (exists r; split; [apply reg_code_from_code, Er|reflexivity]);
    try (eexists; split; [reflexivity|]; first [apply HX; [lia|auto] | apply HA; auto | apply number_reads; unfold is_u8 in *; lia]).
Qed.
Lemma E_C81_says : native_wf (NUnalignedMemoryAddress 3) /\ native_text (NUnalignedMemoryAddress 3) = Ret "Unaligned memory address (unalignment is 3)".
Proof. split; [cbn; unfold is_u8; lia|reflexivity]. Qed.

(** Texts of categories and of decoding errors say which one it is. *)
Lemma P_C81_named : (forall c, category_wf c -> category_says c (category_text c)) /\ (forall e, decode_error_wf e -> decode_error_says e (decode_error_text e)).
Proof.
  split.
  - intros c W. destruct c; repeat match goal with t : debug_type |- _ => destruct t | t : clock_type |- _ => destruct t | t : display_type |- _ => destruct t
    | t : keyboard_type |- _ => destruct t | t : memory_type |- _ => destruct t | t : storage_type |- _ => destruct t end; try reflexivity.
    cbn [category_wf] in W. unfold is_u32 in W. eexists. split; [reflexivity|]. apply hex_reads; lia.
  - intros e W. destruct e; cbn [decode_error_wf] in W; unfold is_u8 in W; try reflexivity.
    + eexists. split; [reflexivity|]. apply hex_reads; lia.
    + eexists _, _. split; [reflexivity|]. split; [apply number_reads; lia|]. apply hex_reads; lia.
Qed.
Lemma E_C81_named : category_text (CatStorage TFlash) = "Storage:Flash" /\ decode_error_text (UnknownRegister 0 255) = "Parameter 1 uses unknown register: 0xFF".
Proof. split; reflexivity. Qed.

Lemma decoded_wf c d e : is_u8 c -> is_u16 d -> native_decode_parts c (Some d) = Some e -> native_wf e.
Proof.
  intros Hc Hd H. assert (X := P_C49_decode (c * 65536 + d)). unfold is_u8, is_u16, is_u32 in *. specialize (X ltac:(lia)).
  unfold native_decode_with_mode in X. replace (u8 ((c * 65536 + d) / 65536)) with c in X by (unfold u8; lia).
  replace (of_be2 (u8 ((c * 65536 + d) / 256)) (u8 (c * 65536 + d))) with d in X by (unfold u8, of_be2; lia). rewrite H in X. apply X.
Qed.
(** So are those of hardware exceptions, categories, decoding errors and stops. *)
Lemma P_C81_one_line_all : (forall e, aux_wf e -> one_line (aux_text e)) /\ (forall c, category_wf c -> one_line (category_text c)) /\
  (forall e, decode_error_wf e -> one_line (decode_error_text e)) /\ (forall s t, stopped_wf s -> stop_text s = Ret t -> one_line t).
Proof.
  split; [exact aux_one_line|]. split; [|split].
  - intros c W. destruct c; repeat match goal with t : debug_type |- _ => destruct t | t : clock_type |- _ => destruct t | t : display_type |- _ => destruct t
    | t : keyboard_type |- _ => destruct t | t : memory_type |- _ => destruct t | t : storage_type |- _ => destruct t end; try lazymatch goal with |- one_line (category_text (CatPlatform _)) => fail | _ => vm_compute; repeat split; discriminate end.
    cbn [category_text category_wf] in *. unfold is_u32, fmt_hex10 in *. lit.
  - intros e W. destruct e; cbn [decode_error_text decode_error_wf] in *; unfold is_u8, fmt_hex4, fmt_dec in *; lit.
  - intros s t (Wc & Wa & Wx) H. unfold is_u32 in *. assert (X : one_line ("Cycle " ++ fmt_hex10 (sp_cycles s) ++ ": CPU halted at address " ++ fmt_hex10 (sp_addr s))) by (unfold fmt_hex10; lit).
    unfold stop_text in H. cbv zeta in H. destruct (sp_ex s) as [x|]; [|apply ret_eq' in H; subst t; exact X].
    assert (Y : forall u, ex_text x = Ret u -> one_line u).
    { intros u E. unfold ex_text in E. destruct (native_decode_parts (xm_code x) (Some (xm_data x))) as [e|] eqn:E'; [|apply ret_eq' in E; subst u; lit].
      destruct Wx as (Wx & Wd). exact (P_C81_one_line e u (decoded_wf _ _ _ Wx Wd E') E). }
    destruct (ex_text x) as [u|] eqn:E; cbn [obind] in H; [|discriminate H]. apply ret_eq' in H. subst t.
    apply one_line_app; [exact X|]. destruct (xm_sv x); lit; exact (Y u eq_refl).
Qed.
Lemma E_C81_one_line_all : let s := Stopped 5 16 (Some (ExWithMode 16777217 true 1 0)) in stopped_wf s /\ exists t, stop_text s = Ret t.
Proof. split; [vm_compute; repeat split; congruence|eexists; reflexivity]. Qed.
Lemma ex_texts x x' t : is_u8 (xm_code x) -> is_u16 (xm_data x) -> is_u8 (xm_code x') -> is_u16 (xm_data x') -> ex_text x = Ret t -> ex_text x' = Ret t ->
  native_decode_parts (xm_code x) (Some (xm_data x)) = native_decode_parts (xm_code x') (Some (xm_data x')).
Proof.
  intros C D C' D' H H'. unfold ex_text in *.
  destruct (native_decode_parts (xm_code x) (Some (xm_data x))) as [e|] eqn:E; destruct (native_decode_parts (xm_code x') (Some (xm_data x'))) as [e'|] eqn:E'.
  - f_equal. apply (P_C81_native e e' t); [exact (decoded_wf _ _ _ C D E)|exact (decoded_wf _ _ _ C' D' E')|exact H|exact H'].
  - exfalso. apply ret_eq' in H'. subst t. destruct e; cbn [native_text] in H; try (destruct (reg_from_code c); cbn [unwrap obind] in H); discriminate H.
  - exfalso. apply ret_eq' in H. subst t. destruct e'; cbn [native_text] in H'; try (destruct (reg_from_code c); cbn [unwrap obind] in H'); discriminate H'.
  - reflexivity.
Qed.

(** The text of a stop tells the cycles, the address, whether there was an exception, in which mode, and which one. *)
Lemma P_C81_stop : forall s s' t, stopped_wf s -> stopped_wf s' -> stop_text s = Ret t -> stop_text s' = Ret t ->
  sp_cycles s = sp_cycles s' /\ sp_addr s = sp_addr s' /\
  match sp_ex s, sp_ex s' with
  | None, None => True
  | Some x, Some x' => xm_sv x = xm_sv x' /\
      native_decode_parts (xm_code x) (Some (xm_data x)) = native_decode_parts (xm_code x') (Some (xm_data x'))
  | _, _ => False
  end.
Proof.
  intros s s' t (Wc & Wa & Wx) (Wc' & Wa' & Wx') H H'. unfold is_u32 in *.
  set (out := fun s => "Cycle " ++ fmt_hex10 (sp_cycles s) ++ ": CPU halted at address " ++ fmt_hex10 (sp_addr s)).
  assert (X : forall r r', out s ++ r = out s' ++ r' -> sp_cycles s = sp_cycles s' /\ sp_addr s = sp_addr s' /\ r = r').
  { intros r r' E. unfold out, fmt_hex10 in E. rewrite !append_assoc in E. apply append_cancel in E. apply append_cancel in E.
    apply digits_cancel in E; try reflexivity; [|apply number_digits; lia|apply number_digits; lia]. destruct E as (E1 & E2).
    change (": CPU halted at address " ++ "0x" ++ number 16 8 (sp_addr s) ++ r = ": CPU halted at address " ++ "0x" ++ number 16 8 (sp_addr s') ++ r') in E2.
    apply append_cancel in E2. apply append_cancel in E2. apply append_cancel_same in E2; [|rewrite !number_length by lia; reflexivity].
    destruct E2 as (E2 & E3). split; [apply number_inj in E1; lia|]. split; [apply number_inj in E2; lia|exact E3]. }
  unfold stop_text in H, H'. cbv zeta in H, H'. fold (out s) in H. fold (out s') in H'. clearbody out.
  destruct (sp_ex s) as [x|], (sp_ex s') as [x'|].
  - destruct (ex_text x) as [tx|] eqn:E; cbn [obind] in H; [|discriminate H]. destruct (ex_text x') as [tx'|] eqn:E'; cbn [obind] in H'; [|discriminate H'].
    apply ret_eq' in H. apply ret_eq' in H'. rewrite <- H' in H. apply X in H as (A & B & C). split; [exact A|]. split; [exact B|].
    apply append_cancel in C. destruct (xm_sv x), (xm_sv x'); try discriminate C; apply append_cancel in C; apply append_cancel in C; subst tx'; (split; [reflexivity|]); apply (ex_texts x x' tx); tauto.
  - destruct (ex_text x) as [tx|]; cbn [obind] in H; [|discriminate H]. apply ret_eq' in H. apply ret_eq' in H'. rewrite <- H' in H.
    rewrite <- (append_nil (out s')) in H. apply X in H as (_ & _ & C). destruct (xm_sv x); discriminate C.
  - destruct (ex_text x') as [tx|]; cbn [obind] in H'; [|discriminate H']. apply ret_eq' in H. apply ret_eq' in H'. rewrite <- H' in H.
    rewrite <- (append_nil (out s)) in H. apply X in H as (_ & _ & C). destruct (xm_sv x'); discriminate C.
  - apply ret_eq' in H. apply ret_eq' in H'. rewrite <- H' in H. rewrite <- (append_nil (out s)), <- (append_nil (out s')) in H. apply X in H. tauto.
Qed.
Lemma E_C81_stop : stopped_wf (Stopped 291 64 (Some (ex_of_et 17432576))) /\
  stop_text (Stopped 291 64 (Some (ex_of_et 17432576))) =
    Ret "Cycle 0x00000123: CPU halted at address 0x00000040 because of exception in supervisor mode: Cannot perform a division or modulus by zero".
Proof. split; [|reflexivity]. unfold stopped_wf, is_u32, is_u16, is_u8. cbn. lia. Qed.

(** ** C82: the lines of a run *)

Lemma ex_text_panics x : prettify_ex x = match ex_text x with Ret _ => Ret tt | Panic => Panic end.
Proof.
  unfold prettify_ex, ex_text. destruct (native_decode_parts _ _) as [e|]; [|reflexivity].
  destruct e; cbn [native_display native_text]; try reflexivity; destruct (reg_from_code c); reflexivity.
Qed.
Lemma snd_sbind {A B} (x : said A) (k : A -> said B) : snd (sbind x k) = obind (snd x) (fun a => snd (k a)).
Proof. destruct x as (l & [a|]); [|reflexivity]. cbn [sbind snd obind]. destruct (k a). reflexivity. Qed.
Lemma snd_say t : snd (say t) = match t with Ret _ => Ret tt | Panic => Panic end.
Proof. destruct t; reflexivity. Qed.

Lemma snd_if_say (b : bool) t : snd (if b then say (Ret t) else silent (Ret tt)) = Ret tt.
Proof. destruct b; reflexivity. Qed.

Section Said.
Context {D : Type} (ops : bus_ops D) (oc : bool).
Lemma loop_same cfg : forall fuel was (m : cpu D), snd (run_loop_said ops oc fuel cfg was m) = run_loop ops oc fuel cfg was m.
Proof.
  induction fuel as [|f IH]; intros was m; cbn [run_loop_said run_loop]; [reflexivity|].
  destruct (c_halted m); [reflexivity|]. destruct (match cf_limit cfg with Some l => l <? c_cycles m | None => false end); [reflexivity|].
  cbv zeta. rewrite snd_sbind. rewrite snd_if_say.
  cbn [obind]. rewrite snd_sbind. cbn [snd silent]. destruct (next ops oc m) as [m1|]; cbn [obind]; [|reflexivity].
  destruct (r_et (c_regs m1) =? 0); cbn [negb]; [apply IH|]. rewrite snd_sbind.
  assert (X : forall (b : bool) t x, snd (if b then say (do! u <- ex_text x; Ret (t ++ u)) else silent (Ret tt)) = if b then prettify_ex x else Ret tt).
  { intros [|] t x; [|reflexivity]. rewrite ex_text_panics, snd_say. destruct (ex_text x); reflexivity. }
  match goal with |- obind (snd (if ?b then say (do! u <- ex_text ?x; _) else _)) _ = _ => 
    transitivity (obind (if b then prettify_ex x else Ret tt) (fun _ : unit => if cf_halt_on_ex cfg then Ret (Some (m1, r_pc (c_regs m), Some x)) else run_loop ops oc f cfg (r_pc (c_regs m)) m1)) end; [|reflexivity].
  destruct (cf_print_ex cfg && negb (cf_halt_on_ex cfg && cf_print_finish cfg)).
  - rewrite ex_text_panics, snd_say. destruct (ex_text _); cbn [obind]; [|reflexivity]. destruct (cf_halt_on_ex cfg); [reflexivity|apply IH].
  - cbn [obind silent snd]. destruct (cf_halt_on_ex cfg); [reflexivity|apply IH].
Qed.
Lemma vm_same cfg fuel (m : cpu D) : snd (run_vm_said ops oc fuel cfg m) = run_vm ops oc fuel cfg m.
Proof.
  unfold run_vm_said, run_vm. rewrite snd_sbind, loop_same. destruct (run_loop ops oc fuel cfg (r_pc (c_regs m)) m) as [[[[m1 a] x]|]|]; cbn [obind]; try reflexivity.
  rewrite snd_sbind. destruct (cf_print_finish cfg); [|reflexivity]. rewrite snd_sbind.
  rewrite snd_if_say. cbn [obind]. rewrite snd_say.
  unfold stop_text. cbn [sp_ex]. destruct x as [x|]; [|reflexivity]. rewrite ex_text_panics. destruct (ex_text x); reflexivity.
Qed.

Lemma message_text et t : is_u32 et -> ex_text (ex_of_et et) = Ret t -> message et t.
Proof.
  unfold message, native_decode, native_decode_with_mode, ex_text, ex_of_et. cbn [xm_code xm_data]. cbv zeta. intros He.
  destruct (native_decode_parts _ _) as [e|] eqn:E; cbn [option_map fst]; [|intros H; congruence]. intros H. apply P_C81_says; [|exact H].
  eapply decoded_wf; [| |exact E]; unfold is_u8, is_u16, u8, of_be2; lia.
Qed.
Lemma cycles_nil cfg (m : cpu D) : cycles_said ops oc cfg m 0 [].
Proof. exists []. split; [reflexivity|]. split; [reflexivity|]. intros; lia. Qed.
Lemma cycles_cons cfg (m m1 : cpu D) n l lines : next ops oc m = Ret m1 -> cycle_said cfg m m1 l -> cycles_said ops oc cfg m1 n lines ->
  cycles_said ops oc cfg m (S n) (l ++ lines).
Proof.
  intros En Hl (p & -> & Lp & Hp). exists (l :: p). split; [reflexivity|]. split; [cbn [List.length]; lia|].
  intros k mk mk1 Hk E E1. destruct k as [|k].
  - injection E as <-. cbn [run] in E1. rewrite En in E1. injection E1 as <-. exists l. auto.
  - cbn [run] in E. rewrite En in E. cbn [obind] in E. assert (E1' : run ops oc (S k) m1 = Ret mk1) by (change (run ops oc (S (S k)) m) with (do! x <- next ops oc m; run ops oc (S k) x) in E1; rewrite En in E1; exact E1).
    destruct (Hp k mk mk1 ltac:(lia) E E1') as (l' & A & B). exists l'. auto.
Qed.
Lemma hex10_of n : 0 <= n < 2 ^ 128 -> hex_of 8 (fmt_hex10 n) n.
Proof. intros H. apply hex_reads; lia. Qed.

Context (T : typed ops).
Lemma loop_said cfg : forall fuel j was (m : cpu D) lines r, wf m -> (j <> O -> cf_halt_on_ex cfg = true -> R m R_et = 0) ->
  (j = O -> was = R m R_pc) ->
  run_loop_said ops oc fuel cfg was m = (lines, r) ->
  exists n mn, run ops oc n m = Ret mn /\ (forall k mk, (k < n)%nat -> run ops oc k m = Ret mk -> ~ must_stop cfg (j + k) mk) /\
  match r with
  | Ret (Some (m', a, x)) => cycles_said ops oc cfg m n lines /\ mn = m' /\ must_stop cfg (j + n) m'
  | Ret None => cycles_said ops oc cfg m n lines /\ n = fuel
  | Panic => exists l1 l2, lines = (l1 ++ l2)%list /\ cycles_said ops oc cfg m n l1 /\
      (if cf_print_cycles cfg then exists s, l2 = [s] /\ cycle_line mn s else l2 = []) /\
      (next ops oc mn = Panic \/ exists mp, next ops oc mn = Ret mp /\ tells_exceptions cfg = true /\ unprintable (R mp R_et))
  end.
Proof.
  induction fuel as [|f IH]; intros j was m lines r W HX HW H.
  { injection H as <- <-. exists O, m. split; [reflexivity|]. split; [intros; lia|]. split; [apply cycles_nil|reflexivity]. }
  cbn [run_loop_said] in H. destruct (c_halted m) eqn:Eh.
  { injection H as <- <-. exists O, m. split; [reflexivity|]. split; [intros; lia|]. split; [apply cycles_nil|]. split; [reflexivity|]. left; auto. }
  destruct (match cf_limit cfg with Some l => l <? c_cycles m | None => false end) eqn:El.
  { injection H as <- <-. exists O, m. split; [reflexivity|]. split; [intros; lia|]. split; [apply cycles_nil|]. split; [reflexivity|]. right; left.
    destruct (cf_limit cfg) as [l|]; [|discriminate]. exists l. split; [reflexivity|]. lia. }
  cbv zeta in H.
  assert (NS : ~ must_stop cfg j m).
  { intros [X|[(l & X & Y)|(X & Y & Z0)]]; [congruence| |]. - rewrite X in El. lia. - apply Z0, HX; auto. lia. }
  assert (Wc : 0 <= c_cycles m < 2 ^ 128) by apply W. assert (Wp : is_u32 (R m R_pc)) by (apply R_u32, W).
  rewrite (r_pc_R m) in H by apply W.
  set (l1 := if cf_print_cycles cfg then ["[lrvm] Running cycle " ++ fmt_hex10 (c_cycles m) ++ " at address " ++ fmt_hex10 (R m R_pc)] else []) in *.
  assert (Hl1 : if cf_print_cycles cfg then exists s, l1 = [s] /\ cycle_line m s else l1 = []).
  { unfold l1. destruct (cf_print_cycles cfg); [|reflexivity]. eexists. split; [reflexivity|]. eexists _, _. split; [reflexivity|].
    split; [apply hex10_of, Wc|apply hex10_of; unfold is_u32 in Wp; lia]. }
  match type of H with sbind ?a _ = _ => replace a with (l1, @Ret unit tt) in H by (unfold l1; destruct (cf_print_cycles cfg); reflexivity) end.
  clearbody l1. cbn [sbind silent] in H. destruct (next ops oc m) as [m1|] eqn:En.
  2:{ cbn in H. injection H as <- <-. exists O, m. split; [reflexivity|]. split; [intros; lia|]. exists [], l1. rewrite app_nil_r. split; [reflexivity|]. split; [apply cycles_nil|]. auto. }
  pose proof (next_wf ops T oc _ _ W En) as W1. rewrite (r_et_R m1) in H by apply W1. assert (We : is_u32 (R m1 R_et)) by (apply R_u32, W1).
  assert (GO : forall lines2 r2, (cf_halt_on_ex cfg = true -> R m1 R_et = 0) -> run_loop_said ops oc f cfg (R m R_pc) m1 = (lines2, r2) -> forall l2,
     cycle_said cfg m m1 (l1 ++ l2) -> exists n mn, run ops oc n m = Ret mn /\ (forall k mk, (k < n)%nat -> run ops oc k m = Ret mk -> ~ must_stop cfg (j + k) mk) /\
       match r2 with
       | Ret (Some (m', a, x)) => cycles_said ops oc cfg m n (l1 ++ l2 ++ lines2) /\ mn = m' /\ must_stop cfg (j + n) m'
       | Ret None => cycles_said ops oc cfg m n (l1 ++ l2 ++ lines2) /\ n = S f
       | Panic => exists k1 k2, (l1 ++ l2 ++ lines2 = k1 ++ k2)%list /\ cycles_said ops oc cfg m n k1 /\
           (if cf_print_cycles cfg then exists s, k2 = [s] /\ cycle_line mn s else k2 = []) /\
           (next ops oc mn = Panic \/ exists mp, next ops oc mn = Ret mp /\ tells_exceptions cfg = true /\ unprintable (R mp R_et))
       end).
  { intros lines2 r2 HX1 H1 l2 Hs. destruct (IH (S j) (R m R_pc) m1 lines2 r2 W1 ltac:(auto) ltac:(discriminate) H1) as (n & mn & E & HN & HR).
    exists (S n), mn. split; [cbn [run]; rewrite En; exact E|]. split.
    - intros [|k] mk Hk Ek; [injection Ek as <-; rewrite Nat.add_0_r; exact NS|]. cbn [run] in Ek. rewrite En in Ek. replace (j + S k)%nat with (S j + k)%nat by lia. apply HN; [lia|exact Ek].
    - rewrite app_assoc. destruct r2 as [[[[m' a] x]|]|].
      + destruct HR as (A & -> & B). split; [eapply cycles_cons; eauto|]. split; [reflexivity|]. replace (j + S n)%nat with (S j + n)%nat by lia. exact B.
      + destruct HR as (A & ->). split; [eapply cycles_cons; eauto|reflexivity].
      + destruct HR as (k1 & k2 & -> & A & B & C). exists ((l1 ++ l2) ++ k1)%list, k2. rewrite !app_assoc. split; [reflexivity|]. split; [eapply cycles_cons; eauto|]. auto. }
  destruct (Z.eqb_spec (R m1 R_et) 0) as [Z0|Z0]; cbn [negb] in H.
  { destruct (run_loop_said ops oc f cfg (R m R_pc) m1) as (lines2 & r2) eqn:E2. cbn in H. injection H as <- <-.
    apply (GO lines2 r2 (fun _ => Z0) eq_refl []). exists l1, []. split; [reflexivity|]. split; [exact Hl1|].
    replace (R m1 R_et =? 0) with true by (symmetry; apply Z.eqb_eq; exact Z0). rewrite andb_false_r. reflexivity. }
  fold (tells_exceptions cfg) in H.
  assert (NZ : negb (R m1 R_et =? 0) = true) by (apply negb_true_iff, Z.eqb_neq; exact Z0).
  destruct (tells_exceptions cfg) eqn:Et.
  - destruct (ex_text (ex_of_et (R m1 R_et))) as [t|] eqn:Ex.
    + cbn [obind say sbind] in H.
      match type of H with context[[?s]] => set (s0 := s) in * end.
      assert (Hs : cycle_said cfg m m1 (l1 ++ [s0])).
      { exists l1, [s0]. split; [reflexivity|]. split; [exact Hl1|]. rewrite Et, NZ. exists s0. split; [reflexivity|]. exists (fmt_hex10 (R m R_pc)), t. split; [reflexivity|].
        split; [apply hex10_of; unfold is_u32 in Wp; lia|]. apply message_text; [apply R_u32, W1|exact Ex]. }
      clearbody s0. destruct (cf_halt_on_ex cfg) eqn:Eo.
      * cbn in H. injection H as <- <-. exists 1%nat, m1. split; [cbn [run]; rewrite En; reflexivity|]. split; [intros [|k] mk Hk Ek; [|lia]; injection Ek as <-; rewrite Nat.add_0_r; exact NS|].
        split; [|split; [reflexivity|right; right; split; [lia|auto]]]. rewrite <- (app_nil_r (l1 ++ [s0])%list). eapply cycles_cons; eauto. apply cycles_nil.
      * destruct (run_loop_said ops oc f cfg (R m R_pc) m1) as (lines2 & r2) eqn:E2. cbn in H. injection H as <- <-.
        apply (GO lines2 r2 ltac:(discriminate) eq_refl [s0] Hs).
    + cbn in H. injection H as <- <-. exists O, m. split; [reflexivity|]. split; [intros; lia|]. exists [], l1. rewrite app_nil_r. split; [reflexivity|]. split; [apply cycles_nil|].
      split; [exact Hl1|]. right. exists m1. split; [exact En|]. split; [reflexivity|]. apply prettify_panics; [exact We|]. rewrite ex_text_panics, Ex. reflexivity.
  - assert (Hs : cycle_said cfg m m1 (l1 ++ [])). { exists l1, []. split; [reflexivity|]. split; [exact Hl1|]. rewrite Et. reflexivity. }
    destruct (cf_halt_on_ex cfg) eqn:Eo.
    * cbn in H. injection H as <- <-. exists 1%nat, m1. split; [cbn [run]; rewrite En; reflexivity|]. split; [intros [|k] mk Hk Ek; [|lia]; injection Ek as <-; rewrite Nat.add_0_r; exact NS|].
      split; [|split; [reflexivity|right; right; split; [lia|auto]]]. replace (l1 ++ [])%list with ((l1 ++ []) ++ [])%list by (rewrite !app_nil_r; reflexivity). eapply cycles_cons; eauto. apply cycles_nil.
    * destruct (run_loop_said ops oc f cfg (R m R_pc) m1) as (lines2 & r2) eqn:E2. cbn in H. injection H as <- <-.
      apply (GO lines2 r2 ltac:(discriminate) eq_refl [] Hs).
Qed.
End Said.

(** Printing does not change what a run does. *)
Lemma P_C82_same : forall D (ops : bus_ops D) oc fuel cfg m, snd (run_vm_said ops oc fuel cfg m) = run_vm ops oc fuel cfg m.
Proof. intros. apply vm_same. Qed.

(** The lines of a run that ends: for each cycle in order, the line of the cycle and the line of its exception, as configured; then the
    final lines. *)
Lemma P_C82_lines : forall D (ops : bus_ops D) oc fuel cfg m m' st lines, typed ops -> wf m ->
  run_vm_said ops oc fuel cfg m = (lines, Ret (Some (m', st))) ->
  exists n l1 l2, lines = (l1 ++ l2)%list /\ stops_after ops oc cfg m n m' /\ cycles_said ops oc cfg m n l1 /\ finally_said cfg st l2.
Proof.
  intros D ops oc fuel cfg m m' st lines T W H.
  assert (Hv : run_vm ops oc fuel cfg m = Ret (Some (m', st))) by (rewrite <- vm_same, H; reflexivity).
  destruct (P_C65_stops D ops oc fuel cfg m m' st T W Hv) as (n0 & S0 & Hc & (mp & Emp & Ha) & Hx).
  unfold run_vm_said in H. destruct (run_loop_said ops oc fuel cfg (r_pc (c_regs m)) m) as (l1 & r) eqn:El.
  rewrite (r_pc_R m) in El by apply W. pose proof (loop_said ops oc T cfg fuel O (R m R_pc) m l1 r W ltac:(congruence) ltac:(auto) El) as (n & mn & En & HN & HR).
  destruct r as [[[[m1 a] x]|]|]; cbn [sbind] in H; [|cbn in H; congruence|congruence].
  destruct HR as (HC & -> & HM). cbv zeta in H.
  set (st1 := Stopped (c_cycles m1) a x) in *.
  assert (E1 : exists l2, lines = (l1 ++ l2)%list /\ m1 = m' /\ st1 = st /\ if cf_print_finish cfg then exists t, stop_text st1 = Ret t /\ l2 = ((if cf_newline cfg then [""] else []) ++ [("[lrvm] " ++ t)%string])%list else l2 = []).
  { destruct (cf_print_finish cfg).
    - destruct (stop_text st1) as [t|]; cbn [obind say] in H; [|destruct (cf_newline cfg); cbn in H; congruence].
      exists ((if cf_newline cfg then [""] else []) ++ [("[lrvm] " ++ t)%string])%list.
      destruct (cf_newline cfg); cbn [sbind say silent] in H; rewrite ?app_nil_r in H; injection H as <- <- <-; (split; [reflexivity|]); (split; [reflexivity|]); (split; [reflexivity|]); exists t; split; reflexivity.
    - cbn [sbind silent] in H. rewrite ?app_nil_r in H. injection H as <- <- <-. exists []. rewrite app_nil_r. auto. }
  destruct E1 as (l2 & -> & -> & -> & HF). exists n, l1, l2. split; [reflexivity|]. split.
  { split; [exact En|]. split; [exact HM|]. intros k mk Hk. apply (HN k mk Hk). }
  split; [exact HC|]. unfold finally_said. destruct (cf_print_finish cfg); [|exact HF]. destruct HF as (t & Et & ->). eexists. split; [reflexivity|].
  assert (W' : wf m'). { eapply run_wf; [exact T|exact W|exact En]. }
  unfold stop_text in Et. cbv zeta in Et.
  assert (Bc : hex_of 8 (fmt_hex10 (sp_cycles st)) (sp_cycles st)) by (apply hex10_of; rewrite Hc; apply W').
  assert (Ba : hex_of 8 (fmt_hex10 (sp_addr st)) (sp_addr st)).
  { apply hex10_of. rewrite Ha. assert (Wp : wf mp) by (eapply run_wf; [exact T|exact W|exact Emp]). assert (X : is_u32 (R mp R_pc)) by (apply R_u32, Wp). unfold is_u32 in X. lia. }
  unfold reported in Hx. destruct (sp_ex st) as [e|] eqn:Ee.
  - destruct ((0 <? Z.of_nat n0) && cf_halt_on_ex cfg && negb (R m' R_et =? 0)); [|discriminate Hx].
    destruct Hx as (e' & X & X1 & X2 & X3 & X4). injection X as <-.
    assert (Be : is_u32 (R m' R_et)) by (apply R_u32, W'). destruct (ex_of_et_fields (R m' R_et) Be) as (Y1 & Y2 & Y3 & Y4).
    assert (e = ex_of_et (R m' R_et)) as -> by (destruct e, (ex_of_et (R m' R_et)); cbn in *; congruence).
    destruct (ex_text (ex_of_et (R m' R_et))) as [tx|] eqn:Ex; cbn [obind] in Et; [|discriminate]. apply ret_eq' in Et. subst t.
    exists (fmt_hex10 (sp_cycles st)), (fmt_hex10 (sp_addr st)), (" because of exception in " ++ (if xm_sv (ex_of_et (R m' R_et)) then "supervisor" else "userland") ++ " mode: " ++ tx).
    split; [rewrite !append_assoc; reflexivity|]. split; [exact Bc|]. split; [exact Ba|]. rewrite Ee. exists tx. split; [rewrite Y1; apply message_text; [exact Be|exact Ex]|].
    rewrite Y1, Y2. f_equal. f_equal. unfold is_u32 in Be. change (2 ^ 24) with 16777216 in *. destruct (Z.ltb_spec (R m' R_et) 16777216).
    + rewrite Z.div_small by lia. reflexivity.
    + replace (R m' R_et / 16777216 =? 0) with false by (symmetry; apply Z.eqb_neq; lia). reflexivity.
  - apply ret_eq' in Et. subst t. exists (fmt_hex10 (sp_cycles st)), (fmt_hex10 (sp_addr st)), "". split; [rewrite append_nil; reflexivity|]. rewrite Ee. auto.
Qed.
(** A run that raises exceptions and goes on, told in full. *)
Lemma E_C82_lines : exists m m' st, reachable words_ops false m /\
  run_vm_said words_ops false 9 (with_cycles_limit (Some 2) config_verbose) m =
   (["[lrvm] Running cycle 0x00000000 at address 0x00000000"; "[lrvm] Running cycle 0x00000001 at address 0x00000004";
     "[lrvm] At address 0x00000004 - Exception occurred: Interruption (code 0x07)"; "[lrvm] Running cycle 0x00000002 at address 0x00000000";
     "[lrvm] At address 0x00000000 - Exception occurred: Interruption (code 0x07)";
     "[lrvm] Cycle 0x00000003: CPU halted at address 0x00000000"], Ret (Some (m', st))).
Proof.
  assert (X : exists m, words_run false 0 (asm [Cpy R_a0 (Lit2 4); Itr (Lit1 7); Halt]) 0 = Ret m /\
    match run_vm_said words_ops false 9 (with_cycles_limit (Some 2) config_verbose) m with (l, Ret (Some _)) => if list_eq_dec string_dec l 
    ["[lrvm] Running cycle 0x00000000 at address 0x00000000"; "[lrvm] Running cycle 0x00000001 at address 0x00000004";
     "[lrvm] At address 0x00000004 - Exception occurred: Interruption (code 0x07)"; "[lrvm] Running cycle 0x00000002 at address 0x00000000";
     "[lrvm] At address 0x00000000 - Exception occurred: Interruption (code 0x07)";
     "[lrvm] Cycle 0x00000003: CPU halted at address 0x00000000"] then true else false | _ => false end = true)
    by (apply then_check_sound; vm_compute; reflexivity).
  destruct X as (m & E & P). destruct (words_wf false 0 _ _ m ltac:(unfold is_u32; lia) E) as (Hr & W).
  destruct (run_vm_said words_ops false 9 _ m) as (l & [[[m' st]|]|]) eqn:Er; try discriminate. exists m, m', st.
  destruct (list_eq_dec string_dec l _) as [->|]; [|discriminate]. auto.
Qed.
(** The same program stopped at its exception. *)
Lemma E_C82_stop : exists m m' st, reachable words_ops false m /\
  run_vm_said words_ops false 9 config_halt_on_ex m =
   (["[lrvm] Cycle 0x00000002: CPU halted at address 0x00000004 because of exception in supervisor mode: Interruption (code 0x07)"], Ret (Some (m', st))).
Proof.
  assert (X : exists m, words_run false 0 (asm [Cpy R_a0 (Lit2 4); Itr (Lit1 7); Halt]) 0 = Ret m /\
    match run_vm_said words_ops false 9 config_halt_on_ex m with (l, Ret (Some _)) => if list_eq_dec string_dec l 
    ["[lrvm] Cycle 0x00000002: CPU halted at address 0x00000004 because of exception in supervisor mode: Interruption (code 0x07)"] then true else false | _ => false end = true)
    by (apply then_check_sound; vm_compute; reflexivity).
  destruct X as (m & E & P). destruct (words_wf false 0 _ _ m ltac:(unfold is_u32; lia) E) as (Hr & W).
  destruct (run_vm_said words_ops false 9 _ m) as (l & [[[m' st]|]|]) eqn:Er; try discriminate. exists m, m', st.
  destruct (list_eq_dec string_dec l _) as [->|]; [|discriminate]. auto.
Qed.

(** While it runs, the lines of the executed cycles are out. *)
Lemma P_C82_running : forall D (ops : bus_ops D) oc fuel cfg m lines, typed ops -> wf m ->
  run_vm_said ops oc fuel cfg m = (lines, Ret None) -> cycles_said ops oc cfg m fuel lines.
Proof.
  intros D ops oc fuel cfg m lines T W H. unfold run_vm_said in H. destruct (run_loop_said ops oc fuel cfg (r_pc (c_regs m)) m) as (l1 & r) eqn:El.
  rewrite (r_pc_R m) in El by apply W. pose proof (loop_said ops oc T cfg fuel O (R m R_pc) m l1 r W ltac:(congruence) ltac:(auto) El) as (n & mn & En & HN & HR).
  destruct r as [[[[m1 a] x]|]|]; cbn [sbind] in H; [|cbn in H; rewrite app_nil_r in H; injection H as <-; destruct HR as (HR & <-); exact HR|congruence].
  exfalso. cbv zeta in H. destruct (cf_print_finish cfg).
  - destruct (stop_text _) as [t|]; cbn [obind say] in H; destruct (cf_newline cfg); cbn in H; congruence.
  - cbn in H. congruence.
Qed.

(** When the host crashes, everything said before is out: the lines of the cycles completed, and of the one that was starting. The crash is
    the processor's, or the printing of an exception about a register that does not exist. *)
Lemma P_C82_crash : forall D (ops : bus_ops D) oc fuel cfg m lines, typed ops -> wf m ->
  run_vm_said ops oc fuel cfg m = (lines, Panic) ->
  exists n mn l1 l2, run ops oc n m = Ret mn /\ lines = (l1 ++ l2)%list /\ cycles_said ops oc cfg m n l1 /\
   ((if cf_print_cycles cfg then exists s, l2 = [s] /\ cycle_line mn s else l2 = []) /\
    (next ops oc mn = Panic \/ exists mp, next ops oc mn = Ret mp /\ tells_exceptions cfg = true /\ unprintable (R mp R_et)) \/
    cf_print_finish cfg = true /\ cf_halt_on_ex cfg = true /\ l2 = (if cf_newline cfg then [""] else []) /\ unprintable (R mn R_et)).
Proof.
  intros D ops oc fuel cfg m lines T W H. unfold run_vm_said in H. destruct (run_loop_said ops oc fuel cfg (r_pc (c_regs m)) m) as (l1 & r) eqn:El.
  assert (Es : run_loop ops oc fuel cfg (r_pc (c_regs m)) m = r) by (rewrite <- loop_same, El; reflexivity).
  rewrite (r_pc_R m) in El by apply W. pose proof (loop_said ops oc T cfg fuel O (R m R_pc) m l1 r W ltac:(congruence) ltac:(auto) El) as (n & mn & En & HN & HR).
  destruct r as [[[[m1 a] x]|]|]; cbn [sbind] in H; [|cbn in H; congruence|].
  2:{ injection H as <-. destruct HR as (k1 & k2 & -> & A & B & C). exists n, mn, k1, k2. split; [exact En|]. split; [reflexivity|]. split; [exact A|]. left. split; [exact B|exact C]. }
  destruct HR as (HC & -> & HM). exists n, m1, l1, (if cf_newline cfg then [""] else []). split; [exact En|].
  cbv zeta in H. destruct (cf_print_finish cfg) eqn:Ef; [|cbn in H; congruence].
  destruct (stop_text (Stopped (c_cycles m1) a x)) as [t|] eqn:Et; cbn [obind say] in H; [destruct (cf_newline cfg); cbn in H; congruence|].
  split; [destruct (cf_newline cfg); cbn in H; rewrite ?app_nil_r in H; injection H as <-; rewrite ?app_nil_r; reflexivity|]. split; [exact HC|]. right. split; [reflexivity|].
  assert (W' : wf m1) by (eapply run_wf; [exact T|exact W|exact En]).
  destruct (loop_stops ops T oc cfg fuel O m m (r_pc (c_regs m)) m1 a x W) as (n' & _ & _ & _ & _ & X); auto; try (intros; lia). { intros _. apply r_pc_R, W. }
  unfold stop_text in Et. cbn [sp_ex] in Et. destruct x as [x|]; [|discriminate Et].
  destruct ((0 <? Z.of_nat n') && cf_halt_on_ex cfg && negb (R m1 R_et =? 0)) eqn:B; [|discriminate X]. injection X as ->. apply andb_prop in B as (B & _). apply andb_prop in B as (_ & B).
  split; [exact B|]. split; [reflexivity|]. apply prettify_panics; [apply R_u32, W'|]. rewrite ex_text_panics. destruct (ex_text _); [discriminate Et|reflexivity].
Qed.
(** A program in user mode names a register that does not exist: the runner crashes on the report, after the lines of the two cycles. *)
Lemma E_C82_crash : exists m, reachable words_ops false m /\
  run_vm_said words_ops false 9 config_verbose m =
    (["[lrvm] Running cycle 0x00000000 at address 0x00000000"; "[lrvm] Running cycle 0x00000001 at address 0x00000008"], Panic).
Proof.
  assert (X : exists m, words_run false 0 (asm [Lsm (Lit2 4); Halt] ++ [10 * 2 ^ 24 + 32 * 2 ^ 8])%list 0 = Ret m /\
    match run_vm_said words_ops false 9 config_verbose m with (l, Panic) => if list_eq_dec string_dec l 
    ["[lrvm] Running cycle 0x00000000 at address 0x00000000"; "[lrvm] Running cycle 0x00000001 at address 0x00000008"] then true else false | _ => false end = true)
    by (apply then_check_sound; vm_compute; reflexivity).
  destruct X as (m & E & P). destruct (words_wf false 0 _ _ m ltac:(unfold is_u32; lia) E) as (Hr & W).
  destruct (run_vm_said words_ops false 9 _ m) as (l & [r|]) eqn:Er; try discriminate. exists m.
  destruct (list_eq_dec string_dec l _) as [->|]; [|discriminate]. auto.
Qed.

(** The settings: the default prints exceptions and the end, has no limit and goes on after exceptions; each builder changes its own setting only. *)
Lemma P_C82_settings : settings config_default = (None, false, false, true, true, false) /\
  settings config_halt_on_ex = (None, true, false, true, true, false) /\
  settings config_verbose = (None, false, true, true, true, false) /\
  settings config_quiet = (None, false, false, false, false, false) /\
  forall c l h cy ex fi nl, settings c = (l, h, cy, ex, fi, nl) ->
    (forall l', settings (with_cycles_limit l' c) = (l', h, cy, ex, fi, nl)) /\
    (forall b, settings (with_halt_on_exception b c) = (l, b, cy, ex, fi, nl)) /\
    (forall b, settings (with_print_cycles b c) = (l, h, b, ex, fi, nl)) /\
    (forall b, settings (with_print_exceptions b c) = (l, h, cy, b, fi, nl)) /\
    (forall b, settings (with_print_finish b c) = (l, h, cy, ex, b, nl)) /\
    (forall b, settings (with_newline_on_finish b c) = (l, h, cy, ex, fi, b)) /\
    settings (be_verbose c) = (l, h, true, true, true, nl) /\ settings (be_quiet c) = (l, h, false, false, false, nl).
Proof.
  split; [reflexivity|]. split; [reflexivity|]. split; [reflexivity|]. split; [reflexivity|]. intros [l h cy ex fi nl] l' h' cy' ex' fi' nl' E. unfold settings in E. cbn in E. injection E as <- <- <- <- <- <-.
  repeat split.
Qed.
Lemma E_C82_settings : settings (with_print_cycles true (with_cycles_limit (Some 7) config_quiet)) = (Some 7, false, true, false, false, false).
Proof. reflexivity. Qed.

(** A quiet run prints nothing. *)
Lemma P_C82_quiet : forall D (ops : bus_ops D) oc fuel cfg m, cf_print_cycles cfg = false -> no_printing cfg -> fst (run_vm_said ops oc fuel cfg m) = [].
Proof.
  intros D ops oc fuel cfg m H1 (H2 & H3).
  assert (X : forall fuel was m, fst (run_loop_said ops oc fuel cfg was m) = []).
  { clear fuel m. induction fuel as [|f IH]; intros was m; cbn [run_loop_said]; [reflexivity|]. destruct (c_halted m); [reflexivity|].
    destruct (match cf_limit cfg with Some l => l <? c_cycles m | None => false end); [reflexivity|]. cbv zeta. rewrite H1, H2. cbn [andb sbind silent].
    destruct (next ops oc m) as [m1|]; [|reflexivity]. destruct (negb (r_et (c_regs m1) =? 0)).
    - destruct (cf_halt_on_ex cfg); [reflexivity|]. specialize (IH (r_pc (c_regs m)) m1). destruct (run_loop_said ops oc f cfg (r_pc (c_regs m)) m1). cbn in IH |- *. exact IH.
    - specialize (IH (r_pc (c_regs m)) m1). destruct (run_loop_said ops oc f cfg (r_pc (c_regs m)) m1). cbn in IH |- *. exact IH. }
  unfold run_vm_said. specialize (X fuel (r_pc (c_regs m)) m). destruct (run_loop_said ops oc fuel cfg (r_pc (c_regs m)) m) as (l & [[[[m1 a] x]|]|]); cbn in X; subst l; try reflexivity.
  cbn [sbind]. rewrite H3. reflexivity.
Qed.

(* Concrete cases for the theorems above that have none beside them. *)
Lemma E_C81_one_line : native_wf (NHardwareException (UnknownOperation 7)) /\ native_text (NHardwareException (UnknownOperation 7)) = Ret "Hardware exception: Unknown operation 0x07".
Proof. split; [cbn; unfold is_u8; lia|reflexivity]. Qed.
Lemma said_intro oc p n fuel cfg (f : _ -> bool) :
  match words_run oc 0 p n with Ret m => f (run_vm_said words_ops oc fuel cfg m) | Panic => false end = true ->
  exists m, reachable words_ops oc m /\ wf m /\ f (run_vm_said words_ops oc fuel cfg m) = true.
Proof.
  intros H. destruct (words_run oc 0 p n) as [m|] eqn:E; [|discriminate]. destruct (words_wf oc 0 _ _ m ltac:(unfold is_u32; lia) E) as (Hr & W). eauto.
Qed.
(** What was printed, with the same result as [run_vm]. *)
Lemma E_C82_same : exists m m' st, reachable words_ops false m /\ snd (run_vm_said words_ops false 9 config_halt_on_ex m) = Ret (Some (m', st)) /\ fst (run_vm_said words_ops false 9 config_halt_on_ex m) <> [].
Proof.
  destruct E_C82_stop as (m & m' & st & H & E). exists m, m', st. rewrite E. split; [exact H|]. split; [reflexivity|discriminate].
Qed.
(** Three cycles of an endless loop. *)
Lemma E_C82_running : exists m lines, reachable words_ops false m /\ wf m /\ run_vm_said words_ops false 3 config_verbose m = (lines, Ret None) /\ List.length lines = 3%nat.
Proof.
  destruct (said_intro false (asm [Jpr (Lit2 0)]) 0 3 config_verbose (fun p => match p with (l, Ret None) => Nat.eqb (List.length l) 3 | _ => false end)) as (m & Hr & W & X); [vm_compute; reflexivity|].
  destruct (run_vm_said words_ops false 3 config_verbose m) as [l [[x|]|]] eqn:E; try discriminate. exists m, l. split; [exact Hr|]. split; [exact W|]. split; [exact E|]. apply Nat.eqb_eq. exact X.
Qed.
Lemma E_C82_quiet : cf_print_cycles config_quiet = false /\ no_printing config_quiet /\ exists m m' st, reachable words_ops false m /\ run_vm_said words_ops false 9 config_quiet m = ([], Ret (Some (m', st))).
Proof.
  split; [reflexivity|]. split; [vm_compute; repeat split|].
  destruct (said_intro false (asm [Cpy R_a0 (Lit2 4); Halt]) 0 9 config_quiet (fun p => match p with ([], Ret (Some _)) => true | _ => false end)) as (m & Hr & W & X); [vm_compute; reflexivity|].
  destruct (run_vm_said words_ops false 9 config_quiet m) as [[|] [[[m' st]|]|]] eqn:E; try discriminate. exists m, m', st. auto.
Qed.
