(** Proofs of C85: scripts generated with the builders of the assembler. *)
From Coq Require Import ZArith List Bool Lia.
From Verif Require Import Base BaseFacts Board Mem Cpu Asm Tools Devices Runner SpecMach SpecIsa SpecBus SpecObs SpecAsm SpecMap SpecDev SpecRun SpecPanic SpecScript.
From Verif Require Import Counter RegFacts MemFacts MonoFacts MapFacts CycleFacts CyclePost ReachFacts InvFacts DevTyped ProofAsm ProofMap ProofBoard ProofReg ProofRun ProofCrash ProofRom ProofDev ProofPanic SymFacts.
Import ListNotations.
Open Scope Z_scope.
Ltac Zify.zify_post_hook ::= Z.div_mod_to_equations.

(** ** Words of instructions *)
Lemma word_bytes bs : bytes_wf bs -> bytes_of_word (word_of_bytes bs) = bs /\ is_u32 (word_of_bytes bs) /\ word_op (word_of_bytes bs) = fst (fst (fst bs)) / 8.
Proof.
  destruct bs as [[[a b] c] d]. cbn [bytes_wf word_of_bytes fst]. unfold is_u8, bytes_of_word, of_be4, u8, is_u32, word_op. change (2 ^ 27) with 134217728. intros H.
  split; [|lia]. f_equal; [f_equal; [f_equal|]|]; lia.
Qed.
Lemma instr_word i : instr_wf i -> wide_reg i = None -> decode (bytes_of_word (encode_word i)) = ROk i /\ is_u32 (encode_word i).
Proof.
  intros W N. destruct (encode_bytes i W) as (B & _). destruct (word_bytes _ B) as (E & U & _). unfold encode_word. rewrite E. split; [|exact U]. apply (P_C41_roundtrip i W). auto.
Qed.
Lemma instr_safe i : instr_wf i -> match i with Srm _ _ _ | If2 _ _ _ => False | _ => True end -> safe_word (encode_word i) = true.
Proof.
  intros W H. destruct (encode_bytes i W) as (B & _). destruct (word_bytes _ B) as (_ & _ & O). unfold safe_word, encode_word. rewrite O.
  destruct i; try contradiction; repeat match goal with v : rl1 |- _ => destruct v | v : rl2 |- _ => destruct v end; reflexivity.
Qed.

Section Script.
Context (oc : bool) (prog : list Z) (Hlen : zlen prog <= 2 ^ 30).
Notation ops := (dev_ops oc).
Notation bs := (board_bus ops false).

Definition tracks (j : nat) (f : reg -> Z) (mem : memory device) (s : st (memory device)) : Prop :=
  length (s_reg s) = 32%nat /\ s_bus s = mem /\ s_cyc s = Z.of_nat j /\ s_halt s = false /\ get s R_pc = 4 * Z.of_nat j /\ get s R_smt = 1 /\ get s R_mtt = 0 /\
  get s R_et = 0 /\ forall r, general r -> get s r = f r.
Definition bumped (s : st (memory device)) : st (memory device) := St (s_reg s) (s_bus s) ((s_cyc s + 1) mod 2 ^ 128) false.

Lemma one_step j f mem s i s1 : tracks j f mem s -> nth_error prog j = Some (encode_word i) -> instr_wf i -> wide_reg i = None ->
  match i with Srm _ _ _ | If2 _ _ _ => False | _ => True end -> step bs i (bumped s) = Ret s1 -> quiet ops prog 1 s s1.
Proof.
  intros (_ & _ & _ & H & P & _ & M & E & _) N W X S St. eapply (quiet_S _ _ _ j); eauto.
  - apply instr_word; auto. - apply instr_safe; auto. - apply quiet_0.
Qed.
Lemma get_put (s : st (memory device)) r v r' : length (s_reg s) = 32%nat -> get (put s r v) r' = if reg_eq_dec r' r then v else get s r'.
Proof. intros L. apply rg_rs, L. Qed.
Lemma put_len (s : st (memory device)) r v : length (s_reg (put s r v)) = length (s_reg s).
Proof. apply rs_length. Qed.
Lemma general_write s r v : general r -> sup s = true -> write_end (B := memory device) r v s = advance 4 (put s r v).
Proof. intros G S. unfold write_end, write, can_write. rewrite S. unfold general in G. destruct r; cbn in G; try lia; reflexivity. Qed.
Lemma changed_get f r v x : changed f r v x = if reg_eq_dec x r then v else f x.
Proof.
  unfold changed. destruct (reg_eq_dec x r) as [->|N]; [rewrite Z.eqb_refl; reflexivity|]. destruct (Z.eqb_spec (reg_code x) (reg_code r)) as [E|E]; [|reflexivity].
  exfalso. apply N. pose proof (reg_from_code_code x) as A. pose proof (reg_from_code_code r) as B. rewrite E in A. congruence.
Qed.
Lemma cyc_S j : (Z.of_nat j < 2 ^ 30) -> (Z.of_nat j + 1) mod 2 ^ 128 = Z.of_nat (S j).
Proof. intros H. rewrite Z.mod_small by lia. lia. Qed.

(** Going on after a step that changed general registers, flags and memory. *)
Lemma goes_on j f mem s s2 f' mem' : tracks j f mem s -> Z.of_nat (S j) < 2 ^ 30 -> length (s_reg s2) = 32%nat -> s_bus s2 = mem' -> s_cyc s2 = (s_cyc s + 1) mod 2 ^ 128 -> s_halt s2 = false ->
  (forall r, r = R_pc \/ r = R_smt \/ r = R_mtt \/ r = R_et -> get s2 r = get s r) -> (forall r, general r -> get s2 r = f' r) ->
  exists s1, advance 4 s2 = Ret s1 /\ tracks (S j) f' mem' s1.
Proof.
  intros (T1 & T2 & T3 & T4 & T5 & T6 & T7 & T8 & T9) HJ L Hb Hc Hh HS HG. eexists. split; [reflexivity|]. unfold tracks. rewrite put_len. split; [exact L|].
  split; [exact Hb|]. split; [cbn [put s_cyc]; rewrite Hc, T3; apply cyc_S; lia|]. split; [exact Hh|]. rewrite !get_put by exact L.
  destruct (reg_eq_dec R_pc R_pc) as [_|XX]; [|congruence]. destruct (reg_eq_dec R_smt R_pc) as [X|_]; [discriminate X|]. destruct (reg_eq_dec R_mtt R_pc) as [X|_]; [discriminate X|].
  destruct (reg_eq_dec R_et R_pc) as [X|_]; [discriminate X|].
  rewrite !HS by auto. split; [rewrite T5; unfold m32; lia|]. split; [exact T6|]. split; [exact T7|]. split; [exact T8|]. intros r G. rewrite get_put by exact L.
  destruct (reg_eq_dec r R_pc) as [->|_]; [exfalso; unfold general in G; cbn in G; lia|]. auto.
Qed.
Lemma is_sup j f mem s : tracks j f mem s -> sup (bumped s) = true.
Proof. intros T. unfold sup. change (get (bumped s) R_smt) with (get s R_smt). replace (get s R_smt) with 1 by (symmetry; apply T). reflexivity. Qed.
Lemma sup_put (s : st (memory device)) r v : length (s_reg s) = 32%nat -> r <> R_smt -> sup (put s r v) = sup s.
Proof. intros L N. unfold sup. rewrite get_put by exact L. destruct (reg_eq_dec R_smt r) as [E|_]; [congruence|reflexivity]. Qed.

Lemma does_cpy j f mem s r v : tracks j f mem s -> Z.of_nat (S j) < 2 ^ 30 -> general r -> exists s1, step bs (Cpy r (Lit2 v)) (bumped s) = Ret s1 /\ tracks (S j) (changed f r v) mem s1.
Proof.
  intros T HJ G. cbn [step read2]. rewrite general_write by (auto; eapply is_sup; eauto). destruct T as (T1 & T). pose proof (conj T1 T : tracks j f mem s) as T0.
  apply (goes_on j f mem s); auto.
  - rewrite put_len. exact T1.
  - apply T.
  - intros x Hx. rewrite get_put by exact T1. destruct (reg_eq_dec x r) as [->|]; [|reflexivity]. exfalso. destruct Hx as [->|[->|[->| ->]]]; unfold general in G; cbn in G; lia.
  - intros x Hx. rewrite get_put, changed_get by exact T1. destruct (reg_eq_dec x r); [reflexivity|]. apply T0, Hx.
Qed.
Lemma does_arith j f mem s a r y res ca ov : tracks j f mem s -> Z.of_nat (S j) < 2 ^ 30 -> general r -> alu_spec a (f r) y = AluOk res ca ov ->
  exists s1, arith a r y (bumped s) true = Ret s1 /\ tracks (S j) (changed f r res) mem s1.
Proof.
  intros T HJ G E. pose proof (is_sup _ _ _ _ T) as S. destruct T as (T1 & T). pose proof (conj T1 T : tracks j f mem s) as T0. unfold arith, read, can_read. rewrite S. cbn [orb].
  change (get (bumped s) r) with (get s r). replace (get s r) with (f r) by (symmetry; apply T0, G). rewrite E.
  assert (L : length (s_reg (put (bumped s) R_af (flags_spec res ca ov))) = 32%nat) by (rewrite put_len; exact T1).
  rewrite general_write; [|exact G|rewrite sup_put; [exact S|exact T1|discriminate]].
  apply (goes_on j f mem s); auto.
  - rewrite put_len. exact L.
  - apply T.
  - intros x Hx. rewrite get_put by exact L. destruct (reg_eq_dec x r) as [->|]; [exfalso; destruct Hx as [->|[->|[->| ->]]]; unfold general in G; cbn in G; lia|].
    rewrite get_put by exact T1. destruct (reg_eq_dec x R_af) as [->|]; [exfalso; destruct Hx as [H|[H|[H|H]]]; discriminate H|reflexivity].
  - intros x Hx. rewrite get_put, changed_get by exact L. destruct (reg_eq_dec x r); [reflexivity|]. rewrite get_put by exact T1.
    destruct (reg_eq_dec x R_af) as [->|]; [exfalso; unfold general in Hx; cbn in Hx; lia|]. apply T0, Hx.
Qed.
Lemma tracks_ext j f f' mem s : tracks j f mem s -> (forall r, general r -> f r = f' r) -> tracks j f' mem s.
Proof. intros (T1 & T2 & T3 & T4 & T5 & T6 & T7 & T8 & T9) H. unfold tracks. repeat (split; [assumption|]). intros r G. rewrite T9 by exact G. auto. Qed.
Lemma nth_word j (l : list instr) rest k i : prog = rest ++ map encode_word l ++ k -> j = length rest -> nth_error l 0 = Some i -> nth_error prog j = Some (encode_word i).
Proof. intros -> -> H. rewrite nth_error_app2 by lia. rewrite Nat.sub_diag. destruct l as [|x l]; [discriminate H|]. injection H as ->. reflexivity. Qed.

Lemma does_load_const j f mem s r v before after : tracks j f mem s -> prog = before ++ map encode_word (load_const r v) ++ after -> j = length before -> after <> [] -> general r -> is_u32 v ->
  exists s', quiet ops prog 3 s s' /\ tracks (3 + j) (changed f r v) mem s'.
Proof.
  intros T HP HJ HA G Hv. unfold is_u32 in Hv.
  assert (LP : Z.of_nat j + 3 < 2 ^ 30).
  { unfold zlen in Hlen. rewrite HP, !app_length, map_length in Hlen. cbn [length load_const] in Hlen. destruct after; [congruence|]. cbn [length] in Hlen. lia. }
  assert (N : forall k i, nth_error (load_const r v) k = Some i -> nth_error prog (k + j) = Some (encode_word i)).
  { intros k i Hk. rewrite HP, HJ, nth_error_app2 by lia. replace (k + length before - length before)%nat with k by lia. rewrite nth_error_app1. { rewrite nth_error_map, Hk. reflexivity. }
    rewrite map_length. apply nth_error_Some. congruence. }
  set (h := u16 (Z.shiftr v 16)). set (l := u16 v). assert (Hh : h = v / 65536) by (unfold h, u16; rewrite Z.shiftr_div_pow2 by lia; change (2 ^ 16) with 65536; lia).
  assert (Hl : l = v mod 65536) by reflexivity.
  assert (Uh : is_u16 h) by (rewrite Hh; unfold is_u16; lia). assert (Ul : is_u16 l) by (rewrite Hl; unfold is_u16; lia).
  destruct (does_cpy j f mem s r h T ltac:(lia) G) as (s1 & E1 & T1).
  destruct (does_arith (S j) _ mem s1 AShl r 16 (m32 (h * 65536)) false false T1 ltac:(lia) G) as (s2 & E2 & T2).
  { rewrite changed_get. destruct (reg_eq_dec r r); [reflexivity|congruence]. }
  destruct (does_arith (S (S j)) _ mem s2 AAdd r l (m32 (m32 (h * 65536) + l)) (4294967296 <=? m32 (h * 65536) + l) (negb (fits_signed (signed (m32 (h * 65536)) + signed l))) T2 ltac:(lia) G) as (s3 & E3 & T3).
  { rewrite changed_get. destruct (reg_eq_dec r r); [reflexivity|congruence]. }
  exists s3. split.
  - change 3%nat with (1 + (1 + 1))%nat. eapply quiet_app; [|eapply quiet_app].
    + eapply (one_step j); [exact T|exact (N 0%nat _ eq_refl)|exact Uh|reflexivity|exact I|exact E1].
    + eapply (one_step (S j)); [exact T1|exact (N 1%nat _ eq_refl)|change (is_u8 16); unfold is_u8; lia|reflexivity|exact I|exact E2].
    + eapply (one_step (S (S j))); [exact T2|exact (N 2%nat _ eq_refl)|exact Ul|reflexivity|exact I|exact E3].
  - eapply tracks_ext; [exact T3|]. intros x Gx. rewrite !changed_get. destruct (reg_eq_dec x r); [|reflexivity]. unfold m32. rewrite Hh, Hl. lia.
Qed.

Lemma write_false mem a v r : mem_write ops oc mem a v = Ret r -> mem_write ops false mem a v = Ret r.
Proof. destruct oc eqn:E; [|auto]. apply mem_write_mono. Qed.
Lemma read_false mem a r : mem_read ops oc mem a = Ret r -> mem_read ops false mem a = Ret r.
Proof. destruct oc eqn:E; [|auto]. apply mem_read_mono. Qed.

Lemma sup_read1 (s : st (memory device)) r k : sup s = true -> read1 (B := memory device) (Reg1 r) s k = k (get s r).
Proof. intros S. unfold read1, read, can_read. rewrite S. reflexivity. Qed.
Lemma m32_addr a : is_u32 a -> m32 (a + 0 * 0) = a.
Proof. unfold m32, is_u32. intros H. lia. Qed.
Lemma does_wea j f mem s r mem1 : tracks j f mem s -> Z.of_nat (S j) < 2 ^ 30 -> general r -> is_u32 (f r) -> f r mod 4 = 0 -> mem_write ops oc mem (f r) (f R_avr) = Ret (mem1, 0) ->
  exists s1, step bs (Wea (Reg1 r) (Lit1 0) (Lit1 0)) (bumped s) = Ret s1 /\ tracks (S j) f mem1 s1.
Proof.
  intros T HJ G U A E. pose proof (is_sup _ _ _ _ T) as S. pose proof T as (T1 & T2 & T3 & T4 & T5 & T6 & T7 & T8 & T9). apply write_false in E. cbn [step]. rewrite sup_read1 by exact S. cbn [read1].
  change (get (bumped s) r) with (get s r). change (get (bumped s) R_avr) with (get s R_avr). rewrite T9 by exact G. rewrite m32_addr by exact U. rewrite T9 by (unfold general; cbn; lia).
  unfold store, access. rewrite A. cbn [Z.eqb negb]. change (get (bumped s) R_mtt) with (get s R_mtt). rewrite T7. cbn [Z.eqb]. change (s_bus (bumped s)) with (s_bus s). rewrite T2. cbn [board_bus bus_store]. rewrite E. cbn [Z.eqb negb].
  apply (goes_on j f mem s); auto.
Qed.
Lemma does_lea j f mem s r mem1 w : tracks j f mem s -> Z.of_nat (S j) < 2 ^ 30 -> general r -> is_u32 (f r) -> f r mod 4 = 0 -> mem_read ops oc mem (f r) = Ret (mem1, 0, w) ->
  exists s1, step bs (Lea (Reg1 r) (Lit1 0) (Lit1 0)) (bumped s) = Ret s1 /\ tracks (S j) (changed f R_avr w) mem1 s1.
Proof.
  intros T HJ G U A E. pose proof (is_sup _ _ _ _ T) as S. pose proof T as (T1 & T2 & T3 & T4 & T5 & T6 & T7 & T8 & T9). apply read_false in E. cbn [step]. rewrite sup_read1 by exact S. cbn [read1].
  change (get (bumped s) r) with (get s r). rewrite T9 by exact G. rewrite m32_addr by exact U.
  unfold load, access. rewrite A. cbn [Z.eqb negb]. change (get (bumped s) R_mtt) with (get s R_mtt). rewrite T7. cbn [Z.eqb]. change (s_bus (bumped s)) with (s_bus s). rewrite T2. cbn [board_bus bus_load]. rewrite E. cbn [Z.eqb negb].
  apply (goes_on j f mem s); auto.
  - rewrite put_len. exact T1.
  - intros x Hx. rewrite get_put by exact T1. destruct (reg_eq_dec x R_avr) as [->|]; [exfalso; destruct Hx as [H|[H|[H|H]]]; discriminate H|reflexivity].
  - intros x Gx. rewrite get_put, changed_get by exact T1. destruct (reg_eq_dec x R_avr); [reflexivity|]. apply T9, Gx.
Qed.


(** A raised exception: only the registers of exceptions change. *)
Lemma raised (s : st (memory device)) code data : length (s_reg s) = 32%nat -> sup s = true ->
  exists s1, raise code data s = Ret s1 /\ get s1 R_et = 16777216 + code * 65536 + data /\ s_bus s1 = s_bus s /\ s_cyc s1 = s_cyc s.
Proof.
  intros L S. unfold raise. rewrite S. eexists. split; [reflexivity|]. split; [|split; reflexivity].
  rewrite get_put by (rewrite !put_len; exact L). destruct (reg_eq_dec R_et R_smt) as [X|_]; [discriminate X|]. rewrite get_put by (rewrite put_len; exact L).
  destruct (reg_eq_dec R_et R_pc) as [X|_]; [discriminate X|]. rewrite get_put by exact L. destruct (reg_eq_dec R_et R_et) as [_|X]; [reflexivity|congruence].
Qed.
Definition stopped_by (j : nat) (mem1 : memory device) (code data : Z) (s1 : st (memory device)) : Prop :=
  get s1 R_et = 16777216 + code * 65536 + data /\ s_bus s1 = mem1 /\ s_cyc s1 = Z.of_nat (S j).
Lemma fail_wea j f mem s r mem1 code data : tracks j f mem s -> Z.of_nat (S j) < 2 ^ 30 -> general r -> is_u32 (f r) ->
  (f r mod 4 <> 0 /\ mem1 = mem /\ code = 5 /\ data = f r mod 4) \/ (f r mod 4 = 0 /\ mem_write ops oc mem (f r) (f R_avr) = Ret (mem1, data) /\ data <> 0 /\ code = 160) ->
  exists s1, step bs (Wea (Reg1 r) (Lit1 0) (Lit1 0)) (bumped s) = Ret s1 /\ stopped_by j mem1 code data s1.
Proof.
  intros T HJ G U H. pose proof (is_sup _ _ _ _ T) as S. pose proof T as (T1 & T2 & T3 & T4 & T5 & T6 & T7 & T8 & T9). cbn [step]. rewrite sup_read1 by exact S. cbn [read1].
  change (get (bumped s) r) with (get s r). change (get (bumped s) R_avr) with (get s R_avr). rewrite T9 by exact G. rewrite m32_addr by exact U. rewrite T9 by (unfold general; cbn; lia).
  unfold store, access. destruct H as [(A & -> & -> & ->)|(A & E & N & ->)].
  - apply Z.eqb_neq in A. rewrite A. cbn [negb]. destruct (raised (bumped s) 5 (f r mod 4) T1 S) as (s1 & R1 & R2 & R3 & R4). exists s1. split; [exact R1|].
    split; [exact R2|]. split; [rewrite R3; exact T2|]. rewrite R4. cbn [bumped s_cyc]. rewrite T3. apply cyc_S. lia.
  - rewrite A. cbn [Z.eqb negb]. change (get (bumped s) R_mtt) with (get s R_mtt). rewrite T7. cbn [Z.eqb]. change (s_bus (bumped s)) with (s_bus s). rewrite T2. cbn [board_bus bus_store].
    apply write_false in E. rewrite E. apply Z.eqb_neq in N. rewrite N. cbn [negb].
    destruct (raised (with_bus (bumped s) mem1) 160 data T1 S) as (s1 & R1 & R2 & R3 & R4). exists s1. split; [exact R1|].
    split; [exact R2|]. split; [rewrite R3; reflexivity|]. rewrite R4. cbn [with_bus bumped s_cyc]. rewrite T3. apply cyc_S. lia.
Qed.
Lemma fail_lea j f mem s r mem1 code data w : tracks j f mem s -> Z.of_nat (S j) < 2 ^ 30 -> general r -> is_u32 (f r) ->
  (f r mod 4 <> 0 /\ mem1 = mem /\ code = 5 /\ data = f r mod 4) \/ (f r mod 4 = 0 /\ mem_read ops oc mem (f r) = Ret (mem1, data, w) /\ data <> 0 /\ code = 160) ->
  exists s1, step bs (Lea (Reg1 r) (Lit1 0) (Lit1 0)) (bumped s) = Ret s1 /\ stopped_by j mem1 code data s1.
Proof.
  intros T HJ G U H. pose proof (is_sup _ _ _ _ T) as S. pose proof T as (T1 & T2 & T3 & T4 & T5 & T6 & T7 & T8 & T9). cbn [step]. rewrite sup_read1 by exact S. cbn [read1].
  change (get (bumped s) r) with (get s r). rewrite T9 by exact G. rewrite m32_addr by exact U.
  unfold load, access. destruct H as [(A & -> & -> & ->)|(A & E & N & ->)].
  - apply Z.eqb_neq in A. rewrite A. cbn [negb]. destruct (raised (bumped s) 5 (f r mod 4) T1 S) as (s1 & R1 & R2 & R3 & R4). exists s1. split; [exact R1|].
    split; [exact R2|]. split; [rewrite R3; exact T2|]. rewrite R4. cbn [bumped s_cyc]. rewrite T3. apply cyc_S. lia.
  - rewrite A. cbn [Z.eqb negb]. change (get (bumped s) R_mtt) with (get s R_mtt). rewrite T7. cbn [Z.eqb]. change (s_bus (bumped s)) with (s_bus s). rewrite T2. cbn [board_bus bus_load].
    apply read_false in E. rewrite E. apply Z.eqb_neq in N. rewrite N. cbn [negb].
    destruct (raised (with_bus (bumped s) mem1) 160 data T1 S) as (s1 & R1 & R2 & R3 & R4). exists s1. split; [exact R1|].
    split; [exact R2|]. split; [rewrite R3; reflexivity|]. rewrite R4. cbn [with_bus bumped s_cyc]. rewrite T3. apply cyc_S. lia.
Qed.

(** ** Errands *)
Definition einstr (e : errand) : list instr :=
  match e with ESet r v => load_const r v | EGet a => load_const R_avr a ++ [Lea (Reg1 R_avr) (Lit1 0) (Lit1 0)]
  | EPut a v => load_const R_rr0 a ++ load_const R_avr v ++ [Wea (Reg1 R_rr0) (Lit1 0) (Lit1 0)] | EStore r => [Wea (Reg1 r) (Lit1 0) (Lit1 0)] end.
Definition fwf (f : reg -> Z) : Prop := forall r, is_u32 (f r).
Lemma fwf_changed f r v : fwf f -> is_u32 v -> fwf (changed f r v).
Proof. intros H V x. rewrite changed_get. destruct (reg_eq_dec x r); auto. Qed.
Lemma changed_same f r v : changed f r v r = v.
Proof. unfold changed. rewrite Z.eqb_refl. reflexivity. Qed.
Lemma at_word before l1 i l2 after j : prog = before ++ map encode_word (l1 ++ i :: l2) ++ after -> j = (length l1 + length before)%nat -> nth_error prog j = Some (encode_word i).
Proof.
  intros -> ->. rewrite nth_error_app2 by lia. replace (length l1 + length before - length before)%nat with (length (map encode_word l1)) by (rewrite map_length; lia).
  rewrite map_app. cbn [map]. rewrite <- app_assoc. rewrite nth_error_app2 by lia. rewrite Nat.sub_diag. reflexivity.
Qed.
Lemma prog_room before l after : prog = before ++ map encode_word l ++ after -> after <> [] -> Z.of_nat (length l + length before) < 2 ^ 30.
Proof. intros HP HA. unfold zlen in Hlen. rewrite HP, !app_length, map_length in Hlen. destruct after; [congruence|]. cbn [length] in Hlen. lia. Qed.
Lemma lea_wf r : instr_wf (Lea (Reg1 r) (Lit1 0) (Lit1 0)).
Proof. cbn. unfold is_u8. split; [exact I|]. split; lia. Qed.
Lemma wea_wf r : instr_wf (Wea (Reg1 r) (Lit1 0) (Lit1 0)).
Proof. cbn. unfold is_u8. split; [exact I|]. split; lia. Qed.
(** All but the access of an errand. *)
Definition einit (e : errand) : list instr :=
  match e with EGet a => load_const R_avr a | EPut a v => load_const R_rr0 a ++ load_const R_avr v | _ => [] end.
Definition ebefore (e : errand) (f : reg -> Z) : reg -> Z :=
  match e with EGet a => changed f R_avr a | EPut a v => changed (changed f R_rr0 a) R_avr v | _ => f end.
Lemma goes_to_access j f mem s e before after : tracks j f mem s -> prog = before ++ map encode_word (einit e) ++ after -> j = length before -> after <> [] -> errand_wf e ->
  exists s', quiet ops prog (length (einit e)) s s' /\ tracks (length (einit e) + j) (ebefore e f) mem s'.
Proof.
  intros T HP HJ HA W. destruct e as [r v|a|a v|r]; cbn [einit ebefore errand_wf] in *.
  - exists s. split; [apply quiet_0|exact T].
  - apply (does_load_const j f mem s R_avr a before after); auto. unfold general; cbn; lia.
  - destruct W as (W1 & W2). rewrite map_app, <- app_assoc in HP.
    destruct (does_load_const j f mem s R_rr0 a before (map encode_word (load_const R_avr v) ++ after)) as (s1 & Q1 & T1); auto. { discriminate. } { unfold general; cbn; lia. }
    destruct (does_load_const (3 + j) (changed f R_rr0 a) mem s1 R_avr v (before ++ map encode_word (load_const R_rr0 a)) after) as (s2 & Q2 & T2); auto.
    { rewrite HP, <- !app_assoc. reflexivity. } { rewrite app_length, HJ. cbn. lia. } { unfold general; cbn; lia. }
    exists s2. split; [|exact T2]. change (length (load_const R_rr0 a ++ load_const R_avr v)) with (3 + 3)%nat. eapply quiet_app; eauto.
  - exists s. split; [apply quiet_0|exact T].
Qed.

Lemma host_one e f mem f' mem' : host_runs ops oc [e] f mem f' mem' ->
  match e with ESet r v => f' = changed f r v /\ mem' = mem | EGet a => exists w, a mod 4 = 0 /\ mem_read ops oc mem a = Ret (mem', 0, w) /\ f' = changed f R_avr w
  | EPut a v => a mod 4 = 0 /\ mem_write ops oc mem a v = Ret (mem', 0) /\ f' = changed (changed f R_rr0 a) R_avr v | EStore r => f r mod 4 = 0 /\ mem_write ops oc mem (f r) (f R_avr) = Ret (mem', 0) /\ f' = f end.
Proof.
  clear Hlen. intros H. inversion H; subst; match goal with X : host_runs _ _ [] _ _ _ _ |- _ => inversion X; subst end; eauto.
Qed.
Lemma host_none f mem f' mem' : host_runs ops oc [] f mem f' mem' -> f' = f /\ mem' = mem.
Proof. clear Hlen. intros H. inversion H; subst; auto. Qed.
Lemma does_errand j f mem s e before after f' mem' : tracks j f mem s -> prog = before ++ map encode_word (einstr e) ++ after -> j = length before -> after <> [] -> errand_wf e -> fwf f ->
  host_runs ops oc [e] f mem f' mem' -> exists s', quiet ops prog (length (einstr e)) s s' /\ tracks (length (einstr e) + j) f' mem' s' /\ fwf f'.
Proof.
  intros T HP HJ HA W F H. pose proof (prog_room _ _ _ HP HA) as Room. destruct e as [r v|a|a v|r]; cbn [errand_wf einstr] in *.
  - apply host_one in H. destruct H as (Ef & Em). subst f' mem' j. destruct (does_load_const (length before) f mem s r v before after) as (s' & Q & T'); try tauto; auto.
    exists s'. split; [exact Q|]. split; [exact T'|]. apply fwf_changed; tauto.
  - apply host_one in H. destruct H as (w & A & E & Ef). subst f' j.
    destruct (goes_to_access (length before) f mem s (EGet a) before (encode_word (Lea (Reg1 R_avr) (Lit1 0) (Lit1 0)) :: after)) as (s1 & Q1 & T1); auto.
    { discriminate. }
    cbn [einit ebefore] in *. change (length (load_const R_avr a)) with 3%nat in *. change (length (load_const R_avr a ++ [Lea (Reg1 R_avr) (Lit1 0) (Lit1 0)])) with (3 + 1)%nat in *.
    destruct (does_lea (3 + length before) (changed f R_avr a) mem s1 R_avr mem' w T1) as (s2 & E2 & T2); try rewrite changed_same; auto. { unfold general; cbn; lia. }
    destruct (mem_read_typed ops oc mem a mem' 0 w (dev_typed oc) E) as (_ & Uw).
    exists s2. split; [|split; [|apply fwf_changed; auto]].
    + eapply quiet_app; [exact Q1|]. eapply (one_step (3 + length before)); [exact T1| |apply lea_wf|reflexivity|exact I|exact E2].
      apply (at_word before (load_const R_avr a) _ [] after _ HP). reflexivity.
    + eapply tracks_ext; [exact T2|]. intros x _. rewrite !changed_get. destruct (reg_eq_dec x R_avr); reflexivity.
  - apply host_one in H. destruct H as (A & E & Ef). subst f' j. destruct W as (W1 & W2).
    destruct (goes_to_access (length before) f mem s (EPut a v) before (encode_word (Wea (Reg1 R_rr0) (Lit1 0) (Lit1 0)) :: after)) as (s1 & Q1 & T1); auto.
    { discriminate. } { split; auto. }
    cbn [einit ebefore] in *. change (length (load_const R_rr0 a ++ load_const R_avr v)) with 6%nat in *.
    change (length (load_const R_rr0 a ++ load_const R_avr v ++ [Wea (Reg1 R_rr0) (Lit1 0) (Lit1 0)])) with (6 + 1)%nat in *.
    assert (E0 : changed (changed f R_rr0 a) R_avr v R_rr0 = a) by reflexivity.
    destruct (does_wea (6 + length before) (changed (changed f R_rr0 a) R_avr v) mem s1 R_rr0 mem' T1) as (s2 & E2 & T2); try rewrite E0; try rewrite changed_same; auto. { unfold general; cbn; lia. }
    exists s2. split; [|split; [exact T2|repeat apply fwf_changed; auto]].
    eapply quiet_app; [exact Q1|]. eapply (one_step (6 + length before)); [exact T1| |apply wea_wf|reflexivity|exact I|exact E2].
    apply (at_word before (load_const R_rr0 a ++ load_const R_avr v) _ [] after _ HP). reflexivity.
  - apply host_one in H. destruct H as (A & E & Ef). subst f' j.
    destruct (does_wea (length before) f mem s r mem' T) as (s2 & E2 & T2); auto.
    exists s2. split; [|auto]. eapply (one_step (length before)); [exact T| |apply wea_wf|reflexivity|exact I|exact E2].
    apply (at_word before [] _ [] after _ HP). reflexivity.
Qed.
Lemma host_runs_cons e es f mem f' mem' : host_runs ops oc (e :: es) f mem f' mem' -> exists f1 mem1, host_runs ops oc [e] f mem f1 mem1 /\ host_runs ops oc es f1 mem1 f' mem'.
Proof.
  intros H. inversion H; subst; do 2 eexists; (split; [|eassumption]); econstructor; try eassumption; apply hr_done.
Qed.
Lemma does_errands es : forall j f mem s before after f' mem', tracks j f mem s -> prog = before ++ map encode_word (flat_map einstr es) ++ after -> j = length before -> after <> [] -> Forall errand_wf es -> fwf f ->
  host_runs ops oc es f mem f' mem' -> exists s', quiet ops prog (length (flat_map einstr es)) s s' /\ tracks (length (flat_map einstr es) + j) f' mem' s' /\ fwf f'.
Proof.
  induction es as [|e es IH]; intros j f mem s before after f' mem' T HP HJ HA W F H.
  { apply host_none in H. destruct H as (Ef & Em). subst f' mem'. exists s. split; [apply quiet_0|auto]. }
  destruct (host_runs_cons _ _ _ _ _ _ H) as (f1 & mem1 & H1 & H2). pose proof (Forall_inv W) as W1. pose proof (Forall_inv_tail W) as W2. subst j. cbn [flat_map] in *. rewrite map_app, <- app_assoc in HP.
  destruct (does_errand (length before) f mem s e before (map encode_word (flat_map einstr es) ++ after) f1 mem1) as (s1 & Q1 & T1 & F1); auto. { destruct after; [congruence|]. destruct (map encode_word (flat_map einstr es)); discriminate. }
  destruct (IH (length (einstr e) + length before)%nat f1 mem1 s1 (before ++ map encode_word (einstr e)) after f' mem') as (s2 & Q2 & T2 & F2); auto.
  { rewrite HP, <- !app_assoc. reflexivity. } { rewrite app_length, map_length. lia. }
  exists s2. rewrite app_length. split; [eapply quiet_app; eauto|]. split; [|exact F2]. replace (length (einstr e) + length (flat_map einstr es) + length before)%nat with (length (flat_map einstr es) + (length (einstr e) + length before))%nat by lia. exact T2.
Qed.
Lemma fails_errand j f mem s e before after mem1 code data : tracks j f mem s -> prog = before ++ map encode_word (einstr e) ++ after -> j = length before -> after <> [] -> errand_wf e -> fwf f ->
  host_fails ops oc e f mem mem1 code data ->
  exists s1 s', length (einstr e) = S (length (einit e)) /\ quiet ops prog (length (einit e)) s s1 /\ get s1 R_pc = 4 * Z.of_nat (length (einit e) + j) /\ quiet ops prog 1 s1 s' /\ stopped_by (length (einit e) + j) mem1 code data s' /\ is_u16 data.
Proof.
  intros T HP HJ HA W F H. pose proof (prog_room _ _ _ HP HA) as Room.
  assert (M : forall x, x mod 4 <> 0 -> is_u16 (x mod 4)) by (unfold is_u16; intros; lia).
  destruct e as [r v|a|a v|r]; cbn [errand_wf einstr] in *; [inversion H| | |].
  - destruct (goes_to_access j f mem s (EGet a) before (encode_word (Lea (Reg1 R_avr) (Lit1 0) (Lit1 0)) :: after)) as (s1 & Q1 & T1); auto.
    { discriminate. }
    cbn [einit ebefore] in *. change (length (load_const R_avr a)) with 3%nat in *. change (length (load_const R_avr a ++ [Lea (Reg1 R_avr) (Lit1 0) (Lit1 0)])) with (3 + 1)%nat in *.
    assert (X : exists w, (a mod 4 <> 0 /\ mem1 = mem /\ code = 5 /\ data = a mod 4) \/ (a mod 4 = 0 /\ mem_read ops oc mem a = Ret (mem1, data, w) /\ data <> 0 /\ code = 160)).
    { inversion H; subst; [exists 0; left; auto|eexists; right; split; [assumption|split; [eassumption|auto]]]. }
    destruct X as (w & X). assert (U : is_u16 data). { destruct X as [(X & _ & _ & ->)|(_ & X & _)]; [auto|]. apply (mem_read_typed ops oc mem a mem1 data w (dev_typed oc) X). }
    destruct (fail_lea (3 + j) (changed f R_avr a) mem s1 R_avr mem1 code data w T1) as (s2 & E2 & S2); try rewrite changed_same; auto. { lia. } { unfold general; cbn; lia. }
    exists s1, s2. split; [reflexivity|]. split; [exact Q1|]. split; [apply T1|]. split; [|split; [exact S2|exact U]].
    eapply (one_step (3 + j)); [exact T1| |apply lea_wf|reflexivity|exact I|exact E2]. apply (at_word before (load_const R_avr a) _ [] after _ HP). rewrite HJ. reflexivity.
  - destruct W as (W1 & W2). destruct (goes_to_access j f mem s (EPut a v) before (encode_word (Wea (Reg1 R_rr0) (Lit1 0) (Lit1 0)) :: after)) as (s1 & Q1 & T1); auto.
    { discriminate. } { split; auto. }
    cbn [einit ebefore] in *. change (length (load_const R_rr0 a ++ load_const R_avr v)) with 6%nat in *.
    change (length (load_const R_rr0 a ++ load_const R_avr v ++ [Wea (Reg1 R_rr0) (Lit1 0) (Lit1 0)])) with (6 + 1)%nat in *.
    assert (E0 : changed (changed f R_rr0 a) R_avr v R_rr0 = a) by reflexivity.
    assert (X : (a mod 4 <> 0 /\ mem1 = mem /\ code = 5 /\ data = a mod 4) \/ (a mod 4 = 0 /\ mem_write ops oc mem a v = Ret (mem1, data) /\ data <> 0 /\ code = 160)).
    { inversion H; subst; [left; auto|right; auto]. }
    assert (U : is_u16 data). { destruct X as [(X & _ & _ & ->)|(_ & X & _)]; [auto|]. apply (mem_write_typed ops oc mem a v mem1 data (dev_typed oc) X). }
    destruct (fail_wea (6 + j) (changed (changed f R_rr0 a) R_avr v) mem s1 R_rr0 mem1 code data T1) as (s2 & E2 & S2); try rewrite E0; try rewrite changed_same; auto. { lia. } { unfold general; cbn; lia. }
    exists s1, s2. split; [reflexivity|]. split; [exact Q1|]. split; [apply T1|]. split; [|split; [exact S2|exact U]].
    eapply (one_step (6 + j)); [exact T1| |apply wea_wf|reflexivity|exact I|exact E2]. apply (at_word before (load_const R_rr0 a ++ load_const R_avr v) _ [] after _ HP). rewrite HJ. reflexivity.
  - assert (X : (f r mod 4 <> 0 /\ mem1 = mem /\ code = 5 /\ data = f r mod 4) \/ (f r mod 4 = 0 /\ mem_write ops oc mem (f r) (f R_avr) = Ret (mem1, data) /\ data <> 0 /\ code = 160)).
    { inversion H; subst; [left; auto|right; auto]. }
    assert (U : is_u16 data). { destruct X as [(X & _ & _ & ->)|(_ & X & _)]; [auto|]. apply (mem_write_typed ops oc mem _ _ mem1 data (dev_typed oc) X). }
    destruct (fail_wea j f mem s r mem1 code data T) as (s2 & E2 & S2); auto. { rewrite HJ. exact Room. }
    exists s, s2. split; [reflexivity|]. split; [apply quiet_0|]. split; [apply T|]. split; [|split; [exact S2|exact U]].
    eapply (one_step j); [exact T| |apply wea_wf|reflexivity|exact I|exact E2]. apply (at_word before [] _ [] after _ HP). rewrite HJ. reflexivity.
Qed.
Lemma does_halt j f mem s before : tracks j f mem s -> prog = before ++ [encode_word Halt] -> j = length before -> Z.of_nat (S j) <= 2 ^ 30 ->
  exists s', quiet ops prog 1 s s' /\ s_halt s' = true /\ get s' R_et = 0 /\ s_bus s' = mem /\ s_cyc s' = Z.of_nat (S j) /\ forall r, general r -> get s' r = f r.
Proof.
  intros T HP HJ Room. pose proof T as (T1 & T2 & T3 & T4 & T5 & T6 & T7 & T8 & T9). set (s2 := St (s_reg s) (s_bus s) ((s_cyc s + 1) mod 2 ^ 128) true). exists (put s2 R_pc (m32 (get s2 R_pc + 4))). split.
  { apply (one_step j f mem s Halt); [exact T| |exact I|reflexivity|exact I|reflexivity]. rewrite HP, HJ, nth_error_app2, Nat.sub_diag by lia. reflexivity. }
  split; [reflexivity|]. rewrite get_put by exact T1. destruct (reg_eq_dec R_et R_pc) as [X|_]; [discriminate X|]. split; [exact T8|]. split; [exact T2|]. split.
  { cbn [put s_cyc s2]. rewrite T3. rewrite Z.mod_small by lia. lia. }
  intros r G. rewrite get_put by exact T1. destruct (reg_eq_dec r R_pc) as [->|_]; [exfalso; unfold general in G; cbn in G; lia|]. apply T9, G.
Qed.
End Script.

(** ** From the boot to the end *)
Lemma instrs_words es : script_words es = map encode_word (flat_map einstr es) ++ [encode_word Halt].
Proof.
  unfold script_words, encode_words, Asm.append. rewrite map_app. f_equal. induction es as [|e es IH]; [reflexivity|]. cbn [flat_map]. rewrite !map_app. f_equal; [|exact IH].
  destruct e; reflexivity.
Qed.
Lemma instrs_length es : Z.of_nat (length (flat_map einstr es)) = script_length es.
Proof. induction es as [|e es IH]; [reflexivity|]. cbn [flat_map script_length fold_right]. fold (script_length es). rewrite app_length, Nat2Z.inj_add, IH. destruct e; reflexivity. Qed.
Lemma instrs_wf es : Forall errand_wf es -> Forall (fun i => instr_wf i /\ wide_reg i = None) (flat_map einstr es).
Proof.
  assert (L : forall r v, Forall (fun i => instr_wf i /\ wide_reg i = None) (load_const r v)).
  { intros r v. unfold load_const. repeat constructor; cbn; unfold is_u16, is_u8, u16; lia. }
  induction 1 as [|e es W _ IH]; [constructor|]. cbn [flat_map]. apply Forall_app. split; [|exact IH].
  destruct e as [r v|a|a v|r]; cbn [einstr]; repeat (apply Forall_app; split); auto; repeat constructor; cbn; unfold is_u8; lia.
Qed.
Lemma script_u32 es : Forall errand_wf es -> Forall is_u32 (script_words es).
Proof.
  intros W. rewrite instrs_words. apply Forall_app. split; [|apply Forall_cons; [unfold is_u32; vm_compute; split; [discriminate|reflexivity]|apply Forall_nil]].
  apply Forall_forall. intros x I. apply in_map_iff in I. destruct I as (i & <- & I). pose proof (instrs_wf es W) as X. rewrite Forall_forall in X. destruct (X i I). apply instr_word; auto.
Qed.
Lemma boot_abs oc ds m0 : wf m0 -> prepare_vm (dev_ops oc) oc ds = Ret m0 -> abs m0 = St reset_file (c_mem m0) 0 false.
Proof.
  intros W H. unfold prepare_vm in H. destruct (board_new (dev_ops oc) ds) as [c|]; cbn [obind] in H; [|discriminate].
  destruct (map_contiguous oc (c_mem c) 0 (zrange (length ds))) as [[[mem [rg|e]] sts]|]; cbn [obind] in H; try discriminate.
  destruct (P_C38_reset_state _ _ _ _ H) as (HR & Hc & Hh & _). unfold abs. rewrite (booted_file _ m0 W HR), Hc, Hh. reflexivity.
Qed.
Lemma boot_tracks mem : tracks 0 (fun _ => 0) mem (St reset_file mem 0 false).
Proof. unfold tracks. repeat (split; [reflexivity|]). intros r G. unfold general in G. destruct r; cbn in G; try lia; reflexivity. Qed.

Section Exec.
Context (oc : bool) (prog : list Z) (s id sz : Z) (rest : list device) (m0 : cpu device) (cfg : run_config).
Notation ops := (dev_ops oc).
Context (Hp : Forall is_u32 prog) (Hd : declares ops (DRom (BootRom prog (zlen prog) s id)) sz) (Hs : zlen prog * 4 <= sz)
        (Hm : prepare_vm ops oc (DRom (BootRom prog (zlen prog) s id) :: rest) = Ret m0) (Hl : cf_limit cfg = None).
Lemma exec_quiet n s1 s' : quiet ops prog n (abs m0) s1 -> quiet ops prog 1 s1 s' -> s_halt s' = true /\ get s' R_et = 0 \/ cf_halt_on_ex cfg = true /\ get s' R_et <> 0 /\ ~ unprintable (get s' R_et) ->
  forall fuel, (S n < fuel)%nat ->
  exists m' x, exec_vm ops oc fuel cfg (DRom (BootRom prog (zlen prog) s id) :: rest) = Ret (Some (m', Stopped (s_cyc s') (get s1 R_pc) x)) /\ abs m' = s' /\ wf m' /\ reported cfg (S n) m' x.
Proof.
  intros Hq Hq1 Hstop fuel Hf. destruct (romed_boot oc prog s id rest sz m0 Hd Hm) as (HR & W & _).
  assert (HB : oc = true -> ends_below (c_mem m0)).
  { intros Ho. destruct (boot_history _ _ _ _ _ Hm) as (c & cs & Ec & Hc & Hn & Er). subst oc. eapply P_C03_mappings; [apply dev_typed|exact Hc|exact Hn|exact Ec|exact Er]. }
  destruct (quiet_run oc prog Hp s id n sz m0 s1 HR W HB Hs Hq) as (mn & En & An & Wn & _).
  pose proof (quiet_app _ _ _ _ _ _ _ _ Hq Hq1) as HQ. rewrite Nat.add_1_r in HQ.
  destruct (quiet_run oc prog Hp s id (S n) sz m0 s' HR W HB Hs HQ) as (m' & E & A & W' & K).
  assert (HS : stops_after ops oc cfg m0 (S n) m').
  { split; auto. split. { subst s'. destruct Hstop as [(X & _)|(X & Y & _)]; [left; exact X|right; right; split; [lia|auto]]. }
    intros k mk Hk Ek [X|[(l & X & _)|(_ & _ & X)]]; destruct (K k mk Hk Ek); congruence. }
  destruct (P_C65_returns _ ops oc cfg m0 (S n) m' (dev_typed oc) W HS) with (fuel := fuel) as (stp & Er); auto.
  { right. intros k mk Hk Ek. destruct (Nat.eq_dec k (S n)) as [->|].
    - assert (mk = m') by congruence. subst mk s'. change (get (abs m') R_et) with (R m' R_et) in Hstop. destruct Hstop as [(_ & ->)|(_ & _ & X)]; [|exact X]. intros ([X|X] & _); discriminate.
    - assert (R mk R_et = 0) as -> by (eapply K; [|exact Ek]; lia). intros ([X|X] & _); discriminate. }
  destruct (P_C65_stops _ ops oc fuel cfg m0 m' stp (dev_typed oc) W Er) as (n' & HS' & Hc & Ha & Hx).
  assert (n' = S n) as ->.
  { destruct HS as (S1 & S2 & S3), HS' as (Z1 & Z2 & Z3). destruct (Nat.lt_trichotomy n' (S n)) as [X|[X|X]]; [exfalso|exact X|exfalso].
    - apply (S3 n' m' X Z1). exact Z2. - apply (Z3 (S n) m' X S1). exact S2. }
  exists m', (sp_ex stp). split; [|auto]. unfold exec_vm. rewrite Hm. cbn [obind]. rewrite Er. f_equal. f_equal. f_equal.
  destruct Ha as (mk & Ek & Ha). cbn [pred] in Ek. assert (mk = mn) by congruence. subst mk. destruct stp as [c a x]. cbn [sp_cycles sp_addr sp_ex] in *. subst c a. f_equal; [subst s'|subst s1]; reflexivity.
Qed.
End Exec.

(** A script runs as the host does it. A machine whose boot ROM holds a script, with any other components: if the host, with the mapped
    memory of the machine once prepared, can do all the errands, then exec_vm returns after one cycle per word of the script, at its HALT,
    without exception, and the memory and the general registers are those of the host. *)
Lemma P_C85_runs : forall oc es s id sz rest m0 f' mem' cfg, Forall errand_wf es ->
  let rom := DRom (BootRom (script_words es) (zlen (script_words es)) s id) in
  declares (dev_ops oc) rom sz -> zlen (script_words es) * 4 <= sz -> prepare_vm (dev_ops oc) oc (rom :: rest) = Ret m0 -> cf_limit cfg = None ->
  host_runs (dev_ops oc) oc es (fun _ => 0) (c_mem m0) f' mem' ->
  forall fuel, script_length es + 1 < Z.of_nat fuel ->
  exists m', exec_vm (dev_ops oc) oc fuel cfg (rom :: rest) = Ret (Some (m', Stopped (script_length es + 1) (4 * script_length es) None)) /\
    c_halted m' = true /\ c_mem m' = mem' /\ forall r, general r -> R m' r = f' r.
Proof.
  intros oc es s id sz rest m0 f' mem' cfg W rom Hd Hs Hm Hl H fuel Hf. pose proof (script_u32 es W) as Hp.
  destruct (romed_boot oc _ s id rest sz m0 Hd Hm) as ((mp & mps & e & _ & _ & _ & _ & Hsz & _) & Wm & _).
  assert (Hlen : zlen (script_words es) <= 2 ^ 30) by lia. pose proof (instrs_words es) as HP. pose proof (instrs_length es) as HL.
  assert (Room : script_length es + 1 <= 2 ^ 30). { rewrite HP in Hlen. unfold zlen in Hlen. rewrite app_length, map_length in Hlen. cbn [length] in Hlen. lia. }
  destruct (does_errands oc (script_words es) Hlen es 0 (fun _ => 0) (c_mem m0) (abs m0) [] [encode_word Halt] f' mem') as (s1 & Q1 & T1 & _); auto.
  { rewrite (boot_abs oc _ m0 Wm Hm). apply boot_tracks. } { discriminate. } { intros r. unfold is_u32. lia. }
  rewrite Nat.add_0_r in T1.
  destruct (does_halt oc (script_words es) (length (flat_map einstr es)) f' mem' s1 (map encode_word (flat_map einstr es)) T1 HP) as (s' & Q2 & A1 & A2 & A3 & A4 & A5). { rewrite map_length. reflexivity. } { lia. }
  destruct (exec_quiet oc (script_words es) s id sz rest m0 cfg Hp Hd Hs Hm Hl _ s1 s' Q1 Q2 (or_introl (conj A1 A2)) fuel) as (m' & x & E & Am & Wm' & X). { lia. }
  exists m'. split; [|split; [|split]].
  - etransitivity; [exact E|]. rewrite A4. assert (get s1 R_pc = 4 * script_length es) as ->. { rewrite <- HL. apply T1. }
    assert (x = None) as ->. { unfold reported in X. change (R m' R_et) with (get (abs m') R_et) in X. rewrite Am, A2 in X. rewrite andb_false_r in X. exact X. }
    replace (Z.of_nat (S (length (flat_map einstr es)))) with (script_length es + 1) by lia. reflexivity.
  - subst s'. exact A1. - subst s'. exact A3. - intros r G. subst s'. exact (A5 r G).
Qed.
(** A script stops at the first errand the host cannot do, if the run stops on exceptions: exec_vm returns at the instruction that does the access,
    with the documented exception; the memory is the one the failed access leaves, and nothing later is done. *)
Lemma P_C85_fails : forall oc es e es' s id sz rest m0 f mem mem1 code data cfg, Forall errand_wf (es ++ e :: es') ->
  let rom := DRom (BootRom (script_words (es ++ e :: es')) (zlen (script_words (es ++ e :: es'))) s id) in
  declares (dev_ops oc) rom sz -> zlen (script_words (es ++ e :: es')) * 4 <= sz -> prepare_vm (dev_ops oc) oc (rom :: rest) = Ret m0 ->
  cf_limit cfg = None -> cf_halt_on_ex cfg = true ->
  host_runs (dev_ops oc) oc es (fun _ => 0) (c_mem m0) f mem -> host_fails (dev_ops oc) oc e f mem mem1 code data ->
  forall fuel, script_length es + errand_length e < Z.of_nat fuel ->
  exists m', exec_vm (dev_ops oc) oc fuel cfg (rom :: rest) =
      Ret (Some (m', Stopped (script_length es + errand_length e) (4 * (script_length es + errand_length e - 1)) (Some (ExWithMode (16777216 + code * 65536 + data) true code data)))) /\
    c_mem m' = mem1.
Proof.
  intros oc es e es' s id sz rest m0 f mem mem1 code data cfg W rom Hd Hs Hm Hl He H HF fuel Hf. pose proof (script_u32 _ W) as Hp. set (prog := script_words (es ++ e :: es')) in *.
  destruct (romed_boot oc _ s id rest sz m0 Hd Hm) as ((mp & mps & en & _ & _ & _ & _ & Hsz & _) & Wm & _).
  assert (Hlen : zlen prog <= 2 ^ 30) by lia. pose proof (instrs_length es) as HL.
  assert (HP : prog = map encode_word (flat_map einstr es) ++ map encode_word (einstr e) ++ map encode_word (flat_map einstr es') ++ [encode_word Halt]).
  { unfold prog. rewrite instrs_words, flat_map_app. cbn [flat_map]. rewrite !map_app, <- !app_assoc. reflexivity. }
  apply Forall_app in W. destruct W as (W1 & W2). pose proof (Forall_inv W2) as W3.
  destruct (does_errands oc prog Hlen es 0 (fun _ => 0) (c_mem m0) (abs m0) [] (map encode_word (einstr e) ++ map encode_word (flat_map einstr es') ++ [encode_word Halt]) f mem) as (s1 & Q1 & T1 & F1); auto.
  { rewrite (boot_abs oc _ m0 Wm Hm). apply boot_tracks. } { destruct e; discriminate. } { intros r. unfold is_u32. lia. }
  rewrite Nat.add_0_r in T1.
  destruct (fails_errand oc prog Hlen _ f mem s1 e (map encode_word (flat_map einstr es)) (map encode_word (flat_map einstr es') ++ [encode_word Halt]) mem1 code data T1 HP) as (s2 & s' & L & Q2 & P2 & Q3 & (S1 & S2 & S3) & U); auto.
  { rewrite map_length. reflexivity. } { destruct (map encode_word (flat_map einstr es')); discriminate. }
  assert (LE : Z.of_nat (length (einit e)) = errand_length e - 1). { pose proof (instrs_length [e]) as X. cbn [flat_map script_length fold_right] in X. rewrite app_nil_r in X. lia. }
  assert (Hcode : code = 5 \/ code = 160) by (inversion HF; auto). unfold is_u16 in U.
  assert (S0 : get s' R_et <> 0 /\ ~ unprintable (get s' R_et)). { rewrite S1. split; [lia|]. unfold unprintable. change (2 ^ 16) with 65536. change (2 ^ 8) with 256. intros (X & _). destruct Hcode; subst code; lia. }
  destruct (exec_quiet oc prog s id sz rest m0 cfg Hp Hd Hs Hm Hl _ s2 s' (quiet_app _ _ _ _ _ _ _ _ Q1 Q2) Q3 (or_intror (conj He S0)) fuel) as (m' & x & E & Am & Wm' & X). { lia. }
  exists m'. split; [|subst s'; exact S2].
  etransitivity; [exact E|]. rewrite S3, P2.
  assert (x = Some (ExWithMode (16777216 + code * 65536 + data) true code data)) as ->.
  { unfold reported in X. change (R m' R_et) with (get (abs m') R_et) in X. rewrite Am in X. destruct S0 as (S0 & _). apply Z.eqb_neq in S0. rewrite He, S0 in X. replace (0 <? Z.of_nat (S (length (flat_map einstr es) + length (einit e)))) with true in X by (symmetry; apply Z.ltb_lt; lia).
    cbn [andb negb] in X. destruct X as ([xr xs xc xd] & -> & X1 & X2 & X3 & X4). cbn [xm_raw xm_sv xm_code xm_data] in *. rewrite S1 in *. change (2 ^ 24) with 16777216 in X2. change (2 ^ 16) with 65536 in *. change (2 ^ 8) with 256 in *.
    f_equal. f_equal; [exact X1| |destruct Hcode; subst code; lia|destruct Hcode; subst code; lia]. rewrite X2. apply negb_true_iff, Z.eqb_neq. destruct Hcode; subst code; lia. }
  repeat f_equal; lia.
Qed.

(** ** Witnesses *)
Fixpoint host_exec (oc : bool) (es : list errand) (f : reg -> Z) (mem : memory device) : outcome ((reg -> Z) * memory device) :=
  match es with
  | [] => Ret (f, mem)
  | ESet r v :: es => host_exec oc es (changed f r v) mem
  | EGet a :: es => if a mod 4 =? 0 then match mem_read (dev_ops oc) oc mem a with Ret (mem1, 0, w) => host_exec oc es (changed f R_avr w) mem1 | _ => Panic end else Panic
  | EPut a v :: es => if a mod 4 =? 0 then match mem_write (dev_ops oc) oc mem a v with Ret (mem1, 0) => host_exec oc es (changed (changed f R_rr0 a) R_avr v) mem1 | _ => Panic end else Panic
  | EStore r :: es => if f r mod 4 =? 0 then match mem_write (dev_ops oc) oc mem (f r) (f R_avr) with Ret (mem1, 0) => host_exec oc es f mem1 | _ => Panic end else Panic
  end.
Lemma host_exec_sound oc es : forall f mem f' mem', host_exec oc es f mem = Ret (f', mem') -> host_runs (dev_ops oc) oc es f mem f' mem'.
Proof.
  induction es as [|[r v|a|a v|r] es IH]; intros f mem f' mem' H; cbn [host_exec] in H.
  - injection H as <- <-. apply hr_done.
  - apply hr_set. auto.
  - destruct (Z.eqb_spec (a mod 4) 0) as [A|]; [|discriminate]. destruct (mem_read _ _ _ _) as [[[mem1 [| |]] w]|] eqn:E; try discriminate. eapply hr_get; eauto.
  - destruct (Z.eqb_spec (a mod 4) 0) as [A|]; [|discriminate]. destruct (mem_write _ _ _ _ _) as [[mem1 [| |]]|] eqn:E; try discriminate. eapply hr_put; eauto.
  - destruct (Z.eqb_spec (f r mod 4) 0) as [A|]; [|discriminate]. destruct (mem_write _ _ _ _ _) as [[mem1 [| |]]|] eqn:E; try discriminate. eapply hr_store; eauto.
Qed.
Definition demo_script : list errand := [ESet R_ac0 260; EPut 256 19088743; EGet 256; EStore R_ac0].
Definition demo_rom (es : list errand) : device := DRom (BootRom (script_words es) (zlen (script_words es)) 64 1).
Lemma demo_rom_declares oc es : declares (dev_ops oc) (demo_rom es) 256.
Proof. apply (br_declares oc (BootRom (script_words es) (zlen (script_words es)) 64 1)); cbn; unfold is_u64; lia. Qed.
(** A script that sets a register, writes a word to RAM, reads it back, and stores it at the address in the register. *)
Lemma E_C85_runs : exists m0 f' mem', Forall errand_wf demo_script /\ declares (dev_ops true) (demo_rom demo_script) 256 /\ zlen (script_words demo_script) * 4 <= 256 /\
  prepare_vm (dev_ops true) true [demo_rom demo_script; DRam (StoreMem (zeros 64) 16 2)] = Ret m0 /\
  host_runs (dev_ops true) true demo_script (fun _ => 0) (c_mem m0) f' mem' /\ f' R_avr = 19088743 /\ (exists mem2, mem_read (dev_ops true) true mem' 260 = Ret (mem2, 0, 19088743)) /\ script_length demo_script = 15.
Proof.
  assert (X : exists m0, prepare_vm (dev_ops true) true [demo_rom demo_script; DRam (StoreMem (zeros 64) 16 2)] = Ret m0 /\
    then_check (host_exec true demo_script (fun _ => 0) (c_mem m0)) (fun x => (fst x R_avr =? 19088743) && then_check (mem_read (dev_ops true) true (snd x) 260) (fun y => (snd (fst y) =? 0) && (snd y =? 19088743))) = true)
    by (apply then_check_sound; vm_compute; reflexivity).
  destruct X as (m0 & E & X). apply then_check_sound in X. destruct X as ((f' & mem') & H & X). apply andb_prop in X. destruct X as (X1 & X2). apply then_check_sound in X2. destruct X2 as (((mem2 & ex) & w) & R2 & X2).
  apply andb_prop in X2. cbn [fst snd] in *. destruct X2 as (X2 & X3). apply Z.eqb_eq in X1, X2, X3. subst ex w. exists m0, f', mem'.
  split; [repeat (apply Forall_cons; [cbn; unfold general, is_u32; cbn; lia|]); apply Forall_nil|]. split; [apply demo_rom_declares|]. split; [vm_compute; discriminate|]. split; [exact E|]. split; [apply host_exec_sound; exact H|]. split; [exact X1|].
  split; [exists mem2; exact R2|reflexivity].
Qed.
(** A script that writes to RAM, then to the boot ROM, which is refused: exception 0x3100 (memory not writable). *)
Definition failing_script : list errand := [EPut 256 7].
Definition failing_rest : list errand := [EPut 260 9].
Lemma E_C85_fails : exists m0 f mem mem1, Forall errand_wf (failing_script ++ EPut 8 1 :: failing_rest) /\
  prepare_vm (dev_ops true) true [demo_rom (failing_script ++ EPut 8 1 :: failing_rest); DRam (StoreMem (zeros 64) 16 2)] = Ret m0 /\
  host_runs (dev_ops true) true failing_script (fun _ => 0) (c_mem m0) f mem /\ host_fails (dev_ops true) true (EPut 8 1) f mem mem1 160 12544.
Proof.
  assert (X : exists m0, prepare_vm (dev_ops true) true [demo_rom (failing_script ++ EPut 8 1 :: failing_rest); DRam (StoreMem (zeros 64) 16 2)] = Ret m0 /\
    then_check (host_exec true failing_script (fun _ => 0) (c_mem m0)) (fun x => then_check (mem_write (dev_ops true) true (snd x) 8 1) (fun y => snd y =? 12544)) = true)
    by (apply then_check_sound; vm_compute; reflexivity).
  destruct X as (m0 & E & X). apply then_check_sound in X. destruct X as ((f & mem) & H & X). apply then_check_sound in X. destruct X as ((mem1 & ex) & R2 & X). cbn [snd] in *. apply Z.eqb_eq in X. subst ex.
  exists m0, f, mem, mem1. split; [repeat (apply Forall_cons; [cbn; unfold general, is_u32; cbn; lia|]); apply Forall_nil|]. split; [exact E|]. split; [apply host_exec_sound; exact H|]. apply hf_put; [reflexivity|exact R2|discriminate].
Qed.
