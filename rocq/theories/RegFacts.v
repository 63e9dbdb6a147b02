(** Register access lemmas: the model's register record seen as the 32-entry file. *)
From Coq Require Import ZArith List Bool Lia.
From Verif Require Import Base Board Mem Cpu Asm SpecMach SpecIsa BaseFacts.
Import ListNotations.
Open Scope Z_scope.

Lemma len8 {A} (l : list A) : length l = 8%nat ->
  exists a b c d e f g h, l = [a;b;c;d;e;f;g;h].
Proof. destruct l as [|a[|b[|c[|d[|e[|f[|g[|h[|]]]]]]]]]; cbn; try discriminate. intros _; repeat eexists. Qed.
Lemma len3 {A} (l : list A) : length l = 3%nat -> exists a b c, l = [a;b;c].
Proof. destruct l as [|a[|b[|c[|]]]]; cbn; try discriminate. intros _; repeat eexists. Qed.
Lemma len2 {A} (l : list A) : length l = 2%nat -> exists a b, l = [a;b].
Proof. destruct l as [|a[|b[|]]]; cbn; try discriminate. intros _; repeat eexists. Qed.

(** Rebuild the record from a file. *)
Definition unfile (l : list Z) : regs :=
  match l with
  | [x0;x1;x2;x3;x4;x5;x6;x7;x8;x9;x10;x11;x12;x13;x14;x15;x16;x17;x18;x19;x20;x21;x22;x23;x24;x25;x26;
     x27;x28;x29;x30;x31] =>
      Regs [x0;x1;x2;x3;x4;x5;x6;x7] [x8;x9] [x10;x11;x12] [x13;x14;x15;x16;x17;x18;x19;x20]
        x21 x23 x22 x24 x25 x26 x27 x28 x29 x30 x31
  | _ => regs_new
  end.

Definition wr_regs (r : reg) (v : Z) (rg : regs) : regs := unfile (rs (file rg) r v).

(** Shape of a well-formed register record. *)
Ltac open_regs H :=
  let Ha := fresh in let Hc := fresh in let Hac := fresh in let Hrr := fresh in let HF := fresh "HF" in
  destruct H as (Ha & Hc & Hac & Hrr & HF);
  cbn [r_a r_c r_ac r_rr] in *;
  apply len8 in Ha; destruct Ha as (?a & ?a & ?a & ?a & ?a & ?a & ?a & ?a & ->);
  apply len2 in Hc; destruct Hc as (?c & ?c & ->);
  apply len3 in Hac; destruct Hac as (?d & ?d & ?d & ->);
  apply len8 in Hrr; destruct Hrr as (?e & ?e & ?e & ?e & ?e & ?e & ?e & ?e & ->).

Lemma file_length r : regs_wf r -> length (file r) = 32%nat.
Proof. destruct r; intros H; open_regs H. reflexivity. Qed.

Lemma unfile_file r : regs_wf r -> unfile (file r) = r.
Proof. destruct r; intros H; open_regs H. reflexivity. Qed.

Lemma len_cons {A} (l : list A) n : length l = S n -> exists x t, l = x :: t /\ length t = n.
Proof. destruct l; cbn; [discriminate|]. intros E; injection E as E. eauto. Qed.

Lemma file_unfile l : length l = 32%nat -> file (unfile l) = l.
Proof.
  intros H.
  do 32 (apply len_cons in H; destruct H as (? & ? & -> & H)).
  match type of H with length ?l = _ => destruct l; [|discriminate H] end. reflexivity.
Qed.

Lemma upd_length l n v : length (upd l n v) = length l.
Proof. revert n; induction l; destruct n; cbn; auto. Qed.
Lemma upd_nth l n v k : nth k (upd l n v) 0 = if andb (Nat.eqb k n) (Nat.ltb n (length l)) then v else nth k l 0.
Proof.
  revert n k; induction l as [|x t IH]; intros n k.
  - cbn. replace (n <? 0)%nat with false by (symmetry; apply Nat.ltb_ge; lia).
    rewrite andb_false_r. reflexivity.
  - destruct n, k; cbn [upd nth]; try reflexivity.
    rewrite IH. cbn. reflexivity.
Qed.
Lemma upd_Forall P l n v : Forall P l -> P v -> Forall P (upd l n v).
Proof. intros H Hv; revert n; induction H; destruct n; cbn; constructor; auto. Qed.

Lemma reg_code_range r : 0 <= reg_code r < 32.
Proof. destruct r; cbn; lia. Qed.
Lemma reg_code_inj r r' : reg_code r = reg_code r' -> r = r'.
Proof. destruct r, r'; cbn; congruence. Qed.
Lemma reg_from_code_code r : reg_from_code (reg_code r) = Some r.
Proof. destruct r; reflexivity. Qed.
Lemma reg_code_from_code c r : reg_from_code c = Some r -> reg_code r = c.
Proof.
  unfold reg_from_code. intros H.
  repeat match type of H with
  | match ?x with _ => _ end = _ => is_var x; destruct x; try discriminate H
  | Some _ = Some _ => injection H as <-; reflexivity
  end.
Qed.
Lemma reg_from_code_total c : 0 <= c < 32 -> exists r, reg_from_code c = Some r.
Proof.
  intros H.
  assert (C : c = 0 \/ c = 1 \/ c = 2 \/ c = 3 \/ c = 4 \/ c = 5 \/ c = 6 \/ c = 7 \/ c = 8 \/ c = 9 \/
          c = 10 \/ c = 11 \/ c = 12 \/ c = 13 \/ c = 14 \/ c = 15 \/ c = 16 \/ c = 17 \/ c = 18 \/
          c = 19 \/ c = 20 \/ c = 21 \/ c = 22 \/ c = 23 \/ c = 24 \/ c = 25 \/ c = 26 \/ c = 27 \/
          c = 28 \/ c = 29 \/ c = 30 \/ c = 31) by lia.
  repeat (destruct C as [->|C]; [eexists; reflexivity|]). subst; eexists; reflexivity.
Qed.
Lemma reg_from_code_none c : 32 <= c -> reg_from_code c = None.
Proof.
  intros H. destruct (reg_from_code c) eqn:E; auto.
  apply reg_code_from_code in E. pose proof (reg_code_range r). lia.
Qed.

Lemma reg_eq_dec (a b : reg) : {a = b} + {a <> b}.
Proof. decide equality. Defined.

Lemma rg_rs l r r' v : length l = 32%nat -> rg (rs l r v) r' = if reg_eq_dec r' r then v else rg l r'.
Proof.
  intros H. unfold rg, rs. rewrite upd_nth, H.
  pose proof (reg_code_range r).
  replace (Z.to_nat (reg_code r) <? 32)%nat with true by (symmetry; apply Nat.ltb_lt; lia).
  rewrite andb_true_r.
  destruct (reg_eq_dec r' r) as [->|N].
  - rewrite Nat.eqb_refl. reflexivity.
  - destruct (Nat.eqb_spec (Z.to_nat (reg_code r')) (Z.to_nat (reg_code r))); auto.
    exfalso; apply N, reg_code_inj. pose proof (reg_code_range r'). lia.
Qed.
Lemma rg_rs_same l r v : length l = 32%nat -> rg (rs l r v) r = v.
Proof. intros. rewrite rg_rs by auto. destruct (reg_eq_dec r r); congruence. Qed.
Lemma rg_rs_other l r r' v : length l = 32%nat -> r' <> r -> rg (rs l r v) r' = rg l r'.
Proof. intros. rewrite rg_rs by auto. destruct (reg_eq_dec r' r); congruence. Qed.
Lemma rs_length l r v : length (rs l r v) = length l.
Proof. apply upd_length. Qed.
Lemma upd_upd_same l n v w : upd (upd l n v) n w = upd l n w.
Proof. revert n; induction l; destruct n; cbn; f_equal; auto. Qed.
Lemma upd_upd_comm l n k v w : n <> k -> upd (upd l n v) k w = upd (upd l k w) n v.
Proof. revert n k; induction l; destruct n, k; cbn; intros; try congruence; f_equal; auto. Qed.
Lemma rs_rs_same l r v w : rs (rs l r v) r w = rs l r w.
Proof. apply upd_upd_same. Qed.
Lemma rs_rs_comm l r r' v w : r <> r' -> rs (rs l r v) r' w = rs (rs l r' w) r v.
Proof.
  intros N. apply upd_upd_comm. intros E. apply N, reg_code_inj.
  pose proof (reg_code_range r). pose proof (reg_code_range r'). lia.
Qed.
Lemma upd_self l n : upd l n (nth n l 0) = l.
Proof. revert n; induction l; destruct n; cbn; f_equal; auto. Qed.
Lemma rs_self l r : rs l r (rg l r) = l.
Proof. apply upd_self. Qed.

Lemma rg_u32 l r : Forall is_u32 l -> is_u32 (rg l r).
Proof.
  intros H. unfold rg. destruct (Nat.lt_ge_cases (Z.to_nat (reg_code r)) (length l)).
  - rewrite Forall_forall in H. apply H, nth_In; auto.
  - rewrite nth_overflow by auto. unfold is_u32; lia.
Qed.

Lemma wr_regs_file r v g : regs_wf g -> file (wr_regs r v g) = rs (file g) r v.
Proof. intros H. unfold wr_regs. apply file_unfile. rewrite rs_length. apply file_length; auto. Qed.

Lemma unfile_wf l : length l = 32%nat -> Forall is_u32 l -> regs_wf (unfile l).
Proof.
  intros H HF. assert (E := file_unfile l H).
  do 32 (apply len_cons in H; destruct H as (? & ? & -> & H)).
  match type of H with length ?l = _ => destruct l; [|discriminate H] end.
  split; [|split; [|split; [|split]]]; try reflexivity.
  rewrite E. exact HF.
Qed.
Lemma wr_regs_wf r v g : regs_wf g -> is_u32 v -> regs_wf (wr_regs r v g).
Proof.
  intros H Hv. apply unfile_wf. { rewrite rs_length; apply file_length; auto. }
  apply upd_Forall; auto. apply H.
Qed.

Lemma regs_new_wf : regs_wf (set_smt 1 regs_new).
Proof.
  repeat split. cbn. repeat constructor; unfold is_u32; lia.
Qed.

(** Record fields as file entries. *)
Section Fields.
Context {D : Type}.
Implicit Type m : cpu D.
Lemma field_gen g : regs_wf g ->
  r_avr g = rg (file g) R_avr /\ r_pc g = rg (file g) R_pc /\ r_af g = rg (file g) R_af /\
  r_ssp g = rg (file g) R_ssp /\ r_usp g = rg (file g) R_usp /\ r_et g = rg (file g) R_et /\
  r_era g = rg (file g) R_era /\ r_ev g = rg (file g) R_ev /\ r_mtt g = rg (file g) R_mtt /\
  r_pda g = rg (file g) R_pda /\ r_smt g = rg (file g) R_smt.
Proof. destruct g; intros H; open_regs H. repeat split. Qed.
Lemma r_avr_R m : regs_wf (c_regs m) -> r_avr (c_regs m) = R m R_avr. Proof. intros H; apply field_gen in H; tauto. Qed.
Lemma r_pc_R m : regs_wf (c_regs m) -> r_pc (c_regs m) = R m R_pc. Proof. intros H; apply field_gen in H; tauto. Qed.
Lemma r_af_R m : regs_wf (c_regs m) -> r_af (c_regs m) = R m R_af. Proof. intros H; apply field_gen in H; tauto. Qed.
Lemma r_ssp_R m : regs_wf (c_regs m) -> r_ssp (c_regs m) = R m R_ssp. Proof. intros H; apply field_gen in H; tauto. Qed.
Lemma r_usp_R m : regs_wf (c_regs m) -> r_usp (c_regs m) = R m R_usp. Proof. intros H; apply field_gen in H; tauto. Qed.
Lemma r_ev_R m : regs_wf (c_regs m) -> r_ev (c_regs m) = R m R_ev. Proof. intros H; apply field_gen in H; tauto. Qed.
Lemma r_mtt_R m : regs_wf (c_regs m) -> r_mtt (c_regs m) = R m R_mtt. Proof. intros H; apply field_gen in H; tauto. Qed.
Lemma r_pda_R m : regs_wf (c_regs m) -> r_pda (c_regs m) = R m R_pda. Proof. intros H; apply field_gen in H; tauto. Qed.
Lemma r_smt_R m : regs_wf (c_regs m) -> r_smt (c_regs m) = R m R_smt. Proof. intros H; apply field_gen in H; tauto. Qed.
End Fields.

(** Field setters as file updates. *)
Lemma set_pc_wr v g : regs_wf g -> set_pc v g = wr_regs R_pc v g.
Proof. destruct g; intros H; open_regs H. reflexivity. Qed.
Lemma set_avr_wr v g : regs_wf g -> set_avr v g = wr_regs R_avr v g.
Proof. destruct g; intros H; open_regs H. reflexivity. Qed.
Lemma set_af_wr v g : regs_wf g -> set_af v g = wr_regs R_af v g.
Proof. destruct g; intros H; open_regs H. reflexivity. Qed.
Lemma set_ssp_wr v g : regs_wf g -> set_ssp v g = wr_regs R_ssp v g.
Proof. destruct g; intros H; open_regs H. reflexivity. Qed.
Lemma set_usp_wr v g : regs_wf g -> set_usp v g = wr_regs R_usp v g.
Proof. destruct g; intros H; open_regs H. reflexivity. Qed.
Lemma set_et_wr v g : regs_wf g -> set_et v g = wr_regs R_et v g.
Proof. destruct g; intros H; open_regs H. reflexivity. Qed.
Lemma set_smt_wr v g : regs_wf g -> set_smt v g = wr_regs R_smt v g.
Proof. destruct g; intros H; open_regs H. reflexivity. Qed.

Section Acc.
Context {D : Type}.
Implicit Type m : cpu D.

Definition is_sup m : bool := negb (R m R_smt =? 0).
Lemma sv_mode_sup m : regs_wf (c_regs m) -> sv_mode m = is_sup m.
Proof. intros. unfold sv_mode, is_sup. rewrite r_smt_R; auto. Qed.

(** Machine with register [r] overwritten. *)
Definition wr (r : reg) (v : Z) m : cpu D := with_regs (wr_regs r v) m.
(** Write by an instruction: writing pc also marks it as changed. *)
Definition wri (r : reg) (v : Z) m : cpu D :=
  match r with R_pc => with_chg true (wr r v m) | _ => wr r v m end.

Lemma read_reg_lemma r m : regs_wf (c_regs m) ->
  read_reg (reg_code r) m = if can_read (is_sup m) r then COk (R m r) m else CErr (exception 3 (reg_code r) m).
Proof.
  intros H. pose proof (sv_mode_sup m H) as S. unfold read_reg. rewrite S.
  destruct m as [g mem cyc hlt chg]. unfold R. cbn [c_regs] in *.
  destruct (is_sup _); clear S;
    destruct g; open_regs H; destruct r; reflexivity.
Qed.

Lemma write_reg_lemma r v m : regs_wf (c_regs m) ->
  write_reg (reg_code r) v m =
    if can_write (is_sup m) r then COk tt (wri r v m) else CErr (exception 4 (reg_code r) m).
Proof.
  intros H. pose proof (sv_mode_sup m H) as S. unfold write_reg. rewrite S.
  destruct m as [g mem cyc hlt chg]. cbn [c_regs] in *.
  destruct (is_sup _); clear S;
    destruct g; open_regs H; destruct r; reflexivity.
Qed.

Lemma read_reg_bad c m : regs_wf (c_regs m) -> 32 <= c ->
  read_reg c m = CErr (exception (if is_sup m then 2 else 3) c m).
Proof.
  intros H Hc. unfold read_reg. rewrite sv_mode_sup by auto.
  replace (24 <=? c) with true by (symmetry; apply Z.leb_le; lia).
  destruct (is_sup m); cbn [andb negb]; auto.
  replace (c <=? 7) with false by (symmetry; apply Z.leb_gt; lia).
  replace (c <=? 9) with false by (symmetry; apply Z.leb_gt; lia).
  replace (c <=? 12) with false by (symmetry; apply Z.leb_gt; lia).
  replace (c <=? 20) with false by (symmetry; apply Z.leb_gt; lia).
  repeat match goal with |- context[match ?x with _ => _ end] => is_var x; destruct x; try reflexivity end;
  exfalso; lia.
Qed.
Lemma write_reg_bad c v m : regs_wf (c_regs m) -> 32 <= c ->
  write_reg c v m = CErr (exception (if is_sup m then 2 else 4) c m).
Proof.
  intros H Hc. unfold write_reg. rewrite sv_mode_sup by auto.
  replace (23 <=? c) with true by (symmetry; apply Z.leb_le; lia).
  destruct (is_sup m); cbn [andb negb]; auto.
  replace (c =? 23) with false by (symmetry; apply Z.eqb_neq; lia).
  replace (c =? 26) with false by (symmetry; apply Z.eqb_neq; lia).
  replace (c =? 27) with false by (symmetry; apply Z.eqb_neq; lia).
  replace (c =? 22) with false by (symmetry; apply Z.eqb_neq; lia).
  cbn [orb]. cbv zeta.
  replace (c <=? 7) with false by (symmetry; apply Z.leb_gt; lia).
  replace (c <=? 9) with false by (symmetry; apply Z.leb_gt; lia).
  replace (c <=? 12) with false by (symmetry; apply Z.leb_gt; lia).
  replace (c <=? 20) with false by (symmetry; apply Z.leb_gt; lia).
  repeat match goal with |- context[match ?x with _ => _ end] => is_var x; destruct x; try reflexivity end;
  exfalso; lia.
Qed.

(** Effects of [wr]/[wri] on the observables. *)
Lemma R_wr m r v r' : regs_wf (c_regs m) -> R (wr r v m) r' = if reg_eq_dec r' r then v else R m r'.
Proof. intros H. unfold R, wr, with_regs; cbn [c_regs]. rewrite wr_regs_file by auto. apply rg_rs, file_length; auto. Qed.
Lemma R_wr_same m r v : regs_wf (c_regs m) -> R (wr r v m) r = v.
Proof. intros. rewrite R_wr by auto. destruct (reg_eq_dec r r); congruence. Qed.
Lemma R_wr_other m r v r' : regs_wf (c_regs m) -> r' <> r -> R (wr r v m) r' = R m r'.
Proof. intros. rewrite R_wr by auto. destruct (reg_eq_dec r' r); congruence. Qed.
Lemma file_wr m r v : regs_wf (c_regs m) -> file (c_regs (wr r v m)) = rs (file (c_regs m)) r v.
Proof. intros. unfold wr, with_regs; cbn [c_regs]. apply wr_regs_file; auto. Qed.
Lemma wr_wf m r v : regs_wf (c_regs m) -> is_u32 v -> regs_wf (c_regs (wr r v m)).
Proof. intros. unfold wr, with_regs; cbn [c_regs]. apply wr_regs_wf; auto. Qed.
Lemma wri_wf m r v : regs_wf (c_regs m) -> is_u32 v -> regs_wf (c_regs (wri r v m)).
Proof. intros. unfold wri. destruct r; cbn [with_chg c_regs]; apply wr_wf; auto. Qed.
Lemma R_u32 m r : regs_wf (c_regs m) -> is_u32 (R m r).
Proof. intros H. apply rg_u32. apply H. Qed.

Lemma exception_eq code a m : regs_wf (c_regs m) ->
  exception code a m =
  with_chg true (with_regs (fun g => wr_regs R_smt 1 (wr_regs R_pc (r_ev g)
      (wr_regs R_et ((if is_sup m then 16777216 else 0) + code * 65536 + a) g))) m).
Proof.
  intros H. unfold exception. rewrite sv_mode_sup by auto.
  unfold with_chg, with_regs; cbn [c_regs c_mem c_cycles c_halted c_chg]. f_equal.
  destruct m as [g ? ? ? ?]; cbn [c_regs] in *.
  destruct g; open_regs H. reflexivity.
Qed.
Lemma exception_file code a m : regs_wf (c_regs m) ->
  file (c_regs (exception code a m)) =
  rs (rs (rs (file (c_regs m)) R_et ((if is_sup m then 16777216 else 0) + code * 65536 + a))
         R_pc (R m R_ev)) R_smt 1.
Proof.
  intros H. unfold exception. rewrite sv_mode_sup by auto.
  cbn [c_regs].
  destruct m as [g ? ? ? ?]; unfold R; cbn [c_regs] in *.
  destruct (is_sup _); destruct g; open_regs H; reflexivity.
Qed.
Lemma exception_wf code a m : regs_wf (c_regs m) -> is_u8 code -> is_u16 a ->
  regs_wf (c_regs (exception code a m)).
Proof.
  intros H Hc Ha. rewrite exception_eq by auto. unfold with_chg, with_regs; cbn [c_regs].
  apply wr_regs_wf; [|unfold is_u32; lia].
  apply wr_regs_wf; [apply wr_regs_wf; auto|].
  - unfold is_u8, is_u16, is_u32 in *. destruct (is_sup m); lia.
  - rewrite r_ev_R by auto. apply R_u32; auto.
Qed.
End Acc.
