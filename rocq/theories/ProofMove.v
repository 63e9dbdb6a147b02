(** Proofs of C91: code can be moved; an exception forgets where it was raised. *)
From Coq Require Import ZArith List Bool Lia.
From Verif Require Import Base Board Mem Cpu Asm Devices DevTyped SpecMach SpecIsa SpecBus SpecObs SpecTools SpecSim SpecTotal SpecUser SpecMove SpecLasm BaseFacts RegFacts MemFacts AluFacts IsaFacts IsaStep CycleFacts MonoFacts InvFacts CyclePost ReachFacts ExecFacts ProofAlu ProofPanic ProofRun Demo ProofState ProofReg ProofTotal.
Import ListNotations.
Open Scope Z_scope.
Ltac Zify.zify_post_hook ::= Z.div_mod_to_equations.

Section Spec.
Context {B : Type} (bs : bus B) (k : Z).
Implicit Types s : st B.
Implicit Types o : outcome (st B).
Definition len s : Prop := length (s_reg s) = 32%nat.
Definition mv s : st B := put s R_pc (m32 (get s R_pc + k)).
(** Both end the same, or both end normally, the second one further; [e] is et at the beginning. *)
Definition rel (e : Z) o1 o2 : Prop := o1 = o2 \/ exists s, o1 = Ret s /\ o2 = Ret (mv s) /\ len s /\ get s R_et = e.

Lemma get_mv s r : len s -> r <> R_pc -> get (mv s) r = get s r.
Proof. intros L N. unfold mv, get, put. cbn [s_reg]. apply rg_rs_other; auto. Qed.
Lemma sup_mv s : len s -> sup (mv s) = sup s.
Proof. intros L. unfold sup. rewrite get_mv by (auto; discriminate). reflexivity. Qed.
Lemma get_put s r v r' : len s -> get (put s r v) r' = if reg_eq_dec r' r then v else get s r'.
Proof. intros H. unfold get, put. cbn [s_reg]. apply rg_rs, H. Qed.
Lemma len_put s r v : len s -> len (put s r v).
Proof. unfold len, put. cbn [s_reg]. rewrite rs_length. auto. Qed.
Lemma put_mv s r v : len s -> r <> R_pc -> put (mv s) r v = mv (put s r v).
Proof.
  intros L N. unfold mv. rewrite get_put by exact L. destruct (reg_eq_dec R_pc r) as [X|_]; [congruence|]. unfold put. cbn [s_reg s_bus s_cyc s_halt]. f_equal. apply rs_rs_comm. congruence.
Qed.
Lemma put_mv_pc s v : put (mv s) R_pc v = put s R_pc v.
Proof. unfold mv, put. cbn [s_reg s_bus s_cyc s_halt]. f_equal. apply rs_rs_same. Qed.
Lemma bus_mv s : s_bus (mv s) = s_bus s.
Proof. reflexivity. Qed.
Lemma with_mv s b : with_bus (mv s) b = mv (with_bus s b).
Proof. reflexivity. Qed.

Lemma r_same e o : rel e o o.
Proof. left. reflexivity. Qed.
Lemma r_raise e s c d : len s -> rel e (raise c d s) (raise c d (mv s)).
Proof.
  intros L. left. unfold raise. rewrite sup_mv by exact L. rewrite get_mv by (auto; discriminate). rewrite put_mv by (auto; discriminate). rewrite put_mv_pc. reflexivity.
Qed.
Lemma r_advance e s n : len s -> get s R_et = e -> rel e (advance n s) (advance n (mv s)).
Proof.
  intros L E. right. exists (put s R_pc (m32 (get s R_pc + n))). split; [reflexivity|]. split; [|split; [apply len_put, L|rewrite get_put by exact L; exact E]].
  unfold advance. rewrite put_mv_pc. f_equal. unfold mv. rewrite !get_put by (try apply len_put; exact L). cbn [reg_eq_dec]. unfold put. cbn [s_reg s_bus s_cyc s_halt]. rewrite rs_rs_same. f_equal. f_equal.
  destruct (reg_eq_dec R_pc R_pc) as [_|X]; [|congruence]. unfold m32. rewrite !Zplus_mod_idemp_l. f_equal. lia.
Qed.
Lemma r_read e r s (f1 f2 : Z -> outcome (st B)) : len s -> r <> R_pc -> (forall x, rel e (f1 x) (f2 x)) -> rel e (read r s f1) (read r (mv s) f2).
Proof. intros L N K. unfold read. rewrite sup_mv by exact L. destruct (can_read (sup s) r); [rewrite get_mv by auto; apply K|apply r_raise, L]. Qed.
Lemma not_pc (r : reg) l : existsb is_pc l = false -> In r l -> r <> R_pc.
Proof. intros H I ->. assert (X : existsb is_pc l = true) by (apply existsb_exists; exists R_pc; auto). congruence. Qed.
Lemma r_read1 e v s (f1 f2 : Z -> outcome (st B)) : len s -> existsb is_pc (regs1 v) = false -> (forall x, rel e (f1 x) (f2 x)) -> rel e (read1 v s f1) (read1 v (mv s) f2).
Proof. intros L N K. destruct v; cbn [read1]; [|apply K]. apply r_read; auto. apply (not_pc r _ N). left. reflexivity. Qed.
Lemma r_read2 e v s (f1 f2 : Z -> outcome (st B)) : len s -> existsb is_pc (regs2 v) = false -> (forall x, rel e (f1 x) (f2 x)) -> rel e (read2 v s f1) (read2 v (mv s) f2).
Proof. intros L N K. destruct v; cbn [read2]; [|apply K]. apply r_read; auto. apply (not_pc r _ N). left. reflexivity. Qed.
(** Writes: to pc (then both are at the same place) or to another register. *)
Lemma r_write e r v s (f1 f2 : st B -> outcome (st B)) : len s -> get s R_et = e -> (forall s', len s' -> get s' R_et = e -> r <> R_pc -> rel e (f1 s') (f2 (mv s'))) -> (forall s', rel e (f1 s') (f2 s')) -> rel e (write r v s f1) (write r v (mv s) f2).
Proof.
  intros L E K K'. unfold write. rewrite sup_mv by exact L. destruct (can_write (sup s) r) eqn:C; [|apply r_raise, L].
  destruct (reg_eq_dec r R_pc) as [->|N]; [rewrite put_mv_pc; apply K'|]. rewrite put_mv by auto. apply K; [apply len_put, L| |exact N]. rewrite get_put by exact L. destruct (reg_eq_dec R_et r) as [<-|_]; [discriminate C|exact E].
Qed.
Lemma r_write_end e r v s : len s -> get s R_et = e -> rel e (write_end r v s) (write_end r v (mv s)).
Proof.
  intros L E. unfold write_end. apply r_write; auto; [|intros s'; apply r_same]. intros s' L' E' N. destruct r; try (apply r_advance; assumption). congruence.
Qed.
Lemma r_access e a s (f1 f2 : st B -> outcome (st B)) : len s -> get s R_et = e -> (forall s', len s' -> get s' R_et = e -> rel e (f1 s') (f2 (mv s'))) -> rel e (access bs a s f1) (access bs a (mv s) f2).
Proof.
  intros L E K. unfold access. destruct (negb (a mod 4 =? 0)); [apply r_raise, L|]. rewrite !get_mv by (auto; discriminate). destruct (get s R_mtt =? 0); [apply K; auto|]. rewrite bus_mv.
  destruct (bus_load bs (s_bus s) _) as [[[b ex] x]|]; [|apply r_same]. rewrite with_mv. destruct (negb (ex =? 0)); [apply r_raise; exact L|]. rewrite sup_mv by exact L. destruct (Z.testbit x _); [apply r_raise; exact L|apply K; [exact L|exact E]].
Qed.
Lemma r_load e a s (f1 f2 : Z -> st B -> outcome (st B)) : len s -> get s R_et = e -> (forall v s', len s' -> get s' R_et = e -> rel e (f1 v s') (f2 v (mv s'))) -> rel e (load bs a s f1) (load bs a (mv s) f2).
Proof.
  intros L E K. apply r_access; auto. intros s' L' E'. rewrite bus_mv. destruct (bus_load bs (s_bus s') a) as [[[b ex] v]|]; [|apply r_same]. rewrite with_mv. destruct (negb (ex =? 0)); [apply r_raise; exact L'|apply K; [exact L'|exact E']].
Qed.
Lemma r_store e a v s (f1 f2 : st B -> outcome (st B)) : len s -> get s R_et = e -> (forall s', len s' -> get s' R_et = e -> rel e (f1 s') (f2 (mv s'))) -> rel e (store bs a v s f1) (store bs a v (mv s) f2).
Proof.
  intros L E K. apply r_access; auto. intros s' L' E'. rewrite bus_mv. destruct (bus_store bs (s_bus s') a v) as [[b ex]|]; [|apply r_same]. rewrite with_mv. destruct (negb (ex =? 0)); [apply r_raise; exact L'|apply K; [exact L'|exact E']].
Qed.
Lemma r_arith e a d y s keep : len s -> get s R_et = e -> d <> R_pc -> rel e (arith a d y s keep) (arith a d y (mv s) keep).
Proof.
  intros L E N. unfold arith. apply r_read; auto. intros x. destruct (alu_spec a x y) as [r c o|code]; [|apply r_raise, L]. rewrite put_mv by (auto; discriminate).
  assert (L' : len (put s R_af (flags_spec r c o))) by apply len_put, L. assert (E' : get (put s R_af (flags_spec r c o)) R_et = e) by (rewrite get_put by exact L; exact E).
  destruct keep; [apply r_write_end|apply r_advance]; auto.
Qed.
Lemma sp_mv s : len s -> sp_reg (mv s) = sp_reg s /\ get (mv s) (sp_reg s) = get s (sp_reg s) /\ sp_reg s <> R_pc /\ sp_reg s <> R_et.
Proof. intros L. unfold sp_reg. rewrite sup_mv by exact L. assert (N : (if sup s then R_ssp else R_usp) <> R_pc) by (destruct (sup s); discriminate). split; [reflexivity|]. split; [apply get_mv; auto|]. split; [exact N|]. destruct (sup s); discriminate. Qed.
Lemma get_et_put s r v : len s -> r <> R_et -> get (put s r v) R_et = get s R_et.
Proof. intros L N. rewrite get_put by exact L. destruct (reg_eq_dec R_et r); congruence. Qed.

Ltac here := first [assumption|reflexivity|apply len_put; here|rewrite get_et_put by (here || discriminate); here].
Ltac npc H := match type of H with existsb is_pc _ = false => eapply not_pc; [exact H|cbn; rewrite ?in_app_iff; cbn; tauto] end.
Lemma r_step i s : len s -> uses_pc i = false -> rel (get s R_et) (step bs i s) (step bs i (mv s)).
Proof.
  intros L U. assert (AF : get (mv s) R_af = get s R_af) by (apply get_mv; auto; discriminate). assert (AV : get (mv s) R_avr = get s R_avr) by (apply get_mv; auto; discriminate).
  destruct (sp_mv s L) as (P1 & P2 & P3 & P4).
  assert (SPLIT : forall l l', existsb is_pc (l ++ l') = false -> existsb is_pc l = false /\ existsb is_pc l' = false) by (intros l l' H; rewrite existsb_app in H; apply orb_false_iff, H).
  assert (ONE : forall r, existsb is_pc [r] = false -> r <> R_pc) by (intros r H; apply (not_pc r _ H); left; reflexivity).
  destruct i; cbn [step]; cbn [uses_pc reads] in U; try discriminate U.
  - apply r_read2; auto. intros x. apply r_write_end; auto.
  - assert (Na : a <> R_pc) by (apply (not_pc a _ U); cbn; auto). assert (Nb : b <> R_pc) by (apply (not_pc b _ U); cbn; auto).
    apply r_read; auto. intros x. apply r_read; auto. intros y. apply r_write; auto; [|intros s'; apply r_same]. intros s' L' E' _. apply r_write; auto; [|intros s2; apply r_same]. intros s2 L2 E2 _. destruct a, b; try congruence; apply r_advance; auto.
  - apply SPLIT in U. destruct U. apply r_read2; auto. intros y. apply r_arith; auto.
  - apply SPLIT in U. destruct U. apply r_read2; auto. intros y. apply r_arith; auto.
  - apply SPLIT in U. destruct U. apply r_read2; auto. intros y. apply r_arith; auto.
  - apply SPLIT in U. destruct U as (? & U). apply SPLIT in U. destruct U. apply r_read1; auto. intros y. apply r_read1; auto. intros z. apply r_arith; auto.
  - apply SPLIT in U. destruct U as (? & U). apply SPLIT in U. destruct U. apply r_read1; auto. intros y. apply r_read1; auto. intros z. apply r_arith; auto.
  - apply SPLIT in U. destruct U. apply r_read2; auto. intros y. apply r_arith; auto.
  - apply SPLIT in U. destruct U. apply r_read2; auto. intros y. apply r_arith; auto.
  - apply SPLIT in U. destruct U. apply r_read2; auto. intros y. apply r_arith; auto.
  - apply SPLIT in U. destruct U. apply r_read1; auto. intros y. apply r_arith; auto.
  - apply SPLIT in U. destruct U. apply r_read1; auto. intros y. apply r_arith; auto.
  - apply SPLIT in U. destruct U. apply r_read2; auto. intros y. apply r_arith; auto.
  - apply r_read2; auto. intros x. apply r_advance; auto.
  - rewrite sup_mv by exact L. destruct (sup s); [|apply r_raise, L]. apply r_read2; auto. intros x. rewrite put_mv_pc. apply r_same.
  - apply r_read1; auto. intros x. apply r_raise, L.
  - apply r_read1; auto. intros f. unfold flag_of. rewrite AF. destruct (7 <? f); [apply r_raise, L|]. destruct (Z.testbit _ _); apply r_advance; auto.
  - apply r_read1; auto. intros f. unfold flag_of. rewrite AF. destruct (7 <? f); [apply r_raise, L|]. destruct (Z.testbit _ _); apply r_advance; auto.
  - apply SPLIT in U. destruct U as (? & U). apply SPLIT in U. destruct U. apply r_read1; auto. intros fa. apply r_read1; auto. intros fb. apply r_read1; auto. intros cc. unfold flag_of_unchecked. rewrite AF. destruct (cond_spec _ _ _) as [[|]|]; [apply r_advance; auto|apply r_advance; auto|apply r_raise, L].
  - apply SPLIT in U. destruct U. apply r_read1; auto. intros x. apply r_read1; auto. intros y. apply r_load; auto. intros v s' L' E'. apply r_write_end; auto.
  - apply SPLIT in U. destruct U as (? & U). apply SPLIT in U. destruct U. apply r_read1; auto. intros x. apply r_read1; auto. intros y. apply r_read1; auto. intros z. apply r_load; auto. intros v s' L' E'. rewrite put_mv by (auto; discriminate). apply r_advance; [apply len_put, L'|]. rewrite get_et_put by (auto; discriminate). exact E'.
  - apply SPLIT in U. destruct U as (? & U). apply SPLIT in U. destruct U. apply r_read1; auto. intros x. apply r_read1; auto. intros y. apply r_read1; auto. intros z. apply r_store; auto. intros s' L' E'. apply r_advance; auto.
  - apply SPLIT in U. destruct U as (? & U). apply SPLIT in U. destruct U. apply r_read1; auto. intros x. apply r_read1; auto. intros y. apply r_read1; auto. intros z. rewrite AV. apply r_store; auto. intros s' L' E'. apply r_advance; auto.
  - apply SPLIT in U. destruct U as (? & U). apply SPLIT in U. destruct U. apply r_read1; auto. intros x. apply r_read1; auto. intros y. apply r_load; auto. intros v s' L' E'. apply r_read; auto. intros z. apply r_store; auto. intros s2 L2 E2. apply r_write_end; auto.
  - apply r_read2; auto. intros x. cbv zeta. rewrite P1, P2. apply r_store; auto. intros s' L' E'. destruct (sp_mv s' L') as (Q1 & _ & Q3 & Q4). rewrite Q1, put_mv by auto. apply r_advance; [apply len_put, L'|]. rewrite get_et_put by auto. exact E'.
  - rewrite P1, P2. apply r_load; auto. intros v s' L' E'. destruct (sp_mv s' L') as (Q1 & Q2 & Q3 & Q4). rewrite Q1, Q2, put_mv by auto. apply r_write_end; [apply len_put, L'|]. rewrite get_et_put by auto. exact E'.
  - apply SPLIT in U. destruct U. apply r_read1; auto. intros x. apply r_read1; auto. intros y. rewrite bus_mv. destruct ((x =? 0) && (y =? 0)); [apply r_write_end; auto|]. destruct (bus_info _ _ _ _) as [[code data]|v]; [apply r_raise, L|apply r_write_end; auto].
  - apply r_write_end; auto.
  - apply (r_advance _ (St (s_reg s) (s_bus s) (s_cyc s) true)); auto.
  - apply r_read1; auto. intros mode. rewrite AV, bus_mv. destruct (reset_selected _ _ _); [|apply r_raise, L]. destruct (bus_reset _ _ _) as [b'|]; [|apply r_same]. cbv zeta.
    destruct ((mode / 16) mod 16 =? 0); [apply r_same|]. rewrite with_mv. apply r_advance; auto.
Qed.
End Spec.

Lemma file_ext l1 l2 : length l1 = 32%nat -> length l2 = 32%nat -> (forall r, rg l1 r = rg l2 r) -> l1 = l2.
Proof.
  intros L1 L2 H. apply (nth_ext _ _ 0 0); [congruence|]. intros n Hn. rewrite L1 in Hn. destruct (reg_from_code (Z.of_nat n)) as [r|] eqn:E.
  - assert (X : reg_code r = Z.of_nat n) by (apply reg_code_from_code; exact E). specialize (H r). unfold rg in H. rewrite X, Nat2Z.id in H. exact H.
  - exfalso. destruct (reg_from_code_total (Z.of_nat n)) as (r & X); [lia|congruence].
Qed.

Section Machine.
Context {D : Type} (ops : bus_ops D) (T : typed ops).
Implicit Type m : cpu D.
Lemma moved_abs k m1 m2 mem : wf m1 -> wf m2 -> moved k m1 m2 -> start m2 mem = mv k (start m1 mem).
Proof.
  intros W1 W2 (M1 & M2 & M3 & M4 & M5). unfold start, mv, put. cbn [s_reg s_bus s_cyc s_halt]. rewrite M2. f_equal. apply file_ext; [apply file_length, W2|rewrite rs_length; apply file_length, W1|].
  intros r. rewrite rg_rs by (apply file_length, W1). destruct (reg_eq_dec r R_pc) as [->|N]; [exact M5|exact (M4 r N)].
Qed.
Lemma abs_moved k m1 m2 : len (abs m1) -> abs m2 = mv k (abs m1) -> moved k m1 m2.
Proof.
  intros L E. unfold moved. assert (G : forall r, R m2 r = get (mv k (abs m1)) r) by (intros r; rewrite <- E; reflexivity).
  assert (X : s_bus (abs m2) = s_bus (abs m1) /\ s_cyc (abs m2) = s_cyc (abs m1) /\ s_halt (abs m2) = s_halt (abs m1)) by (rewrite E; auto). destruct X as (X1 & X2 & X3).
  split; [exact X1|]. split; [exact X2|]. split; [exact X3|]. split; [intros r N; rewrite G; apply get_mv; auto|]. rewrite G. unfold mv. rewrite get_put by exact L. destruct (reg_eq_dec R_pc R_pc); [reflexivity|congruence].
Qed.
Lemma abs_same m1 m2 : abs m1 = abs m2 -> same_machine m1 m2.
Proof. intros X. unfold same_machine. injection X as X1 X2 X3 X4. split; [exact X2|]. split; [exact X3|]. split; [exact X4|]. intros r. unfold R. rewrite X1. reflexivity. Qed.
Lemma same_abs m1 m2 : wf m1 -> wf m2 -> same_machine m1 m2 -> abs m1 = abs m2.
Proof. intros W1 W2 (X1 & X2 & X3 & X4). unfold abs. rewrite X1, X2, X3. f_equal. apply file_ext; [apply file_length, W1|apply file_length, W2|exact X4]. Qed.

Definition settled k m1 m1' m2' : Prop := same_machine m1' m2' \/ moved k m1' m2' /\ R m1' R_et = R m1 R_et.
Lemma next_moved k m1 m2 : wf m1 -> wf m2 -> moved k m1 m2 -> same_code ops m1 m2 -> both (settled k m1) (next ops false m1) (next ops false m2).
Proof.
  intros W1 W2 M [(H1 & H2)|(i & mem & F1 & F2 & U)].
  - unfold next. rewrite H1, H2. cbn [both]. right. auto.
  - pose proof M as (_ & _ & M3 & _). destruct (c_halted m1) eqn:H1. { unfold next. rewrite H1, M3. right. auto. }
    pose proof (P_C06_conformance D ops m1 i mem T W1 H1 F1) as C1. pose proof (P_C06_conformance D ops m2 i mem T W2 M3 F2) as C2.
    change (St (file (c_regs m1)) mem ((c_cycles m1 + 1) mod 2 ^ 128) false) with (start m1 mem) in C1. change (St (file (c_regs m2)) mem ((c_cycles m2 + 1) mod 2 ^ 128) false) with (start m2 mem) in C2.
    rewrite (moved_abs k m1 m2 mem W1 W2 M) in C2. pose proof (r_step (board_bus ops false) k i (start m1 mem) (file_length _ (proj1 W1)) U) as X. rewrite <- C1, <- C2 in X.
    destruct (next ops false m1) as [m1'|], (next ops false m2) as [m2'|]; cbn [omap both] in *; try (destruct X as [X|(s & X1 & X2 & _)]; discriminate); auto.
    destruct X as [X|(s & X1 & X2 & LN & E)].
    + left. apply abs_same. apply Ret_inj in X. exact X.
    + right. apply Ret_inj in X1, X2. split; [apply abs_moved; [rewrite X1; exact LN|rewrite X1; exact X2]|]. change (get (abs m1') R_et = get (start m1 mem) R_et). rewrite X1. exact E.
Qed.
Lemma next_same m1 m2 : wf m1 -> wf m2 -> same_machine m1 m2 -> both same_machine (next ops false m1) (next ops false m2).
Proof.
  intros W1 W2 S. pose proof (cycle_total ops T m1 W1) as C1. pose proof (cycle_total ops T m2 W2) as C2. rewrite <- (same_abs _ _ W1 W2 S), <- C1 in C2.
  destruct (next ops false m1) as [m1'|], (next ops false m2) as [m2'|]; cbn [omap both] in *; try discriminate; auto. apply abs_same. apply Ret_inj in C2. congruence.
Qed.
Lemma run_moved k n : forall m1 m2, wf m1 -> wf m2 -> same_machine m1 m2 \/ moved k m1 m2 ->
  (forall j a b, (j < n)%nat -> run ops false j m1 = Ret a -> run ops false j m2 = Ret b -> R a R_pc <> R b R_pc -> same_code ops a b) ->
  both (fun a b => same_machine a b \/ moved k a b) (run ops false n m1) (run ops false n m2).
Proof.
  induction n as [|n IH]; intros m1 m2 W1 W2 M H; [exact M|]. cbn [run].
  assert (X : both (fun a b => same_machine a b \/ moved k a b) (next ops false m1) (next ops false m2)).
  { assert (S : same_machine m1 m2 \/ moved k m1 m2 /\ same_code ops m1 m2).
    { destruct M as [M|M]; [left; exact M|]. destruct (Z.eq_dec (R m1 R_pc) (R m2 R_pc)) as [E|E].
      - left. destruct M as (M1 & M2 & M3 & M4 & _). split; [auto|]. split; [auto|]. split; [auto|]. intros r. destruct (reg_eq_dec r R_pc) as [->|N]; [exact E|symmetry; apply M4, N].
      - right. split; [exact M|]. apply (H O m1 m2); auto. lia. }
    destruct S as [S|(S & C)].
    - pose proof (next_same m1 m2 W1 W2 S) as X. destruct (next ops false m1), (next ops false m2); cbn [both] in *; auto.
    - pose proof (next_moved k m1 m2 W1 W2 S C) as X. destruct (next ops false m1), (next ops false m2); cbn [both] in *; auto. destruct X as [X|(X & _)]; auto. }
  destruct (next ops false m1) as [m1'|] eqn:N1, (next ops false m2) as [m2'|] eqn:N2; cbn [both obind] in *; auto; try contradiction.
  apply IH; [exact (next_wf ops T _ _ _ W1 N1)|exact (next_wf ops T _ _ _ W2 N2)|exact X|]. intros j a b Hj Ha Hb. apply (H (S j)); [lia| |]; cbn [run]; [rewrite N1|rewrite N2]; assumption.
Qed.
End Machine.

(** The same instruction, executed at two places by machines otherwise alike, has the same effect: the machines end the same distance apart, or in the same state; or both crash. *)
Lemma P_C91_cycle : forall D (ops : bus_ops D) oc k m1 m2, typed ops -> wf m1 -> wf m2 -> moved k m1 m2 -> same_code ops m1 m2 ->
  match next ops oc m1, next ops oc m2 with
  | Ret m1', Ret m2' => moved k m1' m2' \/ same_machine m1' m2'
  | Panic, Panic => True
  | _, _ => oc = true
  end.
Proof.
  intros D ops oc k m1 m2 T W1 W2 M C. pose proof (next_moved ops T k m1 m2 W1 W2 M C) as X. destruct oc.
  - destruct (next ops true m1) as [m1'|] eqn:N1, (next ops true m2) as [m2'|] eqn:N2; auto. rewrite (next_oc ops _ _ _ N1), (next_oc ops _ _ _ N2) in X. destruct X as [X|(X & _)]; auto.
  - destruct (next ops false m1) as [m1'|], (next ops false m2) as [m2'|]; cbn [both] in *; auto; try contradiction. destruct X as [X|(X & _)]; auto.
Qed.
(** So is a whole run, as long as the two machines, when they are at different places, find the same code there. *)
Lemma P_C91_run : forall D (ops : bus_ops D) oc k n m1 m2, typed ops -> wf m1 -> wf m2 -> moved k m1 m2 ->
  (forall j a b, (j < n)%nat -> run ops oc j m1 = Ret a -> run ops oc j m2 = Ret b -> R a R_pc <> R b R_pc -> same_code ops a b) ->
  match run ops oc n m1, run ops oc n m2 with
  | Ret m1', Ret m2' => moved k m1' m2' \/ same_machine m1' m2'
  | Panic, Panic => True
  | _, _ => oc = true
  end.
Proof.
  intros D ops oc k n m1 m2 T W1 W2 M H. pose proof (run_moved ops T k n m1 m2 W1 W2 (or_intror M)) as X. destruct oc.
  - destruct (run ops true n m1) as [m1'|] eqn:R1, (run ops true n m2) as [m2'|] eqn:R2; auto. rewrite (run_oc ops _ _ _ _ R1), (run_oc ops _ _ _ _ R2) in X. cbn [both] in X.
    destruct X as [X|X]; auto. intros j a b Hj Ha Hb. destruct (run_prefix ops true n j m1 m1' R1 (Nat.lt_le_incl _ _ Hj)) as (a' & Ra). destruct (run_prefix ops true n j m2 m2' R2 (Nat.lt_le_incl _ _ Hj)) as (b' & Rb).
    pose proof (run_oc ops _ _ _ _ Ra) as Ra'. pose proof (run_oc ops _ _ _ _ Rb) as Rb'. rewrite Ha in Ra'. rewrite Hb in Rb'. apply Ret_inj in Ra', Rb'. subst a' b'. apply (H j a b Hj Ra Rb).
  - specialize (X H). destruct (run ops false n m1), (run ops false n m2); cbn [both] in *; auto; try contradiction. destruct X as [X|X]; auto.
Qed.
(** When the instruction raises an exception (et changes), nothing is left of the place where it was: the machines end in the same state, so no handler can find the way back. *)
Lemma P_C91_forgets : forall D (ops : bus_ops D) oc k m1 m2 m1' m2', typed ops -> wf m1 -> wf m2 -> moved k m1 m2 -> same_code ops m1 m2 ->
  next ops oc m1 = Ret m1' -> next ops oc m2 = Ret m2' -> R m1' R_et <> R m1 R_et -> same_machine m1' m2'.
Proof.
  intros D ops oc k m1 m2 m1' m2' T W1 W2 M C N1 N2 E. pose proof (next_moved ops T k m1 m2 W1 W2 M C) as X. rewrite (next_oc ops _ _ _ N1), (next_oc ops _ _ _ N2) in X. destruct X as [X|(_ & X)]; [exact X|congruence].
Qed.
(** A program that leaves a way back: it puts pc in rr0 and adds 8 before its ITR. A handler that ends, still in supervisor mode with rr0 unchanged, with LSM rr0 comes back to the instruction after the ITR, in userland. *)
Lemma P_C91_way_back : forall D (ops : bus_ops D) oc m v x mem1 m1 mem2 m2 mem3 m3 n h mem4 m4, typed ops -> wf m -> sup_mode m = false ->
  executes ops oc m (Cpy R_rr0 (Reg2 R_pc)) mem1 m1 -> executes ops oc m1 (Add R_rr0 (Lit2 8)) mem2 m2 -> operand1 m2 v = Some x -> executes ops oc m2 (Itr v) mem3 m3 ->
  run ops oc n m3 = Ret h -> sup_mode h = true -> R h R_rr0 = R m3 R_rr0 -> executes ops oc h (Lsm (Reg2 R_rr0)) mem4 m4 ->
  (sup_mode m3 = true /\ R m3 R_pc = R m R_ev /\ R m3 R_et = et_value false 240 (x mod 65536) /\ forall r, ~ In r [R_rr0; R_af; R_pc; R_et; R_smt] -> R m3 r = R m r) /\
  (sup_mode m4 = false /\ R m4 R_pc = (R m R_pc + 12) mod 2 ^ 32 /\ forall r, ~ In r [R_pc; R_smt] -> R m4 r = R h r).
Proof.
  intros D ops oc m v x mem1 m1 mem2 m2 mem3 m3 n h mem4 m4 T W U X1 X2 Hv X3 Hr Uh Hk X4.
  assert (A1 : after m m1 mem1 [(R_rr0, R m R_pc); (R_pc, m32 (R m R_pc + 4))]).
  { eapply ends_after; [exact T|exact W|exact X1|]. cbn [step]. erewrite read2_ok by (cbn [operand2]; unfold reg_value; rewrite U; reflexivity). apply (ends_write_end (start m mem1) [] (start m mem1) R_rr0); [apply sets_refl, len_start, W|]. rewrite sup_start, U. reflexivity. }
  pose proof X1 as (_ & _ & N1). pose proof (next_wf ops T _ _ _ W N1) as W1. destruct A1 as (A1 & _).
  assert (U1 : sup_mode m1 = false) by (unfold sup_mode in *; rewrite (A1 R_smt); exact U).
  assert (V1 : R m1 R_rr0 = R m R_pc) by exact (A1 R_rr0). assert (P1 : R m1 R_pc = m32 (R m R_pc + 4)) by exact (A1 R_pc).
  pose proof (P_C07_add D ops oc m1 R_rr0 (Lit2 8) mem2 m2 (R m R_pc) 8 T W1 X2) as A2. unfold reg_value in A2. rewrite U1, V1 in A2. specialize (A2 eq_refl eq_refl eq_refl). destruct A2 as ((A2 & _) & _).
  pose proof X2 as (_ & _ & N2). pose proof (next_wf ops T _ _ _ W1 N2) as W2.
  assert (U2 : sup_mode m2 = false) by (unfold sup_mode in *; rewrite (A2 R_smt); exact U1).
  assert (A3 : raised m2 m3 mem3 240 (x mod 65536)). { eapply executes_raised; [exact T|exact W2|exact X3|]. cbn [step]. erewrite read1_ok by exact Hv. reflexivity. }
  destruct A3 as (A3 & _). rewrite U2 in A3.
  assert (V3 : R m3 R_rr0 = (R m R_pc + 8) mod 2 ^ 32) by (rewrite (A3 R_rr0); exact (A2 R_rr0)).
  split.
  - split; [unfold sup_mode; rewrite (A3 R_smt); reflexivity|]. split; [rewrite (A3 R_pc); cbn [assoc reg_code Z.eqb]; rewrite (A2 R_ev); exact (A1 R_ev)|]. split; [exact (A3 R_et)|].
    intros r Hn. rewrite (A3 r). destruct r; cbn in Hn; try (exfalso; tauto); cbn; rewrite (A2 _); cbn; rewrite (A1 _); reflexivity.
  - pose proof X3 as (_ & _ & N3). pose proof (next_wf ops T _ _ _ W2 N3) as W3. pose proof (run_wf ops T oc n m3 h W3 Hr) as Wh.
    pose proof (P_C19_lsm D ops oc h (Reg2 R_rr0) (R h R_rr0) mem4 m4 T Wh X4 Uh) as A4. cbn [operand2] in A4. unfold reg_value in A4. rewrite Uh in A4. specialize (A4 eq_refl). destruct A4 as (A4 & _).
    split; [unfold sup_mode; rewrite (A4 R_smt); reflexivity|]. split.
    + rewrite (A4 R_pc). cbn [assoc reg_code Z.eqb]. rewrite Hk, V3. rewrite Zplus_mod_idemp_l. rewrite <- Z.add_assoc. reflexivity.
    + intros r Hn. rewrite (A4 r). destruct r; cbn in Hn; try (exfalso; tauto); reflexivity.
Qed.
(** The documentation says that era holds the address that raised an exception: it does not. *)
Lemma P_C91_era_refuted : ~ (forall D (ops : bus_ops D) oc m v mem1 m', typed ops -> wf m -> executes ops oc m (Itr v) mem1 m' -> R m' R_era = R m R_pc).
Proof.
  intros H. assert (X : demo_case (asm [Cpy R_a0 (Lit2 1); Itr (Lit1 5)]) 1 (fun m i mem1 m' => i = Itr (Lit1 5) /\ R m R_pc = 4 /\ R m' R_era = 0)) by demo_tac.
  destruct X as (m & i & mem1 & m' & Hr & He & -> & E1 & E2). specialize (H _ _ false m (Lit1 5) mem1 m' (dev_typed false) (reachable_wf _ (dev_typed false) _ _ Hr) He). rewrite E1, E2 in H. discriminate H.
Qed.

(** A reachable machine, and the same one moved. *)
Definition twin (k : Z) (m : cpu device) : cpu device := wr R_pc ((R m R_pc + k) mod 2 ^ 32) m.
Lemma twin_wf k m : wf m -> wf (twin k m).
Proof.
  intros W. destruct W as (W1 & W2). split; [apply wr_wf; [exact W1|unfold is_u32; change (2 ^ 32) with 4294967296; lia]|exact W2].
Qed.
Lemma twin_moved k m : wf m -> moved k m (twin k m).
Proof.
  intros W. split; [reflexivity|]. split; [reflexivity|]. split; [reflexivity|]. split; [intros r N; apply R_wr_other; [apply W|exact N]|]. apply R_wr_same, W.
Qed.
Definition both_exec (a b : cpu device) (P : instr -> cpu device -> cpu device -> Prop) : Prop :=
  match exec_check a, exec_check b with Some (i, mem, a'), Some (i', mem', b') => i = i' /\ mem = mem' /\ uses_pc i = false /\ P i a' b' | _, _ => False end.
Lemma both_exec_sound a b P : both_exec a b P -> exists i a' b', same_code (dev_ops false) a b /\ next (dev_ops false) false a = Ret a' /\ next (dev_ops false) false b = Ret b' /\ P i a' b'.
Proof.
  unfold both_exec. destruct (exec_check a) as [[[i mem] a']|] eqn:E1; [|intros []]. destruct (exec_check b) as [[[i' mem'] b']|] eqn:E2; [|intros []]. intros (<- & <- & U & H).
  apply exec_check_sound in E1, E2. destruct E1 as (_ & F1 & N1), E2 as (_ & F2 & N2). exists i, a', b'. split; [right; exists i, mem; auto|auto].
Qed.
Lemma twin_case prog n k (Q : cpu device -> cpu device -> Prop) : (match demo_run false prog n with Ret m => Q m (twin k m) | Panic => False end) ->
  exists m1 m2, reachable (dev_ops false) false m1 /\ wf m1 /\ wf m2 /\ moved k m1 m2 /\ Q m1 m2.
Proof.
  destruct (demo_run false prog n) as [m|] eqn:E; [|intros []]. intros H. pose proof (demo_reachable _ _ _ _ E) as Hr. pose proof (reachable_wf _ (dev_typed false) _ _ Hr) as W.
  exists m, (twin k m). split; [exact Hr|]. split; [exact W|]. split; [apply twin_wf, W|]. split; [apply twin_moved, W|exact H].
Qed.
Lemma E_C91_cycle : exists m1 m2 m1' m2', reachable (dev_ops false) false m1 /\ wf m2 /\ moved 4 m1 m2 /\ same_code (dev_ops false) m1 m2 /\
  next (dev_ops false) false m1 = Ret m1' /\ next (dev_ops false) false m2 = Ret m2' /\ R m1' R_a0 = 7 /\ R m2' R_a0 = 7 /\ R m1' R_pc = 4 /\ R m2' R_pc = 8.
Proof.
  destruct (twin_case (asm [Add R_a0 (Lit2 7); Add R_a0 (Lit2 7)]) 0 4 (fun a b => both_exec a b (fun i a' b' => R a' R_a0 = 7 /\ R b' R_a0 = 7 /\ R a' R_pc = 4 /\ R b' R_pc = 8))) as (m1 & m2 & Hr & W1 & W2 & M & X); [vm_compute; repeat split|].
  apply both_exec_sound in X. destruct X as (i & a' & b' & C & N1 & N2 & X). exists m1, m2, a', b'. auto 10.
Qed.
Lemma E_C91_run : exists m1 m2 m1' m2', reachable (dev_ops false) false m1 /\ wf m2 /\ moved 4 m1 m2 /\
  (forall j a b, (j < 2)%nat -> run (dev_ops false) false j m1 = Ret a -> run (dev_ops false) false j m2 = Ret b -> R a R_pc <> R b R_pc -> same_code (dev_ops false) a b) /\
  run (dev_ops false) false 2 m1 = Ret m1' /\ run (dev_ops false) false 2 m2 = Ret m2' /\ R m1' R_a0 = 14 /\ R m2' R_a0 = 14 /\ R m1' R_pc = 8 /\ R m2' R_pc = 12.
Proof.
  destruct (twin_case (asm [Add R_a0 (Lit2 7); Add R_a0 (Lit2 7); Add R_a0 (Lit2 7)]) 0 4 (fun a b => both_exec a b (fun i a' b' => both_exec a' b' (fun i a' b' => R a' R_a0 = 14 /\ R b' R_a0 = 14 /\ R a' R_pc = 8 /\ R b' R_pc = 12))))
    as (m1 & m2 & Hr & W1 & W2 & M & X); [vm_compute; repeat split|].
  apply both_exec_sound in X. destruct X as (i & a' & b' & C & N1 & N2 & X). apply both_exec_sound in X. destruct X as (i2 & a2 & b2 & C2 & N3 & N4 & X). exists m1, m2, a2, b2.
  split; [exact Hr|]. split; [exact W2|]. split; [exact M|]. split; [|cbn [run]; rewrite N1, N2; cbn [obind]; rewrite N3, N4; cbn [obind]; auto].
  intros j a b Hj Ha Hb _. destruct j as [|[|j]]; [| |lia]; cbn [run] in Ha, Hb.
  - apply Ret_inj in Ha, Hb. subst a b. exact C.
  - rewrite N1 in Ha. rewrite N2 in Hb. cbn [obind] in Ha, Hb. apply Ret_inj in Ha, Hb. subst a b. exact C2.
Qed.
Lemma E_C91_forgets : exists m1 m2 m1' m2', reachable (dev_ops false) false m1 /\ wf m2 /\ moved 4 m1 m2 /\ same_code (dev_ops false) m1 m2 /\
  next (dev_ops false) false m1 = Ret m1' /\ next (dev_ops false) false m2 = Ret m2' /\ R m1' R_et <> R m1 R_et /\ R m1 R_pc = 0 /\ R m2 R_pc = 4.
Proof.
  destruct (twin_case (asm [Itr (Lit1 7); Itr (Lit1 7)]) 0 4 (fun a b => both_exec a b (fun i a' b' => R a' R_et <> R a R_et /\ R a R_pc = 0 /\ R b R_pc = 4))) as (m1 & m2 & Hr & W1 & W2 & M & X); [vm_compute; repeat split; discriminate|].
  apply both_exec_sound in X. destruct X as (i & a' & b' & C & N1 & N2 & X). exists m1, m2, a', b'. auto 10.
Qed.
Definition exec_then (m : cpu device) (i : instr) (P : memory device -> cpu device -> Prop) : Prop := match exec_check m with Some (j, mem, m') => j = i /\ P mem m' | None => False end.
Lemma exec_then_sound m i P : exec_then m i P -> exists mem m', executes (dev_ops false) false m i mem m' /\ P mem m'.
Proof. unfold exec_then. destruct (exec_check m) as [[[j mem] m']|] eqn:E; [|intros []]. intros (<- & H). exists mem, m'. split; [apply exec_check_sound, E|exact H]. Qed.
(** The supervisor sets the vector to 0x20 and leaves for userland at 0x0C; the handler stores 1 in a0. *)
Lemma E_C91_way_back : exists m mem1 m1 mem2 m2 mem3 m3 h mem4 m4, reachable (dev_ops false) false m /\ sup_mode m = false /\
  executes (dev_ops false) false m (Cpy R_rr0 (Reg2 R_pc)) mem1 m1 /\ executes (dev_ops false) false m1 (Add R_rr0 (Lit2 8)) mem2 m2 /\ operand1 m2 (Lit1 5) = Some 5 /\ executes (dev_ops false) false m2 (Itr (Lit1 5)) mem3 m3 /\
  run (dev_ops false) false 1 m3 = Ret h /\ sup_mode h = true /\ R h R_rr0 = R m3 R_rr0 /\ executes (dev_ops false) false h (Lsm (Reg2 R_rr0)) mem4 m4 /\
  R m R_pc = 12 /\ R m4 R_pc = 24 /\ R m4 R_a0 = 1 /\ sup_mode m4 = false.
Proof.
  assert (X : match demo_run false (asm [Cpy R_ev (Lit2 32); Lsm (Lit2 8); Halt] ++ [word_of_bytes (assembled (Cpy R_rr0 (Reg2 R_pc)))] ++ asm [Add R_rr0 (Lit2 8); Itr (Lit1 5); Halt; Halt; Cpy R_a0 (Lit2 1)] ++ [word_of_bytes (assembled (Lsm (Reg2 R_rr0)))]) 2 with
    | Ret m => sup_mode m = false /\ R m R_pc = 12 /\ exec_then m (Cpy R_rr0 (Reg2 R_pc)) (fun _ m1 => exec_then m1 (Add R_rr0 (Lit2 8)) (fun _ m2 => exec_then m2 (Itr (Lit1 5)) (fun _ m3 => exec_then m3 (Cpy R_a0 (Lit2 1)) (fun _ h =>
        sup_mode h = true /\ R h R_rr0 = R m3 R_rr0 /\ exec_then h (Lsm (Reg2 R_rr0)) (fun _ m4 => R m4 R_pc = 24 /\ R m4 R_a0 = 1 /\ sup_mode m4 = false)))))
    | Panic => False end) by (vm_compute; repeat split).
  destruct (demo_run false _ 2) as [m|] eqn:E; [|destruct X]. destruct X as (U & P & X). apply demo_reachable in E.
  apply exec_then_sound in X. destruct X as (mem1 & m1 & X1 & X). apply exec_then_sound in X. destruct X as (mem2 & m2 & X2 & X). apply exec_then_sound in X. destruct X as (mem3 & m3 & X3 & X).
  apply exec_then_sound in X. destruct X as (memh & h & Xh & Y1 & Y2 & X). apply exec_then_sound in X. destruct X as (mem4 & m4 & X4 & Z1 & Z2 & Z3).
  exists m, mem1, m1, mem2, m2, mem3, m3, h, mem4, m4. destruct Xh as (_ & _ & Nh). split; [exact E|]. split; [exact U|]. split; [exact X1|]. split; [exact X2|]. split; [reflexivity|]. split; [exact X3|].
  split; [cbn [run]; rewrite Nh; reflexivity|]. auto 10.
Qed.
