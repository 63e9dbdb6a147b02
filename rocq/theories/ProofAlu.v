(** Proofs about arithmetic instructions. *)
From Coq Require Import ZArith List Bool Lia.
From Verif Require Import Base Board Mem Cpu Asm Tools Devices DevTyped SpecMach SpecIsa SpecBus SpecObs SpecMap BaseFacts RegFacts MemFacts
  AluFacts IsaFacts IsaStep MonoFacts CycleFacts UndFacts HoareFacts CyclePost InvFacts ReachFacts ExecFacts Demo.
Import ListNotations.
Open Scope Z_scope.
Ltac Zify.zify_post_hook ::= Z.div_mod_to_equations.

Lemma flags_bits r c o : let f := flags_spec r c o in
  Z.testbit f 7 = (r =? 0) /\ Z.testbit f 6 = c /\ Z.testbit f 5 = o /\ Z.testbit f 4 = (2147483648 <=? r) /\
  Z.testbit f 3 = Z.even r /\ Z.testbit f 2 = (r <? 65536) /\ Z.testbit f 1 = Z.testbit r 16 /\ Z.testbit f 0 = false.
Proof.
  unfold flags_spec, flag_bit.
  destruct (r =? 0), c, o, (2147483648 <=? r), (Z.even r), (r <? 65536), (Z.testbit r 16); cbn; auto 10.
Qed.
Lemma flags_high r c o n : 8 <= n -> Z.testbit (flags_spec r c o) n = false.
Proof.
  intros H. pose proof (flags_range r c o).
  destruct (Z.eq_dec (flags_spec r c o) 0) as [->|N]; [apply Z.bits_0|].
  apply Z.bits_above_log2; [lia|]. apply Z.log2_lt_pow2; [lia|].
  assert (2 ^ 8 <= 2 ^ n) by (apply Z.pow_le_mono_r; lia). lia.
Qed.

Section Alu.
Context {D : Type} (ops : bus_ops D) (T : typed ops).
Implicit Type m : cpu D.
Notation bs := (board_bus ops false).

Lemma describe m r c o : R m R_af = flags_spec r c o -> flags_describe m r.
Proof.
  intros E. unfold flags_describe, flag. rewrite E. destruct (flags_bits r c o) as (B7&B6&B5&B4&B3&B2&B1&B0).
  rewrite B7, B4, B3, B2, Z.eqb_eq, Z.leb_le, Z.ltb_lt, Z.even_spec.
  change (2 ^ 31) with 2147483648. change (2 ^ 16) with 65536.
  split; [tauto|]. split; [tauto|]. split. { split. intros [k ->]; lia. intros. exists (r / 2). lia. }
  split; [tauto|]. intros n [->|Hn]; [exact B0|apply flags_high; auto].
Qed.

Lemma sup_put s r v : length (s_reg s) = 32%nat -> r <> R_smt -> @sup (memory D) (put s r v) = sup s.
Proof.
  intros H N. unfold sup, get, put. cbn [s_reg]. rewrite rg_rs by auto. destruct (reg_eq_dec R_smt r); congruence.
Qed.
Lemma get_put s r v r' : length (s_reg s) = 32%nat -> @get (memory D) (put s r v) r' = if reg_eq_dec r' r then v else get s r'.
Proof. intros H. unfold get, put. cbn [s_reg]. apply rg_rs; auto. Qed.

Lemma arith_ends m mem a d x y r c o : wf m -> reg_value m d = Some x -> can_write (sup_mode m) d = true ->
  alu_spec a x y = AluOk r c o ->
  Ends (start m mem) [(d, r); (R_pc, m32 (R m R_pc + 4)); (R_af, flags_spec r c o)] (arith a d y (start m mem) true).
Proof.
  intros Hw Hd Hc Ha. unfold arith. erewrite read_ok by eauto. rewrite Ha. cbv zeta.
  assert (L : length (s_reg (start m mem)) = 32%nat) by (apply len_start; auto).
  pose proof (ends_write_end (start m mem) [(R_af, flags_spec r c o)] (put (start m mem) R_af (flags_spec r c o)) d r) as X.
  rewrite get_put in X by auto. destruct (reg_eq_dec R_pc R_af); [discriminate|]. rewrite get_start in X.
  apply X. { apply sets_put, sets_refl; auto. } { rewrite sup_put by (auto; discriminate). exact Hc. }
Qed.
Lemma arith_noends m mem a d x y r c o : wf m -> reg_value m d = Some x -> can_write (sup_mode m) d = false ->
  alu_spec a x y = AluOk r c o ->
  Ends (start m mem) [(R_smt, 1); (R_pc, R m R_ev); (R_et, et_value (sup_mode m) 4 (reg_code d)); (R_af, flags_spec r c o)]
    (arith a d y (start m mem) true).
Proof.
  intros Hw Hd Hc Ha. unfold arith. erewrite read_ok by eauto. rewrite Ha. cbv zeta.
  assert (L : length (s_reg (start m mem)) = 32%nat) by (apply len_start; auto).
  unfold write_end, write. rewrite sup_put by (auto; discriminate). rewrite sup_start, Hc.
  eexists. split; [reflexivity|]. rewrite sup_put by (auto; discriminate). rewrite sup_start.
  replace (get (put (start m mem) R_af (flags_spec r c o)) R_ev) with (R m R_ev).
  2:{ rewrite get_put by auto. reflexivity. }
  repeat apply sets_put. apply sets_refl; auto.
Qed.
Lemma cmp_ends m mem d x y r c o : wf m -> reg_value m d = Some x -> alu_spec ASub x y = AluOk r c o ->
  Ends (start m mem) [(R_pc, m32 (R m R_pc + 4)); (R_af, flags_spec r c o)] (arith ASub d y (start m mem) false).
Proof.
  intros Hw Hd Ha. unfold arith. erewrite read_ok by eauto. rewrite Ha. cbv zeta.
  assert (L : length (s_reg (start m mem)) = 32%nat) by (apply len_start; auto).
  pose proof (ends_advance (start m mem) [(R_af, flags_spec r c o)] (put (start m mem) R_af (flags_spec r c o)) 4) as X.
  rewrite get_put in X by auto. destruct (reg_eq_dec R_pc R_af); [discriminate|]. rewrite get_start in X.
  apply X, sets_put, sets_refl; auto.
Qed.

Lemma can_write_af b d : can_write b d = true -> d <> R_af.
Proof. destruct d; try discriminate; cbn; intros; discriminate. Qed.

(** The operation performed by an arithmetic instruction and its second operand. *)
Definition alu_of (m : cpu D) (i : instr) : option (alu * Z) :=
  match i with
  | Add d v => option_map (fun y => (AAdd, y)) (operand2 m v)
  | Sub d v => option_map (fun y => (ASub, y)) (operand2 m v)
  | Mul d v => option_map (fun y => (AMul, y)) (operand2 m v)
  | And d v => option_map (fun y => (AAnd, y)) (operand2 m v)
  | Bor d v => option_map (fun y => (ABor, y)) (operand2 m v)
  | Xor d v => option_map (fun y => (AXor, y)) (operand2 m v)
  | Shl d v => option_map (fun y => (AShl, y)) (operand1 m v)
  | Shr d v => option_map (fun y => (AShr, y)) (operand1 m v)
  | Div d v md => match operand1 m v, operand1 m md with Some y, Some md => Some (ADiv md, y) | _, _ => None end
  | Mod d v md => match operand1 m v, operand1 m md with Some y, Some md => Some (AMod md, y) | _, _ => None end
  | _ => None
  end.
Lemma step_arith m mem i d a y : arith_dest i = Some d -> alu_of m i = Some (a, y) ->
  step bs i (start m mem) = arith a d y (start m mem) true.
Proof.
  intros Hd Ha; destruct i; cbn [arith_dest] in Hd; try discriminate; injection Hd as ->; cbn [alu_of] in Ha; cbn [step].
  all: repeat match type of Ha with
       | option_map _ (operand2 ?k ?v) = _ => destruct (operand2 k v) eqn:?; [|discriminate]
       | option_map _ (operand1 ?k ?v) = _ => destruct (operand1 k v) eqn:?; [|discriminate]
       | match operand1 ?k ?v with _ => _ end = _ => destruct (operand1 k v) eqn:?; [|discriminate]
       end.
  all: cbn [option_map] in Ha; injection Ha as <- <-.
  all: repeat first [erewrite read2_ok by eassumption | erewrite read1_ok by eassumption]; reflexivity.
Qed.
Lemma do_arith oc m i mem1 m' d x a y r c o : wf m -> executes ops oc m i mem1 m' ->
  arith_dest i = Some d -> alu_of m i = Some (a, y) -> reg_value m d = Some x -> can_write (sup_mode m) d = true ->
  alu_spec a x y = AluOk r c o -> computes m m' mem1 d r (c = true) (o = true).
Proof.
  intros Hw He Hd Ha Hx Hc Hr.
  assert (X : after m m' mem1 [(d, r); (R_pc, m32 (R m R_pc + 4)); (R_af, flags_spec r c o)]).
  { eapply ends_after; eauto. erewrite step_arith by eauto. eapply arith_ends; eauto. }
  assert (E : R m' R_af = flags_spec r c o).
  { destruct X as (X & _). rewrite X. cbn [assoc]. destruct (Z.eqb_spec (reg_code R_af) (reg_code d)) as [N|N].
    - apply reg_code_inj in N. apply can_write_af in Hc. congruence.
    - reflexivity. }
  split. { rewrite E. exact X. }
  unfold flag. rewrite E. destruct (flags_bits r c o) as (_&B6&B5&_). rewrite B6, B5.
  split; [tauto|]. split; [tauto|]. eapply describe; eauto.
Qed.
Lemma do_fault oc m i mem1 m' d x a y code : wf m -> executes ops oc m i mem1 m' ->
  arith_dest i = Some d -> alu_of m i = Some (a, y) -> reg_value m d = Some x ->
  alu_spec a x y = AluFault code -> raised m m' mem1 code 0.
Proof.
  intros Hw He Hd Ha Hx Hr. eapply executes_raised; eauto. erewrite step_arith by eauto.
  unfold arith. erewrite read_ok by eauto. rewrite Hr. reflexivity.
Qed.
Lemma computes_iff m m' mem d r (c c' o o' : Prop) : (c <-> c') -> (o <-> o') ->
  computes m m' mem d r c o -> computes m m' mem d r c' o'.
Proof. unfold computes. tauto. Qed.
Lemma fits_iff x : negb (fits_signed x) = true <-> ~ (- 2 ^ 31 <= x < 2 ^ 31).
Proof.
  unfold fits_signed. rewrite negb_true_iff, andb_false_iff, Z.leb_gt, Z.ltb_ge.
  change (2 ^ 31) with 2147483648. lia.
Qed.
End Alu.

Ltac alu_go := intros; eapply computes_iff; cycle 2;
  [eapply do_arith; eauto; cbn [alu_of arith_dest option_map];
   repeat match goal with H : operand2 _ _ = _ |- _ => rewrite H | H : operand1 _ _ = _ |- _ => rewrite H end; reflexivity| |].

(** ADD leaves the sum modulo 2^32, CF iff the unsigned sum and OF iff the signed sum does not fit. *)
Lemma P_C07_add : forall D (ops : bus_ops D) oc m d v mem1 m' x y,
  typed ops -> wf m -> executes ops oc m (Add d v) mem1 m' ->
  reg_value m d = Some x -> operand2 m v = Some y -> can_write (sup_mode m) d = true ->
  computes m m' mem1 d ((x + y) mod 2 ^ 32) (2 ^ 32 <= x + y) (~ (- 2 ^ 31 <= signed x + signed y < 2 ^ 31)).
Proof. alu_go. apply Z.leb_le. apply fits_iff. Qed.

(** SUB leaves the difference modulo 2^32, CF iff a borrow is needed, OF iff the signed difference does not fit. *)
Lemma P_C07_sub : forall D (ops : bus_ops D) oc m d v mem1 m' x y,
  typed ops -> wf m -> executes ops oc m (Sub d v) mem1 m' ->
  reg_value m d = Some x -> operand2 m v = Some y -> can_write (sup_mode m) d = true ->
  computes m m' mem1 d ((x - y) mod 2 ^ 32) (x - y < 0) (~ (- 2 ^ 31 <= signed x - signed y < 2 ^ 31)).
Proof. alu_go. rewrite Z.ltb_lt. lia. apply fits_iff. Qed.

(** MUL leaves the product modulo 2^32; CF and OF iff the signed product does not fit. *)
Lemma P_C07_mul : forall D (ops : bus_ops D) oc m d v mem1 m' x y,
  typed ops -> wf m -> executes ops oc m (Mul d v) mem1 m' ->
  reg_value m d = Some x -> operand2 m v = Some y -> can_write (sup_mode m) d = true ->
  computes m m' mem1 d ((x * y) mod 2 ^ 32) (~ (- 2 ^ 31 <= signed x * signed y < 2 ^ 31))
    (~ (- 2 ^ 31 <= signed x * signed y < 2 ^ 31)).
Proof. alu_go; apply fits_iff. Qed.

(** AND, BOR and XOR compute each bit of the result from the bits of the operands; CF and OF are cleared. *)
Lemma P_C08_bitwise : forall D (ops : bus_ops D) oc m i d v mem1 m' x y,
  typed ops -> wf m -> executes ops oc m i mem1 m' -> In i [And d v; Bor d v; Xor d v] ->
  reg_value m d = Some x -> operand2 m v = Some y -> can_write (sup_mode m) d = true ->
  exists r, computes m m' mem1 d r False False /\
    forall n, Z.testbit r n = match i with
                              | And _ _ => Z.testbit x n && Z.testbit y n
                              | Bor _ _ => Z.testbit x n || Z.testbit y n
                              | _ => xorb (Z.testbit x n) (Z.testbit y n)
                              end.
Proof.
  intros D ops oc m i d v mem1 m' x y T Hw He [<-|[<-|[<-|[]]]] Hx Hy Hc; eexists; (split; [alu_go|]).
  all: try (split; [discriminate|tauto]).
  - apply Z.land_spec.
  - apply Z.lor_spec.
  - apply Z.lxor_spec.
Qed.

(** SHL and SHR shift by the count modulo 32; CF and OF tell that the count is 32 or more. The literal count is
    the single byte of the instruction. *)
Lemma P_C08_shl : forall D (ops : bus_ops D) oc m d v mem1 m' x y,
  typed ops -> wf m -> executes ops oc m (Shl d v) mem1 m' ->
  reg_value m d = Some x -> operand1 m v = Some y -> can_write (sup_mode m) d = true ->
  computes m m' mem1 d ((x * 2 ^ (y mod 32)) mod 2 ^ 32) (32 <= y) (32 <= y).
Proof. alu_go; apply Z.leb_le. Qed.
(** SHR: the register shifted right, the amount taken modulo 32; an amount of 32 or more sets both the carry and the overflow flags. *)
Lemma P_C08_shr : forall D (ops : bus_ops D) oc m d v mem1 m' x y,
  typed ops -> wf m -> executes ops oc m (Shr d v) mem1 m' ->
  reg_value m d = Some x -> operand1 m v = Some y -> can_write (sup_mode m) d = true ->
  computes m m' mem1 d (x / 2 ^ (y mod 32)) (32 <= y) (32 <= y).
Proof. alu_go; apply Z.leb_le. Qed.

Lemma sources_alu D (m : cpu D) i d : arith_dest i = Some d -> sources_readable m i -> exists a, alu_of m i = Some a.
Proof.
  intros Hd H. destruct i; cbn in Hd; try discriminate; cbn [sources_readable] in H; cbn [alu_of].
  all: repeat match goal with |- context [operand2 ?k ?v] => destruct (operand2 k v) | |- context [operand1 ?k ?v] => destruct (operand1 k v) end.
  all: try (eexists; reflexivity); tauto.
Qed.
Lemma div_alu D (m : cpu D) i d v md (is_div : bool) y mode : div_or_mod i d v md is_div ->
  operand1 m v = Some y -> operand1 m md = Some mode ->
  arith_dest i = Some d /\ alu_of m i = Some (if is_div then ADiv mode else AMod mode, y).
Proof. intros H Hy Hm. unfold div_or_mod in H. subst i. destruct is_div; cbn [arith_dest alu_of]; rewrite Hy, Hm; auto. Qed.

(** Unsigned division and modulus by a non-zero value. *)
Lemma P_C09_unsigned : forall D (ops : bus_ops D) oc m i d v md is_div mem1 m' x y mode,
  typed ops -> wf m -> div_or_mod i d v md is_div -> executes ops oc m i mem1 m' ->
  reg_value m d = Some x -> operand1 m v = Some y -> operand1 m md = Some mode -> can_write (sup_mode m) d = true ->
  Z.testbit mode 4 = false -> y <> 0 ->
  computes m m' mem1 d (if is_div then x / y else x mod y) False False.
Proof.
  intros D ops oc m i d v md is_div mem1 m' x y mode T Hw Hi He Hx Hy Hm Hc Hs H0.
  destruct (div_alu _ _ _ _ _ _ _ _ _ Hi Hy Hm) as [A1 A2].
  eapply computes_iff; cycle 2.
  - eapply do_arith; eauto.
    destruct is_div; cbn [alu_spec]; unfold divide; rewrite (proj2 (Z.eqb_neq _ _) H0), Hs; reflexivity.
  - split; [discriminate|tauto].
  - split; [discriminate|tauto].
Qed.

(** Signed division and modulus truncate towards zero (the remainder has the sign of the dividend). *)
Lemma P_C09_signed : forall D (ops : bus_ops D) oc m i d v md is_div mem1 m' x y mode,
  typed ops -> wf m -> div_or_mod i d v md is_div -> executes ops oc m i mem1 m' ->
  reg_value m d = Some x -> operand1 m v = Some y -> operand1 m md = Some mode -> can_write (sup_mode m) d = true ->
  Z.testbit mode 4 = true -> y <> 0 -> ~ (signed x = - 2 ^ 31 /\ signed y = -1) ->
  exists q r, computes m m' mem1 d ((if is_div then q else r) mod 2 ^ 32) False False /\
    signed x = signed y * q + r /\ Z.abs r < Z.abs (signed y) /\ 0 <= r * signed x.
Proof.
  intros D ops oc m i d v md is_div mem1 m' x y mode T Hw Hi He Hx Hy Hm Hc Hs H0 Ho.
  destruct (div_alu _ _ _ _ _ _ _ _ _ Hi Hy Hm) as [A1 A2].
  assert (Yu : is_u32 y).
  { destruct He as (_ & (w & _ & Ed) & _). apply decode_ok_instr in Ed.
    assert (O : ok1 v).
    { unfold div_or_mod in Hi. subst i. destruct is_div; cbn [ok_instr] in Ed; tauto. }
    destruct v as [r|n]; cbn [operand1] in Hy.
    - unfold reg_value in Hy. destruct (can_read _ _); [|discriminate]. injection Hy as <-. apply R_u32, Hw.
    - injection Hy as <-. cbn in O. unfold is_u8, is_u32 in *; lia. }
  assert (N : signed y <> 0). { intros E. pose proof (signed_zero y Yu) as Z0. rewrite E in Z0. cbn in Z0. symmetry in Z0. apply Z.eqb_eq in Z0. auto. }
  exists (Z.quot (signed x) (signed y)), (Z.rem (signed x) (signed y)). split; [|split; [|split]].
  - eapply computes_iff; cycle 2.
    + eapply do_arith; eauto.
      assert (Eo : (signed x =? -2147483648) && (signed y =? -1) = false).
      { apply andb_false_iff. change (- 2 ^ 31) with (-2147483648) in Ho.
        destruct (Z.eqb_spec (signed x) (-2147483648)), (Z.eqb_spec (signed y) (-1)); auto; tauto. }
      destruct is_div; cbn [alu_spec]; unfold divide; rewrite (proj2 (Z.eqb_neq _ _) H0), Hs, Eo; reflexivity.
    + split; [discriminate|tauto].
    + split; [discriminate|tauto].
  - apply Z.quot_rem'.
  - apply Z.rem_bound_abs; auto.
  - apply Z.rem_sign_mul; auto.
Qed.

(** Division by zero: bits 3 and 2 of the mode select exception 0x0A, minimum, zero or maximum. *)
Lemma P_C09_zero_forbidden : forall D (ops : bus_ops D) oc m i d v md is_div mem1 m' x mode,
  typed ops -> wf m -> div_or_mod i d v md is_div -> executes ops oc m i mem1 m' ->
  reg_value m d = Some x -> operand1 m v = Some 0 -> operand1 m md = Some mode ->
  (mode / 4) mod 4 = 0 -> raised m m' mem1 10 0.
Proof.
  intros D ops oc m i d v md is_div mem1 m' x mode T Hw Hi He Hx Hy Hm H0.
  destruct (div_alu _ _ _ _ _ _ _ _ _ Hi Hy Hm) as [A1 A2].
  eapply do_fault; eauto.
  assert (B3 : Z.testbit mode 3 = false) by (rewrite Z.testbit_eqb by lia; change (2 ^ 3) with 8; apply Z.eqb_neq; lia).
  assert (B2 : Z.testbit mode 2 = false) by (rewrite Z.testbit_eqb by lia; change (2 ^ 2) with 4; apply Z.eqb_neq; lia).
  destruct is_div; cbn [alu_spec]; unfold divide, by_zero; rewrite B3, B2; reflexivity.
Qed.
(** Division or remainder by zero, mode not 'forbidden': the result is the value the mode asks for (least, zero or greatest signed number), with the carry and overflow flags set. *)
Lemma P_C09_zero_value : forall D (ops : bus_ops D) oc m i d v md is_div mem1 m' x mode,
  typed ops -> wf m -> div_or_mod i d v md is_div -> executes ops oc m i mem1 m' ->
  reg_value m d = Some x -> operand1 m v = Some 0 -> operand1 m md = Some mode -> can_write (sup_mode m) d = true ->
  (mode / 4) mod 4 <> 0 ->
  computes m m' mem1 d (if (mode / 4) mod 4 =? 1 then 2 ^ 31 (* minimum *)
                        else if (mode / 4) mod 4 =? 2 then 0
                        else 2 ^ 31 - 1 (* maximum *)) True True.
Proof.
  intros D ops oc m i d v md is_div mem1 m' x mode T Hw Hi He Hx Hy Hm Hc H0.
  destruct (div_alu _ _ _ _ _ _ _ _ _ Hi Hy Hm) as [A1 A2].
  eapply computes_iff; cycle 2.
  - eapply (do_arith ops T oc m i mem1 m' d x _ 0 _ true true); eauto.
    assert (B3 : Z.testbit mode 3 = ((mode / 4) mod 4 / 2 =? 1)).
    { rewrite Z.testbit_eqb by lia; change (2 ^ 3) with 8. apply eq_true_iff_eq. rewrite !Z.eqb_eq. lia. }
    assert (B2 : Z.testbit mode 2 = ((mode / 4) mod 2 =? 1)).
    { rewrite Z.testbit_eqb by lia; change (2 ^ 2) with 4. reflexivity. }
    assert (E : divide is_div mode x 0 = AluOk (if (mode / 4) mod 4 =? 1 then 2 ^ 31 else if (mode / 4) mod 4 =? 2 then 0 else 2 ^ 31 - 1) true true).
    { unfold divide, by_zero. rewrite B3, B2. change (0 =? 0) with true. cbv iota.
      assert (C : (mode / 4) mod 4 = 1 \/ (mode / 4) mod 4 = 2 \/ (mode / 4) mod 4 = 3) by lia.
      destruct C as [C|[C|C]]; rewrite C; [replace ((mode / 4) mod 2) with 1 by lia|replace ((mode / 4) mod 2) with 0 by lia|replace ((mode / 4) mod 2) with 1 by lia]; reflexivity. }
    destruct is_div; exact E.
  - tauto.
  - tauto.
Qed.

(** The overflowing division raises 0x0B whatever the mode says. *)
Lemma P_C10_always_faults : forall D (ops : bus_ops D) oc m i d v md is_div mem1 m' x y mode,
  typed ops -> wf m -> div_or_mod i d v md is_div -> executes ops oc m i mem1 m' ->
  reg_value m d = Some x -> operand1 m v = Some y -> operand1 m md = Some mode ->
  Z.testbit mode 4 = true -> signed x = - 2 ^ 31 -> signed y = -1 -> raised m m' mem1 11 0.
Proof.
  intros D ops oc m i d v md is_div mem1 m' x y mode T Hw Hi He Hx Hy Hm Hs Ex Ey.
  destruct (div_alu _ _ _ _ _ _ _ _ _ Hi Hy Hm) as [A1 A2].
  eapply do_fault; eauto. change (- 2 ^ 31) with (-2147483648) in Ex.
  assert (Y0 : (y =? 0) = false) by (apply Z.eqb_neq; intros ->; discriminate).
  destruct is_div; cbn [alu_spec]; unfold divide; rewrite Y0, Hs, Ex, Ey; reflexivity.
Qed.

(** Every arithmetic instruction on accessible operands either raises 0x0A or 0x0B, or writes a result described by
    ZF, SF, EF and ZUF; ZLF is bit 16 of the result (not: the low half is zero). *)
Lemma P_C11_flags : forall D (ops : bus_ops D) oc m i d x mem1 m',
  typed ops -> wf m -> executes ops oc m i mem1 m' -> arith_dest i = Some d -> sources_readable m i ->
  reg_value m d = Some x -> can_write (sup_mode m) d = true ->
  raised m m' mem1 10 0 \/ raised m m' mem1 11 0 \/
  (R m' R_pc = (R m R_pc + 4) mod 2 ^ 32 \/ d = R_pc) /\ flags_describe m' (R m' d) /\ flag m' 1 = Z.testbit (R m' d) 16.
Proof.
  intros D ops oc m i d x mem1 m' T Hw He Hd Hs Hx Hc. destruct (sources_alu _ _ _ _ Hd Hs) as [[a y] Ha].
  destruct (alu_spec a x y) as [r c o|code] eqn:E.
  - right; right.
    assert (X : after m m' mem1 [(d, r); (R_pc, m32 (R m R_pc + 4)); (R_af, flags_spec r c o)]).
    { eapply ends_after; eauto. erewrite step_arith by eauto. eapply arith_ends; eauto. }
    pose proof (do_arith _ T _ _ _ _ _ _ _ _ _ _ _ _ Hw He Hd Ha Hx Hc E) as (_ & _ & _ & Hf).
    destruct X as (X & _).
    assert (Er : R m' d = r) by (rewrite X; cbn [assoc]; rewrite Z.eqb_refl; reflexivity).
    rewrite Er. split; [|split]; auto.
    + destruct (reg_eq_dec d R_pc); auto. left. rewrite X. cbn [assoc].
      destruct (Z.eqb_spec (reg_code R_pc) (reg_code d)) as [N|N]; [apply reg_code_inj in N; congruence|]. reflexivity.
    + unfold flag. replace (R m' R_af) with (flags_spec r c o). apply flags_bits.
      rewrite X. cbn [assoc]. destruct (Z.eqb_spec (reg_code R_af) (reg_code d)) as [N|N]; [apply reg_code_inj in N; apply can_write_af in Hc; congruence|]. reflexivity.
  - destruct (alu_fault _ _ _ _ E) as [->| ->]; [left|right; left]; eapply do_fault; eauto.
Qed.

(** CMP sets the flags as SUB does and writes nothing. *)
Lemma P_C11_cmp : forall D (ops : bus_ops D) oc m d v mem1 m' x y,
  typed ops -> wf m -> executes ops oc m (Cmp d v) mem1 m' ->
  reg_value m d = Some x -> operand2 m v = Some y ->
  after m m' mem1 [(R_pc, (R m R_pc + 4) mod 2 ^ 32); (R_af, R m' R_af)] /\
  (flag m' 6 = true <-> x < y) /\ (flag m' 5 = true <-> ~ (- 2 ^ 31 <= signed x - signed y < 2 ^ 31)) /\
  flags_describe m' ((x - y) mod 2 ^ 32).
Proof.
  intros D ops oc m d v mem1 m' x y T Hw He Hx Hy.
  assert (X : after m m' mem1 [(R_pc, m32 (R m R_pc + 4));
     (R_af, flags_spec (m32 (x - y)) (x <? y) (negb (fits_signed (signed x - signed y))))]).
  { eapply ends_after; eauto. cbn [step]. erewrite read2_ok by eauto. eapply cmp_ends; eauto. }
  assert (E : R m' R_af = flags_spec (m32 (x - y)) (x <? y) (negb (fits_signed (signed x - signed y)))).
  { destruct X as (X & _). rewrite X. reflexivity. }
  split. { rewrite E. exact X. }
  split; [|split].
  - unfold flag. rewrite E. destruct (flags_bits (m32 (x - y)) (x <? y) (negb (fits_signed (signed x - signed y)))) as (_&B6&_). rewrite B6. apply Z.ltb_lt.
  - unfold flag. rewrite E. destruct (flags_bits (m32 (x - y)) (x <? y) (negb (fits_signed (signed x - signed y)))) as (_&_&B5&_). rewrite B5. apply fits_iff.
  - eapply describe; eauto.
Qed.

(** * Witnesses *)

Lemma E_C07_add : demo_case (asm [Sub R_a0 (Lit2 1); Add R_a0 (Lit2 7)]) 1 (fun m i mem1 m' =>
  i = Add R_a0 (Lit2 7) /\ reg_value m R_a0 = Some 4294967295 /\ operand2 m (Lit2 7) = Some 7 /\
  can_write (sup_mode m) R_a0 = true /\ R m' R_a0 = 6 /\ flag m' 6 = true /\ flag m' 5 = false).
Proof. demo_tac. Qed.
Lemma E_C07_sub : demo_case (asm [Cpy R_a0 (Lit2 5); Sub R_a0 (Lit2 7)]) 1 (fun m i mem1 m' =>
  i = Sub R_a0 (Lit2 7) /\ reg_value m R_a0 = Some 5 /\ operand2 m (Lit2 7) = Some 7 /\
  can_write (sup_mode m) R_a0 = true /\ R m' R_a0 = 4294967294 /\ flag m' 6 = true).
Proof. demo_tac. Qed.
Lemma E_C07_mul : demo_case (asm [Cpy R_a0 (Lit2 65535); Mul R_a0 (Lit2 65535)]) 1 (fun m i mem1 m' =>
  i = Mul R_a0 (Lit2 65535) /\ reg_value m R_a0 = Some 65535 /\ operand2 m (Lit2 65535) = Some 65535 /\
  can_write (sup_mode m) R_a0 = true /\ R m' R_a0 = 4294836225 /\ flag m' 6 = true /\ flag m' 5 = true).
Proof. demo_tac. Qed.
Lemma E_C08_bitwise : demo_case (asm [Cpy R_a0 (Lit2 12); Xor R_a0 (Lit2 10)]) 1 (fun m i mem1 m' =>
  i = Xor R_a0 (Lit2 10) /\ reg_value m R_a0 = Some 12 /\ operand2 m (Lit2 10) = Some 10 /\
  can_write (sup_mode m) R_a0 = true /\ R m' R_a0 = 6).
Proof. demo_tac. Qed.
Lemma E_C08_shl : demo_case (asm [Cpy R_a0 (Lit2 12); Shl R_a0 (Lit1 34)]) 1 (fun m i mem1 m' =>
  i = Shl R_a0 (Lit1 34) /\ reg_value m R_a0 = Some 12 /\ operand1 m (Lit1 34) = Some 34 /\
  can_write (sup_mode m) R_a0 = true /\ R m' R_a0 = 48 /\ flag m' 6 = true).
Proof. demo_tac. Qed.
Lemma E_C08_shr : demo_case (asm [Cpy R_a0 (Lit2 12); Shr R_a0 (Lit1 3)]) 1 (fun m i mem1 m' =>
  i = Shr R_a0 (Lit1 3) /\ reg_value m R_a0 = Some 12 /\ operand1 m (Lit1 3) = Some 3 /\
  can_write (sup_mode m) R_a0 = true /\ R m' R_a0 = 1 /\ flag m' 6 = false).
Proof. demo_tac. Qed.
Lemma E_C09_unsigned : demo_case (asm [Cpy R_a0 (Lit2 17); Mod R_a0 (Lit1 5) (Lit1 0)]) 1 (fun m i mem1 m' =>
  div_or_mod i R_a0 (Lit1 5) (Lit1 0) false /\ reg_value m R_a0 = Some 17 /\
  can_write (sup_mode m) R_a0 = true /\ R m' R_a0 = 2).
Proof. demo_tac. Qed.
Lemma E_C09_signed : demo_case (asm [Sub R_a0 (Lit2 17); Div R_a0 (Lit1 5) (Lit1 16)]) 1 (fun m i mem1 m' =>
  div_or_mod i R_a0 (Lit1 5) (Lit1 16) true /\ reg_value m R_a0 = Some 4294967279 /\ Z.testbit 16 4 = true /\
  can_write (sup_mode m) R_a0 = true /\ signed (R m' R_a0) = -3).
Proof. demo_tac. Qed.
Lemma E_C09_zero_forbidden : demo_case (asm [Cpy R_a0 (Lit2 17); Div R_a0 (Lit1 0) (Lit1 0)]) 1 (fun m i mem1 m' =>
  div_or_mod i R_a0 (Lit1 0) (Lit1 0) true /\ reg_value m R_a0 = Some 17 /\ R m' R_a0 = 17 /\ R m' R_et = 16777216 + 655360).
Proof. demo_tac. Qed.
Lemma E_C09_zero_value : demo_case (asm [Cpy R_a0 (Lit2 17); Div R_a0 (Lit1 0) (Lit1 4)]) 1 (fun m i mem1 m' =>
  div_or_mod i R_a0 (Lit1 0) (Lit1 4) true /\ reg_value m R_a0 = Some 17 /\ R m' R_a0 = 2 ^ 31).
Proof. demo_tac. Qed.
(** MIN / -1 in signed mode with the low mode bits 01. *)
Definition p_min : list Z := asm [Cpy R_a0 (Lit2 32768); Shl R_a0 (Lit1 16); Sub R_a1 (Lit2 1); Div R_a0 (Reg1 R_a1) (Lit1 17)].
Lemma E_C10_always_faults : demo_case p_min 3 (fun m i mem1 m' =>
  div_or_mod i R_a0 (Reg1 R_a1) (Lit1 17) true /\ reg_value m R_a0 = Some (2 ^ 31) /\
  operand1 m (Reg1 R_a1) = Some 4294967295 /\ signed (2 ^ 31) = - 2 ^ 31 /\ signed 4294967295 = -1 /\
  can_write (sup_mode m) R_a0 = true /\ R m' R_pc = 0 /\ R m R_pc = 12).
Proof. demo_tac. Qed.
(** The documented behaviour of the overflowing division does not hold of the code. *)
Lemma P_C10_overflow_mode_refuted : ~ (forall D (ops : bus_ops D) oc m i d v md is_div mem1 m' x y mode,
  typed ops -> wf m -> div_or_mod i d v md is_div -> executes ops oc m i mem1 m' ->
  reg_value m d = Some x -> operand1 m v = Some y -> operand1 m md = Some mode -> can_write (sup_mode m) d = true ->
  Z.testbit mode 4 = true -> signed x = - 2 ^ 31 -> signed y = -1 -> mode mod 4 <> 0 ->
  computes m m' mem1 d (if mode mod 4 =? 1 then 2 ^ 31 else if mode mod 4 =? 2 then 0 else 2 ^ 31 - 1) True True).
Proof.
  intros H. destruct E_C10_always_faults as (m & i & mem1 & m' & Hr & He & Hi & Hx & Hy & S1 & S2 & Hc & Hp & Hp0).
  specialize (H device (dev_ops false) false m i R_a0 (Reg1 R_a1) (Lit1 17) true mem1 m' (2 ^ 31) 4294967295 17
                (dev_typed false) (reachable_wf _ (dev_typed false) _ _ Hr) Hi He Hx Hy eq_refl Hc eq_refl S1 S2 ltac:(discriminate)).
  destruct H as ((X & _) & _). specialize (X R_pc). cbn in X. rewrite Hp, Hp0 in X. discriminate.
Qed.
Lemma E_C11_flags : demo_case (asm [Cpy R_a0 (Lit2 32768); Shl R_a0 (Lit1 17)]) 1 (fun m i mem1 m' =>
  arith_dest i = Some R_a0 /\ sources_readable m i /\ reg_value m R_a0 = Some 32768 /\ can_write (sup_mode m) R_a0 = true /\
  R m' R_a0 = 0 /\ flag m' 7 = true).
Proof. demo_tac. Qed.
(** ZLF is documented as "the lower 16 bits of the result are zero". *)
Lemma P_C11_zlf_refuted : ~ (forall D (ops : bus_ops D) oc m i d x mem1 m',
  typed ops -> wf m -> executes ops oc m i mem1 m' -> arith_dest i = Some d -> sources_readable m i ->
  reg_value m d = Some x -> can_write (sup_mode m) d = true -> R m' R_pc = R m R_pc + 4 ->
  (flag m' 1 = true <-> R m' d mod 2 ^ 16 = 0)).
Proof.
  intros H. assert (C : demo_case (asm [Cpy R_a0 (Lit2 32768); Shl R_a0 (Lit1 17)]) 1 (fun m i mem1 m' =>
    arith_dest i = Some R_a0 /\ sources_readable m i /\ reg_value m R_a0 = Some 32768 /\ can_write (sup_mode m) R_a0 = true /\
    R m' R_pc = R m R_pc + 4 /\ R m' R_a0 = 0 /\ flag m' 1 = false)) by demo_tac.
  destruct C as (m & i & mem1 & m' & Hr & He & H1 & H2 & H3 & H4 & H5 & H6 & H7).
  destruct (H device (dev_ops false) false m i R_a0 32768 mem1 m' (dev_typed false) (reachable_wf _ (dev_typed false) _ _ Hr) He H1 H2 H3 H4 H5) as [_ X].
  rewrite H6, H7 in X. discriminate X. reflexivity.
Qed.
Lemma E_C11_cmp : demo_case (asm [Cpy R_a0 (Lit2 5); Cmp R_a0 (Lit2 9)]) 1 (fun m i mem1 m' =>
  i = Cmp R_a0 (Lit2 9) /\ reg_value m R_a0 = Some 5 /\ operand2 m (Lit2 9) = Some 9 /\ flag m' 6 = true /\ R m' R_a0 = 5).
Proof. demo_tac. Qed.
