(** Symbolic execution of the async_hw example's program with any counter component. *)
From Coq Require Import String ZArith List Bool Lia.
From Verif Require Import Base BaseFacts Board Mem Cpu Asm Tools Devices Runner LasmRules Lasm Sources Counter Examples Async SpecMach SpecIsa SpecBus SpecObs SpecMap SpecDev SpecRun SpecPanic SpecExample.
From Verif Require Import RegFacts MemFacts MapFacts CycleFacts CyclePost ReachFacts InvFacts DevTyped ProofMap ProofBoard ProofReg ProofRun ProofCrash ProofRom SymFacts.
Import ListNotations.
Open Scope list_scope.
Open Scope Z_scope.
Ltac Zify.zify_post_hook ::= Z.div_mod_to_equations.

Lemma sum_typed {A B} (a : bus_ops A) (b : bus_ops B) : typed a -> typed b -> typed (sum_ops a b).
Proof.
  intros TA TB. constructor.
  - intros [d|d] off d' ex v; cbn [bo_read sum_ops]; intros E; apply obind_inv in E; destruct E as ([[d1 e1] v1] & E1 & E); injection E as <- <- <-; eapply ty_read; [exact TA|exact E1|exact TB|exact E1].
  - intros [d|d] off w d' ex; cbn [bo_write sum_ops]; intros E; apply obind_inv in E; destruct E as ([d1 e1] & E1 & E); injection E as <- <-; eapply ty_write; [exact TA|exact E1|exact TB|exact E1].
  - intros [d|d] md; cbn [bo_metadata sum_ops]; apply ty_meta; auto.
  - intros [d|d]; cbn [bo_name sum_ops]; apply ty_name; auto.
Qed.

Definition asy_words : list Z := [202907648; 201326592; 201392133; 201990144; 2786396672; 1845499136; 2281701376; 202768396; 234886400; 3037334528; 1845494016; 2281701376; 4026531840; 202768396].
Lemma asy_assembled : assemble_words async_source = Some asy_words.
Proof. vm_compute. reflexivity. Qed.
Lemma some_eq {A} (a b : A) : Some a = Some b -> a = b.
Proof. congruence. Qed.
Definition asy_szs : list Z := [4096; 4096; 4; 64].
Definition asy_file (a0 a1 ac0 avr pc af ssp : Z) : list Z :=
  [a0; a1; 0; 0; 0; 0; 0; 0; 0; 0; ac0; 0; 0; 0; 0; 0; 0; 0; 0; 0; 0; avr; pc; af; ssp; 0; 0; 0; 0; 0; 0; 1].
Section AsyncProgram.
Context {C : Type} (cops : bus_ops C) (oc : bool) (TC : typed cops) (id0 id3 : Z) (ram : device) (c : nat -> C) (v : nat -> Z)
  (Hc : forall i, bo_read cops (c i) 0 = Ret (c (S i), 0, v i)).
Notation ops := (sum_ops (dev_ops oc) cops).
Definition asy_rom : device + C := inl (DRom (BootRom asy_words 14 1024 id0)).
Definition asy_devs i calls : list (device + C) := [asy_rom; inl ram; inr (c i); inl (DNum (NumDisplay id3 calls))].
Notation quiet := (quiet ops asy_words).
Lemma asy_read i calls mem : board asy_szs (asy_devs i calls) mem ->
  exists mem', mem_read ops false mem 8192 = Ret (mem', 0, v i) /\ board asy_szs (asy_devs (S i) calls) mem'.
Proof.
  intros B. destruct (board_read _ ops _ _ mem 8192 2 (inr (c i)) 0 (inr (c (S i))) 0 (v i) B) as (mem' & E & B' & _).
  - exists 4. split; [reflexivity|]. split; [reflexivity|]. split; [reflexivity|]. split; [lia|reflexivity].
  - cbn [bo_read sum_ops]. rewrite Hc. reflexivity.
  - exists mem'. auto.
Qed.
Lemma asy_write i calls mem w : board asy_szs (asy_devs i calls) mem ->
  exists mem', mem_write ops false mem 8204 w = Ret (mem', 0) /\ board asy_szs (asy_devs i (calls ++ [(w, NDec, true)])) mem'.
Proof.
  intros B. destruct (board_write _ ops _ _ mem 8204 3 (inl (DNum (NumDisplay id3 calls))) 8 (inl (DNum (NumDisplay id3 (calls ++ [(w, NDec, true)])))) 0 w B) as (mem' & E & B' & _).
  - exists 64. split; [reflexivity|]. split; [reflexivity|]. split; [reflexivity|]. split; [lia|reflexivity].
  - reflexivity.
  - exists mem'. auto.
Qed.
Lemma v_u32 i : is_u32 (v i).
Proof. eapply ty_read; [exact TC|apply Hc]. Qed.
(** One turn of the loop. *)
Lemma asy_iter i calls mem a0 ac0 avr af k : is_u32 a0 -> board asy_szs (asy_devs i calls) mem ->
  exists mem' af' n, quiet n (St (asy_file a0 5 ac0 avr 12 af 8192) mem k false)
      (St (asy_file (v i) 5 8192 (v i) (if (v i =? 5) && negb (v i =? a0) then 52 else 12) af' 8192) mem' ((k + Z.of_nat n) mod 2 ^ 128) ((v i =? 5) && negb (v i =? a0))) /\
    (5 <= n <= 9)%nat /\ board asy_szs (asy_devs (S i) (calls ++ map (fun x => (x, NDec, true)) (changes a0 [v i]))) mem'.
Proof.
  intros U B. pose proof (v_u32 i) as Uv. destruct (asy_read i calls mem B) as (m1 & E1 & B1). cbn [changes]. unfold is_u32 in *. set (x := v i) in *. clearbody x.
  destruct (Z.eqb_spec x a0) as [->|N].
  - exists m1. eexists. exists 5%nat. rewrite andb_false_r. cbn [map]. rewrite app_nil_r. split; [|split; [lia|exact B1]]. unfold asy_file.
    istep. istep_with ltac:(change (m32 (8192 + 0)) with 8192; change (8192 mod 4) with 0; sym1; rewrite E1; sym1). istep. istep_with ltac:(iftac true). istep. apply quiet_0.
  - destruct (asy_write _ _ _ x B1) as (m2 & E2 & B2). exists m2. destruct (Z.eqb_spec x 5) as [->|N5]; eexists; exists 9%nat; cbn [negb map andb]; (split; [|split; [lia|exact B2]]); unfold asy_file.
    all: istep; istep_with ltac:(change (m32 (8192 + 0)) with 8192; change (8192 mod 4) with 0; sym1; rewrite E1; sym1); istep; istep_with ltac:(iftac false); istep;
      istep_with ltac:(change (m32 (8192 + 12)) with 8204; change (8204 mod 4) with 0; sym1; rewrite E2; sym1); istep.
    + istep. istep. apply quiet_0.
    + istep_with ltac:(iftac false). istep. apply quiet_0.
Qed.
Lemma last_cons (l : list Z) : forall x d, last (x :: l) d = last l x.
Proof. induction l as [|y l IH]; intros x d; [reflexivity|]. change (last (x :: y :: l) d) with (last (y :: l) d). rewrite !IH. reflexivity. Qed.
Lemma changes_cons a x t : changes a (x :: t) = changes a [x] ++ changes x t.
Proof. cbn [changes]. destruct (Z.eqb_spec x a) as [->|]; reflexivity. Qed.
(** [j] turns during which 5 is not read. *)
Lemma asy_iters : forall j i calls mem a0 ac0 avr af k, is_u32 a0 -> a0 <> 5 -> (forall x, (i <= x < i + j)%nat -> v x <> 5) -> board asy_szs (asy_devs i calls) mem ->
  exists mem' a0' ac0' avr' af' n, quiet n (St (asy_file a0 5 ac0 avr 12 af 8192) mem (k mod 2 ^ 128) false)
      (St (asy_file a0' 5 ac0' avr' 12 af' 8192) mem' ((k + Z.of_nat n) mod 2 ^ 128) false) /\
    (5 * j <= n <= 9 * j)%nat /\ is_u32 a0' /\ a0' <> 5 /\ a0' = last (map v (seq i j)) a0 /\
    board asy_szs (asy_devs (i + j) (calls ++ map (fun x => (x, NDec, true)) (changes a0 (map v (seq i j))))) mem'.
Proof.
  induction j as [|j IH]; intros i calls mem a0 ac0 avr af k U Ha Hv B.
  - exists mem, a0, ac0, avr, af, 0%nat. cbn [seq map changes last Z.of_nat]. rewrite app_nil_r, Nat.add_0_r, Z.add_0_r. repeat (split; auto; try lia). apply quiet_0.
  - destruct (asy_iter i calls mem a0 ac0 avr af (k mod 2 ^ 128) U B) as (m1 & af1 & n1 & Q1 & L1 & B1).
    pose proof (Hv i ltac:(lia)) as Hi. rewrite (proj2 (Z.eqb_neq _ _) Hi) in Q1. cbn [andb] in Q1. rewrite Zplus_mod_idemp_l in Q1.
    destruct (IH (S i) _ m1 (v i) 8192 (v i) af1 (k + Z.of_nat n1) (v_u32 i) Hi ltac:(intros x Hx; apply Hv; lia) B1) as (m2 & b0 & b1 & b2 & af2 & n2 & Q2 & L2 & U2 & H2 & H3 & B2).
    exists m2, b0, b1, b2, af2, (n1 + n2)%nat. split; [|split; [lia|split; [auto|split; [auto|split]]]].
    + eapply quiet_app; [exact Q1|]. replace (k + Z.of_nat (n1 + n2)) with (k + Z.of_nat n1 + Z.of_nat n2) by lia. exact Q2.
    + rewrite H3. cbn [seq map]. rewrite last_cons. reflexivity.
    + replace (i + S j)%nat with (S i + j)%nat by lia. cbn [seq map]. rewrite changes_cons, map_app, app_assoc. exact B2.
Qed.
Lemma asy_prologue mem : quiet 3 (St reset_file mem 0 false) (St (asy_file 0 5 0 0 12 0 8192) mem (3 mod 2 ^ 128) false).
Proof. change reset_file with (asy_file 0 0 0 0 0 0 0). unfold asy_file. istep. istep. istep. apply quiet_0. Qed.
(** From the boot: 5 is never read before reading [j]; then it is. *)
Lemma asy_before j mem : (forall x, (x < j)%nat -> v x <> 5) -> board asy_szs (asy_devs 0 []) mem ->
  exists n mem' s', quiet n (St reset_file mem 0 false) s' /\ (3 + 5 * j <= n <= 3 + 9 * j)%nat /\ s_bus s' = mem' /\ s_halt s' = false /\
    board asy_szs (asy_devs j (map (fun x => (x, NDec, true)) (changes 0 (map v (seq 0 j))))) mem' /\
    (v j = 5 -> exists n2 s2, quiet n2 s' s2 /\ (n2 <= 9)%nat /\ s_halt s2 = true /\ get s2 R_et = 0 /\
      board asy_szs (asy_devs (S j) (map (fun x => (x, NDec, true)) (changes 0 (map v (seq 0 (S j)))))) (s_bus s2)).
Proof.
  intros Hv B. destruct (asy_iters j 0 [] mem 0 0 0 0 3 ltac:(unfold is_u32; lia) ltac:(lia) ltac:(intros; apply Hv; lia) B) as (m1 & a0 & ac0 & avr & af & n & Q & L & U & Ha & HL & B1).
  exists (3 + n)%nat, m1. eexists. split; [eapply quiet_app; [apply asy_prologue|exact Q]|]. split; [lia|]. split; [reflexivity|]. split; [reflexivity|]. split; [exact B1|].
  intros H5. destruct (asy_iter j _ m1 a0 ac0 avr af ((3 + Z.of_nat n) mod 2 ^ 128) U B1) as (m2 & af2 & n2 & Q2 & L2 & B2).
  rewrite H5 in Q2. replace (5 =? a0) with false in Q2 by (symmetry; apply Z.eqb_neq; congruence). change ((5 =? 5) && negb false) with true in Q2.
  exists n2. eexists. split; [exact Q2|]. split; [lia|]. split; [reflexivity|]. split; [reflexivity|]. cbn [s_bus].
  replace (changes 0 (map v (seq 0 (S j)))) with (changes 0 (map v (seq 0 j)) ++ changes a0 [v j]); [rewrite map_app; exact B2|].
  rewrite seq_S, map_app. cbn [map Nat.add]. rewrite HL. clear. generalize (map v (seq 0 j)) as l, 0 as a, (v j) as x. induction l as [|y l IH]; intros a x; [reflexivity|].
  cbn [app]. rewrite changes_cons, (changes_cons a y (l ++ [x])), <- app_assoc, <- IH. rewrite last_cons. reflexivity.
Qed.
End AsyncProgram.
