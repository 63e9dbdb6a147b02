(** Symbolic execution of the brainfuck example's program: memory accesses, blocks of code. *)
From Coq Require Import String ZArith List Bool Lia.
From Verif Require Import Base BaseFacts Board Mem Cpu Asm Tools Devices Runner LasmRules Lasm Sources Examples SpecMach SpecIsa SpecBus SpecObs SpecMap SpecDev SpecRun SpecPanic.
From Verif Require Import Counter RegFacts MemFacts MapFacts CycleFacts CyclePost ReachFacts InvFacts DevTyped ProofMap ProofBoard ProofReg ProofRun ProofCrash ProofRom ProofDev ProofIo SymFacts.
Import ListNotations.
Open Scope list_scope.
Open Scope Z_scope.
Ltac Zify.zify_post_hook ::= Z.div_mod_to_equations.

Definition bf_words : list Z :=
  [202907648; 202572544; 3623890944; 3623904256; 202572640; 3623890944; 202194944; 202252288; 3623921664; 202572908; 3623890944; 4026531840; 202649600;
2920480768; 1813315584; 2281701376; 202768468; 3188981760; 471007236; 471072772; 202768436; 202719228; 3021275306; 3021275391; 3558211584; 202657788;
3021209770; 3558211584; 202657796; 3021209601; 202657792; 2920546304; 3558211584; 202657800; 3188981760; 3558211584; 202657836; 3188981760;
3558211584; 202657812; 3188981760; 3558211584; 202309632; 202375168; 604962817; 3623950336; 1811939328; 2281701376; 202768608; 1811939341; 2281701376;
202768608; 1811939338; 2281701376; 202768608; 202768716; 1812987904; 2281701376; 3558211584; 202507280; 3624061952; 236261376; 3623918592; 202572864;
3623890944; 3558146048; 471138305; 3623918592; 3624072192; 4026531840; 470745089; 236260608; 504696576; 236195584; 1024721920; 638915584; 2785023232;
236261120; 1024787456; 739573768; 1577063680; 1677727744; 3558211584; 1811939390; 2281701376; 202768884; 1811939388; 2281701376; 202768892;
1811939371; 2281701376; 202768900; 1811939373; 2281701376; 202768916; 1811939374; 2281701376; 202768932; 1811939372; 2281701376; 202768944;
1811939419; 2281701376; 202768956; 1811939421; 2281701376; 202769032; 202507220; 3624061952; 202702887; 3623912448; 236257280; 3623912448; 202702887;
3623912448; 202702880; 3623912448; 202702888; 3623912448; 236257280; 3623915520; 202702889; 3623912448; 3624072192; 4026531840; 470679553; 202768564;
604897281; 202768564; 2920153088; 471138305; 3188588544; 202768564; 2920153088; 605356033; 3188588544; 202768564; 2920153088; 3623912448; 202768564;
3623907328; 3188588544; 202768564; 470810625; 2920153088; 1813315584; 2281701376; 202768984; 3423535104; 202768564; 3623950336; 1811939421;
2415919104; 1879051264; 605028353; 202768564; 1811939328; 202768608; 1811939341; 2281701376; 202768608; 202768984; 1812987904; 2281701376; 202769084;
605028353; 2920153088; 1813315584; 2415919104; 202769072; 3558146048; 202768564; 3557752832; 604962817; 202768564; 202507240; 3624061952; 3624072192;
4026531840; 202572680; 3623890944; 236261120; 471138305; 3623918592; 202572712; 3623890944; 236130816; 3623890944; 3558211584; 202572724; 3623890944;
3558211584; 171785533; 542598508; 1668246885; 544501536; 1952998688; 1114792297; 1850111331; 1797286254; 1952805488; 1919251557; 1914773565;
1027410442; 1349281121; 1936007284; 2037409056; 2037347698; 541225569; 1768834677; 1667965040; 1919903602; 1634541672; 1701995834; 168427520; 0;
171785760; 1315927840; 1920298606; 1768843040; 2037347698; 544240239; 1735549293; 774778378; 167772160; 0; 171785533; 1042302290; 1380930106;
541160480; 1667785074; 1633907813; 1914699776; 0; 169877536; 538968064; 0; 168447599; 1998611832; 1769236846; 1730175334; 1952805408; 1701999215;
1915619840; 0; 1433299822; 1870097952; 1937337698; 1869357056; 0; 1315905644; 1869574176; 1869636974; 1701063712; 1667329646; 1869881443; 1819243365;
544173669; 771751936; 0; 1349676903; 1918987552; 1702390132; 1701060706; 1701212018; 1696621420; 1869834606; 1730175340; 1814064239; 1869640506;
536870912; 0; 544695666; 1696624239; 1948279660; 1869833572; 740322401; 1936990319; 1852121185; 1948279656; 1634885987; 1952805408; 0; 168443197;
1025525615; 1868849785; 1696669757; 1027410432; 0].
Lemma bf_assembled : assemble_words brainfuck_source = Some bf_words.
Proof. vm_compute. reflexivity. Qed.
Definition bf_szs : list Z := [4096; 4096; 4096; 4096; 4096; 8; 4; 64].
(** The registers the program uses. *)
Definition bf_file (a0 rr0 rr1 rr2 rr3 rr5 rr6 rr7 avr pc af ssp : Z) : list Z :=
  [a0; 0; 0; 0; 0; 0; 0; 0; 0; 0; 0; 0; 0; rr0; rr1; rr2; rr3; 0; rr5; rr6; rr7; avr; pc; af; ssp; 0; 0; 0; 0; 0; 0; 1].
(** The states of the components that change. *)
Record bfw : Type := Bfw { w_stk : list Z; w_cells : list Z; w_buf : list Z; w_shown : list (bool * list Z); w_line : list Z; w_lines : nat;
  w_key : Z; w_keys : nat; w_out : list (result Z Z); w_num : list (Z * num_format * bool) }.

Section Bf.
Context (oc : bool) (id0 id1 id2 id3 id4 id5 id6 id7 : Z) (sz1 sz2 : Z) (typed_lines : nat -> list Z) (typed_keys : nat -> Z).
Notation ops := (dev_ops oc).
Notation quiet := (quiet ops bf_words).
Definition bf_rom : device := DRom (BootRom bf_words 289 1024 id0).
Definition bf_devs (w : bfw) : list device := [bf_rom; DRam (StoreMem (w_stk w) sz1 id1); DRam (StoreMem (w_cells w) sz2 id2);
  DBuf (BufDisplay (w_buf w) 1023 id3 (w_shown w)); DKeyLine (LineKeyboard (w_line w) 1023 id4 typed_lines (w_lines w));
  DKeyChar (CharKeyboard (w_key w) id5 typed_keys (w_keys w)); DChar (CharDisplay id6 (w_out w)); DNum (NumDisplay id7 (w_num w))].
Definition bf_board (w : bfw) (mem : memory device) : Prop := board bf_szs (bf_devs w) mem.
Ltac slot sz := exists sz; split; [reflexivity|]; split; [reflexivity|]; cbn [firstn sum fold_right bf_szs]; lia.

Definition set_stk w l := Bfw l (w_cells w) (w_buf w) (w_shown w) (w_line w) (w_lines w) (w_key w) (w_keys w) (w_out w) (w_num w).
Definition set_cells w l := Bfw (w_stk w) l (w_buf w) (w_shown w) (w_line w) (w_lines w) (w_key w) (w_keys w) (w_out w) (w_num w).
Definition set_disp w b l := Bfw (w_stk w) (w_cells w) b l (w_line w) (w_lines w) (w_key w) (w_keys w) (w_out w) (w_num w).
Definition set_line w l n := Bfw (w_stk w) (w_cells w) (w_buf w) (w_shown w) l n (w_key w) (w_keys w) (w_out w) (w_num w).
Definition set_key w k n := Bfw (w_stk w) (w_cells w) (w_buf w) (w_shown w) (w_line w) (w_lines w) k n (w_out w) (w_num w).
Definition set_out w l := Bfw (w_stk w) (w_cells w) (w_buf w) (w_shown w) (w_line w) (w_lines w) (w_key w) (w_keys w) l (w_num w).

Lemma stk_read w mem k v : bf_board w mem -> 0 <= k < 1024 -> znth (w_stk w) k = Some v -> is_u32 v ->
  exists mem', mem_read ops false mem (4096 + 4 * k) = Ret (mem', 0, v) /\ bf_board w mem'.
Proof.
  intros B Hk Hv U. destruct (board_read _ ops _ _ mem (4096 + 4 * k) 1 (DRam (StoreMem (w_stk w) sz1 id1)) (4 * k) (DRam (StoreMem (w_stk w) sz1 id1)) 0 v B) as (mem' & E & B' & _).
  - slot 4096.
  - cbn [bo_read dev_ops]. unfold sm_read, vget. cbn [sm_storage]. replace (4 * k / 4) with k by lia. rewrite Hv. cbn [unwrap obind wrap_r]. rewrite (u32_id v U). reflexivity.
  - exists mem'. auto.
Qed.
Lemma stk_write w mem k v : bf_board w mem -> 0 <= k < 1024 -> 1024 <= zlen (w_stk w) ->
  exists mem' l, mem_write ops false mem (4096 + 4 * k) v = Ret (mem', 0) /\ zset (w_stk w) k v = Some l /\ bf_board (set_stk w l) mem'.
Proof.
  intros B Hk Hl. destruct (zset_some (w_stk w) k v) as (l & El); [lia|].
  destruct (board_write _ ops _ _ mem (4096 + 4 * k) 1 (DRam (StoreMem (w_stk w) sz1 id1)) (4 * k) (DRam (StoreMem l sz1 id1)) 0 v B) as (mem' & E & B' & _).
  - slot 4096.
  - cbn [bo_write dev_ops]. unfold sm_write, vset. cbn [sm_storage]. replace (4 * k / 4) with k by lia. rewrite El. reflexivity.
  - exists mem', l. auto.
Qed.
Lemma cell_read w mem k v : bf_board w mem -> 0 <= k < 1024 -> znth (w_cells w) k = Some v -> is_u32 v ->
  exists mem', mem_read ops false mem (8192 + 4 * k) = Ret (mem', 0, v) /\ bf_board w mem'.
Proof.
  intros B Hk Hv U. destruct (board_read _ ops _ _ mem (8192 + 4 * k) 2 (DRam (StoreMem (w_cells w) sz2 id2)) (4 * k) (DRam (StoreMem (w_cells w) sz2 id2)) 0 v B) as (mem' & E & B' & _).
  - slot 4096.
  - cbn [bo_read dev_ops]. unfold sm_read, vget. cbn [sm_storage]. replace (4 * k / 4) with k by lia. rewrite Hv. cbn [unwrap obind wrap_r]. rewrite (u32_id v U). reflexivity.
  - exists mem'. auto.
Qed.
Lemma cell_write w mem k v l : bf_board w mem -> 0 <= k < 1024 -> zset (w_cells w) k v = Some l ->
  exists mem', mem_write ops false mem (8192 + 4 * k) v = Ret (mem', 0) /\ bf_board (set_cells w l) mem'.
Proof.
  intros B Hk El.
  destruct (board_write _ ops _ _ mem (8192 + 4 * k) 2 (DRam (StoreMem (w_cells w) sz2 id2)) (4 * k) (DRam (StoreMem l sz2 id2)) 0 v B) as (mem' & E & B' & _).
  - slot 4096.
  - cbn [bo_write dev_ops]. unfold sm_write, vset. cbn [sm_storage]. replace (4 * k / 4) with k by lia. rewrite El. reflexivity.
  - exists mem'. auto.
Qed.
Lemma line_read w mem k v : bf_board w mem -> 0 <= k < 1024 -> zlen (w_line w) = 1023 -> nth (Z.to_nat k) (w_line w) 0 = v -> is_u32 v ->
  exists mem', mem_read ops false mem (16384 + 4 * k) = Ret (mem', 0, v) /\ bf_board w mem'.
Proof.
  intros B Hk Hl Hv U. set (d := DKeyLine (LineKeyboard (w_line w) 1023 id4 typed_lines (w_lines w))).
  destruct (board_read _ ops _ _ mem (16384 + 4 * k) 4 d (4 * k) d 0 v B) as (mem' & E & B' & _).
  - slot 4096.
  - cbn [bo_read dev_ops d]. unfold lk_read, vget. cbn [lk_buffer lk_capacity]. replace (4 * k / 4) with k by lia. destruct (Z.eqb_spec k 1023) as [->|N].
    + rewrite nth_overflow in Hv by (unfold zlen in Hl; lia). subst v. reflexivity.
    + destruct (znth_some (w_line w) k) as (x & Ex); [lia|]. rewrite Ex. cbn [unwrap obind wrap_r]. rewrite znth_nth in Ex by lia. rewrite (nth_error_nth _ _ 0 Ex) in Hv. subst x. rewrite (u32_id v U). reflexivity.
  - exists mem'. auto.
Qed.
Lemma line_ask w mem l : bf_board w mem -> lk_fill (w_line w) (typed_lines (w_lines w)) 0 0 0 = Ret l ->
  exists mem', mem_write ops false mem 20476 170 = Ret (mem', 0) /\ bf_board (set_line w l (S (w_lines w))) mem'.
Proof.
  intros B El. destruct (board_write _ ops _ _ mem 20476 4 (DKeyLine (LineKeyboard (w_line w) 1023 id4 typed_lines (w_lines w))) 4092 (DKeyLine (LineKeyboard l 1023 id4 typed_lines (S (w_lines w)))) 0 170 B) as (mem' & E & B' & _).
  - slot 4096.
  - cbn [bo_write dev_ops]. unfold lk_write. cbn [lk_capacity lk_buffer lk_input lk_used lk_hw_id]. change (negb (4092 / 4 =? 1023)) with false. cbn iota. rewrite El. reflexivity.
  - exists mem'. auto.
Qed.
Lemma key_ask w mem : bf_board w mem -> exists mem', mem_write ops false mem 20484 1 = Ret (mem', 0) /\ bf_board (set_key w (typed_keys (w_keys w)) (S (w_keys w))) mem'.
Proof.
  intros B. destruct (board_write _ ops _ _ mem 20484 5 (DKeyChar (CharKeyboard (w_key w) id5 typed_keys (w_keys w))) 4 (DKeyChar (CharKeyboard (typed_keys (w_keys w)) id5 typed_keys (S (w_keys w)))) 0 1 B) as (mem' & E & B' & _).
  - slot 8.
  - reflexivity.
  - exists mem'. auto.
Qed.
Lemma key_read w mem : bf_board w mem -> is_u32 (w_key w) -> exists mem', mem_read ops false mem 20480 = Ret (mem', 0, w_key w) /\ bf_board w mem'.
Proof.
  intros B U. set (d := DKeyChar (CharKeyboard (w_key w) id5 typed_keys (w_keys w))). destruct (board_read _ ops _ _ mem 20480 5 d 0 d 0 (w_key w) B) as (mem' & E & B' & _).
  - slot 8.
  - cbn [bo_read dev_ops d]. unfold ck_read. cbn [ck_buffer]. change (0 =? 0) with true. cbn iota. unfold wrap_r. cbn [obind]. rewrite (u32_id _ U). reflexivity.
  - exists mem'. auto.
Qed.
Lemma out_write w mem v : bf_board w mem -> exists mem', mem_write ops false mem 20488 v = Ret (mem', 0) /\ bf_board (set_out w (w_out w ++ [char_from_u32 v])) mem'.
Proof.
  intros B. destruct (board_write _ ops _ _ mem 20488 6 (DChar (CharDisplay id6 (w_out w))) 0 (DChar (CharDisplay id6 (w_out w ++ [char_from_u32 v]))) 0 v B) as (mem' & E & B' & _).
  - slot 4.
  - reflexivity.
  - exists mem'. auto.
Qed.
Lemma rom_read w mem j v : bf_board w mem -> nth_error bf_words j = Some v -> is_u32 v -> exists mem', mem_read ops false mem (4 * Z.of_nat j) = Ret (mem', 0, v) /\ bf_board w mem'.
Proof.
  intros B Hj Uw. assert (Lj : (j < 289)%nat) by (change 289%nat with (length bf_words); apply nth_error_Some; congruence).
  destruct (board_read _ ops _ _ mem (4 * Z.of_nat j) 0 bf_rom (4 * Z.of_nat j) bf_rom 0 v B) as (mem' & E & B' & _).
  - slot 4096.
  - unfold bf_rom. cbn [bo_read dev_ops]. unfold br_read. cbn [br_len br_storage]. destruct (Z.ltb_spec (4 * Z.of_nat j / 4) 289); [|lia].
    unfold vget. rewrite znth_nth by lia. replace (Z.to_nat (4 * Z.of_nat j / 4)) with j by lia. rewrite Hj. cbn [unwrap obind wrap_r]. rewrite (u32_id v Uw). reflexivity.
  - exists mem'. auto.
Qed.
Lemma disp_put w mem msg v : bf_board w mem -> w_buf w = msg ++ zeros (1023 - zlen msg) -> zlen msg < 1023 ->
  exists mem', mem_write ops false mem (12288 + 4 * zlen msg) v = Ret (mem', 0) /\ bf_board (set_disp w ((msg ++ [v]) ++ zeros (1023 - zlen (msg ++ [v]))) (w_shown w)) mem'.
Proof.
  intros B Hb Hl. assert (0 <= zlen msg) by (unfold zlen; lia).
  destruct (board_write _ ops _ _ mem (12288 + 4 * zlen msg) 3 (DBuf (BufDisplay (w_buf w) 1023 id3 (w_shown w))) (4 * zlen msg) (DBuf (BufDisplay ((msg ++ [v]) ++ zeros (1023 - zlen (msg ++ [v]))) 1023 id3 (w_shown w))) 0 v B) as (mem' & E & B' & _).
  - slot 4096.
  - cbn [bo_write dev_ops]. unfold bd_write. cbn [bd_words bd_buffer bd_hw_id bd_calls]. destruct (Z.ltb_spec (4 * zlen msg / 4) 1023); [|lia]. replace (4 * zlen msg / 4) with (zlen msg) by lia.
    rewrite Hb, (zeros_S (1023 - zlen msg)) by lia. unfold vset. rewrite zset_app. cbn [unwrap obind wrap_w].
    rewrite <- app_assoc. cbn [app]. rewrite zlen_snoc. replace (1023 - (zlen msg + 1)) with (1023 - zlen msg - 1) by lia. reflexivity.
  - exists mem'. auto.
Qed.
Lemma disp_show w mem : bf_board w mem -> exists mem', mem_write ops false mem 16380 170 = Ret (mem', 0) /\ bf_board (set_disp w (w_buf w) (w_shown w ++ [(false, words_to_bytes (w_buf w))])) mem'.
Proof.
  intros B. destruct (board_write _ ops _ _ mem 16380 3 (DBuf (BufDisplay (w_buf w) 1023 id3 (w_shown w))) 4092 (DBuf (BufDisplay (w_buf w) 1023 id3 (w_shown w ++ [(false, words_to_bytes (w_buf w))]))) 0 170 B) as (mem' & E & B' & _).
  - slot 4096.
  - reflexivity.
  - exists mem'. auto.
Qed.
Lemma disp_clear w mem : bf_board w mem -> exists mem', mem_write ops false mem 16380 255 = Ret (mem', 0) /\ bf_board (set_disp w (zeros (zlen (w_buf w))) (w_shown w)) mem'.
Proof.
  intros B. destruct (board_write _ ops _ _ mem 16380 3 (DBuf (BufDisplay (w_buf w) 1023 id3 (w_shown w))) 4092 (DBuf (BufDisplay (zeros (zlen (w_buf w))) 1023 id3 (w_shown w))) 0 255 B) as (mem' & E & B' & _).
  - slot 4096.
  - reflexivity.
  - exists mem'. auto.
Qed.
Lemma mod4 mode p : 0 <= p < 2147483648 -> divide false mode p 4 = AluOk (p mod 4) false false.
Proof.
  intros H. unfold divide. change (4 =? 0) with false. cbn iota. destruct (Z.testbit mode 4); [|reflexivity].
  assert (signed p = p) as -> by (unfold signed; destruct (Z.ltb_spec p 2147483648); lia). change (signed 4) with 4. change (4 =? -1) with false. rewrite andb_false_r.
  rewrite Z.rem_mod_nonneg by lia. f_equal. unfold m32. lia.
Qed.
(** The subroutine that gets the next character, called with the return address [ret] on the stack. *)
Lemma bf_next w mem c a0 rr1 q p rr3 rr5 rr6 rr7 avr af k ret : bf_board w mem -> zlen (w_line w) = 1023 -> m32 (q + 1) = p -> 0 <= p < 4096 ->
  0 <= k < 1024 -> znth (w_stk w) k = Some ret -> is_u32 ret -> is_u32 (nth (Z.to_nat (p / 4)) (w_line w) 0) ->
  exists af' mem', quiet 13 (St (bf_file a0 16384 rr1 q rr3 rr5 rr6 rr7 avr 280 af (4096 + 4 * k)) mem c false)
    (St (bf_file (m32 (nth (Z.to_nat (p / 4)) (w_line w) 0 * 2 ^ (8 * (p mod 4))) / 2 ^ 24) 16384 rr1 p rr3 rr5 rr6 (p mod 4) (8 * (p mod 4)) ret af' (4096 + 4 * k + 4)) mem' ((c + 13) mod 2 ^ 128) false) /\
    bf_board w mem'.
Proof.
  intros B HL Hq Hp Hk Hr Ur UW.
  destruct (line_read w mem (p / 4) _ B ltac:(lia) HL eq_refl UW) as (m1 & E1 & B1). remember (nth (Z.to_nat (p / 4)) (w_line w) 0) as W eqn:HW. clear HW UW.
  destruct (stk_read w m1 k ret B1 Hk Hr Ur) as (m2 & E2 & B2). eexists. exists m2. split; [|exact B2]. clear B B1 B2 HL Hr Ur.
  replace (16384 + 4 * (p / 4)) with (16384 + p - p mod 4) in E1 by lia.
  unfold bf_file. istep_with ltac:(rewrite Hq). istep. istep_with ltac:(replace (m32 (16384 + p)) with (16384 + p) by (unfold m32; lia)). istep.
  istep_with ltac:(rewrite mod4 by lia; sym1). istep_with ltac:(replace (m32 (16384 + p - p mod 4)) with (16384 + p - p mod 4) by (unfold m32; lia)).
  istep_with ltac:(replace (m32 (16384 + p - p mod 4 + 0)) with (16384 + p - p mod 4) by (unfold m32; lia); replace ((16384 + p - p mod 4) mod 4) with 0 by lia; sym1; rewrite E1; sym1).
  istep. istep_with ltac:(rewrite mod4 by lia; sym1). istep_with ltac:(replace (m32 (p mod 4 * 8)) with (8 * (p mod 4)) by (unfold m32; lia)).
  istep_with ltac:(replace (8 * (p mod 4) mod 32) with (8 * (p mod 4)) by lia). istep_with ltac:(change (24 mod 32) with 24).
  istep_with ltac:(replace ((4096 + 4 * k) mod 4) with 0 by lia; sym1; rewrite E2; sym1; replace (m32 (4096 + 4 * k + 4)) with (4096 + 4 * k + 4) by (unfold m32; lia)).
  apply quiet_0.
Qed.

(** ** Blocks of the program *)
(** The words on the stack (the last pushed first), with [sp] the stack pointer. *)
Definition onstack (sp : Z) (K stk : list Z) : Prop :=
  sp = 8192 - 4 * zlen K /\ zlen K <= 1024 /\ 1024 <= zlen stk /\ Forall is_u32 K /\ forall i x, nth_error K i = Some x -> znth stk (1024 - zlen K + Z.of_nat i) = Some x.
Lemma push_word w mem sp K stk v : bf_board (set_stk w stk) mem -> onstack sp K stk -> zlen K < 1024 -> is_u32 v ->
  exists mem' stk', mem_write ops false mem (sp - 4) v = Ret (mem', 0) /\ bf_board (set_stk w stk') mem' /\ onstack (sp - 4) (v :: K) stk'.
Proof.
  intros B (E & H1 & H2 & H3 & H4) H Uv. assert (0 <= zlen K) by (unfold zlen; lia).
  destruct (stk_write (set_stk w stk) mem (1023 - zlen K) v B ltac:(lia) H2) as (mem' & l & Em & El & B'). cbn [w_stk set_stk] in El.
  exists mem', l. replace (sp - 4) with (4096 + 4 * (1023 - zlen K)) by lia. split; [exact Em|]. split; [exact B'|].
  assert (Ll : zlen l = zlen stk) by (unfold zlen; rewrite (zset_length _ _ _ _ El); reflexivity).
  split. { rewrite zlen_cons. lia. } rewrite zlen_cons. split; [lia|]. split; [lia|]. split; [constructor; auto|].
  intros [|i] x Hi; cbn [nth_error] in Hi.
  - injection Hi as ->. rewrite (zset_get _ _ _ _ _ El) by lia. replace (1024 - (zlen K + 1) + Z.of_nat 0) with (1023 - zlen K) by lia. rewrite Z.eqb_refl. reflexivity.
  - rewrite (zset_get _ _ _ _ _ El) by lia. destruct (Z.eqb_spec (1024 - (zlen K + 1) + Z.of_nat (S i)) (1023 - zlen K)); [lia|].
    replace (1024 - (zlen K + 1) + Z.of_nat (S i)) with (1024 - zlen K + Z.of_nat i) by lia. auto.
Qed.
Lemma pop_word w mem sp K stk v : bf_board (set_stk w stk) mem -> onstack sp (v :: K) stk ->
  exists mem', mem_read ops false mem sp = Ret (mem', 0, v) /\ bf_board (set_stk w stk) mem' /\ onstack (sp + 4) K stk /\ 4096 <= sp <= 8188 /\ sp mod 4 = 0.
Proof.
  intros B (E & H1 & H2 & H3 & H4). rewrite zlen_cons in E, H1, H4. assert (0 <= zlen K) by (unfold zlen; lia). inversion H3; subst.
  destruct (stk_read (set_stk w stk) mem (1023 - zlen K) v B ltac:(lia)) as (mem' & Em & B'); auto.
  { cbn [w_stk set_stk]. replace (1023 - zlen K) with (1024 - (zlen K + 1) + Z.of_nat 0) by lia. auto. }
  exists mem'. replace (8192 - 4 * (zlen K + 1)) with (4096 + 4 * (1023 - zlen K)) by lia. split; [exact Em|]. split; [exact B'|].
  split; [|lia]. split; [lia|]. split; [lia|]. split; [lia|]. split; [auto|].
  intros i x Hi. replace (1024 - zlen K + Z.of_nat i) with (1024 - (zlen K + 1) + Z.of_nat (S i)) by lia. apply H4. exact Hi.
Qed.
Definition T (a0 rr0 rr1 rr2 rr3 rr5 rr6 rr7 avr pc sp : Z) (K : list Z) (w : bfw) (s : st (memory device)) : Prop :=
  exists af stk mem c, s = St (bf_file a0 rr0 rr1 rr2 rr3 rr5 rr6 rr7 avr pc af sp) mem c false /\ bf_board (set_stk w stk) mem /\ onstack sp K stk.
Definition leads (P Q : st (memory device) -> Prop) : Prop := forall s, P s -> exists n s', quiet (Datatypes.S n) s s' /\ Q s'.
Lemma leads_trans P Q Rr : leads P Q -> leads Q Rr -> leads P Rr.
Proof. intros H1 H2 s Hs. destruct (H1 s Hs) as (n1 & s1 & Q1 & K1). destruct (H2 s1 K1) as (n2 & s2 & Q2 & K2). exists (n1 + Datatypes.S n2)%nat, s2. split; [exact (quiet_app _ _ _ _ _ _ _ _ Q1 Q2)|auto]. Qed.
Lemma leads_ex {A} (P : A -> st (memory device) -> Prop) Q : (forall x, leads (P x) Q) -> leads (fun s => exists x, P x s) Q.
Proof. intros H s (x & Hx). eapply H; eauto. Qed.
Lemma sp_range sp K stk : onstack sp K stk -> 4096 <= sp <= 8192 /\ sp mod 4 = 0 /\ (zlen K < 1024 -> 4100 <= sp).
Proof. intros (E & H1 & _). assert (0 <= zlen K) by (unfold zlen; lia). lia. Qed.

(** Calling a subroutine. *)
Ltac start := let s := fresh "s" in intros s (af & stk & mem & c & -> & B & S); pose proof (sp_range _ _ _ S) as (SP1 & SP2 & SP3); unfold bf_file.
Ltac finish := do 2 eexists; split; [|do 4 eexists; split; [reflexivity|split; eassumption]].
Ltac push_step E := match type of E with mem_write _ _ _ (?sp - 4) _ = _ =>
  istep_with ltac:(replace (m32 (sp - 4)) with (sp - 4) by (unfold m32; lia); replace ((sp - 4) mod 4) with 0 by lia; sym1; norm; rewrite E; sym1) end.
Ltac pop_step E := match type of E with mem_read _ _ _ ?sp = _ =>
  istep_with ltac:(replace (sp mod 4) with 0 by lia; sym1; rewrite E; sym1; replace (m32 (sp + 4)) with (sp + 4) by (unfold m32; lia)) end.
Lemma bf_call_next a0 rr1 q rr3 rr5 rr6 rr7 avr sp K w : zlen K < 1024 ->
  leads (T a0 16384 rr1 q rr3 rr5 rr6 rr7 avr 180 sp K w) (T a0 16384 rr1 q rr3 rr5 rr6 rr7 avr 280 (sp - 4) (184 :: K) w).
Proof.
  intros HK. start. destruct (push_word _ _ _ _ _ 184 B S HK ltac:(unfold is_u32; lia)) as (mem' & stk' & Em & B' & S').
  exists 0%nat. eexists. split; [|do 4 eexists; split; [reflexivity|split; eassumption]].
  push_step Em. apply quiet_0.
Qed.
Definition line_byte (line : list Z) (p : Z) : Z := m32 (nth (Z.to_nat (p / 4)) line 0 * 2 ^ (8 * (p mod 4))) / 2 ^ 24.
Lemma bf_next_char a0 rr1 q p rr3 rr5 rr6 rr7 avr sp ret K w : zlen (w_line w) = 1023 -> m32 (q + 1) = p -> 0 <= p < 4096 -> is_u32 (nth (Z.to_nat (p / 4)) (w_line w) 0) ->
  leads (T a0 16384 rr1 q rr3 rr5 rr6 rr7 avr 280 sp (ret :: K) w) (T (line_byte (w_line w) p) 16384 rr1 p rr3 rr5 rr6 (p mod 4) (8 * (p mod 4)) ret (sp + 4) K w).
Proof.
  intros HL Hq Hp UW. start. destruct (pop_word _ _ _ _ _ _ B S) as (_ & _ & _ & S' & R1 & R2).
  destruct S as (E & H1 & H2 & H3 & H4). assert (0 <= zlen K) by (unfold zlen; lia). rewrite zlen_cons in *. inversion H3; subst.
  replace (8192 - 4 * (zlen K + 1)) with (4096 + 4 * (1023 - zlen K)) in * by lia.
  destruct (bf_next (set_stk w stk) mem c a0 rr1 q (m32 (q + 1)) rr3 rr5 rr6 rr7 avr af (1023 - zlen K) ret B HL eq_refl Hp ltac:(lia)) as (af' & mem' & Q & B'); auto.
  { cbn [w_stk set_stk]. replace (1023 - zlen K) with (1024 - (zlen K + 1) + Z.of_nat 0) by lia. auto. }
  do 2 eexists. split; [exact Q|]. do 4 eexists. split; [reflexivity|]. split; eassumption.
Qed.
(** At the start of the interpreter's loop, with [p] the position of the next character; after reading a character [b] at [p]. *)
Definition Main (p rr1 : Z) (K : list Z) (w : bfw) (s : st (memory device)) : Prop :=
  exists a0 rr5 rr6 rr7 avr sp, T a0 16384 rr1 (m32 (p - 1)) (zlen K - 1) rr5 rr6 rr7 avr 180 sp K w s.
Definition Got (pc b p rr1 : Z) (K : list Z) (w : bfw) (s : st (memory device)) : Prop :=
  exists rr5 rr6 rr7 avr sp, T b 16384 rr1 p (zlen K - 1) rr5 rr6 rr7 avr pc sp K w s.
Lemma bf_fetch p rr1 K w : zlen K < 1024 -> zlen (w_line w) = 1023 -> 0 <= p < 4096 -> is_u32 (nth (Z.to_nat (p / 4)) (w_line w) 0) ->
  leads (Main p rr1 K w) (Got 184 (line_byte (w_line w) p) p rr1 K w).
Proof.
  intros HK HL Hp UW s (a0 & rr5 & rr6 & rr7 & avr & sp & H).
  destruct (leads_trans _ _ _ (bf_call_next a0 rr1 (m32 (p - 1)) (zlen K - 1) rr5 rr6 rr7 avr sp K w HK) (bf_next_char a0 rr1 (m32 (p - 1)) p (zlen K - 1) rr5 rr6 rr7 avr (sp - 4) 184 K w HL ltac:(unfold m32; lia) Hp UW) s H) as (n & s' & Q & H').
  exists n, s'. split; [exact Q|]. do 5 eexists. exact H'.
Qed.
Ltac gstart := let s := fresh "s" in intros s (rr5 & rr6 & rr7 & avr & sp & af & stk & mem & c & -> & B & S); pose proof (sp_range _ _ _ S) as (SP1 & SP2 & SP3); unfold bf_file.
Ltac gfin := do 2 eexists; split; [|do 9 eexists; split; [reflexivity|split; eassumption]].
(** The end of the program is a zero, a carriage return or a line feed. *)
Definition ends (b : Z) : Prop := b = 0 \/ b = 13 \/ b = 10.
Lemma bf_end b p rr1 K w : ends b -> leads (Got 184 b p rr1 K w) (Got 224 b p rr1 K w).
Proof.
  intros [-> |[-> | ->]]; gstart; gfin.
  - istep. istep_with ltac:(iftac true). istep. apply quiet_0.
  - istep. istep_with ltac:(iftac false). istep. istep_with ltac:(iftac true). istep. apply quiet_0.
  - istep. istep_with ltac:(iftac false). istep. istep_with ltac:(iftac false). istep. istep_with ltac:(iftac true). istep. apply quiet_0.
Qed.
Lemma bf_go b p rr1 K w : ~ ends b -> 0 <= b < 256 -> leads (Got 184 b p rr1 K w) (Got 332 b p rr1 K w).
Proof.
  intros N Hb. assert (b <> 0 /\ b <> 13 /\ b <> 10) as (N1 & N2 & N3) by (unfold ends in N; lia). clear N. gstart; gfin.
  istep. istep_with ltac:(iftac false). istep. istep_with ltac:(iftac false). istep. istep_with ltac:(iftac false). istep. apply quiet_0.
Qed.
Ltac tests := first [istep; istep_with ltac:(iftac true); istep; apply quiet_0 | istep; istep_with ltac:(iftac false); tests].
Lemma bf_dispatch b h p rr1 K w : In (b, h) [(62, 500); (60, 508); (43, 516); (45, 532); (46, 548); (44, 560); (91, 572); (93, 648)] ->
  leads (Got 332 b p rr1 K w) (Got h b p rr1 K w).
Proof.
  intros I. cbn [In] in I. repeat (destruct I as [I|I]; [injection I as <- <-; gstart; gfin; tests|]). contradiction.
Qed.
(** Moving the pointer. *)
Ltac mfin := do 2 eexists; split; [|do 10 eexists; split; [reflexivity|split; eassumption]].
Lemma main_pos p : 0 <= p < 4096 -> p = m32 (p + 1 - 1).
Proof. unfold m32. lia. Qed.
Lemma bf_right b p rr1 K w : 0 <= p < 4096 -> leads (Got 500 b p rr1 K w) (Main (p + 1) (m32 (rr1 + 1)) K w).
Proof. intros Hp. unfold Main. rewrite <- (main_pos p Hp). gstart. mfin. istep. istep. apply quiet_0. Qed.
Lemma bf_left b p rr1 K w : 0 <= p < 4096 -> leads (Got 508 b p rr1 K w) (Main (p + 1) (m32 (rr1 - 1)) K w).
Proof. intros Hp. unfold Main. rewrite <- (main_pos p Hp). gstart. mfin. istep. istep. apply quiet_0. Qed.
(** The current cell. *)
Definition cell (w : bfw) (rr1 i v : Z) : Prop := rr1 = 8192 + 4 * i /\ 0 <= i < 1024 /\ znth (w_cells w) i = Some v /\ is_u32 v.
Lemma get_cell w stk mem rr1 i v : bf_board (set_stk w stk) mem -> cell w rr1 i v ->
  exists mem', mem_read ops false mem rr1 = Ret (mem', 0, v) /\ bf_board (set_stk w stk) mem' /\ 8192 <= rr1 <= 12284 /\ rr1 mod 4 = 0.
Proof. intros B (-> & Hi & Hv & U). destruct (cell_read _ _ i v B Hi Hv U) as (mem' & E & B'). exists mem'. split; [exact E|]. split; [exact B'|]. lia. Qed.
Lemma put_cell w stk mem rr1 i v v' : bf_board (set_stk w stk) mem -> cell w rr1 i v ->
  exists mem' l, mem_write ops false mem rr1 v' = Ret (mem', 0) /\ zset (w_cells w) i v' = Some l /\ bf_board (set_stk (set_cells w l) stk) mem'.
Proof.
  intros B (-> & Hi & Hv & U). destruct (zset_some (w_cells w) i v') as (l & El). { apply znth_bound in Hv. lia. }
  destruct (cell_write _ _ i v' l B Hi El) as (mem' & E & B'). exists mem', l. split; [exact E|]. split; [exact El|]. exact B'.
Qed.
Ltac load_step E := match type of E with mem_read _ _ _ ?a = _ => istep_with ltac:(rewrite ?Z.mul_0_r; replace (m32 (a + 0)) with a by (unfold m32; lia); replace (a mod 4) with 0 by lia; sym1; rewrite E; sym1) end.
Ltac store_step E := match type of E with mem_write _ _ _ ?a _ = _ => istep_with ltac:(rewrite ?Z.mul_0_r; replace (m32 (a + 0)) with a by (unfold m32; lia); replace (a mod 4) with 0 by lia; sym1; rewrite E; sym1) end.
Lemma bf_plus b p rr1 K w i v : 0 <= p < 4096 -> cell w rr1 i v ->
  exists l, zset (w_cells w) i (m32 (v + 1)) = Some l /\ leads (Got 516 b p rr1 K w) (Main (p + 1) rr1 K (set_cells w l)).
Proof.
  intros Hp C. destruct (zset_some (w_cells w) i (m32 (v + 1))) as (l & El). { destruct C as (_ & Hi & Hv & _). apply znth_bound in Hv. lia. }
  exists l. split; [exact El|]. unfold Main. rewrite <- (main_pos p Hp). gstart.
  destruct (get_cell _ _ _ _ _ _ B C) as (mem1 & E1 & B1 & A1 & A2). destruct (put_cell _ _ _ _ _ _ (m32 (v + 1)) B1 C) as (mem2 & l' & E2 & El' & B2).
  assert (l' = l) as -> by congruence. mfin. load_step E1. istep. store_step E2. istep. apply quiet_0.
Qed.
Lemma bf_minus b p rr1 K w i v : 0 <= p < 4096 -> cell w rr1 i v ->
  exists l, zset (w_cells w) i (m32 (v - 1)) = Some l /\ leads (Got 532 b p rr1 K w) (Main (p + 1) rr1 K (set_cells w l)).
Proof.
  intros Hp C. destruct (zset_some (w_cells w) i (m32 (v - 1))) as (l & El). { destruct C as (_ & Hi & Hv & _). apply znth_bound in Hv. lia. }
  exists l. split; [exact El|]. unfold Main. rewrite <- (main_pos p Hp). gstart.
  destruct (get_cell _ _ _ _ _ _ B C) as (mem1 & E1 & B1 & A1 & A2). destruct (put_cell _ _ _ _ _ _ (m32 (v - 1)) B1 C) as (mem2 & l' & E2 & El' & B2).
  assert (l' = l) as -> by congruence. mfin. load_step E1. istep. store_step E2. istep. apply quiet_0.
Qed.
(** Showing the current cell. *)
Lemma bf_dot b p rr1 K w i v : 0 <= p < 4096 -> zlen K < 1024 -> cell w rr1 i v ->
  leads (Got 548 b p rr1 K w) (Main (p + 1) rr1 K (set_out w (w_out w ++ [char_from_u32 v]))).
Proof.
  intros Hp HK C. unfold Main. rewrite <- (main_pos p Hp). gstart. specialize (SP3 HK).
  destruct (get_cell _ _ _ _ _ _ B C) as (mem1 & E1 & B1 & A1 & A2). clear A1 A2. destruct C as (-> & Hi & _).
  destruct (push_word _ _ _ _ _ 556 B1 S HK ltac:(unfold is_u32; lia)) as (mem2 & stk2 & E2 & B2 & S2).
  destruct (out_write _ _ v B2) as (mem3 & E3 & B3). cbn [w_out set_stk] in B3. set (w' := set_out w (w_out w ++ [char_from_u32 v])).
  change (bf_board (set_stk w' stk2) mem3) in B3.
  destruct (pop_word _ _ _ _ _ _ B3 S2) as (mem4 & E4 & B4 & S4 & _ & _). replace (sp - 4 + 4) with sp in S4 by lia. subst w'.
  clear B B1 B2 B3 S S2. mfin. clear B4 S4. load_step E1. push_step E2. istep. store_step E3.
  istep_with ltac:(replace ((sp - 4) mod 4) with 0 by lia; sym1; rewrite E4; sym1; replace (m32 (sp - 4 + 4)) with sp by (unfold m32; lia)). istep. apply quiet_0.
Qed.
(** Reading a key into the current cell. *)
Lemma bf_comma b p rr1 K w i v : 0 <= p < 4096 -> zlen K < 1024 -> cell w rr1 i v -> is_u32 (typed_keys (w_keys w)) ->
  exists l, zset (w_cells w) i (typed_keys (w_keys w)) = Some l /\
    leads (Got 560 b p rr1 K w) (Main (p + 1) rr1 K (set_cells (set_key w (typed_keys (w_keys w)) (Datatypes.S (w_keys w))) l)).
Proof.
  intros Hp HK C Uk. destruct (zset_some (w_cells w) i (typed_keys (w_keys w))) as (l & El). { destruct C as (_ & Hi & Hv & _). apply znth_bound in Hv. lia. }
  exists l. split; [exact El|]. unfold Main. rewrite <- (main_pos p Hp). gstart. specialize (SP3 HK).
  destruct (push_word _ _ _ _ _ 564 B S HK ltac:(unfold is_u32; lia)) as (mem2 & stk2 & E2 & B2 & S2).
  destruct (key_ask _ _ B2) as (mem3 & E3 & B3). cbn [w_keys set_stk] in B3.
  destruct (key_read _ _ B3 Uk) as (mem4 & E4 & B4). cbn [w_key set_key] in E4. set (key := typed_keys (w_keys w)) in *. set (w' := set_key w key (Datatypes.S (w_keys w))).
  change (bf_board (set_stk w' stk2) mem4) in B4.
  destruct (pop_word _ _ _ _ _ _ B4 S2) as (mem5 & E5 & B5 & S5 & _ & _). replace (sp - 4 + 4) with sp in S5 by lia.
  destruct (put_cell w' stk2 mem5 rr1 i v key B5 C) as (mem6 & l' & E6 & El' & B6). change (w_cells w') with (w_cells w) in El'. assert (l' = l) as -> by congruence. 
  destruct C as (-> & Hi & _). subst w'. clearbody key.
  clear B B2 B3 B4 B5 S S2 El El'. mfin. clear B6 S5. push_step E2. istep.
  istep_with ltac:(change (m32 (20484 + 0)) with 20484; change (20484 mod 4) with 0; sym1; rewrite E3; sym1). istep. load_step E4.
  istep_with ltac:(replace ((sp - 4) mod 4) with 0 by lia; sym1; rewrite E5; sym1; replace (m32 (sp - 4 + 4)) with sp by (unfold m32; lia)). store_step E6. istep. apply quiet_0.
Qed.
(** Opening a loop: when the current cell is not zero, the position is kept on the stack. *)
Lemma m32_len (K : list Z) : zlen K < 1024 -> m32 (zlen K - 1 + 1) = zlen K + 1 - 1.
Proof. intros. assert (0 <= zlen K) by (unfold zlen; lia). unfold m32. lia. Qed.
Lemma bf_open b p rr1 K w i v : 0 <= p < 4096 -> zlen K < 1024 -> cell w rr1 i v -> v <> 0 ->
  leads (Got 572 b p rr1 K w) (Main (p + 1) rr1 (p :: K) w).
Proof.
  intros Hp HK C Hv. unfold Main. rewrite <- (main_pos p Hp). rewrite zlen_cons, <- (m32_len K HK). gstart. specialize (SP3 HK).
  destruct (get_cell _ _ _ _ _ _ B C) as (mem1 & E1 & B1 & A1 & A2). clear A1 A2. destruct C as (-> & Hi & _ & U). unfold is_u32 in U.
  destruct (push_word _ _ _ _ _ p B1 S HK ltac:(unfold is_u32; lia)) as (mem2 & stk2 & E2 & B2 & S2).
  clear B B1 S. mfin. clear B2 S2. istep. load_step E1. istep. istep_with ltac:(iftac false). push_step E2. istep. apply quiet_0.
Qed.
(** When it is zero, the next character is tested. *)
Definition Skip (p rr1 : Z) (K : list Z) (w : bfw) (s : st (memory device)) : Prop :=
  exists a0 rr5 rr6 rr7 avr sp, T a0 16384 rr1 (m32 (p - 1)) (zlen K) rr5 rr6 rr7 avr 280 sp (604 :: K) w s.
Definition Skipped (pc b p rr1 : Z) (K : list Z) (w : bfw) (s : st (memory device)) : Prop :=
  exists rr5 rr6 rr7 avr sp, T b 16384 rr1 p (zlen K) rr5 rr6 rr7 avr pc sp K w s.
Lemma bf_open_zero b p rr1 K w i : 0 <= p < 4096 -> zlen K < 1024 -> cell w rr1 i 0 ->
  leads (Got 572 b p rr1 K w) (Skip (p + 1) rr1 K w).
Proof.
  intros Hp HK C. unfold Skip. rewrite <- (main_pos p Hp). pose proof (m32_len K HK) as ML. gstart. specialize (SP3 HK).
  destruct (get_cell _ _ _ _ _ _ B C) as (mem1 & E1 & B1 & A1 & A2). clear A1 A2. destruct C as (-> & Hi & _ & U). unfold is_u32 in U.
  destruct (push_word _ _ _ _ _ 604 B1 S HK ltac:(unfold is_u32; lia)) as (mem2 & stk2 & E2 & B2 & S2).
  clear B B1 S. mfin. clear B2 S2. istep_with ltac:(rewrite ML; replace (zlen K + 1 - 1) with (zlen K) by lia). load_step E1. istep. istep_with ltac:(iftac true). istep. push_step E2. apply quiet_0.
Qed.
Lemma bf_skip p rr1 K w : zlen (w_line w) = 1023 -> 0 <= p < 4096 -> is_u32 (nth (Z.to_nat (p / 4)) (w_line w) 0) ->
  leads (Skip p rr1 K w) (Skipped 604 (line_byte (w_line w) p) p rr1 K w).
Proof.
  intros HL Hp UW s (a0 & rr5 & rr6 & rr7 & avr & sp & H).
  destruct (bf_next_char a0 rr1 (m32 (p - 1)) p (zlen K) rr5 rr6 rr7 avr sp 604 K w HL ltac:(unfold m32; lia) Hp UW s H) as (n & s' & Q & H').
  exists n, s'. split; [exact Q|]. do 5 eexists. exact H'.
Qed.
(** An empty loop is skipped. *)
Lemma bf_skip_close p rr1 K w : 0 <= p < 4096 -> 0 < zlen K < 1024 -> leads (Skipped 604 93 p rr1 K w) (Main (p + 1) rr1 K w).
Proof.
  intros Hp HK. unfold Main. rewrite <- (main_pos p Hp). gstart. mfin. istep. istep_with ltac:(iftac true). istep_with ltac:(replace (m32 (zlen K - 1)) with (zlen K - 1) by (unfold m32; lia)).
  istep. apply quiet_0.
Qed.
(** Closing a loop. *)
Lemma bf_close_zero b p rr1 q K w i : 0 <= p < 4096 -> 0 < zlen K < 1024 -> cell w rr1 i 0 ->
  leads (Got 648 b p rr1 (q :: K) w) (Main (p + 1) rr1 K w).
Proof.
  intros Hp HK C. unfold Main. rewrite <- (main_pos p Hp). unfold Got. rewrite zlen_cons. gstart. clear SP3.
  destruct (get_cell _ _ _ _ _ _ B C) as (mem1 & E1 & B1 & A1 & A2). clear A1 A2. destruct C as (-> & Hi & _ & U). unfold is_u32 in U.
  destruct (pop_word _ _ _ _ _ _ B1 S) as (mem2 & E2 & B2 & S2 & _ & _).
  clear B B1 S. mfin. clear B2 S2. istep. istep_with ltac:(iftac false). istep_with ltac:(replace (m32 (zlen K + 1 - 1 - 1)) with (zlen K - 1) by (unfold m32; lia)).
  load_step E1. istep. istep_with ltac:(iftac true). pop_step E2. istep. apply quiet_0.
Qed.
Lemma bf_close_again b p rr1 q K w i v : 0 <= p < 4096 -> 0 < zlen K < 1024 -> cell w rr1 i v -> v <> 0 ->
  leads (Got 648 b p rr1 (q :: K) w) (Main q rr1 K w).
Proof.
  intros Hp HK C Hv. unfold Main, Got. rewrite zlen_cons. gstart. clear SP3.
  destruct (get_cell _ _ _ _ _ _ B C) as (mem1 & E1 & B1 & A1 & A2). clear A1 A2. destruct C as (-> & Hi & _ & U). unfold is_u32 in U.
  destruct (pop_word _ _ _ _ _ _ B1 S) as (mem2 & E2 & B2 & S2 & _ & _).
  clear B B1 S. mfin. clear B2 S2. istep. istep_with ltac:(iftac false). istep_with ltac:(replace (m32 (zlen K + 1 - 1 - 1)) with (zlen K - 1) by (unfold m32; lia)).
  load_step E1. istep. istep_with ltac:(iftac false). istep. pop_step E2. istep. istep. apply quiet_0.
Qed.
(** ** Messages *)
(** The words of a message: up to the first zero. *)
Fixpoint message (l : list Z) : list Z := match l with [] => [] | x :: t => if x =? 0 then [] else x :: message t end.
Definition message_at (j : nat) : list Z := message (skipn j bf_words).
Definition message_ends (j : nat) : Prop := nth_error bf_words (j + length (message_at j)) = Some 0 /\ zlen (message_at j) < 1023.
Lemma message_words l : forall i x, nth_error (message l) i = Some x -> nth_error l i = Some x /\ x <> 0.
Proof.
  induction l as [|y t IH]; intros i x H; cbn [message] in H; [destruct i; discriminate|]. destruct (Z.eqb_spec y 0) as [->|N]; [destruct i; discriminate|].
  destruct i as [|i]; cbn [nth_error] in *; [injection H as <-; auto|auto].
Qed.
Lemma bf_words_u32 : Forall is_u32 bf_words.
Proof. apply Forall_forall. intros x I. assert (X : forallb (fun y => (0 <=? y) && (y <? 4294967296)) bf_words = true) by (vm_compute; reflexivity).
  rewrite forallb_forall in X. specialize (X x I). unfold is_u32. lia. Qed.
Lemma skipn_nth {A} (l : list A) j i : nth_error (skipn j l) i = nth_error l (j + i).
Proof. revert l. induction j as [|j IH]; intros [|x l]; cbn [skipn Nat.add nth_error]; auto. destruct i; reflexivity. Qed.
Definition buf_has (got : list Z) (w : bfw) : bfw := set_disp w (got ++ zeros (1023 - zlen got)) (w_shown w).
Lemma bf_print_loop j : message_ends j -> forall todo got a0 rr0 rr1 rr2 rr3 rr5 avr sp K w, message_at j = got ++ todo -> 
  leads (T a0 rr0 rr1 rr2 rr3 rr5 (4 * Z.of_nat j + 4 * zlen got) (12288 + 4 * zlen got) avr 52 sp K (buf_has got w))
    (fun s => exists rr6 rr7 avr, T a0 rr0 rr1 rr2 rr3 rr5 rr6 rr7 avr 84 sp K (buf_has (message_at j) w) s).
Proof.
  intros (Hz & Hl). induction todo as [|x todo IH]; intros got a0 rr0 rr1 rr2 rr3 rr5 avr sp K w E.
  - rewrite app_nil_r in E. subst got. start. destruct (rom_read _ _ _ _ B Hz ltac:(unfold is_u32; lia)) as (mem1 & E1 & B1).
    assert (Lj : (j + length (message_at j) < 289)%nat) by (change 289%nat with (length bf_words); apply nth_error_Some; congruence).
    replace (4 * Z.of_nat (j + length (message_at j))) with (4 * Z.of_nat j + 4 * zlen (message_at j)) in E1 by (unfold zlen; lia).
    unfold zlen in E1 at 1. remember (message_at j) as M. assert (0 <= zlen M) by (unfold zlen; lia). fold (zlen M) in E1. assert (zlen M <= 289 /\ Z.of_nat j <= 289) by (unfold zlen; lia). clear Lj HeqM.
    clear B. do 2 eexists. split; [|do 7 eexists; split; [reflexivity|split; eassumption]]. clear S B1. load_step E1. istep. istep_with ltac:(iftac true). istep. apply quiet_0.
  - assert (Hx : nth_error (message_at j) (length got) = Some x) by (rewrite E, nth_error_app2, Nat.sub_diag by lia; reflexivity).
    apply message_words in Hx. destruct Hx as (Hx & Nx). rewrite skipn_nth in Hx.
    assert (Ux : is_u32 x) by (eapply Forall_forall; [apply bf_words_u32|eapply nth_error_In; eauto]).
    assert (Lj : (j + length got < 289)%nat) by (change 289%nat with (length bf_words); apply nth_error_Some; congruence).
    assert (G : 0 <= zlen got < 289 /\ Z.of_nat j < 289) by (unfold zlen; lia).
    specialize (IH (got ++ [x]) a0 rr0 rr1 rr2 rr3 rr5 x sp K w). rewrite <- app_assoc in IH. specialize (IH E).
    eapply leads_trans; [|exact IH]. clear IH. start.
    destruct (rom_read _ _ _ _ B Hx Ux) as (mem1 & E1 & B1).
    replace (4 * Z.of_nat (j + length got)) with (4 * Z.of_nat j + 4 * zlen got) in E1 by (unfold zlen; lia).
    destruct (disp_put _ _ got x B1 eq_refl ltac:(lia)) as (mem2 & E2 & B2). unfold is_u32 in Ux. rewrite zlen_snoc. 
    exists 6%nat. eexists. split; [|do 4 eexists; split; [reflexivity|split; [exact B2|exact S]]].
    clear B B1 B2 S Hx Lj Hz Hl E. load_step E1. istep. istep_with ltac:(iftac false). store_step E2. 
    istep_with ltac:(replace (m32 (4 * Z.of_nat j + 4 * zlen got + 4)) with (4 * Z.of_nat j + 4 * (zlen got + 1)) by (unfold m32; lia)).
    istep_with ltac:(replace (m32 (12288 + 4 * zlen got + 4)) with (12288 + 4 * (zlen got + 1)) by (unfold m32; lia)). istep. apply quiet_0.
Qed.
Lemma bf_print j a0 rr0 rr1 rr2 rr3 rr5 rr7 avr sp ret K w : message_ends j -> w_buf w = zeros 1023 ->
  leads (T a0 rr0 rr1 rr2 rr3 rr5 (4 * Z.of_nat j) rr7 avr 48 sp (ret :: K) w)
    (fun s => exists rr6 rr7 avr, T a0 rr0 rr1 rr2 rr3 rr5 rr6 rr7 avr ret (sp + 4) K (set_disp w (zeros 1023) (w_shown w ++ [(false, words_to_bytes (message_at j ++ zeros (1023 - zlen (message_at j))))])) s).
Proof.
  intros Hm Hb.
  assert (Hw : buf_has [] w = w). { unfold buf_has. change (zlen (@nil Z)) with 0. change (1023 - 0) with 1023. cbn [app]. rewrite <- Hb. destruct w; reflexivity. }
  eapply leads_trans; [|eapply leads_trans; [apply (bf_print_loop j Hm (message_at j) [] a0 rr0 rr1 rr2 rr3 rr5 avr sp (ret :: K) w eq_refl)|]].
  - rewrite Hw. change (zlen (@nil Z)) with 0. change (12288 + 4 * 0) with 12288. change (4 * 0) with 0. replace (4 * Z.of_nat j + 0) with (4 * Z.of_nat j) by lia.
    start. exists 0%nat. eexists. split; [|do 4 eexists; split; [reflexivity|split; eassumption]]. istep. apply quiet_0.
  - apply leads_ex. intros rr6. apply leads_ex. intros rr7'. apply leads_ex. intros avr'. set (M := message_at j) in *. assert (LM : zlen (M ++ zeros (1023 - zlen M)) = 1023).
    { destruct Hm as (_ & Hm). fold M in Hm. assert (0 <= zlen M) by (unfold zlen; lia). rewrite zlen_app, zeros_length; lia. }
    start. destruct (disp_show _ _ B) as (mem1 & E1 & B1). destruct (disp_clear _ _ B1) as (mem2 & E2 & B2).
    cbn [w_buf w_shown set_disp set_stk buf_has] in B2. rewrite LM in B2.
    set (w' := set_disp w (zeros 1023) (w_shown w ++ [(false, words_to_bytes (M ++ zeros (1023 - zlen M)))])). change (bf_board (set_stk w' stk) mem2) in B2.
    destruct (pop_word _ _ _ _ _ _ B2 S) as (mem3 & E3 & B3 & S3 & R1 & R2). clearbody w'. clearbody M.
    clear B B1 B2 S. do 2 eexists. split; [|do 7 eexists; split; [reflexivity|split; eassumption]]. clear B3 S3 Hm LM Hw Hb.
    istep. istep_with ltac:(change (m32 (16380 + 0)) with 16380; change (16380 mod 4) with 0; sym1; rewrite E1; sym1).
    istep_with ltac:(change (m32 (16380 + 0)) with 16380; change (16380 mod 4) with 0; sym1; rewrite E2; sym1). pop_step E3. apply quiet_0.
Qed.
(** Calls. *)
Definition calls : list (Z * Z) := [(8, 48); (20, 48); (40, 48); (256, 48); (720, 48); (740, 48); (748, 48); (760, 48); (12, 100); (32, 168); (440, 132); (448, 132); (456, 132); (464, 132); (472, 132); (488, 132);
  (480, 144); (248, 156); (268, 156); (732, 156); (240, 716); (432, 716); (704, 716); (272, 756); (492, 756); (708, 756)].
Lemma bf_call pc f a0 rr0 rr1 rr2 rr3 rr5 rr6 rr7 avr sp K w : In (pc, f) calls -> zlen K < 1024 ->
  leads (T a0 rr0 rr1 rr2 rr3 rr5 rr6 rr7 avr pc sp K w) (T a0 rr0 rr1 rr2 rr3 rr5 rr6 rr7 avr f (sp - 4) (pc + 4 :: K) w).
Proof.
  intros I HK. start. assert (H : 0 <= pc < 1000). { revert I. unfold calls. cbn [In]. intros. repeat (destruct I as [I|I]; [injection I; lia|]). contradiction. }
  destruct (push_word _ _ _ _ _ (pc + 4) B S HK ltac:(unfold is_u32; lia)) as (mem' & stk' & Em & B' & S').
  exists 0%nat. eexists. split; [|do 4 eexists; split; [reflexivity|split; eassumption]]. clear B B' S S' H. specialize (SP3 HK).
  unfold calls in I. cbn [In] in I. repeat (destruct I as [I|I]; [injection I as <- <-; match type of Em with context [?a + 4] => let v := eval vm_compute in (a + 4) in change (a + 4) with v in Em end; push_step Em; apply quiet_0|]). contradiction.
Qed.
Definition show_message (j : nat) (w : bfw) : bfw := set_disp w (zeros 1023) (w_shown w ++ [(false, words_to_bytes (message_at j ++ zeros (1023 - zlen (message_at j))))]).
Lemma sp_minus sp : sp - 4 + 4 = sp. Proof. lia. Qed.
Lemma bf_call_print pc j a0 rr0 rr1 rr2 rr3 rr5 rr7 avr sp K w : In (pc, 48) calls -> zlen K < 1024 -> message_ends j -> w_buf w = zeros 1023 ->
  leads (T a0 rr0 rr1 rr2 rr3 rr5 (4 * Z.of_nat j) rr7 avr pc sp K w)
    (fun s => exists rr6 rr7 avr, T a0 rr0 rr1 rr2 rr3 rr5 rr6 rr7 avr (pc + 4) sp K (show_message j w) s).
Proof.
  intros I HK Hm Hb. eapply leads_trans; [apply (bf_call pc 48); auto|]. pose proof (bf_print j a0 rr0 rr1 rr2 rr3 rr5 rr7 avr (sp - 4) (pc + 4) K w Hm Hb) as X. rewrite sp_minus in X. exact X.
Qed.
Ltac inl := vm_compute; auto 30.
Ltac msg := split; [vm_compute; reflexivity|vm_compute; reflexivity].
(** Straight-line code. *)
Ltac one := do 2 eexists; split; [|do 4 eexists; split; [reflexivity|split; eassumption]].
Lemma bf_read_line rr6 rr7 avr w l : lk_fill (w_line w) (typed_lines (w_lines w)) 0 0 0 = Ret l ->
  leads (T 0 0 0 0 0 0 rr6 rr7 avr 100 (8192 - 4) [16] w) (T 0 0 0 0 0 0 864 20476 avr 20 8192 [] (set_line w l (Datatypes.S (w_lines w)))).
Proof.
  intros Hl. start. destruct (line_ask _ _ l B Hl) as (mem1 & E1 & B1). cbn [w_lines set_stk] in B1.
  change (bf_board (set_stk (set_line w l (Datatypes.S (w_lines w))) stk) mem1) in B1.
  destruct (pop_word _ _ _ _ _ _ B1 S) as (mem2 & E2 & B2 & S2 & R1 & R2). rewrite sp_minus in S2. one. clear B B1 B2 S S2. istep.
  istep_with ltac:(change (m32 (20476 + 0)) with 20476; change (20476 mod 4) with 0; sym1; rewrite E1; sym1).
  istep_with ltac:(change ((8192 - 4) mod 4) with 0; sym1; rewrite E2; sym1; change (m32 (8192 - 4 + 4)) with 8192). istep. apply quiet_0.
Qed.
Lemma bf_start_8 w l : w_buf w = zeros 1023 -> lk_fill (w_line w) (typed_lines (w_lines w)) 0 0 0 = Ret l ->
  leads (T 0 0 0 0 0 0 768 0 0 8 8192 [] w) (Main 0 8192 [36] (show_message 216 (set_line (show_message 192 w) l (Datatypes.S (w_lines w))))).
Proof.
  intros Hb Hl. eapply leads_trans; [apply (bf_call_print 8 192); [inl|reflexivity|msg|exact Hb]|].
  apply leads_ex. intros rr6. apply leads_ex. intros rr7. apply leads_ex. intros avr. change (8 + 4) with 12.
  eapply leads_trans; [apply (bf_call 12 100); [inl|reflexivity]|]. change (12 + 4) with 16.
  eapply leads_trans; [apply (bf_read_line rr6 rr7 avr (show_message 192 w) l Hl)|].
  eapply leads_trans; [apply (bf_call_print 20 216); [inl|reflexivity|msg|reflexivity]|].
  apply leads_ex. intros rr6'. apply leads_ex. intros rr7'. apply leads_ex. intros avr'. change (20 + 4) with 24.
  eapply leads_trans; [|eapply leads_trans; [apply (bf_call 32 168 0 16384 8192 0 0 0 rr6' rr7' avr' 8192 [])|]]; [|inl|reflexivity|].
  - start. one. clear B S. istep. istep. apply quiet_0.
  - change (32 + 4) with 36. unfold Main. start. do 2 eexists. split; [|do 10 eexists; split; [reflexivity|split; eassumption]]. clear B S. istep. istep. istep. apply quiet_0.
Qed.
Lemma bf_start mem c w l : bf_board w mem -> 1024 <= zlen (w_stk w) -> w_buf w = zeros 1023 -> lk_fill (w_line w) (typed_lines (w_lines w)) 0 0 0 = Ret l ->
  exists n s, quiet n (St (bf_file 0 0 0 0 0 0 0 0 0 0 0 0) mem c false) s /\ Main 0 8192 [36] (show_message 216 (set_line (show_message 192 w) l (Datatypes.S (w_lines w)))) s.
Proof.
  intros B Hk Hb Hl.
  destruct (bf_start_8 w l Hb Hl (St (bf_file 0 0 0 0 0 0 768 0 0 8 0 8192) mem ((c + 2) mod 2 ^ 128) false)) as (n & s & Q & M).
  { exists 0, (w_stk w), mem, ((c + 2) mod 2 ^ 128). split; [reflexivity|]. split; [destruct w; exact B|]. split; [reflexivity|]. split; [vm_compute; discriminate|]. split; [exact Hk|]. split; [constructor|].
    intros i x Hi. destruct i; discriminate. }
  exists (2 + Datatypes.S n)%nat, s. split; [|exact M]. eapply quiet_app; [|exact Q]. clear. unfold bf_file. istep. istep. apply quiet_0.
Qed.
(** The end: no opened loop. *)
Definition Halted (w : bfw) (s : st (memory device)) : Prop :=
  s_halt s = true /\ get s R_et = 0 /\ exists stk, bf_board (set_stk w stk) (s_bus s).
Lemma bf_halts pc a0 rr0 rr1 rr2 rr3 rr5 rr6 rr7 avr sp K w : In pc [44; 276; 496; 712] -> leads (T a0 rr0 rr1 rr2 rr3 rr5 rr6 rr7 avr pc sp K w) (Halted w).
Proof.
  intros I. start. exists 0%nat, (St (bf_file a0 rr0 rr1 rr2 rr3 rr5 rr6 rr7 avr (pc + 4) af sp) mem ((c + 1) mod 2 ^ 128) true).
  split; [|split; [reflexivity|split; [reflexivity|exists stk; exact B]]]. clear B S. cbn [In] in I. repeat (destruct I as [<-|I]; [istep; apply quiet_0|]). contradiction.
Qed.
Lemma bf_end_ok b p rr1 w : w_buf w = zeros 1023 -> leads (Got 224 b p rr1 [36] w) (Halted (show_message 283 w)).
Proof.
  intros Hb. eapply leads_trans with (Q := fun s => exists rr5 rr7 avr sp, T b 16384 rr1 p 0 rr5 1132 rr7 avr 40 sp [] w s).
  - gstart. destruct (pop_word _ _ _ _ _ _ B S) as (mem2 & E2 & B2 & S2 & R1 & R2). do 2 eexists. split; [|do 8 eexists; split; [reflexivity|split; eassumption]]. clear B B2 S S2.
    change (zlen [36] - 1) with 0. istep. istep_with ltac:(iftac true). pop_step E2. istep. apply quiet_0.
  - do 4 (apply leads_ex; intros ?). eapply leads_trans; [apply (bf_call_print 40 283); [inl|reflexivity|msg|exact Hb]|].
    do 3 (apply leads_ex; intros ?). apply bf_halts. cbn; auto.
Qed.
(** ** Errors *)
Definition set_num w l := Bfw (w_stk w) (w_cells w) (w_buf w) (w_shown w) (w_line w) (w_lines w) (w_key w) (w_keys w) (w_out w) l.
Definition show_dec (v : Z) (w : bfw) : bfw := set_num w (w_num w ++ [(v, NDec, true)]).
Definition show_hex (v : Z) (w : bfw) : bfw := set_num w (w_num w ++ [(v, NHex, false)]).
Definition show_char (v : Z) (w : bfw) : bfw := set_out w (w_out w ++ [char_from_u32 v]).
Lemma dec_write w mem v : bf_board w mem -> exists mem', mem_write ops false mem 20500 v = Ret (mem', 0) /\ bf_board (show_dec v w) mem'.
Proof.
  intros B. destruct (board_write _ ops _ _ mem 20500 7 (DNum (NumDisplay id7 (w_num w))) 8 (DNum (NumDisplay id7 (w_num w ++ [(v, NDec, true)]))) 0 v B) as (mem' & E & B' & _).
  - slot 64.
  - reflexivity.
  - exists mem'. auto.
Qed.
Lemma hex_write w mem v : bf_board w mem -> exists mem', mem_write ops false mem 20524 v = Ret (mem', 0) /\ bf_board (show_hex v w) mem'.
Proof.
  intros B. destruct (board_write _ ops _ _ mem 20524 7 (DNum (NumDisplay id7 (w_num w))) 32 (DNum (NumDisplay id7 (w_num w ++ [(v, NHex, false)]))) 0 v B) as (mem' & E & B' & _).
  - slot 64.
  - reflexivity.
  - exists mem'. auto.
Qed.
Lemma bf_print_dec a0 rr0 rr1 rr2 rr3 rr5 rr6 rr7 v sp ret K w : 
  leads (T a0 rr0 rr1 rr2 rr3 rr5 rr6 rr7 v 156 sp (ret :: K) w) (T a0 rr0 rr1 rr2 rr3 rr5 rr6 20500 v ret (sp + 4) K (show_dec v w)).
Proof.
  start. destruct (dec_write _ _ v B) as (mem1 & E1 & B1). change (bf_board (set_stk (show_dec v w) stk) mem1) in B1.
  destruct (pop_word _ _ _ _ _ _ B1 S) as (mem2 & E2 & B2 & S2 & R1 & R2). one. clear B B1 B2 S S2. istep. store_step E1. pop_step E2. apply quiet_0.
Qed.
Lemma bf_print_hex a0 rr0 rr1 rr2 rr3 rr5 rr6 rr7 v sp ret K w : 
  leads (T a0 rr0 rr1 rr2 rr3 rr5 rr6 rr7 v 144 sp (ret :: K) w) (T a0 rr0 rr1 rr2 rr3 rr5 rr6 20524 v ret (sp + 4) K (show_hex v w)).
Proof.
  start. destruct (hex_write _ _ v B) as (mem1 & E1 & B1). change (bf_board (set_stk (show_hex v w) stk) mem1) in B1.
  destruct (pop_word _ _ _ _ _ _ B1 S) as (mem2 & E2 & B2 & S2 & R1 & R2). one. clear B B1 B2 S S2. istep. store_step E1. pop_step E2. apply quiet_0.
Qed.
Lemma bf_print_char a0 rr0 rr1 rr2 rr3 rr5 rr6 rr7 v sp ret K w : 
  leads (T a0 rr0 rr1 rr2 rr3 rr5 rr6 rr7 v 132 sp (ret :: K) w) (T a0 rr0 rr1 rr2 rr3 rr5 rr6 20488 v ret (sp + 4) K (show_char v w)).
Proof.
  start. destruct (out_write _ _ v B) as (mem1 & E1 & B1). change (bf_board (set_stk (show_char v w) stk) mem1) in B1.
  destruct (pop_word _ _ _ _ _ _ B1 S) as (mem2 & E2 & B2 & S2 & R1 & R2). one. clear B B1 B2 S S2. istep. store_step E1. pop_step E2. apply quiet_0.
Qed.
Lemma bf_call_dec pc a0 rr0 rr1 rr2 rr3 rr5 rr6 rr7 v sp K w : In (pc, 156) calls -> zlen K < 1024 ->
  leads (T a0 rr0 rr1 rr2 rr3 rr5 rr6 rr7 v pc sp K w) (T a0 rr0 rr1 rr2 rr3 rr5 rr6 20500 v (pc + 4) sp K (show_dec v w)).
Proof. intros I HK. eapply leads_trans; [apply (bf_call pc 156); auto|]. pose proof (bf_print_dec a0 rr0 rr1 rr2 rr3 rr5 rr6 rr7 v (sp - 4) (pc + 4) K w) as X. rewrite sp_minus in X. exact X. Qed.
Lemma bf_call_hex pc a0 rr0 rr1 rr2 rr3 rr5 rr6 rr7 v sp K w : In (pc, 144) calls -> zlen K < 1024 ->
  leads (T a0 rr0 rr1 rr2 rr3 rr5 rr6 rr7 v pc sp K w) (T a0 rr0 rr1 rr2 rr3 rr5 rr6 20524 v (pc + 4) sp K (show_hex v w)).
Proof. intros I HK. eapply leads_trans; [apply (bf_call pc 144); auto|]. pose proof (bf_print_hex a0 rr0 rr1 rr2 rr3 rr5 rr6 rr7 v (sp - 4) (pc + 4) K w) as X. rewrite sp_minus in X. exact X. Qed.
Lemma bf_call_char pc a0 rr0 rr1 rr2 rr3 rr5 rr6 rr7 v sp K w : In (pc, 132) calls -> zlen K < 1024 ->
  leads (T a0 rr0 rr1 rr2 rr3 rr5 rr6 rr7 v pc sp K w) (T a0 rr0 rr1 rr2 rr3 rr5 rr6 20488 v (pc + 4) sp K (show_char v w)).
Proof. intros I HK. eapply leads_trans; [apply (bf_call pc 132); auto|]. pose proof (bf_print_char a0 rr0 rr1 rr2 rr3 rr5 rr6 rr7 v (sp - 4) (pc + 4) K w) as X. rewrite sp_minus in X. exact X. Qed.
(** The header of an error: the number of the character, and a message. *)
Definition header (p : Z) (j : nat) (w : bfw) : bfw := show_message j (show_message 234 (show_dec (p + 1) (show_message 226 w))).
Lemma bf_header pc j a0 rr0 rr1 p rr3 rr6 rr7 avr sp K w : In (pc, 716) calls -> zlen K < 1023 -> message_ends j -> w_buf w = zeros 1023 -> 0 <= p < 4096 ->
  leads (T a0 rr0 rr1 p rr3 (4 * Z.of_nat j) rr6 rr7 avr pc sp K w)
    (fun s => exists rr6 rr7 avr, T a0 rr0 rr1 p rr3 (4 * Z.of_nat j) rr6 rr7 avr (pc + 4) sp K (header p j w) s).
Proof.
  intros I HK Hm Hb Hp. eapply leads_trans; [apply (bf_call pc 716); [auto|lia]|].
  eapply leads_trans with (Q := T a0 rr0 rr1 p rr3 (4 * Z.of_nat j) 904 rr7 avr 720 (sp - 4) (pc + 4 :: K) w). { start. one. clear B S. istep. apply quiet_0. }
  assert (HK' : zlen (pc + 4 :: K) < 1024) by (rewrite zlen_cons; lia).
  eapply leads_trans; [apply (bf_call_print 720 226); [inl|exact HK'|msg|exact Hb]|]. do 3 (apply leads_ex; intros ?). change (720 + 4) with 724.
  eapply leads_trans with (Q := T a0 rr0 rr1 p rr3 (4 * Z.of_nat j) _ _ (p + 1) 732 (sp - 4) (pc + 4 :: K) (show_message 226 w)). { start. one. clear B S. istep. istep_with ltac:(replace (m32 (p + 1)) with (p + 1) by (unfold m32; lia)). apply quiet_0. }
  eapply leads_trans; [apply (bf_call_dec 732); [inl|exact HK']|]. change (732 + 4) with 736.
  eapply leads_trans with (Q := T a0 rr0 rr1 p rr3 (4 * Z.of_nat j) 936 _ _ 740 (sp - 4) (pc + 4 :: K) (show_dec (p + 1) (show_message 226 w))). { start. one. clear B S. istep. apply quiet_0. }
  eapply leads_trans; [apply (bf_call_print 740 234); [inl|exact HK'|msg|reflexivity]|]. do 3 (apply leads_ex; intros ?). change (740 + 4) with 744.
  eapply leads_trans with (Q := T a0 rr0 rr1 p rr3 (4 * Z.of_nat j) (4 * Z.of_nat j) _ _ 748 (sp - 4) (pc + 4 :: K) _). { start. one. clear B S. istep. apply quiet_0. }
  eapply leads_trans; [apply (bf_call_print 748 j); [inl|exact HK'|exact Hm|reflexivity]|]. do 3 (apply leads_ex; intros ?). change (748 + 4) with 752.
  start. destruct (pop_word _ _ _ _ _ _ B S) as (mem2 & E2 & B2 & S2 & R1 & R2). rewrite sp_minus in S2.
  do 2 eexists. split; [|do 7 eexists; split; [reflexivity|split; eassumption]]. clear B B2 S S2 Hm Hb.
  istep_with ltac:(replace ((sp - 4) mod 4) with 0 by lia; sym1; rewrite E2; sym1; replace (m32 (sp - 4 + 4)) with sp by (unfold m32; lia)). apply quiet_0.
Qed.
Lemma bf_footer pc a0 rr0 rr1 rr2 rr3 rr5 rr6 rr7 avr sp K w : In (pc, 756) calls -> In (pc + 4) [44; 276; 496; 712] -> zlen K < 1023 -> w_buf w = zeros 1023 ->
  leads (T a0 rr0 rr1 rr2 rr3 rr5 rr6 rr7 avr pc sp K w) (Halted (show_message 237 w)).
Proof.
  intros I I' HK Hb. eapply leads_trans; [apply (bf_call pc 756); [auto|lia]|].
  eapply leads_trans with (Q := T a0 rr0 rr1 rr2 rr3 rr5 948 rr7 avr 760 (sp - 4) (pc + 4 :: K) w). { start. one. clear B S. istep. apply quiet_0. }
  assert (HK' : zlen (pc + 4 :: K) < 1024) by (rewrite zlen_cons; lia).
  eapply leads_trans; [apply (bf_call_print 760 237); [inl|exact HK'|msg|exact Hb]|]. do 3 (apply leads_ex; intros ?). change (760 + 4) with 764.
  eapply leads_trans; [|apply (bf_halts (pc + 4)); exact I'].
  start. destruct (pop_word _ _ _ _ _ _ B S) as (mem2 & E2 & B2 & S2 & R1 & R2). rewrite sp_minus in S2.
  one. clear B B2 S S2 I I' Hb.
  istep_with ltac:(replace ((sp - 4) mod 4) with 0 by lia; sym1; rewrite E2; sym1; replace (m32 (sp - 4 + 4)) with sp by (unfold m32; lia)). apply quiet_0.
Qed.
(** A loop closed but not opened. *)
Lemma bf_close_error b p rr1 w : w_buf w = zeros 1023 -> 0 <= p < 4096 -> leads (Got 648 b p rr1 [36] w) (Halted (show_message 237 (header p 250 w))).
Proof.
  intros Hb Hp. eapply leads_trans with (Q := fun s => exists rr6 rr7 avr sp, T b 16384 rr1 p 0 1000 rr6 rr7 avr 704 sp [36] w s).
  - gstart. do 2 eexists. split; [|do 8 eexists; split; [reflexivity|split; eassumption]]. clear B S. change (zlen [36] - 1) with 0. istep. istep_with ltac:(iftac true). istep. istep. apply quiet_0.
  - do 4 (apply leads_ex; intros ?). eapply leads_trans; [apply (bf_header 704 250); [inl|reflexivity|msg|exact Hb|exact Hp]|]. do 3 (apply leads_ex; intros ?). change (704 + 4) with 708.
    apply bf_footer; [inl|cbn; auto|reflexivity|reflexivity].
Qed.
(** An unknown character. *)
Definition known (b : Z) : Prop := In b [62; 60; 43; 45; 46; 44; 91; 93].
Definition unknown_error (p b : Z) (w : bfw) : bfw :=
  show_message 237 (show_char 41 (show_hex b (show_char 40 (show_char 32 (show_char 39 (show_char b (show_char 39 (header p 245 w)))))))).
Lemma bf_unknown b p rr1 K w : ~ known b -> 0 <= b < 256 -> 0 <= p < 4096 -> zlen K < 1023 -> w_buf w = zeros 1023 ->
  leads (Got 332 b p rr1 K w) (Halted (unknown_error p b w)).
Proof.
  intros Hk Hb Hp HK Hw. assert (b <> 62 /\ b <> 60 /\ b <> 43 /\ b <> 45 /\ b <> 46 /\ b <> 44 /\ b <> 91 /\ b <> 93) as (N1 & N2 & N3 & N4 & N5 & N6 & N7 & N8) by (unfold known in Hk; cbn [In] in Hk; lia). clear Hk.
  eapply leads_trans with (Q := fun s => exists rr3 rr6 rr7 avr sp, T b 16384 rr1 p rr3 980 rr6 rr7 avr 432 sp K w s).
  - gstart. do 2 eexists. split; [|do 9 eexists; split; [reflexivity|split; eassumption]]. clear B S.
    do 8 (istep; istep_with ltac:(iftac false)). istep. apply quiet_0.
  - do 5 (apply leads_ex; intros ?). eapply leads_trans; [apply (bf_header 432 245); [inl|exact HK|msg|exact Hw|exact Hp]|]. do 3 (apply leads_ex; intros ?). change (432 + 4) with 436. assert (HK' : zlen K < 1024) by lia.
    Ltac chr vv pc := eapply leads_trans; [|eapply leads_trans; [eapply (bf_call_char pc) with (v := vv); [inl|eassumption]|]]; [start; one; match goal with B : bf_board _ _, S : onstack _ _ _ |- _ => clear B S end; istep; apply quiet_0|let n := eval vm_compute in (pc + 4) in change (pc + 4) with n].
    chr 39 440. chr b 448. chr 39 456. chr 32 464. chr 40 472.
    eapply leads_trans; [|eapply leads_trans; [eapply (bf_call_hex 480) with (v := b); [inl|eassumption]|]]; [start; one; match goal with B : bf_board _ _, S : onstack _ _ _ |- _ => clear B S end; istep; apply quiet_0|change (480 + 4) with 484].
    chr 41 488. apply bf_footer; [inl|cbn; auto|exact HK|reflexivity].
Qed.
(** Loops left open at the end. *)
Definition unclosed_error (p n q : Z) (w : bfw) : bfw := show_message 237 (show_dec (q + 1) (show_message 272 (show_dec n (header p 260 w)))).
Definition Unclosed (b p rr1 n : Z) (K : list Z) (w : bfw) (s : st (memory device)) : Prop :=
  exists rr5 rr6 rr7 avr sp, T b 16384 rr1 p n rr5 rr6 rr7 avr 224 sp K w s.
Lemma bf_unclosed b p rr1 n q K w : 0 <= p < 4096 -> 0 < n < 4294967296 -> zlen K < 1022 -> 0 <= q < 4096 -> w_buf w = zeros 1023 ->
  leads (Unclosed b p rr1 n (q :: K) w) (Halted (unclosed_error p n q w)).
Proof.
  intros Hp Hn HK Hq Hw. assert (HK' : zlen (q :: K) < 1023) by (rewrite zlen_cons; lia). assert (HK2 : zlen (q :: K) < 1024) by lia.
  eapply leads_trans with (Q := fun s => exists rr6 rr7 avr sp, T b 16384 rr1 p n 1040 rr6 rr7 avr 240 sp (q :: K) w s).
  - gstart. do 2 eexists. split; [|do 8 eexists; split; [reflexivity|split; eassumption]]. clear B S HK' HK2. istep. istep_with ltac:(iftac false). istep. apply quiet_0.
  - do 4 (apply leads_ex; intros ?). eapply leads_trans; [apply (bf_header 240 260); [inl|exact HK'|msg|exact Hw|exact Hp]|]. do 3 (apply leads_ex; intros ?). change (240 + 4) with 244.
    eapply leads_trans; [|eapply leads_trans; [eapply (bf_call_dec 248) with (v := n); [inl|eassumption]|]]; [start; one; match goal with B : bf_board _ _, S : onstack _ _ _ |- _ => clear B S end; istep; apply quiet_0|change (248 + 4) with 252].
    eapply leads_trans; [|eapply leads_trans; [eapply (bf_call_print 256 272) with (w := show_dec n (header p 260 w)) (K := q :: K); [inl|eassumption|msg|reflexivity]|]]; [start; one; match goal with B : bf_board _ _, S : onstack _ _ _ |- _ => clear B S end; istep; apply quiet_0|change (256 + 4) with 260].
    do 3 (apply leads_ex; intros ?).
    eapply leads_trans; [|eapply leads_trans; [eapply (bf_call_dec 268) with (v := q + 1) (K := K); [inl|lia]|]]; [|change (268 + 4) with 272; apply bf_footer; [inl|cbn; auto|lia|reflexivity]].
    start. destruct (pop_word _ _ _ _ _ _ B S) as (mem2 & E2 & B2 & S2 & R1 & R2). one. clear B B2 S S2 HK' HK2. pop_step E2. istep_with ltac:(replace (m32 (q + 1)) with (q + 1) by (unfold m32; lia)). apply quiet_0.
Qed.
Lemma bf_skip_error b p rr1 K w : b <> 93 -> 0 <= b < 256 -> leads (Skipped 604 b p rr1 K w) (Unclosed b p rr1 (zlen K) K w).
Proof.
  intros Hb Hb'. gstart. gfin. istep. istep_with ltac:(iftac false). istep. istep. istep. apply quiet_0.
Qed.

End Bf.
