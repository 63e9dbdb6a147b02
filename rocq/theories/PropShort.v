(** Properties proved in ProofShort.v: statements only. Generated by tools/gen_props.py. *)
From Coq Require Import String Ascii ZArith List Bool Lia.
From Verif Require Import Base Mem Asm Tools LasmRules Lasm SpecAsm SpecLasm BaseFacts RegFacts ProofAsm LasmFacts ProofLasm SpecShort.
From Verif Require Import Cpu Board SpecMach SpecIsa SpecBus SpecObs SpecExt.
From Verif Require Import ProofShort.
Import ListNotations.
Open Scope string_scope.
Open Scope Z_scope.

(** What every alias and short form is assembled to. *)
Theorem C73_short : forall s t, short_wf s -> short_text s = Some t -> exists bs, assemble t = Some (list_of_bytes bs) /\ runs_as bs (becomes s).
Proof. exact P_C73_short. Qed.
Print Assumptions C73_short.

(** ** Witnesses *)
Example C73_short_example : short_wf (SIf CNand (Lit1 5) (Reg1 R_ac0)) /\ short_text (SIf CNand (Lit1 5) (Reg1 R_ac0)) = Some "ifnand ZUF, ac0" /\ assemble "ifnand ZUF, ac0" = Some [154; 5; 10; 5] /\
  decode (154, 5, 10, 5) = ROk (If2 (Lit1 5) (Reg1 R_ac0) (Lit1 5)).
Proof. exact E_C73_short. Qed.

(** The documented aliases, LSA and WSA without offset: the documented instruction, byte for byte what the long form gives. *)
Theorem C73_documented : forall s t i u, short_wf s -> short_text s = Some t -> sound_short s = true -> documented s = Some i -> plain i = Some u ->
  assemble t = assemble u /\ exists bs, assemble t = Some (list_of_bytes bs) /\ runs_as bs i.
Proof. exact P_C73_documented. Qed.
Print Assumptions C73_documented.

Example C73_documented_example : short_wf (SWsa (Reg1 R_a3) (Lit1 200)) /\ short_text (SWsa (Reg1 R_a3) (Lit1 200)) = Some "wsa a3, 0xC8" /\ sound_short (SWsa (Reg1 R_a3) (Lit1 200)) = true /\
  documented (SWsa (Reg1 R_a3) (Lit1 200)) = Some (Wsa (Reg1 R_a3) (Lit1 0) (Lit1 200)) /\ plain (Wsa (Reg1 R_a3) (Lit1 0) (Lit1 200)) = Some "wsa a3, 0x0, 0xC8" /\ assemble "wsa a3, 0xC8" = Some [180; 3; 0; 200].
Proof. exact E_C73_documented. Qed.

(** The documented instruction of such a form can always be written in full. *)
Theorem C73_long : forall s t i, short_wf s -> short_text s = Some t -> sound_short s = true -> documented s = Some i -> exists u, plain i = Some u.
Proof. exact P_C73_long. Qed.
Print Assumptions C73_long.

Example C73_long_example : short_wf SRet /\ short_text SRet = Some "ret" /\ documented SRet = Some (Pop R_pc) /\ plain (Pop R_pc) = Some "pop pc".
Proof. exact E_C73_long. Qed.

(** LEA and WEA of an address alone: the same effect as the documented instruction. *)
Theorem C73_address : forall B (bs : @bus B) v s i, documented (SLea v) = Some i \/ documented (SWea v) = Some i ->
  step bs (match i with Lea _ _ _ => becomes (SLea v) | _ => becomes (SWea v) end) s = step bs i s.
Proof. exact P_C73_address. Qed.
Print Assumptions C73_address.

Example C73_address_example : exists s', step dull (becomes (SLea (Reg1 R_a1))) (here [(R_a1, 64)]) = Ret s' /\ get s' R_avr = 64.
Proof. exact E_C73_address. Qed.

(** LEA and WEA with an offset: the offset is ignored (a readable register or a literal). *)
Theorem C73_offset : forall B (bs : @bus B) v a s, match a with Reg1 r => can_read (sup s) r = true | Lit1 _ => True end ->
  step bs (becomes (SLeaAdd v a)) s = step bs (Lea v (Lit1 0) (Lit1 0)) s /\ step bs (becomes (SWeaAdd v a)) s = step bs (Wea v (Lit1 0) (Lit1 0)) s.
Proof. exact P_C73_offset. Qed.
Print Assumptions C73_offset.

Example C73_offset_example : exists s', step dull (becomes (SLeaAdd (Reg1 R_a1) (Lit1 4))) (here [(R_a1, 64)]) = Ret s' /\ get s' R_avr = 64 /\ can_read false R_a1 = true.
Proof. exact E_C73_offset. Qed.

(** DIV and MOD without a mode: the mode is read from a0; the documented instruction when the bits of a0 that say the mode are clear. *)
Theorem C73_mode : forall B (bs : @bus B) d v s i j, documented (SDiv d v) = Some i -> documented (SMod d v) = Some j -> (forall k, 2 <= k <= 4 -> Z.testbit (get s R_a0) k = false) ->
  step bs (becomes (SDiv d v)) s = step bs i s /\ step bs (becomes (SMod d v)) s = step bs j s.
Proof. exact P_C73_mode. Qed.
Print Assumptions C73_mode.

Example C73_mode_example : exists s', (forall k, 2 <= k <= 4 -> Z.testbit (get (here [(R_a0, 99); (R_a1, 17)]) R_a0) k = false) /\ step dull (becomes (SDiv R_a1 (Lit1 5))) (here [(R_a0, 99); (R_a1, 17)]) = Ret s' /\ get s' R_a1 = 3.
Proof. exact E_C73_mode. Qed.

(** ZRO leaves 0 in the register (one that can be read and written). *)
Theorem C73_zero : forall B (bs : @bus B) r s s', length (s_reg s) = 32%nat -> can_read (sup s) r = true -> can_write (sup s) r = true -> r <> R_pc ->
  step bs (becomes (SZro r)) s = Ret s' -> get s' r = 0.
Proof. exact P_C73_zero. Qed.
Print Assumptions C73_zero.

Example C73_zero_example : exists s', can_write (sup (here [(R_a1, 17)])) R_a1 = true /\ length (s_reg (here [(R_a1, 17)])) = 32%nat /\ step dull (becomes (SZro R_a1)) (here [(R_a1, 17)]) = Ret s' /\ get s' R_a1 = 0.
Proof. exact E_C73_zero. Qed.

(** DIV without a mode is not an unsigned division that refuses to divide by zero. *)
Theorem C73_mode_refuted : ~ (forall d v t bs i j B (b : @bus B) s, short_wf (SDiv d v) -> short_text (SDiv d v) = Some t -> documented (SDiv d v) = Some i ->
  assemble t = Some (list_of_bytes bs) -> decode bs = ROk j -> step b j s = step b i s).
Proof. exact P_C73_mode_refuted. Qed.
Print Assumptions C73_mode_refuted.

(** LEA of an address and an offset does not read at their sum. *)
Theorem C73_offset_refuted : ~ (forall v a t bs i j B (b : @bus B) s, short_wf (SLeaAdd v a) -> short_text (SLeaAdd v a) = Some t -> documented (SLeaAdd v a) = Some i ->
  assemble t = Some (list_of_bytes bs) -> decode bs = ROk j -> step b j s = step b i s).
Proof. exact P_C73_offset_refuted. Qed.
Print Assumptions C73_offset_refuted.

(** Nor does WEA write there. *)
Theorem C73_offset_write_refuted : ~ (forall v a t bs i j B (b : @bus B) s, short_wf (SWeaAdd v a) -> short_text (SWeaAdd v a) = Some t -> documented (SWeaAdd v a) = Some i ->
  assemble t = Some (list_of_bytes bs) -> decode bs = ROk j -> step b j s = step b i s).
Proof. exact P_C73_offset_write_refuted. Qed.
Print Assumptions C73_offset_write_refuted.

(** NOT does not complement its register. *)
Theorem C73_not_refuted : ~ (forall r t bs j B (b : @bus B) s s', short_text (SNot r) = Some t -> assemble t = Some (list_of_bytes bs) -> decode bs = ROk j ->
  length (s_reg s) = 32%nat -> can_read (sup s) r = true -> can_write (sup s) r = true -> r <> R_pc -> step b j s = Ret s' -> get s' r = 2 ^ 32 - 1 - get s r).
Proof. exact P_C73_not_refuted. Qed.
Print Assumptions C73_not_refuted.
