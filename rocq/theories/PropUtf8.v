(** Properties proved in ProofUtf8.v: statements only. Generated by tools/gen_props.py. *)
From Coq Require Import ZArith List Bool Lia.
From Verif Require Import Base Board Mem Cpu Asm SpecMach SpecIsa SpecBus SpecObs SpecUtf8 BaseFacts.
From Verif Require Import ProofUtf8.
Import ListNotations.
Open Scope Z_scope.

(** The bytes of a name are its characters in UTF-8. *)
Theorem C40_utf8 : forall name, Forall scalar name -> characters (utf8 name) = Some name.
Proof. exact P_C40_utf8. Qed.
Print Assumptions C40_utf8.

(** An ASCII character, é, the euro sign, an emoji. *)
Example C40_utf8_example : Forall scalar [65; 233; 8364; 128512] /\ utf8 [65; 233; 8364; 128512] = [65; 195; 169; 226; 130; 172; 240; 159; 152; 128].
Proof. exact E_C40_utf8. Qed.

(** What a program finds when it asks for the name length and the eight name words of a component: the first bytes of the words, as many as the
    length says, are the characters of the component's name, cut to 32 bytes. *)
Theorem C26_name : forall D (m : cpu D) id e n w1 w2 w3 w4 w5 w6 w7 w8, wf m -> znth (c_hwb m) id = Some e ->
  info_spec (c_mem m) id 16 = inr n -> info_spec (c_mem m) id 17 = inr w1 -> info_spec (c_mem m) id 18 = inr w2 -> info_spec (c_mem m) id 19 = inr w3 -> info_spec (c_mem m) id 20 = inr w4 ->
  info_spec (c_mem m) id 21 = inr w5 -> info_spec (c_mem m) id 22 = inr w6 -> info_spec (c_mem m) id 23 = inr w7 -> info_spec (c_mem m) id 24 = inr w8 ->
  characters (firstn (Z.to_nat n) (flat_map bytes_in [w1; w2; w3; w4; w5; w6; w7; w8])) = Some (ac_name (ae_cache e)).
Proof. exact P_C26_name. Qed.
Print Assumptions C26_name.

Example C26_name_example :
  let ops := {| bo_name := fun _ : unit => [65; 233; 8364; 128512]; bo_metadata := fun _ => Ret (W8 0 1 64 0 0 0 0 0);
                bo_read := fun d _ => Ret (d, 0, 0); bo_write := fun d _ _ => Ret (d, 0); bo_reset := fun d => Ret d |} in
  exists m e, board_new ops [tt] = Ret m /\ znth (c_hwb m) 0 = Some e /\ ac_name (ae_cache e) = [65; 233; 8364; 128512] /\
    info_spec (c_mem m) 0 16 = inr 10 /\ info_spec (c_mem m) 0 17 = inr 1103342050 /\ info_spec (c_mem m) 0 18 = inr 2192371871 /\ info_spec (c_mem m) 0 19 = inr 2558525440 /\ info_spec (c_mem m) 0 24 = inr 0.
Proof. exact E_C26_name. Qed.
