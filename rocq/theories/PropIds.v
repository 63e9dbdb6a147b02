(** Properties proved in ProofIds.v: statements only. Generated by tools/gen_props.py. *)
From Coq Require Import ZArith List Bool Lia Arith FinFun.
From Verif Require Import Base BaseFacts Board Mem Cpu Asm Tools Devices Runner Ids
  SpecMach SpecAsm SpecSip SpecText ProofTools.
From Verif Require Import ProofIds.
Import ListNotations.
Open Scope Z_scope.

(** The identifier of a name is the SipHash-1-3, with null keys, of its bytes followed by 0xFF; it depends on nothing else and has 64 bits. *)
Theorem C96_siphash : forall name, Forall scalar name -> gen_aux_id name = siphash13 (utf8 name ++ [255]) /\ 0 <= gen_aux_id name < 2 ^ 64.
Proof. exact P_C96_siphash. Qed.
Print Assumptions C96_siphash.

(** The names of the unit test have different identifiers. *)
Example C96_siphash_example : gen_aux_id [116; 101; 115; 116] = 14402189752926126668 /\ gen_aux_id [116; 101; 115; 116] <> gen_aux_id [116; 101; 115; 116; 50] /\
  gen_aux_id [116; 101; 115; 116] <> gen_aux_id [50; 116; 101; 115; 116] /\ Forall scalar [116; 101; 115; 116].
Proof. exact E_C96_siphash. Qed.

(** An identifier made from a name goes unchanged through the metadata of a component. *)
Theorem C96_metadata : forall name size c model data md, Forall scalar name -> is_u32 size -> category_wf c -> opt_wf is_u32 model -> opt_wf is_u64 data ->
  obind (metadata_new (gen_aux_id name) size c model data) metadata_encode = Ret md -> w0 md * 2 ^ 32 + w1 md = gen_aux_id name.
Proof. exact P_C96_metadata. Qed.
Print Assumptions C96_metadata.

Example C96_metadata_example : exists md, obind (metadata_new (gen_aux_id [116; 101; 115; 116]) 64 (CatMemory TRam) None None) metadata_encode = Ret md.
Proof. exact E_C96_metadata. Qed.

(** The tutorial presents it as a source of identifiers of which there must be no duplicate: distinct names can have the same identifier. *)
Theorem C96_unique_refuted : ~ (forall a b, Forall scalar a -> Forall scalar b -> gen_aux_id a = gen_aux_id b -> a = b).
Proof. exact P_C96_unique_refuted. Qed.
Print Assumptions C96_unique_refuted.
