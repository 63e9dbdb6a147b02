(** A build with overflow checks does what a build without them does, or panics. *)
From Coq Require Import ZArith List Bool Lia.
From Verif Require Import Base Board Mem Cpu Asm SpecMach BaseFacts RegFacts MemFacts.
Import ListNotations.
Open Scope Z_scope.

Definition ole {A} (x y : outcome A) : Prop := forall a, x = Ret a -> y = Ret a.
Lemma ole_refl {A} (x : outcome A) : ole x x.
Proof. intros a H; exact H. Qed.
Lemma ole_bind {A B} (x y : outcome A) (f g : A -> outcome B) :
  ole x y -> (forall a, ole (f a) (g a)) -> ole (obind x f) (obind y g).
Proof. intros H1 H2 b H. inv_bind H. rewrite (H1 _ E). cbn. apply H2, H. Qed.

Section Mono.
Context {D : Type} (ops : bus_ops D).
Implicit Type m : cpu D.

Definition cle {A} (x y : cres D A) : Prop := x = CPanic \/ x = y.
Lemma cle_refl {A} (x : cres D A) : cle x x. Proof. right; auto. Qed.
Lemma cle_bind {A B} (x y : cres D A) (f g : A -> cpu D -> cres D B) :
  cle x y -> (forall a m, cle (f a m) (g a m)) -> cle (cbind x f) (cbind y g).
Proof. intros [->| ->] H; [left; auto|]. destruct y; cbn; auto; [right; auto|left; auto]. Qed.
Lemma cle_pure {A B} (x y : outcome A) (f g : A -> cres D B) :
  ole x y -> (forall a, cle (f a) (g a)) -> cle (cpure x f) (cpure y g).
Proof.
  intros H1 H2. destruct x as [a|]; [|left; auto]. rewrite (H1 a eq_refl). cbn. apply H2.
Qed.

Lemma ole_add a b : ole (add_u32 true a b) (add_u32 false a b).
Proof. intros x. apply add_u32_mono. Qed.
Lemma ole_sub a b : ole (sub_u32 true a b) (sub_u32 false a b).
Proof. intros x. apply sub_u32_mono. Qed.
Lemma ole_mul a b : ole (mul_u32 true a b) (mul_u32 false a b).
Proof. intros x. apply mul_u32_mono. Qed.
Lemma ole_shl a : ole (shl1_u32 true a) (shl1_u32 false a).
Proof. intros x. apply shl1_u32_mono. Qed.
Lemma ole_mem_read mem a : ole (mem_read ops true mem a) (mem_read ops false mem a).
Proof. intros x. apply mem_read_mono. Qed.
Lemma ole_mem_write mem a w : ole (mem_write ops true mem a w) (mem_write ops false mem a w).
Proof. intros x. apply mem_write_mono. Qed.
Lemma ole_end mp : ole (end_addr true mp) (end_addr false mp).
Proof. intros x. apply end_addr_mono. Qed.

Hint Resolve ole_refl ole_add ole_sub ole_mul ole_shl ole_mem_read ole_mem_write ole_end cle_refl : mono.

Ltac mono :=
  repeat (first
    [ solve [eauto with mono]
    | apply ole_bind; intros
    | apply cle_bind; intros
    | apply cle_pure; intros
    | match goal with
      | |- context [match ?x with _ => _ end] => is_var x; destruct x
      | |- ole (if ?b then _ else _) (if ?b then _ else _) => destruct b
      | |- cle (if ?b then _ else _) (if ?b then _ else _) => destruct b
      | |- cle (match ?b with _ => _ end) (match ?b with _ => _ end) => destruct b
      | |- ole (match ?b with _ => _ end) (match ?b with _ => _ end) => destruct b
      end ]).

Lemma ole_decode_entry mem g a act : ole (decode_entry ops true mem g a act) (decode_entry ops false mem g a act).
Proof. unfold decode_entry. mono. Qed.
Hint Resolve ole_decode_entry : mono.
Lemma ole_translate mem g a act : ole (translate ops true mem g a act) (translate ops false mem g a act).
Proof. unfold translate. mono. Qed.
Hint Resolve ole_translate : mono.
Lemma cle_mem_do {A} act a (h h' : memory D -> Z -> outcome (memory D * Z * A)) m :
  (forall mem p, ole (h mem p) (h' mem p)) ->
  cle (mem_do ops true act a h m) (mem_do ops false act a h' m).
Proof. intros H. unfold mem_do. mono. Qed.
Lemma cle_read a m : cle (cpu_mem_read ops true a m) (cpu_mem_read ops false a m).
Proof. apply cle_mem_do. auto with mono. Qed.
Lemma cle_exec a m : cle (cpu_mem_exec ops true a m) (cpu_mem_exec ops false a m).
Proof. apply cle_mem_do. auto with mono. Qed.
Lemma cle_write a w m : cle (cpu_mem_write ops true a w m) (cpu_mem_write ops false a w m).
Proof. apply cle_mem_do. intros. mono. Qed.
Hint Resolve cle_read cle_exec cle_write : mono.
Lemma cle_info i id m : cle (get_hw_info true i id m) (get_hw_info false i id m).
Proof. unfold get_hw_info. mono. Qed.
Lemma ole_af n m : ole (af_test true n m) (af_test false n m).
Proof. unfold af_test. mono. Qed.
Hint Resolve cle_info ole_af : mono.
Lemma cle_run_instr op b0 b1 b2 p0 p1 p2 m :
  cle (run_instr ops true op b0 b1 b2 p0 p1 p2 m) (run_instr ops false op b0 b1 b2 p0 p1 p2 m).
Proof.
  unfold run_instr. destruct op as [|p|p]; auto with mono.
  do 5 (try (destruct p as [p|p|]; auto with mono)); cbv beta iota zeta; mono.
Qed.

Lemma next_mono m m' : next ops true m = Ret m' -> next ops false m = Ret m'.
Proof.
  unfold next. destruct (c_halted m); auto. cbv zeta.
  match goal with |- context [cpu_mem_exec ops true ?a ?x] => destruct (cle_exec a x) as [-> | ->] end;
    [discriminate|].
  match goal with |- context [cpu_mem_exec ops false ?a ?x] => destruct (cpu_mem_exec ops false a x) end; auto.
  match goal with |- context [run_instr ops true ?a ?b ?c ?d ?e ?f ?g ?h] =>
    destruct (cle_run_instr a b c d e f g h) as [-> | ->] end; [discriminate|auto].
Qed.
Lemma next_oc oc m m' : next ops oc m = Ret m' -> next ops false m = Ret m'.
Proof. destruct oc; auto using next_mono. Qed.
Lemma run_mono n m m' : run ops true n m = Ret m' -> run ops false n m = Ret m'.
Proof.
  revert m; induction n; intros m; cbn [run]; auto. intros H. inv_bind H.
  rewrite (next_mono _ _ E). cbn. auto.
Qed.
Lemma run_oc oc n m m' : run ops oc n m = Ret m' -> run ops false n m = Ret m'.
Proof. destruct oc; auto using run_mono. Qed.
End Mono.
