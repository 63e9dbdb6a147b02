(** Concrete machines used to show that the hypotheses of the theorems are satisfiable: a board with a
    BootROM holding a program at address 0 and a small RAM behind it, built through the public API. *)
From Coq Require Import ZArith List Bool Lia.
From Verif Require Import Base Board Mem Cpu Asm Tools Runner Devices SpecMach SpecIsa SpecBus SpecObs.
Import ListNotations.
Open Scope Z_scope.

(** 256 bytes of ROM holding [prog] at address 0, 256 bytes of RAM at 0x100. *)
Definition demo_devs (prog : list Z) : list device :=
  [DRom (BootRom prog (zlen prog) 64 1); DRam (StoreMem (zeros 256) 64 2)].
Definition demo_calls (n : nat) : list api := AMapContiguous 0 [0; 1] :: AReset :: repeat ANext n.
(** The machine after [n] cycles. *)
Definition demo_run (oc : bool) (prog : list Z) (n : nat) : outcome (cpu device) :=
  match board_new (dev_ops oc) (demo_devs prog) with
  | Ret m => api_run (dev_ops oc) oc (demo_calls n) m
  | Panic => Panic
  end.
Definition asm (l : list instr) : list Z := map encode_word l.

Definition get_or {A} (x : A) (o : outcome A) : A := match o with Ret a => a | Panic => x end.
Definition demo (oc : bool) (prog : list Z) (n : nat) : cpu device :=
  get_or (cpu_new (Memory [] [])) (demo_run oc prog n).

Lemma demo_calls_wf n : Forall api_wf (demo_calls n).
Proof.
  unfold demo_calls. repeat constructor; cbn; unfold is_u32; try lia.
  apply Forall_forall. intros c H. apply repeat_spec in H. subst. exact I.
Qed.
Lemma demo_reachable oc prog n m : demo_run oc prog n = Ret m -> reachable (dev_ops oc) oc m.
Proof.
  unfold demo_run. destruct (board_new _ _) as [m0|] eqn:E; [|discriminate]. intros H.
  exists (demo_devs prog), (demo_calls n), m0. auto using demo_calls_wf.
Qed.

(** Executable form of [executes], release build, translation off. *)
Definition exec_check (m : cpu device) : option (instr * memory device * cpu device) :=
  if c_halted m then None
  else if R m R_mtt =? 0 then
    if R m R_pc mod 4 =? 0 then
      match mem_read (dev_ops false) false (c_mem m) (R m R_pc) with
      | Ret (mem1, 0, w) =>
          match decode (bytes_of_word w), next (dev_ops false) false m with
          | ROk i, Ret m' => Some (i, mem1, m')
          | _, _ => None
          end
      | _ => None
      end
    else None
  else None.
Lemma exec_check_sound m i mem1 m' : exec_check m = Some (i, mem1, m') ->
  executes (dev_ops false) false m i mem1 m'.
Proof.
  unfold exec_check. destruct (c_halted m) eqn:E1; [discriminate|].
  destruct (R m R_mtt =? 0) eqn:E2; [|discriminate]. destruct (Z.eqb_spec (R m R_pc mod 4) 0) as [E3|]; [|discriminate].
  destruct (mem_read _ _ _ _) as [[[mem ex] w]|] eqn:E4; [|discriminate]. destruct ex; try discriminate.
  destruct (decode _) eqn:E5; [|discriminate]. destruct (next _ _ _) eqn:E6; [|discriminate].
  intros H; injection H as <- <- <-. split; auto. split; auto. exists w. split; auto. split; auto.
  exists (c_mem m). unfold passes. rewrite E2. auto.
Qed.

(** A machine of this kind exists that executes [i] and satisfies [P]. *)
Definition demo_case (prog : list Z) (n : nat) (P : cpu device -> instr -> memory device -> cpu device -> Prop) : Prop :=
  exists m i mem1 m', reachable (dev_ops false) false m /\ executes (dev_ops false) false m i mem1 m' /\ P m i mem1 m'.
Lemma demo_case_intro prog n (P : cpu device -> instr -> memory device -> cpu device -> Prop) :
  (match demo_run false prog n with
   | Ret m => match exec_check m with Some (i, mem1, m') => P m i mem1 m' | None => False end
   | Panic => False
   end) -> demo_case prog n P.
Proof.
  destruct (demo_run false prog n) as [m|] eqn:E; [|intros []]. destruct (exec_check m) as [[[i mem1] m']|] eqn:E'; [|intros []].
  intros H. exists m, i, mem1, m'. split; [eapply demo_reachable; eauto|]. split; [apply exec_check_sound; auto|auto].
Qed.

Ltac demo_tac := apply demo_case_intro; vm_compute; repeat split; auto; try discriminate.
