(** The documented address translation (docs/Architecture.md, lines 160-192): a specification only, the code does something else. *)
From Coq Require Import ZArith List Bool Lia.
From Verif Require Import Base Board Mem Cpu Asm SpecMach SpecIsa SpecObs.
Import ListNotations.
Open Scope Z_scope.

(** Bits of a page entry, counted from the strongest one as the documentation does. *)
Definition entry_bit (e n : Z) : bool := Z.testbit e (31 - n).
Definition entry_passes (sup : bool) (e : Z) : bool := entry_bit e (if sup then 0 else 1).
Definition entry_permits (sup : bool) (act : mem_action) (e : Z) : bool :=
  entry_bit e ((if sup then 2 else 5) + match act with ActRead => 0 | ActWrite => 1 | ActExec => 2 end).
Definition entry_number (e : Z) : Z := e mod 2 ^ 24.

(** [documented_translation ops m mem act a mem' p]: starting with memory [mem], machine [m], whose translation is on, may perform
    [act] on virtual address [a], which is at physical address [p]. *)
Inductive documented_translation {D} (ops : bus_ops D) (m : cpu D) (mem : memory D) (act : mem_action) (a : Z) : memory D -> Z -> Prop :=
| doc_pass1 mem1 e1 :
    mem_read ops false mem (R m R_pda + 4 * (a / 2 ^ 22)) = Ret (mem1, 0, e1) -> entry_passes (sup_mode m) e1 = true ->
    documented_translation ops m mem act a mem1 a
| doc_pass2 mem1 e1 mem2 e2 :
    mem_read ops false mem (R m R_pda + 4 * (a / 2 ^ 22)) = Ret (mem1, 0, e1) -> entry_passes (sup_mode m) e1 = false ->
    entry_permits (sup_mode m) act e1 = true ->
    mem_read ops false mem1 (entry_number e1 * 16384 + 4 * ((a / 2 ^ 10) mod 2 ^ 12)) = Ret (mem2, 0, e2) ->
    entry_passes (sup_mode m) e2 = true ->
    documented_translation ops m mem act a mem2 a
| doc_page mem1 e1 mem2 e2 :
    mem_read ops false mem (R m R_pda + 4 * (a / 2 ^ 22)) = Ret (mem1, 0, e1) -> entry_passes (sup_mode m) e1 = false ->
    entry_permits (sup_mode m) act e1 = true ->
    mem_read ops false mem1 (entry_number e1 * 16384 + 4 * ((a / 2 ^ 10) mod 2 ^ 12)) = Ret (mem2, 0, e2) ->
    entry_passes (sup_mode m) e2 = false -> entry_permits (sup_mode m) act e2 = true ->
    documented_translation ops m mem act a mem2 (entry_number e2 * 1024 + a mod 2 ^ 10).
