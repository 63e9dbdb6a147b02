(** The instruction-set specification completed: what a cycle does with words that are no instruction, and whole runs. *)
From Coq Require Import ZArith List Bool Lia.
From Verif Require Import Base Board Mem Cpu Asm SpecMach SpecIsa SpecBus.
Import ListNotations.
Open Scope Z_scope.

Section Total.
Context {D : Type} (ops : bus_ops D).
Notation state := (st (memory D)).
Notation bs := (board_bus ops false).

(** Access to a register whose code does not exist: 0x02 in supervisor mode, [user] (0x03 to read, 0x04 to write) in userland. *)
Definition missing (user code : Z) (s : state) : outcome state := raise (if sup s then 2 else user) code s.
(** An operand that is read: a register given by its code, or a literal. *)
Definition source (is_reg : bool) (p : Z) (s : state) (k : Z -> outcome state) : outcome state :=
  if is_reg then match reg_from_code p with Some r => read r s k | None => missing 3 p s end else k p.

(** A word that is no instruction, by opcode: the operands are read in their order up to the first one that does not exist; if they all
    do, the destination is the operand that does not exist, and it is met when it is read (arithmetic), or written
    (after the load, for LSA, SRM and POP). *)
Definition bad_word (w : Z) (s : state) : outcome state :=
  let op := w / 2 ^ 27 in
  let '(b0, b1, b2) := (Z.testbit w 26, Z.testbit w 25, Z.testbit w 24) in
  let '(p0, p1, p2) := ((w / 65536) mod 256, (w / 256) mod 256, w mod 256) in
  let one := source b0 p0 s (fun _ => Ret s) in
  let three := source b0 p0 s (fun _ => source b1 p1 s (fun _ => source b2 p2 s (fun _ => Ret s))) in
  match op with
  | 0 => raise 1 0 s
  | 1 => (* CPY *) source b1 p1 s (fun _ => missing 4 p0 s)
  | 2 => (* EX *) source true p0 s (fun _ => source true p1 s (fun _ => Ret s))
  | 3 | 4 | 5 | 8 | 9 | 10 | 11 | 12 | 13 => (* ADD SUB MUL AND BOR XOR SHL SHR CMP *) source b1 p1 s (fun _ => missing 3 p0 s)
  | 6 | 7 => (* DIV MOD *) source b1 p1 s (fun _ => source b2 p2 s (fun _ => missing 3 p0 s))
  | 14 | 16 | 17 | 18 | 25 | 27 | 31 => (* JPR ITR IF IFN PUSH CALL RESET *) one
  | 15 => (* LSM *) if sup s then one else raise 9 15 s
  | 19 | 21 | 22 | 23 => (* IF2 LEA WSA WEA *) three
  | 20 => (* LSA *) source b1 p1 s (fun x => source b2 p2 s (fun y => load bs (m32 (x + y)) s (fun _ s => missing 4 p0 s)))
  | 24 => (* SRM *) source b0 p0 s (fun x => source b1 p1 s (fun y => load bs (m32 (x + y)) s (fun _ s => missing 3 p2 s)))
  | 26 => (* POP *) load bs (get s (sp_reg s)) s (fun _ s => missing 4 p0 (put s (sp_reg s) (m32 (get s (sp_reg s) + 4))))
  | 28 => (* HWD *)
      source b1 p1 s (fun x => source b2 p2 s (fun y =>
        if (x =? 0) && (y =? 0) then missing 4 p0 s
        else match bus_info bs (s_bus s) x y with inl (code, data) => raise code data s | inr _ => missing 4 p0 s end))
  | 29 => (* CYCLES *) missing 4 p0 s
  | _ => Ret s
  end.

(** One cycle, whatever the memory holds. *)
Definition cycle (s : state) : outcome state := cycle_spec ops bad_word s.
Fixpoint cycles (n : nat) (s : state) : outcome state :=
  match n with O => Ret s | S n => match cycle s with Ret s' => cycles n s' | Panic => Panic end end.
End Total.
