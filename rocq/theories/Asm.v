(** Assembler: registers, operands, instructions, encoder, decoder, programs, extended instructions,
    constant tables. Models /repo/lrvm_tools/src/asm (reg.rs, val.rs, instr.rs, prog_word.rs, prog.rs,
    extinstr.rs, cst.rs, arflag.rs, cond.rs, hw_infos.rs, div_modes.rs). Text output is in Lasm.v. *)
From Coq Require Import String ZArith List Bool Lia.
From Verif Require Import Base Mem.
Import ListNotations.
Open Scope Z_scope.

(** Reg (reg.rs:9-42). *)
Inductive reg : Type :=
| R_a0 | R_a1 | R_a2 | R_a3 | R_a4 | R_a5 | R_a6 | R_a7 | R_c0 | R_c1 | R_ac0 | R_ac1 | R_ac2 | R_rr0 | R_rr1 | R_rr2 | R_rr3 | R_rr4 | R_rr5 | R_rr6 | R_rr7 | R_avr | R_af | R_pc | R_ssp | R_usp | R_et | R_era | R_ev | R_mtt | R_pda | R_smt.

(** Every register, in the order of the enum (for enumeration in statements). *)
Definition all_regs : list reg :=
  [R_a0; R_a1; R_a2; R_a3; R_a4; R_a5; R_a6; R_a7; R_c0; R_c1; R_ac0; R_ac1; R_ac2; R_rr0; R_rr1; R_rr2; R_rr3; R_rr4; R_rr5; R_rr6; R_rr7; R_avr; R_af; R_pc; R_ssp; R_usp; R_et; R_era; R_ev; R_mtt; R_pda; R_smt].

(** Reg::from_code (reg.rs:46-82). *)
Definition reg_from_code (code : Z) : option reg :=
  match code with
  | 0 => Some R_a0
  | 1 => Some R_a1
  | 2 => Some R_a2
  | 3 => Some R_a3
  | 4 => Some R_a4
  | 5 => Some R_a5
  | 6 => Some R_a6
  | 7 => Some R_a7
  | 8 => Some R_c0
  | 9 => Some R_c1
  | 10 => Some R_ac0
  | 11 => Some R_ac1
  | 12 => Some R_ac2
  | 13 => Some R_rr0
  | 14 => Some R_rr1
  | 15 => Some R_rr2
  | 16 => Some R_rr3
  | 17 => Some R_rr4
  | 18 => Some R_rr5
  | 19 => Some R_rr6
  | 20 => Some R_rr7
  | 21 => Some R_avr
  | 22 => Some R_pc
  | 23 => Some R_af
  | 24 => Some R_ssp
  | 25 => Some R_usp
  | 26 => Some R_et
  | 27 => Some R_era
  | 28 => Some R_ev
  | 29 => Some R_mtt
  | 30 => Some R_pda
  | 31 => Some R_smt
  | _ => None
  end.

(** Reg::code (reg.rs:124-159). *)
Definition reg_code (r : reg) : Z :=
  match r with
  | R_a0 => 0
  | R_a1 => 1
  | R_a2 => 2
  | R_a3 => 3
  | R_a4 => 4
  | R_a5 => 5
  | R_a6 => 6
  | R_a7 => 7
  | R_c0 => 8
  | R_c1 => 9
  | R_ac0 => 10
  | R_ac1 => 11
  | R_ac2 => 12
  | R_rr0 => 13
  | R_rr1 => 14
  | R_rr2 => 15
  | R_rr3 => 16
  | R_rr4 => 17
  | R_rr5 => 18
  | R_rr6 => 19
  | R_rr7 => 20
  | R_avr => 21
  | R_pc => 22
  | R_af => 23
  | R_ssp => 24
  | R_usp => 25
  | R_et => 26
  | R_era => 27
  | R_ev => 28
  | R_mtt => 29
  | R_pda => 30
  | R_smt => 31
  end.

(** Reg::name (reg.rs:162-197); Reg::to_lasm and Display are the name too (reg.rs:210-212, 229-233). *)
Definition reg_name (r : reg) : string :=
  match r with
  | R_a0 => "a0"
  | R_a1 => "a1"
  | R_a2 => "a2"
  | R_a3 => "a3"
  | R_a4 => "a4"
  | R_a5 => "a5"
  | R_a6 => "a6"
  | R_a7 => "a7"
  | R_c0 => "c0"
  | R_c1 => "c1"
  | R_ac0 => "ac0"
  | R_ac1 => "ac1"
  | R_ac2 => "ac2"
  | R_rr0 => "rr0"
  | R_rr1 => "rr1"
  | R_rr2 => "rr2"
  | R_rr3 => "rr3"
  | R_rr4 => "rr4"
  | R_rr5 => "rr5"
  | R_rr6 => "rr6"
  | R_rr7 => "rr7"
  | R_avr => "avr"
  | R_pc => "pc"
  | R_af => "af"
  | R_ssp => "ssp"
  | R_usp => "usp"
  | R_et => "et"
  | R_era => "era"
  | R_ev => "ev"
  | R_mtt => "mtt"
  | R_pda => "pda"
  | R_smt => "smt"
  end%string.

(** Reg::from_name (reg.rs:85-121). *)
Definition reg_from_name (s : string) : option reg :=
  if String.eqb s "a0" then Some R_a0 else
  if String.eqb s "a1" then Some R_a1 else
  if String.eqb s "a2" then Some R_a2 else
  if String.eqb s "a3" then Some R_a3 else
  if String.eqb s "a4" then Some R_a4 else
  if String.eqb s "a5" then Some R_a5 else
  if String.eqb s "a6" then Some R_a6 else
  if String.eqb s "a7" then Some R_a7 else
  if String.eqb s "c0" then Some R_c0 else
  if String.eqb s "c1" then Some R_c1 else
  if String.eqb s "ac0" then Some R_ac0 else
  if String.eqb s "ac1" then Some R_ac1 else
  if String.eqb s "ac2" then Some R_ac2 else
  if String.eqb s "rr0" then Some R_rr0 else
  if String.eqb s "rr1" then Some R_rr1 else
  if String.eqb s "rr2" then Some R_rr2 else
  if String.eqb s "rr3" then Some R_rr3 else
  if String.eqb s "rr4" then Some R_rr4 else
  if String.eqb s "rr5" then Some R_rr5 else
  if String.eqb s "rr6" then Some R_rr6 else
  if String.eqb s "rr7" then Some R_rr7 else
  if String.eqb s "avr" then Some R_avr else
  if String.eqb s "af" then Some R_af else
  if String.eqb s "pc" then Some R_pc else
  if String.eqb s "ssp" then Some R_ssp else
  if String.eqb s "usp" then Some R_usp else
  if String.eqb s "et" then Some R_et else
  if String.eqb s "era" then Some R_era else
  if String.eqb s "ev" then Some R_ev else
  if String.eqb s "mtt" then Some R_mtt else
  if String.eqb s "pda" then Some R_pda else
  if String.eqb s "smt" then Some R_smt else
  None.

(** RegOrLit1 (u8) and RegOrLit2 (u16) (val.rs:3-107; line numbers of the macro body val.rs:7-10). *)
Inductive rl1 : Type := Reg1 (r : reg) | Lit1 (n : Z).
Inductive rl2 : Type := Reg2 (r : reg) | Lit2 (n : Z).

(** is_reg (val.rs:29-34), value (val.rs:45-50). *)
Definition is_reg1 (v : rl1) : bool := match v with Reg1 _ => true | Lit1 _ => false end.
Definition is_reg2 (v : rl2) : bool := match v with Reg2 _ => true | Lit2 _ => false end.
Definition value1 (v : rl1) : Z := match v with Reg1 r => reg_code r | Lit1 n => n end.
Definition value2 (v : rl2) : Z := match v with Reg2 r => reg_code r | Lit2 n => n end.

(** Instr (instr.rs:7-39). *)
Inductive instr : Type :=
| Cpy (a : reg) (b : rl2)
| Ex (a b : reg)
| Add (a : reg) (b : rl2)
| Sub (a : reg) (b : rl2)
| Mul (a : reg) (b : rl2)
| Div (a : reg) (b c : rl1)
| Mod (a : reg) (b c : rl1)
| And (a : reg) (b : rl2)
| Bor (a : reg) (b : rl2)
| Xor (a : reg) (b : rl2)
| Shl (a : reg) (b : rl1)
| Shr (a : reg) (b : rl1)
| Cmp (a : reg) (b : rl2)
| Jpr (a : rl2)
| Lsm (a : rl2)
| Itr (a : rl1)
| If (a : rl1)
| IfN (a : rl1)
| If2 (a b c : rl1)
| Lsa (a : reg) (b c : rl1)
| Lea (a b c : rl1)
| Wsa (a b c : rl1)
| Wea (a b c : rl1)
| Srm (a b : rl1) (c : reg)
| Push (a : rl2)
| Pop (a : reg)
| Call (a : rl2)
| Hwd (a : reg) (b c : rl1)
| Cycles (a : reg)
| Halt
| Reset (a : rl1).

(** [[u8; 4]]. *)
Definition bytes4 : Type := (Z * Z * Z * Z)%type.

(** InstrDecodingError (instr.rs:609-616). *)
Inductive decode_error : Type :=
| SourceNotMultipleOf4Bytes
| UnknownOpCode (opcode : Z)
| UnknownRegister (param code : Z).

Definition rbind {A B E : Type} (x : result A E) (f : A -> result B E) : result B E :=
  match x with ROk a => f a | RErr e => RErr e end.
Notation "'dor' p <- e ; k" := (rbind e (fun p => k))
  (at level 200, p pattern, e at level 100, k at level 200).

(** [bytes[param]], param in 0..3. *)
Definition byte_at (bs : bytes4) (param : Z) : Z :=
  let '(b0, b1, b2, b3) := bs in
  if param =? 0 then b0 else if param =? 1 then b1 else if param =? 2 then b2 else b3.

(** The closures of Instr::decode (instr.rs:46-74). *)
Definition arg_reg (bs : bytes4) (param : Z) : result reg decode_error :=
  match reg_from_code (byte_at bs param) with
  | Some r => ROk r
  | None => RErr (UnknownRegister (param - 1) (byte_at bs param))
  end.
Definition arg_rl1 (bs : bytes4) (param : Z) : result rl1 decode_error :=
  if Z.land (byte_at bs 0) (2 ^ (3 - param)) =? 0 then ROk (Lit1 (byte_at bs param))
  else dor r <- arg_reg bs param; ROk (Reg1 r).
Definition arg_rl2 (bs : bytes4) (param : Z) : result rl2 decode_error :=
  if Z.land (byte_at bs 0) (2 ^ (3 - param)) =? 0
  then ROk (Lit2 (of_be2 (byte_at bs param) (byte_at bs (param + 1))))
  else dor r <- arg_reg bs param; ROk (Reg2 r).

(** Instr::decode (instr.rs:43-147). *)
Definition decode (bs : bytes4) : result instr decode_error :=
  let opcode := Z.shiftr (byte_at bs 0) 3 in
  let reg_rl2 (k : reg -> rl2 -> instr) := dor a <- arg_reg bs 1; dor b <- arg_rl2 bs 2; ROk (k a b) in
  let reg_rl1 (k : reg -> rl1 -> instr) := dor a <- arg_reg bs 1; dor b <- arg_rl1 bs 2; ROk (k a b) in
  let reg_rl1_rl1 (k : reg -> rl1 -> rl1 -> instr) :=
    dor a <- arg_reg bs 1; dor b <- arg_rl1 bs 2; dor c <- arg_rl1 bs 3; ROk (k a b c) in
  let rl1_rl1_rl1 (k : rl1 -> rl1 -> rl1 -> instr) :=
    dor a <- arg_rl1 bs 1; dor b <- arg_rl1 bs 2; dor c <- arg_rl1 bs 3; ROk (k a b c) in
  match opcode with
  | 1 => reg_rl2 Cpy
  | 2 => dor a <- arg_reg bs 1; dor b <- arg_reg bs 2; ROk (Ex a b)
  | 3 => reg_rl2 Add
  | 4 => reg_rl2 Sub
  | 5 => reg_rl2 Mul
  | 6 => reg_rl1_rl1 Div
  | 7 => reg_rl1_rl1 Mod
  | 8 => reg_rl2 And
  | 9 => reg_rl2 Bor
  | 10 => reg_rl2 Xor
  | 11 => reg_rl1 Shl
  | 12 => reg_rl1 Shr
  | 13 => reg_rl2 Cmp
  | 14 => dor a <- arg_rl2 bs 1; ROk (Jpr a)
  | 15 => dor a <- arg_rl2 bs 1; ROk (Lsm a)
  | 16 => dor a <- arg_rl1 bs 1; ROk (Itr a)
  | 17 => dor a <- arg_rl1 bs 1; ROk (If a)
  | 18 => dor a <- arg_rl1 bs 1; ROk (IfN a)
  | 19 => rl1_rl1_rl1 If2
  | 20 => reg_rl1_rl1 Lsa
  | 21 => rl1_rl1_rl1 Lea
  | 22 => rl1_rl1_rl1 Wsa
  | 23 => rl1_rl1_rl1 Wea
  | 24 => dor a <- arg_rl1 bs 1; dor b <- arg_rl1 bs 2; dor c <- arg_reg bs 3; ROk (Srm a b c)
  | 25 => dor a <- arg_rl2 bs 1; ROk (Push a)
  | 26 => dor a <- arg_reg bs 1; ROk (Pop a)
  | 27 => dor a <- arg_rl2 bs 1; ROk (Call a)
  | 28 => reg_rl1_rl1 Hwd
  | 29 => dor a <- arg_reg bs 1; ROk (Cycles a)
  | 30 => ROk Halt
  | 31 => dor a <- arg_rl1 bs 1; ROk (Reset a)
  | _ => RErr (UnknownOpCode opcode)
  end.

(** The match of Instr::encode (instr.rs:151-362): opcode, [is_reg], [params]. *)
Definition encode_parts (i : instr) : Z * list bool * list Z :=
  let p1 (v : rl1) := be_bytes8 (value1 v) in
  let p2 (v : rl2) := be_bytes16 (value2 v) in
  let reg_rl2 (a : reg) (b : rl2) := ([true; is_reg2 b], reg_code a :: p2 b) in
  let reg_rl1 (a : reg) (b : rl1) := ([true; is_reg1 b], reg_code a :: p1 b) in
  let reg_rl1_rl1 (a : reg) (b c : rl1) := ([true; is_reg1 b; is_reg1 c], reg_code a :: p1 b ++ p1 c) in
  let rl1_rl1_rl1 (a b c : rl1) := ([is_reg1 a; is_reg1 b; is_reg1 c], p1 a ++ p1 b ++ p1 c) in
  let '(op, (rs, ps)) :=
    match i with
    | Cpy a b => (1, reg_rl2 a b)
    | Ex a b => (2, ([true; true], [reg_code a; reg_code b]))
    | Add a b => (3, reg_rl2 a b)
    | Sub a b => (4, reg_rl2 a b)
    | Mul a b => (5, reg_rl2 a b)
    | Div a b c => (6, reg_rl1_rl1 a b c)
    | Mod a b c => (7, reg_rl1_rl1 a b c)
    | And a b => (8, reg_rl2 a b)
    | Bor a b => (9, reg_rl2 a b)
    | Xor a b => (10, reg_rl2 a b)
    | Shl a b => (11, reg_rl1 a b)
    | Shr a b => (12, reg_rl1 a b)
    | Cmp a b => (13, reg_rl2 a b)
    | Jpr a => (14, ([is_reg2 a], p2 a))
    | Lsm a => (15, ([is_reg2 a], p2 a))
    | Itr a => (16, ([is_reg1 a], p1 a))
    | If a => (17, ([is_reg1 a], p1 a))
    | IfN a => (18, ([is_reg1 a], p1 a))
    | If2 a b c => (19, rl1_rl1_rl1 a b c)
    | Lsa a b c => (20, reg_rl1_rl1 a b c)
    | Lea a b c => (21, rl1_rl1_rl1 a b c)
    | Wsa a b c => (22, rl1_rl1_rl1 a b c)
    | Wea a b c => (23, rl1_rl1_rl1 a b c)
    | Srm a b c => (24, ([is_reg1 a; is_reg1 b; true], p1 a ++ p1 b ++ [reg_code c]))
    | Push a => (25, ([is_reg2 a], p2 a))
    | Pop a => (26, ([true], [reg_code a]))
    | Call a => (27, ([is_reg2 a], p2 a))
    | Hwd a b c => (28, reg_rl1_rl1 a b c)
    | Cycles a => (29, ([true], [reg_code a]))
    | Halt => (30, ([], []))
    | Reset a => (31, ([is_reg1 a], p1 a))
    end in
  (op, rs, ps).

(** The two assertions of Instr::encode (instr.rs:364-371); EncFacts proves they always hold, so
    [encode] below is total. *)
Definition encode_asserts (i : instr) : bool :=
  let '(_, rs, ps) := encode_parts i in
  (zlen rs <=? 3) && (zlen ps <=? 3).

(** Instr::encode (instr.rs:150-385): [resize(3, ..)] pads, [(opcode << 3)] on [u8]. *)
Definition encode (i : instr) : bytes4 :=
  let '(op, rs, ps) := encode_parts i in
  (u8 (Z.shiftl op 3) + (if nth 0 rs false then 4 else 0) + (if nth 1 rs false then 2 else 0)
     + (if nth 2 rs false then 1 else 0),
   nth 0 ps 0, nth 1 ps 0, nth 2 ps 0).

Definition word_of_bytes (bs : bytes4) : Z := let '(a, b, c, d) := bs in of_be4 a b c d.
Definition bytes_of_word (w : Z) : bytes4 :=
  (u8 (w / 16777216), u8 (w / 65536), u8 (w / 256), u8 w).
Definition list_of_bytes (bs : bytes4) : list Z := let '(a, b, c, d) := bs in [a; b; c; d].

(** Instr::encode_word (instr.rs:388-390). *)
Definition encode_word (i : instr) : Z := word_of_bytes (encode i).

(** ProgramWord (prog_word.rs:5-8). *)
Inductive prog_word : Type := PInstr (i : instr) | PRaw (bs : bytes4).

(** ProgramWord::decode, decode_word, encode, encode_word (prog_word.rs:11-42). *)
Definition pw_decode (bs : bytes4) : prog_word :=
  match decode bs with ROk i => PInstr i | RErr _ => PRaw bs end.
Definition pw_decode_word (w : Z) : prog_word := pw_decode (bytes_of_word w).
Definition pw_encode (p : prog_word) : bytes4 :=
  match p with PInstr i => encode i | PRaw bs => bs end.
Definition pw_encode_word (p : prog_word) : Z :=
  match p with PInstr i => encode_word i | PRaw bs => word_of_bytes bs end.

(** Program (prog.rs:8). *)
Definition program : Type := list prog_word.

(** Program::from_instr, size, prepend, append, append_all (prog.rs:22-63). *)
Definition from_instr (l : list instr) : program := map PInstr l.
Definition prog_size (p : program) : Z := zlen p.
Definition prepend (p : program) (w : prog_word) : program := w :: p.
Definition append (p : program) (w : prog_word) : program := p ++ [w].
Definition append_all (p ws : program) : program := p ++ ws.

(** [slice[n..].rotate_left(mid)] on a vector: panics when [mid > len]. *)
Definition rotate_left {A : Type} (l : list A) (mid : Z) : outcome (list A) :=
  if mid <=? zlen l then Ret (skipn (Z.to_nat mid) l ++ firstn (Z.to_nat mid) l) else Panic.

(** Program::prepend_all (prog.rs:43-51). [usize] subtraction: panics on underflow with overflow
    checks, else wraps to a huge [tail] and [rotate_left] panics. *)
Definition prepend_all (oc : bool) (p ws : program) : outcome program :=
  do! tail <- (if zlen ws <=? zlen p then Ret (zlen p - zlen ws)
               else if oc then Panic else Ret (zlen p - zlen ws + two64));
  let l := p ++ ws in
  do! r <- rotate_left (skipn (length ws) l) tail;
  Ret (firstn (length ws) l ++ r).

(** The loop of Program::decode (prog.rs:82-102) from word index [i]; recursion on the bytes left. *)
Fixpoint prog_decode_loop (i : Z) (bytes : list Z) (forbid_raw : bool)
  : result program (Z * decode_error) :=
  match bytes with
  | b0 :: b1 :: b2 :: b3 :: t =>
      let bs := (b0, b1, b2, b3) in
      dor pw <- match decode bs with
                | ROk ins => ROk (PInstr ins)
                | RErr err => if forbid_raw then RErr (i, err) else ROk (PRaw bs)
                end;
      dor rest <- prog_decode_loop (i + 1) t forbid_raw;
      ROk (pw :: rest)
  | _ => ROk []
  end.

(** Program::decode (prog.rs:68-105). *)
Definition prog_decode (bytes : list Z) (forbid_raw : bool) : result program (Z * decode_error) :=
  if negb (zlen bytes mod 4 =? 0) then RErr (0, SourceNotMultipleOf4Bytes)
  else prog_decode_loop 0 bytes forbid_raw.

(** Program::to_folded_bytes, encode, encode_words (prog.rs:108-126). *)
Definition to_folded_bytes (p : program) : list bytes4 := map pw_encode p.
Definition prog_encode (p : program) : list Z := flat_map (fun w => list_of_bytes (pw_encode w)) p.
Definition encode_words (p : program) : list Z := map pw_encode_word p.

(** ExtInstr (extinstr.rs:8-14). *)
Inductive ext_instr : Type :=
| SetReg (r : reg) (v : Z)
| ReadAddr (a : Z)
| ReadAddrTo (r : reg) (a : Z)
| WriteAddr (a : Z) (r : reg)
| WriteAddrLit (a v : Z).

(** Cpy/Shl/Add sequence loading a constant (extinstr.rs:19-23 and repeated below). *)
Definition load_const (r : reg) (v : Z) : list instr :=
  [Cpy r (Lit2 (u16 (Z.shiftr v 16))); Shl r (Lit1 16); Add r (Lit2 (u16 v))].

(** ExtInstr::to_instr (extinstr.rs:17-58). *)
Definition to_instr (e : ext_instr) : list instr :=
  match e with
  | SetReg r v => load_const r v
  | ReadAddr a => load_const R_avr a ++ [Lea (Reg1 R_avr) (Lit1 0) (Lit1 0)]
  | ReadAddrTo r a => load_const R_avr a ++ [Lea (Reg1 R_avr) (Lit1 0) (Lit1 0); Cpy r (Reg2 R_avr)]
  | WriteAddr a r => load_const R_rr0 a ++ [Cpy R_avr (Reg2 r); Wea (Reg1 R_rr0) (Lit1 0) (Lit1 0)]
  | WriteAddrLit a v =>
      load_const R_rr0 a ++ load_const R_avr v ++ [Wea (Reg1 R_rr0) (Lit1 0) (Lit1 0)]
  end.

(** ExtInstr::to_prog_words, encode_words, encode (extinstr.rs:61-76). *)
Definition ext_prog_words (e : ext_instr) : program := map PInstr (to_instr e).
Definition ext_encode_words (e : ext_instr) : list Z := encode_words (from_instr (to_instr e)).
Definition ext_encode (e : ext_instr) : list Z := prog_encode (from_instr (to_instr e)).

(** Constants (cst.rs:4-46). *)
Definition cst_ZF : Z := 0.
Definition cst_CF : Z := 1.
Definition cst_OF : Z := 2.
Definition cst_SF : Z := 3.
Definition cst_EF : Z := 4.
Definition cst_ZUF : Z := 5.
Definition cst_ZLF : Z := 6.
Definition cst_DIV_SIGN_MODE_MASK : Z := 16.
Definition cst_DIV_ZERO_MODE_MASK : Z := 12.
Definition cst_DIV_OVFW_MODE_MASK : Z := 3.
Definition cst_DIV_USG : Z := 0.
Definition cst_DIV_SIG : Z := 16.
Definition cst_DIV_ZRO_FRB : Z := 0.
Definition cst_DIV_ZRO_MIN : Z := 4.
Definition cst_DIV_ZRO_ZRO : Z := 8.
Definition cst_DIV_ZRO_MAX : Z := 12.
Definition cst_DIV_OFW_FRB : Z := 0.
Definition cst_DIV_OFW_MIN : Z := 1.
Definition cst_DIV_OFW_ZRO : Z := 2.
Definition cst_DIV_OFW_MAX : Z := 3.

(** ArFlag, decode, code, short_name (= to_lasm) (arflag.rs:5-72). *)
Inductive ar_flag : Type := FZero | FCarry | FOverflow | FSign | FEven | FZeroUpper | FZeroLower.
Definition ar_flag_decode (code : Z) : option ar_flag :=
  match code with
  | 0 => Some FZero | 1 => Some FCarry | 2 => Some FOverflow | 3 => Some FSign
  | 4 => Some FEven | 5 => Some FZeroUpper | 6 => Some FZeroLower | _ => None
  end.
Definition ar_flag_code (f : ar_flag) : Z :=
  match f with
  | FZero => 0 | FCarry => 1 | FOverflow => 2 | FSign => 3 | FEven => 4
  | FZeroUpper => 5 | FZeroLower => 6
  end.
Definition ar_flag_short_name (f : ar_flag) : string :=
  match f with
  | FZero => "ZF" | FCarry => "CF" | FOverflow => "OF" | FSign => "SF" | FEven => "EF"
  | FZeroUpper => "ZUF" | FZeroLower => "ZLF"
  end%string.

(** If2Cond, decode, code, name (cond.rs:2-50). *)
Inductive if2_cond : Type := COr | CAnd | CXor | CNor | CNand | CLeft | CRight.
Definition if2_cond_decode (code : Z) : option if2_cond :=
  match code with
  | 1 => Some COr | 2 => Some CAnd | 3 => Some CXor | 4 => Some CNor
  | 5 => Some CNand | 6 => Some CLeft | 7 => Some CRight | _ => None
  end.
Definition if2_cond_code (c : if2_cond) : Z :=
  match c with COr => 1 | CAnd => 2 | CXor => 3 | CNor => 4 | CNand => 5 | CLeft => 6 | CRight => 7 end.
Definition if2_cond_name (c : if2_cond) : string :=
  match c with
  | COr => "OR" | CAnd => "AND" | CXor => "XOR" | CNor => "NOR" | CNand => "NAND"
  | CLeft => "LEFT" | CRight => "RIGHT"
  end%string.
(** If2Cond::to_lasm (cond.rs:53-56). *)
Definition if2_cond_to_lasm (c : if2_cond) : string := ("CMP_" ++ if2_cond_name c)%string.

(** HwInfo, decode, code, to_lasm (hw_infos.rs:3-108). *)
Inductive hw_info_code : Type :=
| HCount | HUidUpper | HUidLower | HNameLength
| HNameW1 | HNameW2 | HNameW3 | HNameW4 | HNameW5 | HNameW6 | HNameW7 | HNameW8
| HDevSize | HCategory | HType | HModel | HDataUpper | HDataLower | HIsMapped | HMapStart | HMapEnd.
Definition hw_info_decode (code : Z) : option hw_info_code :=
  match code with
  | 0 => Some HCount | 1 => Some HUidUpper | 2 => Some HUidLower | 16 => Some HNameLength
  | 17 => Some HNameW1 | 18 => Some HNameW2 | 19 => Some HNameW3 | 20 => Some HNameW4
  | 21 => Some HNameW5 | 22 => Some HNameW6 | 23 => Some HNameW7 | 24 => Some HNameW8
  | 32 => Some HDevSize | 33 => Some HCategory | 34 => Some HType | 35 => Some HModel
  | 36 => Some HDataUpper | 37 => Some HDataLower
  | 160 => Some HIsMapped | 161 => Some HMapStart | 162 => Some HMapEnd
  | _ => None
  end.
Definition hw_info_to_code (h : hw_info_code) : Z :=
  match h with
  | HCount => 0 | HUidUpper => 1 | HUidLower => 2 | HNameLength => 16
  | HNameW1 => 17 | HNameW2 => 18 | HNameW3 => 19 | HNameW4 => 20
  | HNameW5 => 21 | HNameW6 => 22 | HNameW7 => 23 | HNameW8 => 24
  | HDevSize => 32 | HCategory => 33 | HType => 34 | HModel => 35
  | HDataUpper => 36 | HDataLower => 37
  | HIsMapped => 160 | HMapStart => 161 | HMapEnd => 162
  end.
Definition hw_info_to_lasm (h : hw_info_code) : string :=
  match h with
  | HCount => "HWD_COUNT" | HUidUpper => "HWD_UID_UPPER" | HUidLower => "HWD_UID_LOWER"
  | HNameLength => "HWD_NAME_LEN"
  | HNameW1 => "HWD_NAME_W1" | HNameW2 => "HWD_NAME_W2" | HNameW3 => "HWD_NAME_W3"
  | HNameW4 => "HWD_NAME_W4" | HNameW5 => "HWD_NAME_W5" | HNameW6 => "HWD_NAME_W6"
  | HNameW7 => "HWD_NAME_W7" | HNameW8 => "HWD_NAME_W8"
  | HDevSize => "HWD_SIZE" | HCategory => "HWD_CAT" | HType => "HWD_TYPE" | HModel => "HWD_MODEL"
  | HDataUpper => "HWD_DATA_UPPER" | HDataLower => "HWD_DATA_LOWER"
  | HIsMapped => "HWD_IS_MAPPED" | HMapStart => "HWD_MAP_START" | HMapEnd => "HWD_MAP_END"
  end%string.

(** DivSignMode (div_modes.rs:29-75): decode, encode, to_lasm. *)
Inductive div_sign : Type := DUnsigned | DSigned.
Definition div_sign_decode (s : Z) : option div_sign :=
  if s =? cst_DIV_USG then Some DUnsigned else if s =? cst_DIV_SIG then Some DSigned else None.
Definition div_sign_encode (m : div_sign) : Z :=
  match m with DUnsigned => cst_DIV_USG | DSigned => cst_DIV_SIG end.
Definition div_sign_lasm (m : div_sign) : string :=
  match m with DUnsigned => "DIV_USG" | DSigned => "DIV_SIG" end%string.

(** DivByZeroMode (div_modes.rs:99-147); note [DIV_ZRO_MAX => EqToMin] at line 125; result (107-114). *)
Inductive div_zero : Type := ZForbid | ZEqToMin | ZEqToZero | ZEqToMax.
Definition div_zero_decode (s : Z) : option div_zero :=
  if s =? cst_DIV_ZRO_FRB then Some ZForbid
  else if s =? cst_DIV_ZRO_MIN then Some ZEqToMin
  else if s =? cst_DIV_ZRO_ZRO then Some ZEqToZero
  else if s =? cst_DIV_ZRO_MAX then Some ZEqToMin
  else None.
Definition div_zero_encode (m : div_zero) : Z :=
  match m with
  | ZForbid => cst_DIV_ZRO_FRB | ZEqToMin => cst_DIV_ZRO_MIN
  | ZEqToZero => cst_DIV_ZRO_ZRO | ZEqToMax => cst_DIV_ZRO_MAX
  end.
Definition div_zero_lasm (m : div_zero) : string :=
  match m with
  | ZForbid => "DIV_ZRO_FRB" | ZEqToMin => "DIV_ZRO_MIN"
  | ZEqToZero => "DIV_ZRO_ZRO" | ZEqToMax => "DIV_ZRO_MAX"
  end%string.
Definition div_zero_result (m : div_zero) : Z :=
  match m with ZForbid => 0 | ZEqToMin => 2147483648 | ZEqToZero => 0 | ZEqToMax => 2147483647 end.

(** DivOverflowMode (div_modes.rs:171-219); result (179-186). *)
Inductive div_ovf : Type := OForbid | OEqToMin | OEqToZero | OEqToMax.
Definition div_ovf_decode (s : Z) : option div_ovf :=
  if s =? cst_DIV_OFW_FRB then Some OForbid
  else if s =? cst_DIV_OFW_MIN then Some OEqToMin
  else if s =? cst_DIV_OFW_ZRO then Some OEqToZero
  else if s =? cst_DIV_OFW_MAX then Some OEqToMax
  else None.
Definition div_ovf_encode (m : div_ovf) : Z :=
  match m with
  | OForbid => cst_DIV_OFW_FRB | OEqToMin => cst_DIV_OFW_MIN
  | OEqToZero => cst_DIV_OFW_ZRO | OEqToMax => cst_DIV_OFW_MAX
  end.
Definition div_ovf_lasm (m : div_ovf) : string :=
  match m with
  | OForbid => "DIV_OFW_FRB" | OEqToMin => "DIV_OFW_MIN"
  | OEqToZero => "DIV_OFW_ZRO" | OEqToMax => "DIV_OFW_MAX"
  end%string.
Definition div_ovf_result (m : div_ovf) : Z :=
  match m with OForbid => 0 | OEqToMin => 2147483648 | OEqToZero => 0 | OEqToMax => 2147483647 end.

(** DivMode, decode (with DivSubMode::from_mode, div_modes.rs:13-15), encode (div_modes.rs:243-308). *)
Record div_mode : Type := DivMode { dm_sign : div_sign; dm_zero : div_zero; dm_ovf : div_ovf }.
Definition div_mode_decode (mode : Z) : option div_mode :=
  match div_sign_decode (Z.land mode cst_DIV_SIGN_MODE_MASK),
        div_zero_decode (Z.land mode cst_DIV_ZERO_MODE_MASK),
        div_ovf_decode (Z.land mode cst_DIV_OVFW_MODE_MASK) with
  | Some a, Some b, Some c => Some (DivMode a b c)
  | _, _, _ => None
  end.
Definition div_mode_encode (m : div_mode) : Z :=
  Z.lor (Z.lor (div_sign_encode (dm_sign m)) (div_zero_encode (dm_zero m))) (div_ovf_encode (dm_ovf m)).
(** DivMode::new = default (div_modes.rs:249-252, 77-81, 149-153, 221-225). *)
Definition div_mode_new : div_mode := DivMode DUnsigned ZForbid OForbid.
(** DivMode::with_sign_mode, with_zro_mode, with_ofw_mode (div_modes.rs:288-303), to_val (311-313); DivSignMode::from_is_signed, is_signed (35-48). *)
Definition div_mode_with_sign (m : div_mode) (x : div_sign) : div_mode := DivMode x (dm_zero m) (dm_ovf m).
Definition div_mode_with_zero (m : div_mode) (x : div_zero) : div_mode := DivMode (dm_sign m) x (dm_ovf m).
Definition div_mode_with_ovf (m : div_mode) (x : div_ovf) : div_mode := DivMode (dm_sign m) (dm_zero m) x.
Definition div_mode_to_val (m : div_mode) : rl1 := Lit1 (div_mode_encode m).
Definition div_sign_from (signed : bool) : div_sign := if signed then DSigned else DUnsigned.
Definition div_sign_is_signed (x : div_sign) : bool := match x with DUnsigned => false | DSigned => true end.
