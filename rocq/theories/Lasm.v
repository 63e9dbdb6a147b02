(** Text: the LASM output of instructions and programs (/repo/lrvm_tools/src/asm/{val,div_modes,instr,prog_word,prog,extinstr}.rs) and the
    assembler (/repo/lrvm_tools/src/lasm/mod.rs), i.e. the external customasm library run on the rules of customasm.def (LasmRules.v).
    Of customasm, which is not in /repo, the part used is modelled from its documentation: lines, comments, identifiers, numbers
    (decimal, 0x, 0b, with underscores), strings, labels and local labels with [#labelalign 32], [#d32], [#d], rule matching with the integer
    ranges of its types (u8: 0..255, i8: -128..255, likewise 16), expressions of the form n, -n, a - b and "c". Anything else is rejected. *)
From Coq Require Import String Ascii ZArith List Bool Lia.
From Verif Require Import Base Mem Asm Tools LasmRules.
Import ListNotations.
Open Scope string_scope.
Open Scope Z_scope.

(** ** Text output *)

(** One upper-case hexadecimal digit. *)
Definition hex_digit (n : Z) : ascii := ascii_of_N (Z.to_N (if n <? 10 then 48 + n else 55 + n)).
Fixpoint digits (base : Z) (fuel : nat) (n : Z) (tail : string) : string :=
  match fuel with
  | O => tail
  | S f => if n <? base then String (hex_digit n) tail else digits base f (n / base) (String (hex_digit (n mod base)) tail)
  end.
Fixpoint pad (k : nat) (s : string) : string := match k with O => s | S k => String "0" (pad k s) end.
(** [{:X}], [{:b}] with a minimal number of digits. *)
Definition number (base : Z) (width : nat) (n : Z) : string :=
  let s := digits base 64 n "" in pad (width - String.length s) s.
(** Rust formats [{:#X}], [{:#004X}] (the width counts the prefix), [{:#010X}], [{:002X}], [{:#010b}]. *)
Definition fmt_hex (n : Z) : string := "0x" ++ number 16 1 n.
Definition fmt_hex4 (n : Z) : string := "0x" ++ number 16 2 n.
Definition fmt_hex10 (n : Z) : string := "0x" ++ number 16 8 n.
Definition fmt_byte (n : Z) : string := number 16 2 n.
Definition fmt_bin10 (n : Z) : string := "0b" ++ number 2 8 n.

(** RegOrLit::to_lasm (val.rs:53-58), to_lasm_with (val.rs:73-78). *)
Definition lasm1_with (f : Z -> string) (v : rl1) : string := match v with Reg1 r => reg_name r | Lit1 n => f n end.
Definition lasm1 : rl1 -> string := lasm1_with fmt_hex.
Definition lasm2 (v : rl2) : string := match v with Reg2 r => reg_name r | Lit2 n => fmt_hex n end.
(** RegOrLit2::to_lasm_signed (val.rs:62-70): [-num] overflows for the least number: panic with overflow checks, else its bits are printed
    ([{:X}] of a signed number prints its two's complement bits). *)
Definition lasm2_signed (oc : bool) (v : rl2) : outcome string :=
  match v with
  | Reg2 r => Ret (reg_name r)
  | Lit2 n => if n <? 32768 then Ret (fmt_hex n)
              else if n =? 32768 then if oc then Panic else Ret ("-" ++ fmt_hex 32768)
              else Ret ("-" ++ fmt_hex (65536 - n))
  end.

(** DivMode::to_lasm (div_modes.rs:317-340). *)
Definition div_mode_lasm (m : div_mode) : string :=
  let modes :=
    ((match dm_sign m with DUnsigned => [] | s => [div_sign_lasm s] end) ++
     (match dm_zero m with ZForbid => [] | z => [div_zero_lasm z] end) ++
     (match dm_ovf m with OForbid => [] | o => [div_ovf_lasm o] end))%list in
  match modes with [] => "0" | _ => String.concat " | " modes end.

(** The names of the IF2 aliases (instr.rs:531-539). *)
Definition if2_alias (c : if2_cond) : string :=
  match c with
  | COr => "ifor" | CAnd => "ifand" | CXor => "ifxor" | CNor => "ifnor" | CNand => "ifnand" | CLeft => "ifleft" | CRight => "ifright"
  end.
(** [decode_flag] of If2 (instr.rs:497-509): text and possible warning. *)
Definition if2_flag (warning : string) (v : rl1) : string * list string :=
  match v with
  | Reg1 r => (reg_name r, [])
  | Lit1 n => match ar_flag_decode n with Some f => (ar_flag_short_name f, []) | None => (fmt_hex4 n, [warning]) end
  end.
(** The If2 case (instr.rs:488-568). *)
Definition if2_lasm (a b c : rl1) : string :=
  let '(ta, wa) := if2_flag "invalid left flag" a in
  let '(tb, wb) := if2_flag "invalid right flag" b in
  let '(text, warns) :=
    match c with
    | Lit1 cond =>
        match if2_cond_decode cond, a, b with
        | Some CNor, Lit1 0, Lit1 1 => ("ifgt", [])
        | Some COr, Lit1 0, Lit1 1 => ("ifle", [])
        | Some k, _, _ => (if2_alias k ++ " " ++ ta ++ ", " ++ tb, (wa ++ wb)%list)
        | None, _, _ => ("if2 " ++ ta ++ ", " ++ tb ++ ", " ++ fmt_hex4 cond, (wa ++ wb ++ ["invalid condition"])%list)
        end
    | Reg1 cond => ("if2 " ++ ta ++ ", " ++ tb ++ ", " ++ reg_name cond, (wa ++ wb)%list)
    end in
  match warns with [] => text | _ => text ++ " ; " ++ String.concat ", " warns end.
(** The [If] and [IfN] cases (instr.rs:464-486). *)
Definition if_lasm (name zero carry : string) (v : rl1) : string :=
  match v with
  | Reg1 r => name ++ " " ++ reg_name r
  | Lit1 n =>
      match ar_flag_decode n with
      | Some FZero => zero
      | Some FCarry => carry
      | Some f => name ++ " " ++ ar_flag_short_name f
      | None => name ++ " " ++ fmt_hex n ++ " ; Warning: unknown flag"
      end
  end.
(** The [Div]/[Mod] cases (instr.rs:425-451). *)
Definition div_lasm (name : string) (a : reg) (b c : rl1) : string :=
  name ++ " " ++ reg_name a ++ ", " ++ lasm1 b ++ ", " ++
  match c with
  | Reg1 r => reg_name r
  | Lit1 mode => match div_mode_decode mode with Some m => div_mode_lasm m | None => fmt_bin10 mode ++ " ; Warning: invalid division mode" end
  end.

(** Instr::to_lasm (instr.rs:394-605). *)
Definition to_lasm (oc : bool) (i : instr) : outcome string :=
  let op1 (name : string) (a : string) := Ret (name ++ " " ++ a) in
  let op2 (name : string) (a b : string) := Ret (name ++ " " ++ a ++ ", " ++ b) in
  let op3 (name : string) (a b c : string) := Ret (name ++ " " ++ a ++ ", " ++ b ++ ", " ++ c) in
  match i with
  | Cpy R_pc b => op1 "jp" (lasm2 b)
  | Cpy a (Lit2 0) => op1 "zro" (reg_name a)
  | Cpy a b => op2 "cpy" (reg_name a) (lasm2 b)
  | Ex a b => op2 "ex" (reg_name a) (reg_name b)
  | Add a (Lit2 1) => op1 "inc" (reg_name a)
  | Add a b => op2 "add" (reg_name a) (lasm2 b)
  | Sub a (Lit2 1) => op1 "dec" (reg_name a)
  | Sub a b => op2 "sub" (reg_name a) (lasm2 b)
  | Mul a (Lit2 0) => op1 "zro" (reg_name a)
  | Mul a b => op2 "mul" (reg_name a) (lasm2 b)
  | Div a b c => Ret (div_lasm "div" a b c)
  | Mod a b c => Ret (div_lasm "mod" a b c)
  | And a (Lit2 0) => op1 "zro" (reg_name a)
  | And a b => op2 "and" (reg_name a) (lasm2 b)
  | Bor a b => op2 "bor" (reg_name a) (lasm2 b)
  | Xor a (Reg2 b) => op1 "zro" (reg_name b)   (* the inner [a] of the pattern (instr.rs:461) is the second operand *)
  | Xor a b => op2 "xor" (reg_name a) (lasm2 b)
  | Shl a b => op2 "shl" (reg_name a) (lasm1 b)
  | Shr a b => op2 "shr" (reg_name a) (lasm1 b)
  | Cmp a b => op2 "cmp" (reg_name a) (lasm2 b)
  | Jpr a => do! t <- lasm2_signed oc a; op1 "jpr" t
  | Lsm a => op1 "lsm" (lasm2 a)
  | Itr a => op1 "itr" (lasm1 a)
  | If a => Ret (if_lasm "if" "ifeq" "ifls" a)
  | IfN a => Ret (if_lasm "ifn" "ifnq" "ifge" a)
  | If2 a b c => Ret (if2_lasm a b c)
  | Lsa a b c => op3 "lsa" (reg_name a) (lasm1 b) (lasm1 c)
  | Lea a b c => op3 "lea" (lasm1 a) (lasm1 b) (lasm1 c)
  | Wsa a b c => op3 "wsa" (lasm1 a) (lasm1 b) (lasm1 c)
  | Wea a b c => op3 "wea" (lasm1 a) (lasm1 b) (lasm1 c)
  | Srm a b c => op3 "srm" (lasm1 a) (lasm1 b) (reg_name c)
  | Push a => op1 "push" (lasm2 a)
  | Pop R_pc => Ret "ret"
  | Pop a => op1 "pop" (reg_name a)
  | Call a => op1 "call" (lasm2 a)
  | Hwd a b c =>
      op3 "hwd" (reg_name a) (lasm1 b)
        (lasm1_with (fun n => match hw_info_decode n with
                              | Some h => hw_info_to_lasm h
                              | None => fmt_hex n ++ " ; Warning: unknown hardware information"
                              end) c)
  | Cycles a => op1 "cycles" (reg_name a)
  | Halt => Ret "halt"
  | Reset a => op1 "reset" (lasm1 a)
  end.

(** ProgramWord::to_lasm (prog_word.rs:44-52). *)
Definition pw_to_lasm (oc : bool) (p : prog_word) : outcome string :=
  match p with
  | PInstr i => to_lasm oc i
  | PRaw (a, b, c, d) => Ret ("#d32 0x" ++ fmt_byte a ++ "_" ++ fmt_byte b ++ "_" ++ fmt_byte c ++ "_" ++ fmt_byte d)
  end.
Definition newline : string := String (ascii_of_nat 10) "".
(** Program::to_lasm_lines (prog.rs:139-141). *)
Fixpoint to_lasm_lines (oc : bool) (p : program) : outcome (list string) :=
  match p with
  | [] => Ret []
  | w :: t => do! l <- pw_to_lasm oc w; do! ls <- to_lasm_lines oc t; Ret (l :: ls)
  end.
(** Program::to_lasm_lines_annotated (prog.rs:144-153); the [i32] counter overflows only past 2^29 words, not modelled. *)
Fixpoint to_lasm_annotated (oc : bool) (counter : Z) (p : program) : outcome (list string) :=
  match p with
  | [] => Ret []
  | w :: t => do! l <- pw_to_lasm oc w; do! ls <- to_lasm_annotated oc (counter + 4) t; Ret ((fmt_hex10 counter ++ ": " ++ l) :: ls)
  end.
(** Program::to_lasm (prog.rs:129-136). *)
Definition prog_to_lasm (oc : bool) (p : program) (annotate : bool) : outcome string :=
  do! ls <- (if annotate then to_lasm_annotated oc 0 p else to_lasm_lines oc p);
  Ret (String.concat newline ls).
(** ExtInstr::to_lasm (extinstr.rs:79-81). *)
Definition ext_to_lasm (oc : bool) (e : ext_instr) : outcome string := prog_to_lasm oc (from_instr (to_instr e)) false.

(** ** customasm: lines and words *)

Fixpoint split_lines (s line : string) : list string :=
  match s with
  | "" => [line]
  | String c t => if (c =? ascii_of_nat 10)%char then line :: split_lines t "" else split_lines t (line ++ String c "")
  end.

Inductive token : Type := TWord (w : string) | TStr (s : string) | TSym (c : ascii).
Definition in_range (c : ascii) (lo hi : N) : bool := (N.leb lo (N_of_ascii c) && N.leb (N_of_ascii c) hi)%bool.
Definition is_digit (c : ascii) : bool := in_range c 48 57.
(** Letters, digits, underscore; the dot of local labels. *)
Definition is_word (c : ascii) : bool :=
  (is_digit c || in_range c 65 90 || in_range c 97 122 || (c =? "_")%char || (c =? ".")%char)%bool.
Definition flush (w : string) (l : list token) : list token := match w with "" => l | _ => TWord w :: l end.
(** In a word (or between words), in a string, after a backslash in a string. *)
Inductive lex_mode : Type := LWord (w : string) | LString (s : string) | LEscape (s : string).
Fixpoint lex (s : string) (m : lex_mode) : option (list token) :=
  match s, m with
  | "", LWord w => Some (flush w [])
  | "", _ => None
  | String c t, LWord w =>
      if is_word c then lex t (LWord (w ++ String c ""))
      else if (c =? " ")%char then option_map (flush w) (lex t (LWord ""))
      else if (c =? ";")%char then Some (flush w [])
      else if (c =? """")%char then option_map (flush w) (lex t (LString ""))
      else option_map (fun l => flush w (TSym c :: l)) (lex t (LWord ""))
  | String c t, LString w =>
      if (c =? """")%char then option_map (cons (TStr w)) (lex t (LWord ""))
      else if (c =? "\")%char then lex t (LEscape w)
      else lex t (LString (w ++ String c ""))
  | String c t, LEscape w =>
      if (c =? "n")%char then lex t (LString (w ++ newline)) else lex t (LString (w ++ String c ""))
  end.

(** Numbers. *)
Definition digit_value (c : ascii) : option Z :=
  let n := Z.of_N (N_of_ascii c) in
  if is_digit c then Some (n - 48)
  else if in_range c 65 70 then Some (n - 55)
  else if in_range c 97 102 then Some (n - 87) else None.
Fixpoint parse_digits (base : Z) (s : string) (acc : Z) : option Z :=
  match s with
  | "" => Some acc
  | String c t =>
      if (c =? "_")%char then parse_digits base t acc
      else match digit_value c with
           | Some d => if d <? base then parse_digits base t (acc * base + d) else None
           | None => None
           end
  end.
Definition parse_number (w : string) : option Z :=
  match w with
  | String "0" (String "x" (String c t)) => parse_digits 16 (String c t) 0
  | String "0" (String "b" (String c t)) => parse_digits 2 (String c t) 0
  | String c t => if is_digit c then parse_digits 10 (String c t) 0 else None
  | "" => None
  end.
(** The bytes of a string, and their value as a big-endian number. *)
Fixpoint string_bytes (s : string) : list Z := match s with "" => [] | String c t => Z.of_N (N_of_ascii c) :: string_bytes t end.
Definition string_value (s : string) : Z := fold_left (fun a b => a * 256 + b) (string_bytes s) 0.

(** Operands: a name, a number, something else. *)
Inductive operand : Type := OName (s : string) | ONum (n : Z) | OOther.
Definition starts_with_digit (w : string) : bool := match w with String c _ => is_digit c | "" => false end.
Definition parse_operand (ts : list token) : operand :=
  match ts with
  | [TWord w] => if starts_with_digit w then match parse_number w with Some n => ONum n | None => OOther end else OName w
  | [TStr s] => ONum (string_value s)
  | [TSym "-"; TWord w] => match parse_number w with Some n => ONum (- n) | None => OOther end
  | [TWord a; TSym "-"; TWord b] =>
      match parse_number a, parse_number b with Some x, Some y => ONum (x - y) | _, _ => OOther end
  | _ => OOther
  end.
Fixpoint split_commas (ts cur : list token) : list (list token) :=
  match ts with
  | [] => [cur]
  | TSym c :: t => if (c =? ",")%char then cur :: split_commas t [] else split_commas t (cur ++ [TSym c])%list
  | x :: t => split_commas t (cur ++ [x])%list
  end.

(** ** customasm: lines to items *)
Inductive item : Type := ILabel (l : string) | IInstr (m : string) (ops : list operand) | IData (bs : list Z).
Definition be_word (n : Z) : list Z := [n / 16777216 mod 256; n / 65536 mod 256; n / 256 mod 256; n mod 256].
Definition parse_line (line : string) : option (list item) :=
  match lex line (LWord "") with
  | None => None
  | Some [] => Some []
  | Some [TWord l; TSym ":"] => if starts_with_digit l then None else Some [ILabel l]
  | Some (TSym "#" :: TWord d :: ts) =>
      if String.eqb d "d32" then
        match parse_operand ts with
        | ONum n => if (-2147483648 <=? n) && (n <? 4294967296) then Some [IData (be_word n)] else None
        | _ => None
        end
      else if String.eqb d "d" then match ts with [TStr s] => Some [IData (string_bytes s)] | _ => None end
      else None
  | Some (TWord m :: []) => Some [IInstr m []]
  | Some (TWord m :: ts) => Some [IInstr m (map parse_operand (split_commas ts []))]
  | _ => None
  end.
Fixpoint parse_lines (ls : list string) : option (list item) :=
  match ls with
  | [] => Some []
  | l :: t => match parse_line l, parse_lines t with Some a, Some b => Some (a ++ b)%list | _, _ => None end
  end.

(** ** customasm: matching rules *)
Fixpoint lookup (t : list (string * Z)) (s : string) : option Z :=
  match t with [] => None | (k, v) :: t => if String.eqb k s then Some v else lookup t s end.
Definition range (lo hi n : Z) : option Z := if (lo <=? n) && (n <? hi) then Some n else None.
(** An integer: a number or a label. *)
Definition integer (syms : list (string * Z)) (o : operand) (lo hi : Z) : option Z :=
  match o with
  | ONum n => range lo hi n
  | OName s => match lookup syms s with Some n => range lo hi n | None => None end
  | OOther => None
  end.
Definition named (t : list (string * Z)) (o : operand) : option Z := match o with OName s => lookup t s | _ => None end.
Definition match_operand (syms : list (string * Z)) (p : pat) (o : operand) : option Z :=
  match p with
  | PReg => named table_reg o
  | PFlag => named table_arflag o
  | PDivMode => named table_div_mode o
  | PHwInfo => named table_hw_info o
  | PIf2Mode => named table_if2_mode o
  | PU8 => integer syms o 0 256
  | PU16 => integer syms o 0 65536
  | PI8 => integer syms o (-128) 256
  | PI16 => integer syms o (-32768) 65536
  end.
Fixpoint match_operands (syms : list (string * Z)) (ps : list pat) (os : list operand) : option (list Z) :=
  match ps, os with
  | [], [] => Some []
  | p :: ps, o :: os =>
      match match_operand syms p o, match_operands syms ps os with Some v, Some vs => Some (v :: vs) | _, _ => None end
  | _, _ => None
  end.
Definition eval_byte (vs : list Z) (b : byte_expr) : option Z :=
  match b with
  | BConst n => Some (u8 n)
  | BLow k => option_map u8 (nth_error vs k)
  | BHigh k => option_map (fun v => u8 (v / 256)) (nth_error vs k)
  | BUnknown => None
  end.
Fixpoint eval_bytes (vs : list Z) (bs : list byte_expr) : option (list Z) :=
  match bs with
  | [] => Some []
  | b :: t => match eval_byte vs b, eval_bytes vs t with Some x, Some y => Some (x :: y) | _, _ => None end
  end.
Definition apply_rule (syms : list (string * Z)) (m : string) (os : list operand) (r : rule) : list (list Z) :=
  if String.eqb (ru_mnemonic r) m then
    match match_operands syms (ru_operands r) os with
    | Some vs => match eval_bytes vs (ru_bytes r) with Some bs => [bs] | None => [] end
    | None => []
    end
  else [].
(** All the rules an instruction matches; it must match exactly one. *)
Definition all_matches (syms : list (string * Z)) (m : string) (os : list operand) : list (list Z) :=
  flat_map (apply_rule syms m os) rules.
Definition assemble_instr (syms : list (string * Z)) (m : string) (os : list operand) : option (list Z) :=
  match all_matches syms m os with [bs] => Some bs | _ => None end.

(** ** customasm: labels (local labels belong to the last global one, which must exist; all are aligned on 4 bytes) and output *)
Definition qualify (scope s : string) : string := match s with String "." _ => scope ++ s | _ => s end.
Definition new_scope (scope s : string) : string := match s with String "." _ => scope | _ => s end.
Definition orphan (scope s : string) : bool := match scope, s with "", String "." _ => true | _, _ => false end.
Definition padding (pos : Z) : Z := - pos mod 4.
Fixpoint symbols (pos : Z) (scope : string) (l : list item) : list (string * Z) :=
  match l with
  | [] => []
  | ILabel s :: t => (qualify scope s, pos + padding pos) :: symbols (pos + padding pos) (new_scope scope s) t
  | IInstr _ _ :: t => symbols (pos + 4) scope t
  | IData bs :: t => symbols (pos + zlen bs) scope t
  end.
Definition qualify_operand (scope : string) (o : operand) : operand := match o with OName s => OName (qualify scope s) | _ => o end.
Fixpoint emit (syms : list (string * Z)) (pos : Z) (scope : string) (l : list item) : option (list Z) :=
  match l with
  | [] => Some []
  | ILabel s :: t =>
      if orphan scope s then None else
      option_map (fun r => repeat 0 (Z.to_nat (padding pos)) ++ r)%list (emit syms (pos + padding pos) (new_scope scope s) t)
  | IInstr m os :: t =>
      match assemble_instr syms m (map (qualify_operand scope) os), emit syms (pos + 4) scope t with
      | Some bs, Some r => Some (bs ++ r)%list
      | _, _ => None
      end
  | IData bs :: t => option_map (fun r => bs ++ r)%list (emit syms (pos + zlen bs) scope t)
  end.
Fixpoint distinct (l : list string) : bool :=
  match l with [] => true | s :: t => (negb (existsb (String.eqb s) t) && distinct t)%bool end.

(** assemble (lasm/mod.rs:19-42): [None] stands for an error message. *)
Definition assemble (source : string) : option (list Z) :=
  match parse_lines (split_lines source "") with
  | None => None
  | Some items =>
      let syms := symbols 0 "" items in
      if distinct (map fst syms) then emit syms 0 "" items else None
  end.
(** assemble_words (lasm/mod.rs:46-48). *)
Definition assemble_words (source : string) : option (list Z) := option_map bytes_to_words (assemble source).
(** assemble_prog (lasm/mod.rs:52-54). *)
Definition assemble_prog (source : string) : option (result program (Z * decode_error)) :=
  option_map (fun bs => prog_decode bs false) (assemble source).
(** disassemble (lasm/mod.rs:58-63), disassemble_words (67-72). *)
Definition disassemble (oc : bool) (code : list Z) (annotate : bool) : outcome (result string (Z * decode_error)) :=
  match prog_decode code false with
  | RErr e => Ret (RErr e)
  | ROk p => do! t <- prog_to_lasm oc p annotate; Ret (ROk t)
  end.
Definition disassemble_words (oc : bool) (code : list Z) (annotate : bool) : outcome (result string (Z * decode_error)) :=
  disassemble oc (words_to_bytes code) annotate.
