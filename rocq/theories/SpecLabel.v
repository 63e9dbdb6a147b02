(** Specification of LASM sources with labels: what a source of many lines assembles to, from what each of its instructions, written with
    numbers instead of labels, assembles to alone. *)
From Coq Require Import String Ascii ZArith List Bool.
From Verif Require Import Base Asm LasmRules Lasm SpecAsm SpecLasm.
Import ListNotations.
Open Scope string_scope.
Open Scope Z_scope.

(** An operand: a register or another name the assembler knows, a number, a global label, a local label. *)
Inductive arg : Type := AName (w : string) | ANum (n : Z) | AGlobal (l : string) | ALocal (l : string).
(** What is on a line: a global label, a local label, an instruction, a word of data, a text, nothing. *)
Inductive body : Type := BLabel (l : string) | BLocal (l : string) | BInstr (m : string) (args : list arg) | BWord (n : Z) | BText (s : string) | BNothing.
(** Spaces before it, and a comment after it. *)
Record line : Type := Line { l_indent : nat; l_body : body; l_comment : option string }.

(** ** How it is written *)
Fixpoint spaces (k : nat) : string := match k with O => "" | S k => " " ++ spaces k end.
Fixpoint escaped (s : string) : string :=
  match s with
  | "" => ""
  | String c t => (if (c =? ascii_of_nat 10)%char then "\n" else if (c =? """")%char then "\""" else if (c =? "\")%char then "\\" else String c "") ++ escaped t
  end.
Definition instr_text (m : string) (args : list string) : string := match args with [] => m | _ => m ++ " " ++ String.concat ", " args end.
Definition arg_text (a : arg) : string := match a with AName w => w | ANum n => fmt_hex n | AGlobal l => l | ALocal l => "." ++ l end.
Definition body_text (b : body) : string :=
  match b with
  | BLabel l => l ++ ":"
  | BLocal l => "." ++ l ++ ":"
  | BInstr m args => instr_text m (map arg_text args)
  | BWord n => "#d32 " ++ fmt_hex n
  | BText s => "#d """ ++ escaped s ++ """"
  | BNothing => ""
  end.
Definition line_text (l : line) : string := spaces (l_indent l) ++ body_text (l_body l) ++ match l_comment l with Some c => " ; " ++ c | None => "" end.
Definition source (ls : list line) : string := String.concat newline (map line_text ls).

(** Identifiers: letters, digits and underscores, not starting with a digit. *)
Definition letter (c : ascii) : bool :=
  let n := N_of_ascii c in ((N.leb 65 n && N.leb n 90) || (N.leb 97 n && N.leb n 122) || (N.eqb n 95))%bool.
Definition digit (c : ascii) : bool := let n := N_of_ascii c in (N.leb 48 n && N.leb n 57)%bool.
Fixpoint rest_ok (s : string) : bool := match s with "" => true | String c t => ((letter c || digit c) && rest_ok t)%bool end.
Definition identifier (s : string) : Prop := match s with "" => False | String c t => letter c = true /\ rest_ok t = true end.
Fixpoint one_line (s : string) : Prop := match s with "" => True | String c t => c <> ascii_of_nat 10 /\ one_line t end.
(** A label must not have the name of a register, of a flag... *)
Definition label_name (s : string) : Prop := identifier s /\ reserved s = false.
Definition arg_ok (a : arg) : Prop :=
  match a with AName w => reserved w = true | ANum n => 0 <= n < 2 ^ 32 | AGlobal l => label_name l | ALocal l => identifier l end.
Definition body_ok (b : body) : Prop :=
  match b with
  | BLabel l => label_name l
  | BLocal l => identifier l
  | BInstr m args => identifier m /\ Forall arg_ok args
  | BWord n => 0 <= n < 2 ^ 32
  | BText _ | BNothing => True
  end.
Definition line_ok (l : line) : Prop := body_ok (l_body l) /\ match l_comment l with Some c => one_line c | None => True end.

(** ** What it means *)
(** The next multiple of 4. *)
Definition aligned (pos : Z) : Z := 4 * ((pos + 3) / 4).
(** The position after a line that starts at [pos]: labels are aligned, instructions and words have 4 bytes. *)
Definition next_pos (pos : Z) (b : body) : Z :=
  match b with
  | BLabel _ | BLocal _ => aligned pos
  | BInstr _ _ | BWord _ => pos + 4
  | BText s => pos + Z.of_nat (String.length s)
  | BNothing => pos
  end.
(** The last global label. *)
Definition next_scope (scope : string) (b : body) : string := match b with BLabel l => l | _ => scope end.
(** The labels and their addresses: (global label, "") or (global label, local label). *)
Fixpoint labels (pos : Z) (scope : string) (bs : list body) : list ((string * string) * Z) :=
  match bs with
  | [] => []
  | b :: t =>
      (match b with BLabel l => [((l, ""), aligned pos)] | BLocal l => [((scope, l), aligned pos)] | _ => [] end)
      ++ labels (next_pos pos b) (next_scope scope b) t
  end%list.
Definition key_eqb (a b : string * string) : bool := (String.eqb (fst a) (fst b) && String.eqb (snd a) (snd b))%bool.
Fixpoint address (t : list ((string * string) * Z)) (k : string * string) : option Z :=
  match t with [] => None | (j, a) :: t => if key_eqb j k then Some a else address t k end.
(** The operands with each label replaced by its address. *)
Definition resolved (t : list ((string * string) * Z)) (scope : string) (a : arg) : option string :=
  match a with
  | AName w => Some w
  | ANum n => Some (fmt_hex n)
  | AGlobal l => option_map fmt_hex (address t (l, ""))
  | ALocal l => option_map fmt_hex (address t (scope, l))
  end.
Fixpoint all_resolved (t : list ((string * string) * Z)) (scope : string) (args : list arg) : option (list string) :=
  match args with
  | [] => Some []
  | a :: r => match resolved t scope a, all_resolved t scope r with Some x, Some y => Some (x :: y) | _, _ => None end
  end.
(** The bytes of a line. *)
Definition body_bytes (t : list ((string * string) * Z)) (pos : Z) (scope : string) (b : body) : option (list Z) :=
  match b with
  | BLabel _ => Some (repeat 0 (Z.to_nat (aligned pos - pos)))
  | BLocal _ => if String.eqb scope "" then None else Some (repeat 0 (Z.to_nat (aligned pos - pos)))
  | BInstr m args => match all_resolved t scope args with Some ws => assemble (instr_text m ws) | None => None end
  | BWord n => Some [n / 2 ^ 24; n / 2 ^ 16 mod 2 ^ 8; n / 2 ^ 8 mod 2 ^ 8; n mod 2 ^ 8]
  | BText s => Some (map (fun c => Z.of_N (N_of_ascii c)) (list_ascii_of_string s))
  | BNothing => Some []
  end.
Fixpoint meaning (t : list ((string * string) * Z)) (pos : Z) (scope : string) (bs : list body) : option (list Z) :=
  match bs with
  | [] => Some []
  | b :: r =>
      match body_bytes t pos scope b, meaning t (next_pos pos b) (next_scope scope b) r with
      | Some x, Some y => Some (x ++ y)%list
      | _, _ => None
      end
  end.
Definition bodies (ls : list line) : list body := map l_body ls.
(** The labels of a source. *)
Definition labels_of (ls : list line) : list ((string * string) * Z) := labels 0 "" (bodies ls).
(** The size of what it assembles to. *)
Definition code_size (ls : list line) : Z := fold_left next_pos (bodies ls) 0.
(** An instruction that takes the address of a label: [jp], [call] and [cpy] into a register; what it does with the address [a]. *)
Inductive takes (x : arg) : string -> list arg -> (Z -> instr) -> Prop :=
| takes_jp : takes x "jp" [x] (fun a => Cpy R_pc (Lit2 a))
| takes_call : takes x "call" [x] (fun a => Call (Lit2 a))
| takes_cpy r : takes x "cpy" [AName (reg_name r); x] (fun a => Cpy r (Lit2 a)).
(** The label an operand or a line names, after the global label [scope]. *)
Definition arg_key (scope : string) (x : arg) : option (string * string) :=
  match x with AGlobal l => Some (l, "") | ALocal l => Some (scope, l) | _ => None end.
Definition body_key (scope : string) (b : body) : option (string * string) :=
  match b with BLabel l => Some (l, "") | BLocal l => Some (scope, l) | _ => None end.
(** The global label that lines after [ls] belong to. *)
Definition scope_after (ls : list line) : string := fold_left next_scope (bodies ls) "".
