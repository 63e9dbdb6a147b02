(** Specification for the brainfuck example: what its interpreter does on any line, and the usual semantics of brainfuck programs. *)
From Coq Require Import String ZArith List Bool.
From Verif Require Import Base Board Mem Cpu Devices Examples SpecIsa.
Import ListNotations.
Open Scope list_scope.
Open Scope Z_scope.

(** ** The interpreter *)
(** The state of the interpreter: the position in the line, the pointer (in bytes), 1024 cells of 32 bits, the positions of the opened
    loops (the innermost first), how many keys were read, and the values shown, oldest first. *)
Record bf_state : Type := BfState { b_pos : Z; b_ptr : Z; b_tape : Z -> Z; b_loops : list Z; b_keys : nat; b_out : list Z }.
Definition bf_init : bf_state := BfState 0 0 (fun _ => 0) [] 0 [].
Inductive bf_error : Type :=
| UnknownSymbol (symbol : Z)
| NoLoopOpened
| NotClosed (how_many last : Z).
Inductive bf_result : Type :=
| Goes (s : bf_state)
| Finishes
| Fails (position : Z) (e : bf_error)
| Unspecified.   (** the pointer is not on a cell, or more than 1021 loops are opened *)

(** The character at position [p] of the line: zero after its end. *)
Definition char_at (line : list Z) (p : Z) : Z := nth (Z.to_nat p) line 0.
(** The cell under the pointer: it must be on the first byte of one of the 1024 cells. *)
Definition cell_of (s : bf_state) : option Z :=
  if (b_ptr s mod 4 =? 0) && (0 <=? b_ptr s) && (b_ptr s <? 4096) then Some (b_tape s (b_ptr s / 4)) else None.
Definition set_tape (s : bf_state) (v : Z) : Z -> Z := fun i => if i =? b_ptr s / 4 then v else b_tape s i.
Definition after (s : bf_state) (ptr : Z) (tape : Z -> Z) (keys : nat) (out : list Z) : bf_result :=
  Goes (BfState (b_pos s + 1) ptr tape (b_loops s) keys out).
Definition bf_step (line : list Z) (typed : nat -> Z) (s : bf_state) : bf_result :=
  let b := char_at line (b_pos s) in
  if (b =? 0) || (b =? 13) || (b =? 10) then
    match b_loops s with [] => Finishes | q :: _ => Fails (b_pos s) (NotClosed (zlen (b_loops s)) q) end
  else if b =? 62 (* > *) then after s (b_ptr s + 1) (b_tape s) (b_keys s) (b_out s)
  else if b =? 60 (* < *) then after s (b_ptr s - 1) (b_tape s) (b_keys s) (b_out s)
  else if b =? 43 (* + *) then
    match cell_of s with Some v => after s (b_ptr s) (set_tape s (m32 (v + 1))) (b_keys s) (b_out s) | None => Unspecified end
  else if b =? 45 (* - *) then
    match cell_of s with Some v => after s (b_ptr s) (set_tape s (m32 (v - 1))) (b_keys s) (b_out s) | None => Unspecified end
  else if b =? 46 (* . *) then
    match cell_of s with Some v => after s (b_ptr s) (b_tape s) (b_keys s) (b_out s ++ [v]) | None => Unspecified end
  else if b =? 44 (* , *) then
    match cell_of s with Some _ => after s (b_ptr s) (set_tape s (typed (b_keys s))) (S (b_keys s)) (b_out s) | None => Unspecified end
  else if b =? 91 (* [ *) then
    match cell_of s with
    | None => Unspecified
    | Some 0 =>
        (* only an empty loop is skipped: any other is reported as not closed, with the innermost of the other opened loops (or 36) *)
        if char_at line (b_pos s + 1) =? 93 then Goes (BfState (b_pos s + 2) (b_ptr s) (b_tape s) (b_loops s) (b_keys s) (b_out s))
        else Fails (b_pos s + 1) (NotClosed (zlen (b_loops s) + 1) (hd 36 (b_loops s)))
    | Some _ =>
        if zlen (b_loops s) <? 1021 then Goes (BfState (b_pos s + 1) (b_ptr s) (b_tape s) (b_pos s :: b_loops s) (b_keys s) (b_out s))
        else Unspecified
    end
  else if b =? 93 (* ] *) then
    match b_loops s with
    | [] => Fails (b_pos s) NoLoopOpened
    | q :: rest =>
        match cell_of s with
        | None => Unspecified
        | Some 0 => Goes (BfState (b_pos s + 1) (b_ptr s) (b_tape s) rest (b_keys s) (b_out s))
        | Some _ => Goes (BfState q (b_ptr s) (b_tape s) rest (b_keys s) (b_out s))
        end
    end
  else Fails (b_pos s) (UnknownSymbol b).
(** [n] steps, from [s] to [s']. *)
Fixpoint bf_steps (line : list Z) (typed : nat -> Z) (n : nat) (s s' : bf_state) : Prop :=
  match n with
  | O => s = s'
  | S k => exists t, bf_step line typed s = Goes t /\ bf_steps line typed k t s'
  end.

(** What is displayed. Each message is shown in 4092 bytes, ended with zeros. *)
Definition nl : list Z := [10].
Definition shows (text : list Z) : bool * list Z := (false, text ++ zeros (4092 - zlen text)).
Definition t_welcome : list Z := nl ++ chars "=== Welcome to the BrainFuck interpreter! ===" ++ nl ++ nl ++ chars "Please type your BrainFuck program here:" ++ nl ++ nl.
Definition t_running : list Z := nl ++ chars "=> Now running your program..." ++ nl ++ nl.
Definition t_goodbye : list Z := nl ++ nl ++ chars "=== Goodbye! ===" ++ nl.
Definition t_error : list Z := nl ++ chars "===> ERROR: At character ".
Definition t_indent : list Z := nl ++ chars "     ".
Definition t_exiting : list Z := nl ++ nl ++ chars "Now exiting after error." ++ nl.
Definition error_texts (e : bf_error) : list (list Z) :=
  match e with
  | UnknownSymbol _ => [chars "Unknown symbol "]
  | NoLoopOpened => [chars "No loop opened, cannot close one."]
  | NotClosed _ _ => [chars "Program exited before closing all loops: "; chars " were not closed, last one at character "]
  end.
Definition error_chars (e : bf_error) : list Z := match e with UnknownSymbol b => [39; b; 39; 32; 40; 41] | _ => [] end.
Definition error_numbers (position : Z) (e : bf_error) : list (Z * num_format * bool) :=
  (position + 1, NDec, true) :: match e with UnknownSymbol b => [(b, NHex, false)] | NoLoopOpened => [] | NotClosed n q => [(n, NDec, true); (q + 1, NDec, true)] end.

(** ** The usual semantics *)
Inductive bf : Type := Plus | Minus | Dot | Comma | Right | Left | Loop (body : list bf).
(** The text of a program for the example's interpreter: a move is written four times, as the pointer moves by one byte and cells have four. *)
Fixpoint text_of (x : bf) : list Z :=
  match x with
  | Plus => [43] | Minus => [45] | Dot => [46] | Comma => [44] | Right => [62; 62; 62; 62] | Left => [60; 60; 60; 60]
  | Loop body => 91 :: flat_map text_of body ++ [93]
  end.
Definition text (prog : list bf) : list Z := flat_map text_of prog.
(** The usual text. *)
Fixpoint usual_text_of (x : bf) : list Z :=
  match x with
  | Plus => [43] | Minus => [45] | Dot => [46] | Comma => [44] | Right => [62] | Left => [60]
  | Loop body => 91 :: flat_map usual_text_of body ++ [93]
  end.
Definition usual_text (prog : list bf) : list Z := flat_map usual_text_of prog.
Fixpoint depth_of (x : bf) : Z :=
  match x with Loop body => 1 + fold_right (fun y n => Z.max (depth_of y) n) 0 body | _ => 0 end.
Definition depth (prog : list bf) : Z := fold_right (fun y n => Z.max (depth_of y) n) 0 prog.
(** The tape, the number of the current cell, the number of keys read, the values shown. *)
Record bf_mem : Type := BfMem { m_tape : Z -> Z; m_cell : Z; m_keys : nat; m_out : list Z }.
Definition bf_zero : bf_mem := BfMem (fun _ => 0) 0 0 [].
Definition on_tape (s : bf_mem) : Prop := 0 <= m_cell s < 1024.
Definition cur (s : bf_mem) : Z := m_tape s (m_cell s).
Definition put_cur (s : bf_mem) (v : Z) : Z -> Z := fun i => if i =? m_cell s then v else m_tape s i.
(** An instruction other than a loop. *)
Definition simple (typed : nat -> Z) (x : bf) (s : bf_mem) : option bf_mem :=
  match x with
  | Plus => Some (BfMem (put_cur s (m32 (cur s + 1))) (m_cell s) (m_keys s) (m_out s))
  | Minus => Some (BfMem (put_cur s (m32 (cur s - 1))) (m_cell s) (m_keys s) (m_out s))
  | Dot => Some (BfMem (m_tape s) (m_cell s) (m_keys s) (m_out s ++ [cur s]))
  | Comma => Some (BfMem (put_cur s (typed (m_keys s))) (m_cell s) (S (m_keys s)) (m_out s))
  | Right => Some (BfMem (m_tape s) (m_cell s + 1) (m_keys s) (m_out s))
  | Left => Some (BfMem (m_tape s) (m_cell s - 1) (m_keys s) (m_out s))
  | Loop _ => None
  end.
(** The usual rules, on 1024 cells of 32 bits: [usual prog s s'] when [prog], started in [s], ends in [s']. *)
Inductive usual (typed : nat -> Z) : list bf -> bf_mem -> bf_mem -> Prop :=
| usual_end s : usual typed [] s s
| usual_simple x prog s s1 s' : on_tape s -> simple typed x s = Some s1 -> usual typed prog s1 s' -> usual typed (x :: prog) s s'
| usual_skip body prog s s' : on_tape s -> cur s = 0 -> usual typed prog s s' -> usual typed (Loop body :: prog) s s'
| usual_loop body prog s s1 s' : on_tape s -> cur s <> 0 -> usual typed body s s1 -> usual typed (Loop body :: prog) s1 s' -> usual typed (Loop body :: prog) s s'.
(** The same, except that a loop reached while the current cell is zero must be empty. *)
Inductive entered (typed : nat -> Z) : list bf -> bf_mem -> bf_mem -> Prop :=
| entered_end s : entered typed [] s s
| entered_simple x prog s s1 s' : on_tape s -> simple typed x s = Some s1 -> entered typed prog s1 s' -> entered typed (x :: prog) s s'
| entered_empty prog s s' : on_tape s -> cur s = 0 -> entered typed prog s s' -> entered typed (Loop [] :: prog) s s'
| entered_loop body prog s s1 s' : on_tape s -> cur s <> 0 -> turns_of typed body s s1 -> entered typed prog s1 s' -> entered typed (Loop body :: prog) s s'
(** One turn of a loop or more: until the current cell is zero. *)
with turns_of (typed : nat -> Z) : list bf -> bf_mem -> bf_mem -> Prop :=
| turns_last body s s' : entered typed body s s' -> on_tape s' -> cur s' = 0 -> turns_of typed body s s'
| turns_more body s s1 s' : entered typed body s s1 -> on_tape s1 -> cur s1 <> 0 -> turns_of typed body s1 s' -> turns_of typed body s s'.

(** What the handlers of the three displays were given, at the end. *)
Definition displays (m : cpu device) (texts : list (list Z)) (characters : list Z) (numbers : list (Z * num_format * bool)) : Prop :=
  texts_shown 3 m = Some (map shows texts) /\ chars_shown 6 m = Some (map char_from_u32 characters) /\ numbers_shown 7 m = Some numbers.
