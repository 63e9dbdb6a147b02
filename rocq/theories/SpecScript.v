(** Specification vocabulary for scripts: programs generated from a list of errands with the builders of the assembler, and the same errands done by the host. *)
From Coq Require Import ZArith List Bool Lia.
From Verif Require Import Base Board Mem Cpu Asm Tools Devices Runner SpecMach SpecDev SpecRun.
Import ListNotations.
Open Scope Z_scope.

(** The registers a script may name: a0 .. a7, c0, c1, ac0 .. ac2, rr0 .. rr7 and avr. *)
Definition general (r : reg) : Prop := reg_code r <= 21.

(** Set a register; read a word into avr; write a word; write avr at the address a register holds. *)
Inductive errand : Type := ESet (r : reg) (v : Z) | EGet (a : Z) | EPut (a v : Z) | EStore (r : reg).
Definition errand_wf (e : errand) : Prop :=
  match e with ESet r v => general r /\ is_u32 v | EGet a => is_u32 a | EPut a v => is_u32 a /\ is_u32 v | EStore r => general r end.
(** The part of a program made for an errand with the builders: SetReg, ReadAddr, WriteAddrLit, and the instruction WEA r, 0, 0. *)
Definition errand_prog (e : errand) : program :=
  match e with
  | ESet r v => ext_prog_words (SetReg r v)
  | EGet a => ext_prog_words (ReadAddr a)
  | EPut a v => ext_prog_words (WriteAddrLit a v)
  | EStore r => [PInstr (Wea (Reg1 r) (Lit1 0) (Lit1 0))]
  end.
(** How many words that is. *)
Definition errand_length (e : errand) : Z := match e with ESet _ _ => 3 | EGet _ => 4 | EPut _ _ => 7 | EStore _ => 1 end.
Definition script_length (es : list errand) : Z := fold_right (fun e n => errand_length e + n) 0 es.
(** The program of a script, that ends by HALT. *)
Definition script_words (es : list errand) : list Z := encode_words (append (flat_map errand_prog es) (PInstr Halt)).

(** Registers with one changed. *)
Definition changed (f : reg -> Z) (r : reg) (v : Z) : reg -> Z := fun x => if reg_code x =? reg_code r then v else f x.

(** The host does the errands itself, with the mapped memory, and registers of its own: every access is aligned and succeeds. *)
Inductive host_runs {D} (ops : bus_ops D) (oc : bool) : list errand -> (reg -> Z) -> memory D -> (reg -> Z) -> memory D -> Prop :=
| hr_done f mem : host_runs ops oc [] f mem f mem
| hr_set r v es f mem f' mem' : host_runs ops oc es (changed f r v) mem f' mem' -> host_runs ops oc (ESet r v :: es) f mem f' mem'
| hr_get a w es f mem mem1 f' mem' : a mod 4 = 0 -> mem_read ops oc mem a = Ret (mem1, 0, w) ->
    host_runs ops oc es (changed f R_avr w) mem1 f' mem' -> host_runs ops oc (EGet a :: es) f mem f' mem'
| hr_put a v es f mem mem1 f' mem' : a mod 4 = 0 -> mem_write ops oc mem a v = Ret (mem1, 0) ->
    host_runs ops oc es (changed (changed f R_rr0 a) R_avr v) mem1 f' mem' -> host_runs ops oc (EPut a v :: es) f mem f' mem'
| hr_store r es f mem mem1 f' mem' : f r mod 4 = 0 -> mem_write ops oc mem (f r) (f R_avr) = Ret (mem1, 0) ->
    host_runs ops oc es f mem1 f' mem' -> host_runs ops oc (EStore r :: es) f mem f' mem'.

(** The host cannot do an errand: the access is not aligned (exception 0x05 with the last bits of the address), or the component raises exception [ex]
    (0xA0, with it as data). *)
Inductive host_fails {D} (ops : bus_ops D) (oc : bool) : errand -> (reg -> Z) -> memory D -> memory D -> Z -> Z -> Prop :=
| hf_get_unaligned a f mem : a mod 4 <> 0 -> host_fails ops oc (EGet a) f mem mem 5 (a mod 4)
| hf_get a f mem mem1 ex w : a mod 4 = 0 -> mem_read ops oc mem a = Ret (mem1, ex, w) -> ex <> 0 -> host_fails ops oc (EGet a) f mem mem1 160 ex
| hf_put_unaligned a v f mem : a mod 4 <> 0 -> host_fails ops oc (EPut a v) f mem mem 5 (a mod 4)
| hf_put a v f mem mem1 ex : a mod 4 = 0 -> mem_write ops oc mem a v = Ret (mem1, ex) -> ex <> 0 -> host_fails ops oc (EPut a v) f mem mem1 160 ex
| hf_store_unaligned r f mem : f r mod 4 <> 0 -> host_fails ops oc (EStore r) f mem mem 5 (f r mod 4)
| hf_store r f mem mem1 ex : f r mod 4 = 0 -> mem_write ops oc mem (f r) (f R_avr) = Ret (mem1, ex) -> ex <> 0 -> host_fails ops oc (EStore r) f mem mem1 160 ex.

(** The script that makes requests to a component mapped at [base]. *)
Definition request_script (base : Z) (h : list request) : list errand :=
  flat_map (fun r => match r with Read a => [EGet (base + a)] | Write a w => [EPut (base + a) w] | ResetReq => [] end) h.
(** Component [k] of a machine is in state [d]. *)
Definition component {D} (m : cpu D) (k : nat) (d : D) : Prop := exists e, znth (c_hwb m) (Z.of_nat k) = Some e /\ ae_dev e = d.
(** The host reads [w] at address [a] of the memory of a machine, without exception. *)
Definition host_reads {D} (ops : bus_ops D) (oc : bool) (m : cpu D) (a w : Z) : Prop := exists mem', mem_read ops oc (c_mem m) a = Ret (mem', 0, w).
(** A run ended by HALT, without exception, after the [n] first words of the program and HALT. *)
Definition ran {D} (r : outcome (option (cpu D * stopped))) (n : Z) (m : cpu D) : Prop := r = Ret (Some (m, Stopped (n + 1) (4 * n) None)) /\ c_halted m = true.

(** Writes to a component; the word of an address after them, in a memory of zeros. *)
Definition puts (ps : list (Z * Z)) : list request := map (fun p => Write (fst p) (snd p)) ps.
Definition last_put (ps : list (Z * Z)) (a : Z) : Z := fold_left (fun v p => if fst p =? a then snd p else v) ps 0.
(** Words put one after the other from offset 0. *)
Definition text_puts (ws : list Z) : list (Z * Z) := combine (map (fun i => 4 * Z.of_nat i) (seq 0 (length ws))) ws.
