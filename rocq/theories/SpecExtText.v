(** Specification of the text of extended instructions, and of what running it does. *)
From Coq Require Import String ZArith List Bool.
From Verif Require Import Base Board Mem Cpu Asm Tools Lasm SpecMach SpecIsa SpecBus SpecObs SpecAsm SpecExt SpecLasm.
Import ListNotations.
Open Scope Z_scope.

(** The words of a code, in order. *)
Definition words_of (code : list Z) : list Z := map word_of_bytes (quads code).
(** The constants of an extended instruction are words. *)
Definition ext_wf (e : ext_instr) : Prop :=
  match e with SetReg _ v => is_u32 v | ReadAddr a | ReadAddrTo _ a | WriteAddr a _ => is_u32 a | WriteAddrLit a v => is_u32 a /\ is_u32 v end.
(** How many instructions stand for it. *)
Definition ext_count (e : ext_instr) : Z :=
  match e with SetReg _ _ => 3 | ReadAddr _ => 4 | ReadAddrTo _ _ | WriteAddr _ _ => 5 | WriteAddrLit _ _ => 7 end.
(** [code] is what the assembler makes of the text the extended instruction prints (in a build of the tools that checks overflows or not). *)
Definition written (oc : bool) (e : ext_instr) (code : list Z) : Prop := exists t, ext_to_lasm oc e = Ret t /\ assemble t = Some code.

(** From [m], having set [r] to [v] in three cycles that access the memory to fetch instructions only, the machine is [m3]. *)
Definition prepared {D} (ops : bus_ops D) (oc : bool) (m : cpu D) (ws : list Z) (l : list (reg * Z)) (m3 : cpu D) : Prop :=
  straight m m3 (zlen ws) l /\ runs_quietly ops oc m ws m3.
(** The words [ws] set avr to [a], load the word at address [a], with [m]'s rights, and copy the register [q] to [r]: the load succeeds and [r] ends
    with the value of [q] then; or it raises its exception. *)
Definition loads_to {D} (ops : bus_ops D) (oc : bool) (m : cpu D) (ws : list Z) (a : Z) (q r : reg) (m' : cpu D) : Prop :=
  exists m3 mem1 m4 mem2, prepared ops oc m (firstn 3 ws) [(R_avr, a)] m3 /\ executes ops oc m3 (Lea (Reg1 R_avr) (Lit1 0) (Lit1 0)) mem1 m4 /\
    executes ops oc m4 (Cpy r (Reg2 q)) mem2 m' /\
    ((exists w, loads ops m mem1 a w (c_mem m4) /\ c_mem m' = mem2 /\
        straight m m' 5 ((if reg_code r =? reg_code R_avr then [] else [(R_avr, w)]) ++ [(r, if reg_code q =? reg_code R_avr then w else R m q)])) \/
     (exists mem3 code data, load_faults ops m mem1 a mem3 code data /\ raised m3 m4 mem3 code data)).
(** The words [ws] set rr0 to [a], copy [q] to avr and store it at address [a] with [m]'s rights. *)
Definition stores_from {D} (ops : bus_ops D) (oc : bool) (m : cpu D) (ws : list Z) (a : Z) (q : reg) (m' : cpu D) : Prop :=
  let v := if reg_code q =? reg_code R_rr0 then a else R m q in
  exists m4 mem1, prepared ops oc m (firstn 4 ws) [(R_rr0, a); (R_avr, v)] m4 /\ executes ops oc m4 (Wea (Reg1 R_rr0) (Lit1 0) (Lit1 0)) mem1 m' /\
    ((stores ops m mem1 a v (c_mem m') /\ straight m m' 5 [(R_rr0, a); (R_avr, v)]) \/
     (exists mem2 code data, store_faults ops m mem1 a v mem2 code data /\ raised m4 m' mem2 code data)).
