(** Specifications about the tools crate: what exception words mean. *)
From Coq Require Import ZArith List Bool Lia.
From Verif Require Import Base Board Mem Cpu Asm Tools SpecMach SpecIsa SpecObs.
Import ListNotations.
Open Scope Z_scope.

(** The exception documented for a code and its 16-bit data (ISA.md, table of exceptions); hardware exceptions (0xA0) apart. *)
Definition documented (code data : Z) : option native_exception :=
  match code with
  | 1 => Some (NUnknownOpCode data) | 2 => Some (NUnknownRegister data) | 3 => Some (NReadProtectedRegister data)
  | 4 => Some (NWriteProtectedRegister data) | 5 => Some (NUnalignedMemoryAddress data) | 6 => Some (NMmuRefusedRead data)
  | 7 => Some (NMmuRefusedWrite data) | 8 => Some (NMmuRefusedExec data) | 9 => Some (NSupervisorReservedInstruction data)
  | 10 => Some NDivisionOrModByZero | 11 => Some NOverflowingDivOrMod | 12 => Some (NInvalidCondFlag data)
  | 13 => Some (NInvalidCondMode data) | 16 => Some (NUnknownComponentId data)
  | 17 => Some (NUnknownHardwareInformationCode data) | 18 => Some (NComponentNotMapped data)
  | 240 => Some (NInterruption data)
  | _ => None
  end.

(** Register operands of an instruction, in the order the processor reads them, before any other effect. *)
Definition regs1 (v : rl1) : list reg := match v with Reg1 r => [r] | Lit1 _ => [] end.
Definition regs2 (v : rl2) : list reg := match v with Reg2 r => [r] | Lit2 _ => [] end.
Definition reads (i : instr) : list reg :=
  match i with
  | Cpy _ v | Jpr v | Push v | Call v => regs2 v
  | Ex a b => [a; b]
  | Add d v | Sub d v | Mul d v | And d v | Bor d v | Xor d v | Cmp d v => regs2 v ++ [d]
  | Shl d v | Shr d v => regs1 v ++ [d]
  | Div d v w | Mod d v w => regs1 v ++ regs1 w ++ [d]
  | Itr v | If v | IfN v | Reset v => regs1 v
  | Lsa _ v w | Srm v w _ | Hwd _ v w => regs1 v ++ regs1 w
  | If2 u v w | Lea u v w | Wsa u v w | Wea u v w => regs1 u ++ regs1 v ++ regs1 w
  | Lsm _ | Pop _ | Cycles _ | Halt => []
  end.
