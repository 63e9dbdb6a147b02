(** Properties proved in ProofConsole.v: statements only. Generated by tools/gen_props.py. *)
From Coq Require Import String Ascii ZArith List Bool Lia.
From Verif Require Import Base BaseFacts Board Mem Cpu Asm Tools Devices Runner LasmRules Lasm LasmFacts Console
  SpecMach SpecIsa SpecBus SpecRun SpecAsm RegFacts SpecConsole ConsoleFacts ProofAsm ProofTools InvFacts CyclePost ReachFacts Demo ProofPanic ProofState ProofRun.
From Verif Require Import ProofConsole.
Import ListNotations.
Open Scope string_scope.
Open Scope Z_scope.

(** Messages of hardware exceptions are all different. *)
Theorem C81_aux : forall e e', aux_wf e -> aux_wf e' -> aux_text e = aux_text e' -> e = e'.
Proof. exact P_C81_aux. Qed.
Print Assumptions C81_aux.

Example C81_aux_example : aux_wf (UnknownOperation 171) /\ aux_text (UnknownOperation 171) = "Unknown operation 0xAB".
Proof. exact E_C81_aux. Qed.

(** A text that a message can have belongs to one exception only, data included. *)
Theorem C81_native : forall e e' t, native_wf e -> native_wf e' -> native_text e = Ret t -> native_text e' = Ret t -> e = e'.
Proof. exact P_C81_native. Qed.
Print Assumptions C81_native.

Example C81_native_example : native_wf (NHardwareException (UnknownOperation 7)) /\
  native_text (NHardwareException (UnknownOperation 7)) = Ret "Hardware exception: Unknown operation 0x07" /\
  native_text (NReadProtectedRegister 26) = Ret "Register et cannot be read in this mode" /\
  native_text (NMmuRefusedExec 4660) = Ret "Address cannot be executed in this mode (address' weakest bits are 0x1234)" /\
  native_text (NUnalignedMemoryAddress 3) = Ret "Unaligned memory address (unalignment is 3)".
Proof. exact E_C81_native. Qed.

(** Printing an exception panics exactly when it names a register that does not exist. *)
Theorem C81_panics : forall e, native_wf e ->
  (native_text e = Panic <-> exists c, 32 <= c /\ (e = NReadProtectedRegister c \/ e = NWriteProtectedRegister c)).
Proof. exact P_C81_panics. Qed.
Print Assumptions C81_panics.

Example C81_panics_example : native_wf (NReadProtectedRegister 200) /\ native_text (NReadProtectedRegister 200) = Panic.
Proof. exact E_C81_panics. Qed.

(** Categories have different texts. *)
Theorem C81_category : forall c c', category_wf c -> category_wf c' -> category_text c = category_text c' -> c = c'.
Proof. exact P_C81_category. Qed.
Print Assumptions C81_category.

Example C81_category_example : category_text (CatPlatform 48879) = "PlatformSpecific:(Code=0x0000BEEF)" /\ category_text (CatDisplay TCharacter) = "Display:Character".
Proof. exact E_C81_category. Qed.

(** Decoding errors have different texts; parameters are counted from 1. *)
Theorem C81_decode_error : forall e e', decode_error_wf e -> decode_error_wf e' -> decode_error_text e = decode_error_text e' -> e = e'.
Proof. exact P_C81_decode_error. Qed.
Print Assumptions C81_decode_error.

Example C81_decode_error_example : decode_error_wf (UnknownRegister 1 255) /\ decode_error_text (UnknownRegister 1 255) = "Parameter 2 uses unknown register: 0xFF".
Proof. exact E_C81_decode_error. Qed.

(** The description of a native exception is one line. *)
Theorem C81_one_line : forall e t, native_wf e -> native_text e = Ret t -> one_line t.
Proof. exact P_C81_one_line. Qed.
Print Assumptions C81_one_line.

Example C81_one_line_example : native_wf (NHardwareException (UnknownOperation 7)) /\ native_text (NHardwareException (UnknownOperation 7)) = Ret "Hardware exception: Unknown operation 0x07".
Proof. exact E_C81_one_line. Qed.

(** Messages say which exception it is, and its data. *)
Theorem C81_says : forall e t, native_wf e -> native_text e = Ret t -> native_says e t.
Proof. exact P_C81_says. Qed.
Print Assumptions C81_says.

Example C81_says_example : native_wf (NUnalignedMemoryAddress 3) /\ native_text (NUnalignedMemoryAddress 3) = Ret "Unaligned memory address (unalignment is 3)".
Proof. exact E_C81_says. Qed.

(** Texts of categories and of decoding errors say which one it is. *)
Theorem C81_named : (forall c, category_wf c -> category_says c (category_text c)) /\ (forall e, decode_error_wf e -> decode_error_says e (decode_error_text e)).
Proof. exact P_C81_named. Qed.
Print Assumptions C81_named.

Example C81_named_example : category_text (CatStorage TFlash) = "Storage:Flash" /\ decode_error_text (UnknownRegister 0 255) = "Parameter 1 uses unknown register: 0xFF".
Proof. exact E_C81_named. Qed.

(** So are those of hardware exceptions, categories, decoding errors and stops. *)
Theorem C81_one_line_all : (forall e, aux_wf e -> one_line (aux_text e)) /\ (forall c, category_wf c -> one_line (category_text c)) /\
  (forall e, decode_error_wf e -> one_line (decode_error_text e)) /\ (forall s t, stopped_wf s -> stop_text s = Ret t -> one_line t).
Proof. exact P_C81_one_line_all. Qed.
Print Assumptions C81_one_line_all.

Example C81_one_line_all_example : let s := Stopped 5 16 (Some (ExWithMode 16777217 true 1 0)) in stopped_wf s /\ exists t, stop_text s = Ret t.
Proof. exact E_C81_one_line_all. Qed.

(** The text of a stop tells the cycles, the address, whether there was an exception, in which mode, and which one. *)
Theorem C81_stop : forall s s' t, stopped_wf s -> stopped_wf s' -> stop_text s = Ret t -> stop_text s' = Ret t ->
  sp_cycles s = sp_cycles s' /\ sp_addr s = sp_addr s' /\
  match sp_ex s, sp_ex s' with
  | None, None => True
  | Some x, Some x' => xm_sv x = xm_sv x' /\
      native_decode_parts (xm_code x) (Some (xm_data x)) = native_decode_parts (xm_code x') (Some (xm_data x'))
  | _, _ => False
  end.
Proof. exact P_C81_stop. Qed.
Print Assumptions C81_stop.

Example C81_stop_example : stopped_wf (Stopped 291 64 (Some (ex_of_et 17432576))) /\
  stop_text (Stopped 291 64 (Some (ex_of_et 17432576))) =
    Ret "Cycle 0x00000123: CPU halted at address 0x00000040 because of exception in supervisor mode: Cannot perform a division or modulus by zero".
Proof. exact E_C81_stop. Qed.

(** Printing does not change what a run does. *)
Theorem C82_same : forall D (ops : bus_ops D) oc fuel cfg m, snd (run_vm_said ops oc fuel cfg m) = run_vm ops oc fuel cfg m.
Proof. exact P_C82_same. Qed.
Print Assumptions C82_same.

(** What was printed, with the same result as [run_vm]. *)
Example C82_same_example : exists m m' st, reachable words_ops false m /\ snd (run_vm_said words_ops false 9 config_halt_on_ex m) = Ret (Some (m', st)) /\ fst (run_vm_said words_ops false 9 config_halt_on_ex m) <> [].
Proof. exact E_C82_same. Qed.

(** The lines of a run that ends: for each cycle in order, the line of the cycle and the line of its exception, as configured; then the
    final lines. *)
Theorem C82_lines : forall D (ops : bus_ops D) oc fuel cfg m m' st lines, typed ops -> wf m ->
  run_vm_said ops oc fuel cfg m = (lines, Ret (Some (m', st))) ->
  exists n l1 l2, lines = (l1 ++ l2)%list /\ stops_after ops oc cfg m n m' /\ cycles_said ops oc cfg m n l1 /\ finally_said cfg st l2.
Proof. exact P_C82_lines. Qed.
Print Assumptions C82_lines.

(** A run that raises exceptions and goes on, told in full. *)
Example C82_lines_example : exists m m' st, reachable words_ops false m /\
  run_vm_said words_ops false 9 (with_cycles_limit (Some 2) config_verbose) m =
   (["[lrvm] Running cycle 0x00000000 at address 0x00000000"; "[lrvm] Running cycle 0x00000001 at address 0x00000004";
     "[lrvm] At address 0x00000004 - Exception occurred: Interruption (code 0x07)"; "[lrvm] Running cycle 0x00000002 at address 0x00000000";
     "[lrvm] At address 0x00000000 - Exception occurred: Interruption (code 0x07)";
     "[lrvm] Cycle 0x00000003: CPU halted at address 0x00000000"], Ret (Some (m', st))).
Proof. exact E_C82_lines. Qed.

(** The same program stopped at its exception. *)
Example C82_stop_example : exists m m' st, reachable words_ops false m /\
  run_vm_said words_ops false 9 config_halt_on_ex m =
   (["[lrvm] Cycle 0x00000002: CPU halted at address 0x00000004 because of exception in supervisor mode: Interruption (code 0x07)"], Ret (Some (m', st))).
Proof. exact E_C82_stop. Qed.

(** While it runs, the lines of the executed cycles are out. *)
Theorem C82_running : forall D (ops : bus_ops D) oc fuel cfg m lines, typed ops -> wf m ->
  run_vm_said ops oc fuel cfg m = (lines, Ret None) -> cycles_said ops oc cfg m fuel lines.
Proof. exact P_C82_running. Qed.
Print Assumptions C82_running.

(** Three cycles of an endless loop. *)
Example C82_running_example : exists m lines, reachable words_ops false m /\ wf m /\ run_vm_said words_ops false 3 config_verbose m = (lines, Ret None) /\ List.length lines = 3%nat.
Proof. exact E_C82_running. Qed.

(** When the host crashes, everything said before is out: the lines of the cycles completed, and of the one that was starting. The crash is
    the processor's, or the printing of an exception about a register that does not exist. *)
Theorem C82_crash : forall D (ops : bus_ops D) oc fuel cfg m lines, typed ops -> wf m ->
  run_vm_said ops oc fuel cfg m = (lines, Panic) ->
  exists n mn l1 l2, run ops oc n m = Ret mn /\ lines = (l1 ++ l2)%list /\ cycles_said ops oc cfg m n l1 /\
   ((if cf_print_cycles cfg then exists s, l2 = [s] /\ cycle_line mn s else l2 = []) /\
    (next ops oc mn = Panic \/ exists mp, next ops oc mn = Ret mp /\ tells_exceptions cfg = true /\ unprintable (R mp R_et)) \/
    cf_print_finish cfg = true /\ cf_halt_on_ex cfg = true /\ l2 = (if cf_newline cfg then [""] else []) /\ unprintable (R mn R_et)).
Proof. exact P_C82_crash. Qed.
Print Assumptions C82_crash.

(** A program in user mode names a register that does not exist: the runner crashes on the report, after the lines of the two cycles. *)
Example C82_crash_example : exists m, reachable words_ops false m /\
  run_vm_said words_ops false 9 config_verbose m =
    (["[lrvm] Running cycle 0x00000000 at address 0x00000000"; "[lrvm] Running cycle 0x00000001 at address 0x00000008"], Panic).
Proof. exact E_C82_crash. Qed.

(** The settings: the default prints exceptions and the end, has no limit and goes on after exceptions; each builder changes its own setting only. *)
Theorem C82_settings : settings config_default = (None, false, false, true, true, false) /\
  settings config_halt_on_ex = (None, true, false, true, true, false) /\
  settings config_verbose = (None, false, true, true, true, false) /\
  settings config_quiet = (None, false, false, false, false, false) /\
  forall c l h cy ex fi nl, settings c = (l, h, cy, ex, fi, nl) ->
    (forall l', settings (with_cycles_limit l' c) = (l', h, cy, ex, fi, nl)) /\
    (forall b, settings (with_halt_on_exception b c) = (l, b, cy, ex, fi, nl)) /\
    (forall b, settings (with_print_cycles b c) = (l, h, b, ex, fi, nl)) /\
    (forall b, settings (with_print_exceptions b c) = (l, h, cy, b, fi, nl)) /\
    (forall b, settings (with_print_finish b c) = (l, h, cy, ex, b, nl)) /\
    (forall b, settings (with_newline_on_finish b c) = (l, h, cy, ex, fi, b)) /\
    settings (be_verbose c) = (l, h, true, true, true, nl) /\ settings (be_quiet c) = (l, h, false, false, false, nl).
Proof. exact P_C82_settings. Qed.
Print Assumptions C82_settings.

Example C82_settings_example : settings (with_print_cycles true (with_cycles_limit (Some 7) config_quiet)) = (Some 7, false, true, false, false, false).
Proof. exact E_C82_settings. Qed.

(** A quiet run prints nothing. *)
Theorem C82_quiet : forall D (ops : bus_ops D) oc fuel cfg m, cf_print_cycles cfg = false -> no_printing cfg -> fst (run_vm_said ops oc fuel cfg m) = [].
Proof. exact P_C82_quiet. Qed.
Print Assumptions C82_quiet.

Example C82_quiet_example : cf_print_cycles config_quiet = false /\ no_printing config_quiet /\ exists m m' st, reachable words_ops false m /\ run_vm_said words_ops false 9 config_quiet m = ([], Ret (Some (m', st))).
Proof. exact E_C82_quiet. Qed.
