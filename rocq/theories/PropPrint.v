(** Properties proved in ProofPrint.v: statements only. Generated by tools/gen_props.py. *)
From Coq Require Import String Ascii ZArith List Bool Lia.
From Verif Require Import Base BaseFacts Board Mem Cpu Asm Tools Devices Runner LasmRules Lasm LasmFacts Console
  SpecMach SpecIsa SpecBus SpecMap SpecDev SpecRun SpecAsm RegFacts MapFacts SpecConsole ConsoleFacts ReachFacts Demo DevTyped ProofBoard ProofPanic ProofMap ProofRun ProofLasm ProofConsole.
From Verif Require Import ProofPrint.
Import ListNotations.
Open Scope string_scope.
Open Scope Z_scope.

(** Each write prints the number once, in the format of the word written, and an end of line for the first four words. *)
Theorem C83_number : forall d addr w d' ex, is_u32 w -> 0 <= addr -> nd_write d addr w = Ret (d', ex) ->
  exists t, num_display_printed d' = num_display_printed d ++ t ++ (if addr <? 16 then newline else "") /\ number_shown addr w t /\ one_line t.
Proof. exact P_C83_number. Qed.
Print Assumptions C83_number.

Example C83_number_example : exists d, nd_writes (NumDisplay 0 []) [(0, 255); (4, 255); (8, 255); (28, 255)] = Ret d /\
  num_display_printed d = "0xFF" ++ newline ++ "0x000000FF" ++ newline ++ "255" ++ newline ++ "0000000255".
Proof. exact E_C83_number. Qed.

(** What the lines of the console read as is what was written, when the first four words are used. *)
Theorem C83_lines : forall l hw d, Forall (fun p => In (fst p) [0; 4; 8; 12] /\ is_u32 (snd p)) l -> nd_writes (NumDisplay hw []) l = Ret d ->
  exists texts, num_display_printed d = String.concat "" (map (fun t => t ++ newline) texts) /\
    Forall2 (fun p t => number_shown (fst p) (snd p) t /\ one_line t) l texts.
Proof. exact P_C83_lines. Qed.
Print Assumptions C83_lines.

Example C83_lines_example : Forall (fun p => In (fst p) [0; 4; 8; 12] /\ is_u32 (snd p)) [(0, 48879); (12, 7)] /\
  exists d, nd_writes (NumDisplay 3 []) [(0, 48879); (12, 7)] = Ret d /\ num_display_printed d = "0xBEEF" ++ newline ++ "0000000007" ++ newline.
Proof. exact E_C83_lines. Qed.

(** False of the four other words: nothing separates the numbers, and different numbers can read the same. *)
Theorem C83_separated_refuted : ~ (forall l l' d d', Forall (fun p => In (fst p) [16; 20; 24; 28] /\ is_u32 (snd p)) l ->
  Forall (fun p => In (fst p) [16; 20; 24; 28] /\ is_u32 (snd p)) l' -> nd_writes (NumDisplay 0 []) l = Ret d -> nd_writes (NumDisplay 0 []) l' = Ret d' ->
  num_display_printed d = num_display_printed d' -> map snd l = map snd l').
Proof. exact P_C83_separated_refuted. Qed.
Print Assumptions C83_separated_refuted.

(** Each write to the character display prints the UTF-8 encoding of the character, or of U+FFFD if the word is no character. *)
Theorem C83_char : forall d addr w d' ex, is_u32 w -> cd_write d addr w = Ret (d', ex) ->
  (scalar w -> char_display_printed d' = char_display_printed d ++ text_of_bytes (utf8 [w])) /\
  (~ scalar w -> char_display_printed d' = char_display_printed d ++ "�").
Proof. exact P_C83_char. Qed.
Print Assumptions C83_char.

Example C83_char_example : scalar 10003 /\ ~ scalar 55296 /\ char_print (char_from_u32 10003) = "✓" /\ char_print (char_from_u32 55296) = "�".
Proof. exact E_C83_char. Qed.

(** Each write to a debug interface that prints shows the word in the format of the word written, on one line of its own (a character may itself be
    an end of line). *)
Theorem C83_debug : forall oc d addr w d' ex t, is_u32 w -> 0 <= addr -> dbg_write_println oc d addr w = Ret (d', ex, t) ->
  ex = 0 /\ exists u, t = "[debug:basic] " ++ u ++ newline /\ debug_shown (addr / 4) w u.
Proof. exact P_C83_debug. Qed.
Print Assumptions C83_debug.

Example C83_debug_example : exists d, dbg_write_println true (BasicDebug 0 []) 12 200 = Ret (d, 0, "[debug:basic] -0x38" ++ newline) /\ debug_shown 3 200 "-0x38".
Proof. exact E_C83_debug. Qed.

(** Writing crashes exactly outside of the sixteen words of the interface, and, in builds with overflow checks, for the least signed number at one of
    the three words that show signed numbers in hexadecimal. *)
Theorem C83_debug_panics : forall oc d addr w, is_u32 w -> 0 <= addr ->
  (dbg_write_println oc d addr w = Panic <-> 64 <= addr \/ oc = true /\ no_opposite (addr / 4) w).
Proof. exact P_C83_debug_panics. Qed.
Print Assumptions C83_debug_panics.

Example C83_debug_panics_example : no_opposite 4 98304 /\ dbg_write_println true (BasicDebug 0 []) 16 98304 = Panic /\
  exists d, dbg_write_println false (BasicDebug 0 []) 16 98304 = Ret (d, 0, "[debug:basic] -0x8000" ++ newline).
Proof. exact E_C83_debug_panics. Qed.

(** False: printing a number does not crash. *)
Theorem C83_debug_total_refuted : ~ (forall oc d addr w, is_u32 w -> 0 <= addr < 64 -> exists d' t, dbg_write_println oc d addr w = Ret (d', 0, t)).
Proof. exact P_C83_debug_total_refuted. Qed.
Print Assumptions C83_debug_total_refuted.

(** The preparation and the execution end as they do without looking at what they print; what is printed during an execution is what is printed by the
    preparation, then by the run. *)
Theorem C84_same : forall D (ops : bus_ops D) oc ds, snd (prepare_vm_said ops oc ds) = prepare_vm ops oc ds /\
  forall fuel cfg, snd (exec_vm_said ops oc fuel cfg ds) = exec_vm ops oc fuel cfg ds /\
    fst (exec_vm_said ops oc fuel cfg ds) = (fst (prepare_vm_said ops oc ds) ++
      match prepare_vm ops oc ds with Ret m => fst (run_vm_said ops oc fuel cfg m) | Panic => [] end)%list.
Proof. exact P_C84_same. Qed.
Print Assumptions C84_same.

Example C84_same_example : fst (exec_vm_said words_ops true 3 config_quiet [[240 * 2 ^ 24]]) = ["=> Component 0000 '                                ': ✓ 0x00000000 -> 0x0000003C (HW ID: 0x00 00 00 00 00 00 00 01)"].
Proof. exact E_C84_same. Qed.

(** Components that fit: one line for each, in order, with its number, name, first and last word and hardware identifier, and the machine is ready. *)
Theorem C84_mapped : forall D (ops : bus_ops D) oc ds szs, typed ops -> Forall2 (declares ops) ds szs -> (forall d, In d ds -> exists d', bo_reset ops d = Ret d') ->
  bootable oc szs ->
  exists lines m, prepare_vm_said ops oc ds = (lines, Ret m) /\ List.length lines = List.length ds /\
    forall k d md, nth_error ds k = Some d -> bo_metadata ops d = Ret md -> exists s, nth_error lines k = Some s /\
      mapped_line (Z.of_nat k) (cut_name (bo_name ops d)) (placed_at szs k) (placed_at szs k + w2 md - 4) (w0 md * 2 ^ 32 + w1 md) s.
Proof. exact P_C84_mapped. Qed.
Print Assumptions C84_mapped.

Example C84_mapped_example : exists m, prepare_vm_said words_ops true [[1]; [2; 3]] = (
  ["=> Component 0000 '                                ': ✓ 0x00000000 -> 0x0000003C (HW ID: 0x00 00 00 00 00 00 00 01)";
   "=> Component 0001 '                                ': ✓ 0x00000040 -> 0x0000007C (HW ID: 0x00 00 00 00 00 00 00 01)"], Ret m) /\
  Forall2 (declares words_ops) [[1]; [2; 3]] [64; 64] /\ bootable true [64; 64] /\ placed_at [64; 64] 1 = 64.
Proof. exact E_C84_mapped. Qed.

(** In any case, when something is printed, there is one line for each component, in order, that tells its number, name and hardware identifier and
    whether it could be mapped; if the components do not fit together, the preparation crashes after a line that tells the reason. In builds without
    overflow checks the lines are always printed. *)
Theorem C84_told : forall D (ops : bus_ops D) oc ds szs lines o, typed ops -> Forall2 (declares ops) ds szs -> prepare_vm_said ops oc ds = (lines, o) ->
  lines <> [] \/ oc = false /\ zlen ds < 2 ^ 32 ->
  List.length lines = List.length ds /\
  (forall k d md, nth_error ds k = Some d -> bo_metadata ops d = Ret md -> exists s, nth_error lines k = Some s /\
    ((exists first last, mapped_line (Z.of_nat k) (cut_name (bo_name ops d)) first last (w0 md * 2 ^ 32 + w1 md) s) \/
     (exists e, refused_because szs k e /\ refused_line (Z.of_nat k) (cut_name (bo_name ops d)) (w0 md * 2 ^ 32 + w1 md) e s))) /\
  (~ bootable oc szs -> o = Panic /\ exists k d md s e, nth_error ds k = Some d /\ bo_metadata ops d = Ret md /\ nth_error lines k = Some s /\
    refused_because szs k e /\ refused_line (Z.of_nat k) (cut_name (bo_name ops d)) (w0 md * 2 ^ 32 + w1 md) e s).
Proof. exact P_C84_told. Qed.
Print Assumptions C84_told.

(** The second component declares a size that is no multiple of 4. *)
Example C84_told_example : prepare_vm_said sized_ops false [8; 5; 4] = (
  ["=> Component 0000 'ROM                             ': ✓ 0x00000000 -> 0x00000004 (HW ID: 0x00 00 00 00 00 00 00 07)";
   "=> Component 0001 'ROM                             ': ✗ UnalignedBusSize (HW ID: 0x00 00 00 00 00 00 00 07)";
   "=> Component 0002 'ROM                             ': ✓ 0x00000008 -> 0x00000008 (HW ID: 0x00 00 00 00 00 00 00 07)"], Panic) /\
  typed sized_ops /\ Forall2 (declares sized_ops) [8; 5; 4] [8; 5; 4] /\ ~ bootable false [8; 5; 4].
Proof. exact E_C84_told. Qed.

(** False of builds with overflow checks: the crash of components that exceed the address space is not announced by any line. *)
Theorem C84_announced_refuted : ~ (forall D (ops : bus_ops D) oc ds szs, typed ops -> Forall2 (declares ops) ds szs -> zlen ds < 2 ^ 32 -> ~ bootable oc szs ->
  List.length (fst (prepare_vm_said ops oc ds)) = List.length ds).
Proof. exact P_C84_announced_refuted. Qed.
Print Assumptions C84_announced_refuted.
