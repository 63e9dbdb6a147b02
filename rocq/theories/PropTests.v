(** Properties proved in ProofTests.v: statements only. Generated by tools/gen_props.py. *)
From Coq Require Import ZArith List Bool Lia.
From Verif Require Import Base BaseFacts Board Mem Cpu Asm Tools Devices Runner SpecMach SpecIsa SpecBus SpecObs SpecAsm SpecMap SpecDev SpecRun SpecPanic SpecScript.
From Verif Require Import Counter RegFacts MemFacts MonoFacts MapFacts CycleFacts CyclePost ReachFacts InvFacts DevTyped ProofAsm ProofMap ProofBoard ProofReg ProofRun ProofCrash ProofRom ProofDev ProofIo ProofPanic SymFacts ProofScript.
From Verif Require Import ProofTests.
Import ListNotations.
Open Scope Z_scope.

(** Requests made by a generated program. The program made with the builders from a list of requests to a component [d] of a machine runs from the boot to its HALT
    without exception if the component, reset then asked the same requests directly, answers all of them without exception; the component ends in the same state,
    and the host then reads from it through the mapped memory what the component answers. *)
Theorem C86_serves : forall oc h size id rom rest szs k d sz d' xs cfg, is_u64 id -> is_u32 size ->
  let base := size + sum (firstn k szs) in let prog := script_words (request_script base h) in
  br_with_size prog size id = Some rom -> zlen prog * 4 <= size ->
  Forall2 (declares (dev_ops oc)) rest szs -> bootable oc (size :: szs) -> (forall x, In x rest -> exists x', bo_reset (dev_ops oc) x = Ret x') ->
  nth_error rest k = Some d -> nth_error szs k = Some sz -> Forall (in_range sz) h -> ~ In ResetReq h ->
  serve (dev_ops oc) d (ResetReq :: h) = Ret (d', xs) -> Forall silent xs -> cf_limit cfg = None ->
  forall fuel, script_length (request_script base h) + 1 < Z.of_nat fuel ->
  exists m', ran (exec_vm (dev_ops oc) oc fuel cfg (DRom rom :: rest)) (script_length (request_script base h)) m' /\ component m' (S k) d' /\
    forall a d'' w, 0 <= a < sz -> a mod 4 = 0 -> bo_read (dev_ops oc) d' a = Ret (d'', 0, w) -> host_reads (dev_ops oc) oc m' (base + a) w.
Proof. exact P_C86_serves. Qed.
Print Assumptions C86_serves.

Example C86_serves_example : exists d' xs m', br_with_size (script_words (request_script 320 mixed_requests)) 256 1 = Some (BootRom (script_words (request_script 320 mixed_requests)) 26 64 1) /\
  serve (dev_ops true) (DRam (StoreMem (zeros 64) 16 3)) (ResetReq :: mixed_requests) = Ret (d', xs) /\ Forall silent xs /\
  ran (exec_vm (dev_ops true) true 100 config_default [DRom (BootRom (script_words (request_script 320 mixed_requests)) 26 64 1); DRam (StoreMem (zeros 64) 16 2); DRam (StoreMem (zeros 64) 16 3)]) 25 m' /\
  component m' 2 d' /\ host_reads (dev_ops true) true m' 320 9.
Proof. exact E_C86_serves. Qed.

(** Words a generated program writes to a RAM or a flash memory are what the host reads after the run: the last one put at each address, 0 elsewhere (unit tests ram, flash). *)
Theorem C86_memory : forall oc ps size id rom msize mid d x cfg, is_u64 id -> is_u64 mid -> is_u32 size -> is_u32 msize ->
  let prog := script_words (request_script size (puts ps)) in br_with_size prog size id = Some rom -> zlen prog * 4 <= size ->
  sm_new msize mid = Some d -> x = DRam d \/ x = DFlash d -> size + msize < 2 ^ 32 ->
  Forall (fun p => 0 <= fst p < msize /\ fst p mod 4 = 0 /\ is_u32 (snd p)) ps -> cf_limit cfg = None ->
  forall fuel, 7 * zlen ps + 1 < Z.of_nat fuel ->
  exists m', ran (exec_vm (dev_ops oc) oc fuel cfg [DRom rom; x]) (7 * zlen ps) m' /\
    forall a, 0 <= a < msize -> a mod 4 = 0 -> host_reads (dev_ops oc) oc m' (size + a) (last_put ps a).
Proof. exact P_C86_memory. Qed.
Print Assumptions C86_memory.

Example C86_memory_example : exists rom d m', br_with_size (script_words (request_script 256 (puts memory_puts))) 256 1 = Some rom /\ sm_new 64 2 = Some d /\
  ran (exec_vm (dev_ops true) true 100 config_default [DRom rom; DFlash d]) 21 m' /\
  host_reads (dev_ops true) true m' 256 9 /\ host_reads (dev_ops true) true m' 260 0 /\ host_reads (dev_ops true) true m' 264 7.
Proof. exact E_C86_memory. Qed.

(** Words a generated program writes to a character display reach its handler once each, in order, as the character of that number if there is one (unit test of character.rs). *)
Theorem C86_characters : forall oc ws size id rom mid cfg, is_u64 id -> is_u64 mid -> is_u32 size ->
  let prog := script_words (request_script size (puts (map (fun w => (0, w)) ws))) in br_with_size prog size id = Some rom -> zlen prog * 4 <= size ->
  size + 4 < 2 ^ 32 -> Forall is_u32 ws -> cf_limit cfg = None ->
  forall fuel, 7 * zlen ws + 1 < Z.of_nat fuel ->
  exists m' calls, ran (exec_vm (dev_ops oc) oc fuel cfg [DRom rom; DChar (CharDisplay mid [])]) (7 * zlen ws) m' /\ component m' 1 (DChar (CharDisplay mid calls)) /\
    Forall2 (fun w c => (scalar w /\ c = ROk w) \/ (~ scalar w /\ c = RErr w)) ws calls.
Proof. exact P_C86_characters. Qed.
Print Assumptions C86_characters.

Example C86_characters_example : exists rom m', br_with_size (script_words (request_script 256 (puts char_puts))) 256 1 = Some rom /\
  ran (exec_vm (dev_ops true) true 100 config_default [DRom rom; DChar (CharDisplay 2 [])]) 28 m' /\
  component m' 1 (DChar (CharDisplay 2 [ROk 72; ROk 233; ROk 128512; RErr 55296])).
Proof. exact E_C86_characters. Qed.

(** A text a generated program writes to a buffered display, followed by an order to show it (0xAA strictly, 0xBB lossily), reaches its handler once, completed by zero bytes (unit test of buffered.rs). *)
Theorem C86_text : forall oc ws o size id rom capacity mid d cfg, is_u64 id -> is_u64 mid -> is_u32 size -> is_u32 capacity -> bd_new capacity mid = Some d ->
  4 * zlen ws + 4 <= capacity -> Forall is_u32 ws -> o = 170 \/ o = 187 ->
  let ps := text_puts ws ++ [(capacity - 4, o)] in
  let prog := script_words (request_script size (puts ps)) in br_with_size prog size id = Some rom -> zlen prog * 4 <= size ->
  size + capacity < 2 ^ 32 -> cf_limit cfg = None -> forall fuel, 7 * (zlen ws + 1) + 1 < Z.of_nat fuel ->
  exists m' d', ran (exec_vm (dev_ops oc) oc fuel cfg [DRom rom; DBuf d]) (7 * (zlen ws + 1)) m' /\ component m' 1 (DBuf d') /\
    bd_calls d' = [(o =? 187, flat_map bytes_of (ws ++ zeros (capacity / 4 - 1 - zlen ws)))].
Proof. exact P_C86_text. Qed.
Print Assumptions C86_text.

Example C86_text_example : exists rom d m' d', br_with_size (script_words (request_script 256 (puts (text_puts text_words ++ [(60, 170)])))) 256 1 = Some rom /\ bd_new 64 2 = Some d /\
  ran (exec_vm (dev_ops true) true 100 config_default [DRom rom; DBuf d]) 28 m' /\ component m' 1 (DBuf d') /\
  bd_calls d' = [(false, [72; 101; 108; 108; 111; 44; 32; 87; 111; 114; 108; 100] ++ zeros 48)].
Proof. exact E_C86_text. Qed.

(** Characters a generated program asks a character keyboard for: it asks the user exactly as many times, and the host reads the last one (unit test sync_char). *)
Theorem C86_key : forall oc n size id rom mid c input cfg, is_u64 id -> is_u64 mid -> is_u32 size -> (forall k, is_u32 (input k)) ->
  let h := repeat (Write 4 1) (S n) in let prog := script_words (request_script size h) in br_with_size prog size id = Some rom -> zlen prog * 4 <= size ->
  size + 8 < 2 ^ 32 -> cf_limit cfg = None -> forall fuel, 7 * (Z.of_nat n + 1) + 1 < Z.of_nat fuel ->
  exists m' b, ran (exec_vm (dev_ops oc) oc fuel cfg [DRom rom; DKeyChar (CharKeyboard c mid input 0)]) (7 * (Z.of_nat n + 1)) m' /\
    component m' 1 (DKeyChar (CharKeyboard b mid input (S n))) /\ host_reads (dev_ops oc) oc m' size (input n).
Proof. exact P_C86_key. Qed.
Print Assumptions C86_key.

Example C86_key_example : exists rom m' b, br_with_size (script_words (request_script 256 (repeat (Write 4 1) 2))) 256 1 = Some rom /\
  ran (exec_vm (dev_ops true) true 100 config_default [DRom rom; DKeyChar (CharKeyboard 0 2 (fun k => 97 + Z.of_nat (k mod 26)) 0)]) 14 m' /\
  component m' 1 (DKeyChar (CharKeyboard b 2 (fun k => 97 + Z.of_nat (k mod 26)) 2)) /\ host_reads (dev_ops true) true m' 256 98.
Proof. exact E_C86_key. Qed.

(** A line a generated program asks a line keyboard for: the user is asked once, and the host reads the words of its text, cut to the capacity, completed by zero bytes (unit test sync_line). *)
Theorem C86_line : forall oc size id rom capacity mid input d cfg, is_u64 id -> is_u64 mid -> is_u32 size -> is_u32 capacity -> (forall j, Forall is_u8 (input j)) ->
  lk_new capacity mid input = Some d ->
  let h := [Write (capacity - 4) 170] in let prog := script_words (request_script size h) in br_with_size prog size id = Some rom -> zlen prog * 4 <= size ->
  size + capacity < 2 ^ 32 -> cf_limit cfg = None -> forall fuel, 8 < Z.of_nat fuel ->
  exists m' d', ran (exec_vm (dev_ops oc) oc fuel cfg [DRom rom; DKeyLine d]) 7 m' /\ component m' 1 (DKeyLine d') /\ lk_used d' = 1%nat /\
    forall i, 0 <= i -> 4 * i < capacity - 4 -> host_reads (dev_ops oc) oc m' (size + 4 * i) (line_word (input 0%nat) i).
Proof. exact P_C86_line. Qed.
Print Assumptions C86_line.

Example C86_line_example : exists rom d m' d', br_with_size (script_words (request_script 256 [Write 28 170])) 256 1 = Some rom /\ lk_new 32 2 (fun _ => [72; 101; 108; 108; 111; 33]) = Some d /\
  ran (exec_vm (dev_ops true) true 100 config_default [DRom rom; DKeyLine d]) 7 m' /\ component m' 1 (DKeyLine d') /\ lk_used d' = 1%nat /\
  host_reads (dev_ops true) true m' 256 1214606444 /\ host_reads (dev_ops true) true m' 260 1864433664 /\ host_reads (dev_ops true) true m' 264 0.
Proof. exact E_C86_line. Qed.
