(** The assembly sources of the examples, as they are in /repo. GENERATED by tools/gen_sources.py; do not edit. *)
From Coq Require Import String.
Open Scope string_scope.

(** examples/benchmark/src/source.lasm:1-12. *)
Definition benchmark_source : string := "
main:
    add a0, 1
    
    cpy a1, 1
    shl a1, 24

    cmp a0, a1
    ifeq
    halt

    jp main
".

(** examples/hello_world/src/display.lasm:1-27. *)
Definition hello_source : string := "
main:
    cpy ac0, message
    cpy ac1, 0x2000
    cpy ac2, 0x2100 - 0x04

.copy_byte:
    lsa a0, ac0, 0
    cmp a0, 0

    ifeq
    jp .display

    wsa ac1, 0, a0

    add ac0, 4
    add ac1, 4

    jp .copy_byte

.display:
    wsa ac2, 0, 0xAA
    halt

message:
    #d ""Hello, world!\n""
    #d32 0
".

(** examples/hw_detect/src/source.lasm:1-134. *)
Definition hw_detect_source : string := ";
; This program detects all components connected to the motherboard (even if they are not memory in memory).
; It then writes informations about them in a dedicated RAM component.
;
; The exact format is the same for each component:
; 
; * uid (8 bytes)
; * name (32 bytes)
; * size (4 bytes)
; * category (4 bytes)
; * type (4 bytes)
; * model (4 bytes)
; * data (8 bytes)
; * is mapped (4 bytes)
; * map start addr (4 bytes)
; * map end addr (4 bytes)
;
; For a total of 76 bytes per component.
;
;
; List of registers:
;  * ac0  : Address to write the current component's informations to
;  * a0   : ID of the current component to get informations from
;  * a1   : Number of components connected to the motherboard

main:
    ; Count number of connected components
    ; The RAM we will write the metadata on starts at address 0x1000
    cpy ac0, 0x1000
    hwd a1, 0, HWD_COUNT
    cpy a0, 0

    wsa ac0, 0, a1
    add ac0, 4

    ; Halt if there is no component
    cmp a1, 0
    ifeq
    halt

    ; Prepare the stack
    ; The stack RAM starts at address 0x2000, but as the stack goes down each time, we need to use the end address
    cpy ssp, 0x2020
    sub ssp, 0x4

.loop:
    ; Extract metadata of the current component
    call extract_infos

    ; Indicate we want to get informations about the next component
    add a0, 1

    ; If we reached the total number of components...
    cmp a0, a1
    ifeq
    ; We simply halt the processor (equivalent of a program exit here)
    halt

    ; Else, we loop to extract informations about the next component
    jp .loop

; Write the informations of the component specified in `a0`
; All routine registers (rr0 to rr7) are rewritten by this routine.
extract_infos:
    ; UID
    hwd rr0, a0, HWD_UID_UPPER
    hwd rr1, a0, HWD_UID_LOWER

    wsa ac0, 0x00, rr0
    wsa ac0, 0x04, rr1

    ; Name
    hwd rr0, a0, HWD_NAME_W1
    hwd rr1, a0, HWD_NAME_W2
    hwd rr2, a0, HWD_NAME_W3
    hwd rr3, a0, HWD_NAME_W4
    hwd rr4, a0, HWD_NAME_W5
    hwd rr5, a0, HWD_NAME_W6
    hwd rr6, a0, HWD_NAME_W7
    hwd rr7, a0, HWD_NAME_W8

    wsa ac0, 0x08, rr0
    wsa ac0, 0x0C, rr1
    wsa ac0, 0x10, rr2
    wsa ac0, 0x14, rr3
    wsa ac0, 0x18, rr4
    wsa ac0, 0x1C, rr5
    wsa ac0, 0x20, rr6
    wsa ac0, 0x24, rr7

    ; Size
    hwd rr0, a0, HWD_SIZE

    wsa ac0, 0x28, rr0

    ; Category
    hwd rr0, a0, HWD_CAT

    wsa ac0, 0x2C, rr0

    ; Type
    hwd rr0, a0, HWD_TYPE

    wsa ac0, 0x30, rr0

    ; Model
    hwd rr0, a0, HWD_MODEL

    wsa ac0, 0x34, rr0

    ; Additional data
    hwd rr0, a0, HWD_DATA_UPPER
    hwd rr1, a0, HWD_DATA_LOWER

    wsa ac0, 0x38, rr0
    wsa ac0, 0x3C, rr1

    ; Mapping
    hwd rr0, a0, HWD_IS_MAPPED
    cmp rr0, 1
    ifnq
    jpr 0x18

    hwd rr0, a0, HWD_MAP_START
    hwd rr1, a0, HWD_MAP_END

    wsa ac0, 0x40, 1
    wsa ac0, 0x44, rr0
    wsa ac0, 0x48, rr1

    ; Shift memory address
    add ac0, 0x4C

    ret
".

(** examples/brainfuck/src/source.lasm:1-425. *)
Definition brainfuck_source : string := "; Brainfuck interpreter (complete)
;
; Memory            : 1024 cells (32 bits each)
; I/O               : supported
; Errors handling   : detailed output
; Max. nested loops : 1021

main:
    ; Set the stack's address
    cpy ssp, 0x2000

    ; Display the welcome message
    cpy rr6, welcome
    call print

    ; Make the user input their BrainFuck program
    call read_line

    ; Display the 'running' message
    cpy rr6, running
    call print

    ; Run the program
    cpy rr0, 0x4000
    cpy rr1, 0x2000
    call interpret_bf

    ; Display the goodbye message
    cpy rr6, goodbye
    call print

    ; Stop
    halt

; Display a null-terminated string located at address 'rr6'
print:
    cpy rr7, 0x3000

.cpy_bytes:
    lea rr6

    cmp avr, 0
    ifeq
    jp .trigger_disp

    wea rr7

    add rr6, 0x4
    add rr7, 0x4

    jp .cpy_bytes

.trigger_disp:
    cpy avr, 0x4000 - 0x4
    wsa avr, 0, 0xAA
    wsa avr, 0, 0xFF
    ret

; Read a line from the keyboard
read_line:
    cpy rr7, 0x5000 - 0x4
    wsa rr7, 0, 0xAA ; trigger input
    ret

; Read a single character to 'avr'
read_char:
    cpy rr7, 0x5004
    wsa rr7, 0, 0x01 ; trigger input
    cpy rr7, 0x5000
    lea rr7 ; read input
    ret

; Display a single character from 'avr'
print_char:
    cpy rr7, 0x5008
    wea rr7
    ret

; Display an integer from 'avr'
print_hex:
    cpy rr7, 0x502C
    wea rr7
    ret

; Display a decimal integer from 'avr' with a newline
print_dec_newline:
    cpy rr7, 0x5014
    wea rr7
    ret

; Interpret a null-terminated or line-break-terminated BrainFuck program
; Starting from address in 'rr0'
; With memory starting from address in 'rr1'
interpret_bf:
    ;   rr0    ; program address
    ;   rr1    ; program memory
    cpy rr2, 0 ; char number in program
    cpy rr3, 0 ; number of opened loops
    ;   a0     ; current instruction

    sub rr2, 1 ; will be increment when getting the first character

.main:
    call .next_char

    ; end if instruction character is NULL
    cmp a0, 0
    ifeq
    jp .complete

    ; handle line breaks as well
    cmp a0, 13
    ifeq
    jp .complete

    ; same for line feeds
    cmp a0, 10
    ifeq
    jp .complete

    ; [DEBUG] print the character which is going to be interpreted
    ; cpy avr, a0
    ; cpy rr5, rr0
    ; call print_char
    ; cpy rr0, rr5

    jp .interpret

; When the program is finished
.complete:
    ; ensure all loops have been closed
    cmp rr3, 0
    ifeq
    ret

    ; else, exit with an error
    cpy rr5, err_not_closed_loop_before_count
    call pre_error
    
    cpy avr, rr3
    call print_dec_newline

    cpy rr6, err_not_closed_loop_after_count
    call print

    pop avr
    inc avr
    call print_dec_newline

    call post_error

    halt

; Get the next character and store it in 'a0'
.next_char:
    ; increment the character counter
    inc rr2

    ; load the word containing the current instruction character in rr4
    ; address: rr0 + (rr2 - (rr2 % 4))
    ;        = rr0 + rr2 - (rr2 % 4)
    cpy avr, rr0
    add avr, rr2

    cpy rr7, rr2
    mod rr7, 4

    sub avr, rr7

    lsa a0, avr

    ; get the character index in the retrieved word
    ; index: rr2 % 4
    cpy avr, rr2
    mod avr, 4

    ; get the character's byte
    ;       word << (8 * index)
    ; then: word >> 24
    mul avr, 8
    shl a0, avr
    shr a0, 24

    ret

; character to interpret is in 'a0'
.interpret:
    cmp a0, "">""
    ifeq
    jp .more

    cmp a0, ""<""
    ifeq
    jp .less

    cmp a0, ""+""
    ifeq
    jp .plus

    cmp a0, ""-""
    ifeq
    jp .minus

    cmp a0, "".""
    ifeq
    jp .dot

    cmp a0, "",""
    ifeq
    jp .comma

    cmp a0, ""[""
    ifeq
    jp .open_bracket

    cmp a0, ""]""
    ifeq
    jp .close_bracket

    ; display an error message and halt
    cpy rr5, err_unknown_char
    call pre_error
    cpy avr, ""'""
    call print_char
    cpy avr, a0
    call print_char
    cpy avr, ""'""
    call print_char
    cpy avr, "" ""
    call print_char
    cpy avr, ""(""
    call print_char
    cpy avr, a0
    call print_hex
    cpy avr, "")""
    call print_char
    call post_error
    halt

.more:
    inc rr1
    jp .main

.less:
    dec rr1
    jp .main

.plus:
    lea rr1
    inc avr
    wea rr1
    jp .main

.minus:
    lea rr1
    dec avr
    wea rr1
    jp .main

.dot:
    lea rr1
    call print_char
    jp .main

.comma:
    call read_char
    wea rr1
    jp .main

.open_bracket:
    ; increase the number of opened loops
    inc rr3

    ; go to matching close bracket if current memory cell is equal to 0
    lea rr1
    cmp avr, 0
    ifeq
    jp .open_bracket_skip

    push rr2
    jp .main

.open_bracket_skip:
    call .next_char
    cmp a0, ""]""
    ifnq
    jpr 0xC

    dec rr3 ; mark the loop as closed
    jp .main

    cmp a0, 0
    jp .complete

    cmp a0, 13
    ifeq
    jp .complete

    jp .open_bracket_skip

.close_bracket:
    ; ensure a loop was opened before
    cmp rr3, 0
    ifeq
    jp .close_bracket_error

    ; decrease the number of opened brackets
    dec rr3

    ; go to matching open bracket if current memory cell is not equal to 0
    lea rr1
    cmp avr, 0
    ifnq
    jp .close_bracket_goto_matching

    ; else, just get rid of the loop
    pop avr

    jp .main

.close_bracket_goto_matching:
    ; go to matching opened bracket
    pop rr2
    dec rr2

    jp .main

.close_bracket_error:
    cpy rr5, err_no_opened_loop
    call pre_error
    call post_error
    halt

; ============================================== ;
; =================== ERRORS =================== ;
; ============================================== ;

; Display the header of an error message
; Character number must be in 'rr2'
; Pointer to message must be in 'rr5'
pre_error:
    cpy rr6, error_pre_char_num
    call print

    cpy avr, rr2
    inc avr
    call print_dec_newline

    cpy rr6, error_post_char_num
    call print

    cpy rr6, rr5
    call print
    ret

; Display the footer of all error messages
post_error:
    cpy rr6, error_post_msg
    call print
    ret

; =============================================== ;
; =================== STRINGS =================== ;
; =============================================== ;

; Welcome message
welcome:
    #d ""\n""
    #d ""=== Welcome to the BrainFuck interpreter! ===""
    #d ""\n\n""
    #d ""Please type your BrainFuck program here:""
    #d ""\n\n""
    #d32 0

; Running message
running:
    #d ""\n""
    #d ""=> Now running your program...""
    #d ""\n\n""
    #d32 0

; Error message (part 1)
error_pre_char_num:
    #d ""\n""
    #d ""===> ERROR: At character ""
    #d32 0

; Error message (part 2)
error_post_char_num:
    #d ""\n""
    #d ""     ""
    #d32 0

; Error message (part 3)
error_post_msg:
    #d ""\n\n""
    #d ""Now exiting after error.""
    #d ""\n""
    #d32 0

; Error: unknown character
err_unknown_char:
    #d ""Unknown symbol ""
    #d32 0

; Error: no opened loop
err_no_opened_loop:
    #d ""No loop opened, cannot close one.""
    #d32 0

; Error: >= 1 loop not closed
err_not_closed_loop_before_count:
    #d ""Program exited before closing all loops: ""
    #d32 0

err_not_closed_loop_after_count:
    #d "" were not closed, last one at character ""
    #d32 0

; Goodbye message
goodbye:
    #d ""\n\n""
    #d ""=== Goodbye! ===""
    #d ""\n""
    #d32 0
".

(** examples/disassemble/src/source.lasm:1-41. *)
Definition disassemble_source : string := "; This comment is here just to check it is ignored during assembling

main:
    cpy a0, 0
    add a0, 0x10
    shl a0, 4
    shr a0, 4
    sub a0, 0x10
    div a1, a0, DIV_ZRO_MIN
    sub a2, ac2
    cmp a1, 0
    
    ifeq
    call test1
    
    ifle
    call test2

    ifleft ZF, EF
    call test3

    if2 EF, ZF, CMP_XOR
    call test4

    halt

test1:
    ret

test2:
    add a0, a1
    ret

test3:
    add a0, 1
    ret

test4:
    sub a0, 1
    cpy pc, 0x10
    ret
".

(** examples/async_hw/src/source.lasm:1-36. *)
Definition async_source : string := "
main:
    ; Make the stack point to the volatile memory
    cpy ssp, 0x2000

    ; The external counter's value
    cpy a0, 0

    ; Set after how many seconds the program should be stopped
    cpy a1, 5

.loop:
    ; Get the counter's value
    cpy ac0, 0x2000
    lsa avr, ac0, 0

    ; If it hasn't changed since the last time...
    cmp a0, avr
    ifeq
    ; ...loop again
    jp .loop

    ; Else, update the local counter
    cpy a0, avr

    ; Display the counter's value
    wsa ac0, 12, a0

    ; If the target seconds number has been reached...
    cmp a0, a1
    ifeq
    ; Halt
    halt

    ; Else, loop again
    jp .loop
".

(** lrvm_tools/src/tests/demo.lasm:1-6. *)
Definition demo_source : string := "main:
    add a0, 0xFF
    sub a0, 0xFF
    div a0, 0x00, DIV_ZRO_MIN
    mod a0, 0x00, DIV_ZRO_MIN
    jpr -16
".

(** examples/elapsed_time/src/main.rs:7-22. *)
Definition elapsed_source : string := "
main:
    cpy ac0, 0x1000
    lsa a1, ac0, 16

wait_second:
    lsa a0, ac0, 16
    cmp a0, a1

    ifle
    jpr 12

    wsa ac0, 24, a0
    cpy a1, a0
    jp wait_second
".
