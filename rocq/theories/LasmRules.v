(** The LASM rules given to customasm. GENERATED by tools/gen_rules.py from /repo/lrvm_tools/src/lasm/customasm.def; do not edit.
    The comment at the end of each line is the line number there. *)
From Coq Require Import String ZArith List.
Import ListNotations.
Open Scope Z_scope.
Open Scope string_scope.

(** Kinds of operands: a name of a sub-rule table (customasm.def:9-107), or an integer of a given range. *)
Inductive pat : Type := PReg | PFlag | PDivMode | PHwInfo | PIf2Mode | PU8 | PU16 | PI8 | PI16.
(** A byte of the output: a constant, the lower or upper byte of operand number [k], or a name the rule does not define. *)
Inductive byte_expr : Type := BConst (n : Z) | BLow (k : nat) | BHigh (k : nat) | BUnknown.
Record rule : Type := Rule { ru_mnemonic : string; ru_operands : list pat; ru_bytes : list byte_expr }.

(** customasm.def:11-42. *)
Definition table_reg : list (string * Z) := [
  ("a0", 0);
  ("a1", 1);
  ("a2", 2);
  ("a3", 3);
  ("a4", 4);
  ("a5", 5);
  ("a6", 6);
  ("a7", 7);
  ("c0", 8);
  ("c1", 9);
  ("ac0", 10);
  ("ac1", 11);
  ("ac2", 12);
  ("rr0", 13);
  ("rr1", 14);
  ("rr2", 15);
  ("rr3", 16);
  ("rr4", 17);
  ("rr5", 18);
  ("rr6", 19);
  ("rr7", 20);
  ("avr", 21);
  ("pc", 22);
  ("af", 23);
  ("ssp", 24);
  ("usp", 25);
  ("et", 26);
  ("era", 27);
  ("ev", 28);
  ("mtt", 29);
  ("pda", 30);
  ("smt", 31)
].
(** customasm.def:47-53. *)
Definition table_arflag : list (string * Z) := [
  ("ZF", 0);
  ("CF", 1);
  ("OF", 2);
  ("SF", 3);
  ("EF", 4);
  ("ZUF", 5);
  ("ZLF", 6)
].
(** customasm.def:58-69. *)
Definition table_div_mode : list (string * Z) := [
  ("DIV_USG", 0);
  ("DIV_SIG", 16);
  ("DIV_ZRO_FRB", 0);
  ("DIV_ZRO_MIN", 4);
  ("DIV_ZRO_ZRO", 8);
  ("DIV_ZRO_MAX", 12);
  ("DIV_OFW_FRB", 0);
  ("DIV_OFW_MIN", 1);
  ("DIV_OFW_ZRO", 2);
  ("DIV_OFW_MAX", 3)
].
(** customasm.def:74-94. *)
Definition table_hw_info : list (string * Z) := [
  ("HWD_COUNT", 0);
  ("HWD_UID_UPPER", 1);
  ("HWD_UID_LOWER", 2);
  ("HWD_NAME_LEN", 16);
  ("HWD_NAME_W1", 17);
  ("HWD_NAME_W2", 18);
  ("HWD_NAME_W3", 19);
  ("HWD_NAME_W4", 20);
  ("HWD_NAME_W5", 21);
  ("HWD_NAME_W6", 22);
  ("HWD_NAME_W7", 23);
  ("HWD_NAME_W8", 24);
  ("HWD_SIZE", 32);
  ("HWD_CAT", 33);
  ("HWD_TYPE", 34);
  ("HWD_MODEL", 35);
  ("HWD_DATA_UPPER", 36);
  ("HWD_DATA_LOWER", 37);
  ("HWD_IS_MAPPED", 160);
  ("HWD_MAP_START", 161);
  ("HWD_MAP_END", 162)
].
(** customasm.def:99-105. *)
Definition table_if2_mode : list (string * Z) := [
  ("CMP_OR", 1);
  ("CMP_AND", 2);
  ("CMP_XOR", 3);
  ("CMP_NOR", 4);
  ("CMP_NAND", 5);
  ("CMP_LEFT", 6);
  ("CMP_RIGHT", 7)
].
(** customasm.def:110-300. *)
Definition rules : list rule := [
  Rule "cpy" [PReg; PReg] [BConst (1 * 8 + 6); BLow 0%nat; BLow 1%nat; BConst 0]; (* 110 *)
  Rule "cpy" [PReg; PU16] [BConst (1 * 8 + 4); BLow 0%nat; BHigh 1%nat; BLow 1%nat]; (* 111 *)
  Rule "ex" [PReg; PReg] [BConst (2 * 8 + 6); BLow 0%nat; BLow 1%nat; BConst 0]; (* 113 *)
  Rule "add" [PReg; PReg] [BConst (3 * 8 + 6); BLow 0%nat; BLow 1%nat; BConst 0]; (* 115 *)
  Rule "add" [PReg; PU16] [BConst (3 * 8 + 4); BLow 0%nat; BHigh 1%nat; BLow 1%nat]; (* 116 *)
  Rule "sub" [PReg; PReg] [BConst (4 * 8 + 6); BLow 0%nat; BLow 1%nat; BConst 0]; (* 118 *)
  Rule "sub" [PReg; PU16] [BConst (4 * 8 + 4); BLow 0%nat; BHigh 1%nat; BLow 1%nat]; (* 119 *)
  Rule "mul" [PReg; PReg] [BConst (5 * 8 + 6); BLow 0%nat; BLow 1%nat; BConst 0]; (* 121 *)
  Rule "mul" [PReg; PU16] [BConst (5 * 8 + 4); BLow 0%nat; BHigh 1%nat; BLow 1%nat]; (* 122 *)
  Rule "div" [PReg; PReg; PReg] [BConst (6 * 8 + 7); BLow 0%nat; BLow 1%nat; BLow 2%nat]; (* 124 *)
  Rule "div" [PReg; PU8; PReg] [BConst (6 * 8 + 5); BLow 0%nat; BLow 1%nat; BLow 2%nat]; (* 125 *)
  Rule "div" [PReg; PReg; PDivMode] [BConst (6 * 8 + 6); BLow 0%nat; BLow 1%nat; BLow 2%nat]; (* 126 *)
  Rule "div" [PReg; PU8; PDivMode] [BConst (6 * 8 + 4); BLow 0%nat; BLow 1%nat; BLow 2%nat]; (* 127 *)
  Rule "div" [PReg; PReg] [BConst (6 * 8 + 7); BLow 0%nat; BLow 1%nat; BConst 0]; (* 128 *)
  Rule "div" [PReg; PU8] [BConst (6 * 8 + 5); BLow 0%nat; BLow 1%nat; BConst 0]; (* 129 *)
  Rule "mod" [PReg; PReg; PReg] [BConst (7 * 8 + 7); BLow 0%nat; BLow 1%nat; BLow 2%nat]; (* 131 *)
  Rule "mod" [PReg; PU8; PReg] [BConst (7 * 8 + 5); BLow 0%nat; BLow 1%nat; BLow 2%nat]; (* 132 *)
  Rule "mod" [PReg; PReg; PDivMode] [BConst (7 * 8 + 6); BLow 0%nat; BLow 1%nat; BLow 2%nat]; (* 133 *)
  Rule "mod" [PReg; PU8; PDivMode] [BConst (7 * 8 + 4); BLow 0%nat; BLow 1%nat; BLow 2%nat]; (* 134 *)
  Rule "mod" [PReg; PReg] [BConst (7 * 8 + 7); BLow 0%nat; BLow 1%nat; BConst 0]; (* 135 *)
  Rule "mod" [PReg; PU8] [BConst (7 * 8 + 5); BLow 0%nat; BLow 1%nat; BConst 0]; (* 136 *)
  Rule "and" [PReg; PReg] [BConst (8 * 8 + 6); BLow 0%nat; BLow 1%nat; BConst 0]; (* 138 *)
  Rule "and" [PReg; PU16] [BConst (8 * 8 + 4); BLow 0%nat; BHigh 1%nat; BLow 1%nat]; (* 139 *)
  Rule "bor" [PReg; PReg] [BConst (9 * 8 + 6); BLow 0%nat; BLow 1%nat; BConst 0]; (* 141 *)
  Rule "bor" [PReg; PU16] [BConst (9 * 8 + 4); BLow 0%nat; BHigh 1%nat; BLow 1%nat]; (* 142 *)
  Rule "xor" [PReg; PReg] [BConst (10 * 8 + 6); BLow 0%nat; BLow 1%nat; BConst 0]; (* 144 *)
  Rule "xor" [PReg; PU16] [BConst (10 * 8 + 4); BLow 0%nat; BHigh 1%nat; BLow 1%nat]; (* 145 *)
  Rule "shl" [PReg; PReg] [BConst (11 * 8 + 6); BLow 0%nat; BLow 1%nat; BConst 0]; (* 147 *)
  Rule "shl" [PReg; PU8] [BConst (11 * 8 + 4); BLow 0%nat; BLow 1%nat; BConst 0]; (* 148 *)
  Rule "shr" [PReg; PReg] [BConst (12 * 8 + 6); BLow 0%nat; BLow 1%nat; BConst 0]; (* 150 *)
  Rule "shr" [PReg; PU8] [BConst (12 * 8 + 4); BLow 0%nat; BLow 1%nat; BConst 0]; (* 151 *)
  Rule "cmp" [PReg; PReg] [BConst (13 * 8 + 6); BLow 0%nat; BLow 1%nat; BConst 0]; (* 153 *)
  Rule "cmp" [PReg; PU16] [BConst (13 * 8 + 4); BLow 0%nat; BHigh 1%nat; BLow 1%nat]; (* 154 *)
  Rule "jpr" [PReg] [BConst (14 * 8 + 4); BLow 0%nat; BConst 0; BConst 0]; (* 156 *)
  Rule "jpr" [PI16] [BConst (14 * 8 + 0); BHigh 0%nat; BLow 0%nat; BConst 0]; (* 157 *)
  Rule "lsm" [PReg] [BConst (15 * 8 + 4); BLow 0%nat; BConst 0; BConst 0]; (* 159 *)
  Rule "lsm" [PU16] [BConst (15 * 8 + 0); BHigh 0%nat; BLow 0%nat; BConst 0]; (* 160 *)
  Rule "itr" [PReg] [BConst (16 * 8 + 4); BUnknown; BConst 0; BConst 0]; (* 162 *)
  Rule "itr" [PU8] [BConst (16 * 8 + 0); BUnknown; BUnknown; BConst 0]; (* 163 *)
  Rule "if" [PReg] [BConst (17 * 8 + 4); BLow 0%nat; BConst 0; BConst 0]; (* 165 *)
  Rule "if" [PFlag] [BConst (17 * 8 + 0); BLow 0%nat; BConst 0; BConst 0]; (* 166 *)
  Rule "ifn" [PReg] [BConst (18 * 8 + 4); BLow 0%nat; BConst 0; BConst 0]; (* 168 *)
  Rule "ifn" [PFlag] [BConst (18 * 8 + 0); BLow 0%nat; BConst 0; BConst 0]; (* 169 *)
  Rule "if2" [PReg; PReg; PReg] [BConst (19 * 8 + 7); BLow 0%nat; BLow 1%nat; BLow 2%nat]; (* 171 *)
  Rule "if2" [PReg; PReg; PIf2Mode] [BConst (19 * 8 + 6); BLow 0%nat; BLow 1%nat; BLow 2%nat]; (* 172 *)
  Rule "if2" [PReg; PFlag; PReg] [BConst (19 * 8 + 5); BLow 0%nat; BLow 1%nat; BLow 2%nat]; (* 173 *)
  Rule "if2" [PReg; PFlag; PIf2Mode] [BConst (19 * 8 + 4); BLow 0%nat; BLow 1%nat; BLow 2%nat]; (* 174 *)
  Rule "if2" [PFlag; PReg; PReg] [BConst (19 * 8 + 3); BLow 0%nat; BLow 1%nat; BLow 2%nat]; (* 175 *)
  Rule "if2" [PFlag; PReg; PIf2Mode] [BConst (19 * 8 + 2); BLow 0%nat; BLow 1%nat; BLow 2%nat]; (* 176 *)
  Rule "if2" [PFlag; PFlag; PReg] [BConst (19 * 8 + 1); BLow 0%nat; BLow 1%nat; BLow 2%nat]; (* 177 *)
  Rule "if2" [PFlag; PFlag; PIf2Mode] [BConst (19 * 8 + 0); BLow 0%nat; BLow 1%nat; BLow 2%nat]; (* 178 *)
  Rule "lsa" [PReg; PReg; PReg] [BConst (20 * 8 + 7); BLow 0%nat; BLow 1%nat; BLow 2%nat]; (* 180 *)
  Rule "lsa" [PReg; PU8; PReg] [BConst (20 * 8 + 5); BLow 0%nat; BLow 1%nat; BLow 2%nat]; (* 181 *)
  Rule "lsa" [PReg; PReg; PI8] [BConst (20 * 8 + 6); BLow 0%nat; BLow 1%nat; BLow 2%nat]; (* 182 *)
  Rule "lsa" [PReg; PU8; PI8] [BConst (20 * 8 + 4); BLow 0%nat; BLow 1%nat; BLow 2%nat]; (* 183 *)
  Rule "lsa" [PReg; PReg] [BConst (20 * 8 + 6); BLow 0%nat; BLow 1%nat; BConst 0]; (* 184 *)
  Rule "lsa" [PReg; PU8] [BConst (20 * 8 + 4); BLow 0%nat; BLow 1%nat; BConst 0]; (* 185 *)
  Rule "lea" [PReg; PReg; PReg] [BConst (21 * 8 + 7); BLow 0%nat; BLow 1%nat; BLow 2%nat]; (* 187 *)
  Rule "lea" [PReg; PI8; PReg] [BConst (21 * 8 + 5); BLow 0%nat; BLow 1%nat; BLow 2%nat]; (* 188 *)
  Rule "lea" [PU8; PReg; PReg] [BConst (21 * 8 + 3); BLow 0%nat; BLow 1%nat; BLow 2%nat]; (* 189 *)
  Rule "lea" [PU8; PI8; PReg] [BConst (21 * 8 + 1); BLow 0%nat; BLow 1%nat; BLow 2%nat]; (* 190 *)
  Rule "lea" [PReg; PReg; PI8] [BConst (21 * 8 + 6); BLow 0%nat; BLow 1%nat; BLow 2%nat]; (* 191 *)
  Rule "lea" [PReg; PI8; PI8] [BConst (21 * 8 + 4); BLow 0%nat; BLow 1%nat; BLow 2%nat]; (* 192 *)
  Rule "lea" [PU8; PReg; PI8] [BConst (21 * 8 + 2); BLow 0%nat; BLow 1%nat; BLow 2%nat]; (* 193 *)
  Rule "lea" [PU8; PI8; PI8] [BConst (21 * 8 + 0); BLow 0%nat; BLow 1%nat; BLow 2%nat]; (* 194 *)
  Rule "lea" [PReg; PReg] [BConst (21 * 8 + 6); BLow 0%nat; BLow 1%nat; BConst 0]; (* 195 *)
  Rule "lea" [PReg; PI8] [BConst (21 * 8 + 4); BLow 0%nat; BLow 1%nat; BConst 0]; (* 196 *)
  Rule "lea" [PU8; PReg] [BConst (21 * 8 + 2); BLow 0%nat; BLow 1%nat; BConst 0]; (* 197 *)
  Rule "lea" [PU8; PI8] [BConst (21 * 8 + 0); BLow 0%nat; BLow 1%nat; BConst 0]; (* 198 *)
  Rule "lea" [PReg] [BConst (21 * 8 + 6); BLow 0%nat; BConst 0; BConst 0]; (* 199 *)
  Rule "lea" [PU8] [BConst (21 * 8 + 2); BLow 0%nat; BConst 0; BConst 0]; (* 200 *)
  Rule "wsa" [PReg; PReg; PReg] [BConst (22 * 8 + 7); BLow 0%nat; BLow 1%nat; BLow 2%nat]; (* 202 *)
  Rule "wsa" [PU8; PReg; PReg] [BConst (22 * 8 + 3); BLow 0%nat; BLow 1%nat; BLow 2%nat]; (* 203 *)
  Rule "wsa" [PReg; PReg; PU8] [BConst (22 * 8 + 6); BLow 0%nat; BLow 1%nat; BLow 2%nat]; (* 204 *)
  Rule "wsa" [PU8; PReg; PU8] [BConst (22 * 8 + 2); BLow 0%nat; BLow 1%nat; BLow 2%nat]; (* 205 *)
  Rule "wsa" [PReg; PI8; PReg] [BConst (22 * 8 + 5); BLow 0%nat; BLow 1%nat; BLow 2%nat]; (* 206 *)
  Rule "wsa" [PU8; PI8; PReg] [BConst (22 * 8 + 1); BLow 0%nat; BLow 1%nat; BLow 2%nat]; (* 207 *)
  Rule "wsa" [PReg; PI8; PU8] [BConst (22 * 8 + 4); BLow 0%nat; BLow 1%nat; BLow 2%nat]; (* 208 *)
  Rule "wsa" [PU8; PI8; PU8] [BConst (22 * 8 + 0); BLow 0%nat; BLow 1%nat; BLow 2%nat]; (* 209 *)
  Rule "wsa" [PReg; PReg] [BConst (22 * 8 + 5); BLow 0%nat; BConst 0; BLow 1%nat]; (* 210 *)
  Rule "wsa" [PU8; PReg] [BConst (22 * 8 + 1); BLow 0%nat; BConst 0; BLow 1%nat]; (* 211 *)
  Rule "wsa" [PReg; PU8] [BConst (22 * 8 + 4); BLow 0%nat; BConst 0; BLow 1%nat]; (* 212 *)
  Rule "wsa" [PU8; PU8] [BConst (22 * 8 + 0); BLow 0%nat; BConst 0; BLow 1%nat]; (* 213 *)
  Rule "wea" [PReg; PReg; PReg] [BConst (23 * 8 + 7); BLow 0%nat; BLow 1%nat; BLow 2%nat]; (* 215 *)
  Rule "wea" [PReg; PI8; PReg] [BConst (23 * 8 + 5); BLow 0%nat; BLow 1%nat; BLow 2%nat]; (* 216 *)
  Rule "wea" [PU8; PReg; PReg] [BConst (23 * 8 + 3); BLow 0%nat; BLow 1%nat; BLow 2%nat]; (* 217 *)
  Rule "wea" [PU8; PI8; PReg] [BConst (23 * 8 + 1); BLow 0%nat; BLow 1%nat; BLow 2%nat]; (* 218 *)
  Rule "wea" [PReg; PReg; PI8] [BConst (23 * 8 + 6); BLow 0%nat; BLow 1%nat; BLow 2%nat]; (* 219 *)
  Rule "wea" [PReg; PI8; PI8] [BConst (23 * 8 + 4); BLow 0%nat; BLow 1%nat; BLow 2%nat]; (* 220 *)
  Rule "wea" [PU8; PReg; PI8] [BConst (23 * 8 + 2); BLow 0%nat; BLow 1%nat; BLow 2%nat]; (* 221 *)
  Rule "wea" [PU8; PI8; PI8] [BConst (23 * 8 + 0); BLow 0%nat; BLow 1%nat; BLow 2%nat]; (* 222 *)
  Rule "wea" [PReg; PReg] [BConst (23 * 8 + 6); BLow 0%nat; BLow 1%nat; BConst 0]; (* 223 *)
  Rule "wea" [PReg; PI8] [BConst (23 * 8 + 4); BLow 0%nat; BLow 1%nat; BConst 0]; (* 224 *)
  Rule "wea" [PU8; PReg] [BConst (23 * 8 + 2); BLow 0%nat; BLow 1%nat; BConst 0]; (* 225 *)
  Rule "wea" [PU8; PI8] [BConst (23 * 8 + 0); BLow 0%nat; BLow 1%nat; BConst 0]; (* 226 *)
  Rule "wea" [PReg] [BConst (23 * 8 + 6); BLow 0%nat; BConst 0; BConst 0]; (* 227 *)
  Rule "wea" [PU8] [BConst (23 * 8 + 2); BLow 0%nat; BConst 0; BConst 0]; (* 228 *)
  Rule "srm" [PReg; PReg; PReg] [BConst (23 * 8 + 7); BLow 0%nat; BLow 1%nat; BLow 2%nat]; (* 230 *)
  Rule "srm" [PReg; PI8; PReg] [BConst (23 * 8 + 5); BLow 0%nat; BLow 1%nat; BLow 2%nat]; (* 231 *)
  Rule "srm" [PU8; PReg; PReg] [BConst (23 * 8 + 3); BLow 0%nat; BLow 1%nat; BLow 2%nat]; (* 232 *)
  Rule "srm" [PU8; PI8; PReg] [BConst (23 * 8 + 1); BLow 0%nat; BLow 1%nat; BLow 2%nat]; (* 233 *)
  Rule "push" [PReg] [BConst (25 * 8 + 4); BLow 0%nat; BConst 0; BConst 0]; (* 235 *)
  Rule "push" [PU16] [BConst (25 * 8 + 0); BHigh 0%nat; BLow 0%nat; BConst 0]; (* 236 *)
  Rule "pop" [PReg] [BConst (26 * 8 + 4); BLow 0%nat; BConst 0; BConst 0]; (* 238 *)
  Rule "call" [PReg] [BConst (27 * 8 + 4); BLow 0%nat; BConst 0; BConst 0]; (* 240 *)
  Rule "call" [PU16] [BConst (27 * 8 + 0); BHigh 0%nat; BLow 0%nat; BConst 0]; (* 241 *)
  Rule "hwd" [PReg; PReg; PReg] [BConst (28 * 8 + 7); BLow 0%nat; BLow 1%nat; BLow 2%nat]; (* 243 *)
  Rule "hwd" [PReg; PReg; PHwInfo] [BConst (28 * 8 + 6); BLow 0%nat; BLow 1%nat; BLow 2%nat]; (* 244 *)
  Rule "hwd" [PReg; PU8; PReg] [BConst (28 * 8 + 5); BLow 0%nat; BLow 1%nat; BLow 2%nat]; (* 245 *)
  Rule "hwd" [PReg; PU8; PHwInfo] [BConst (28 * 8 + 4); BLow 0%nat; BLow 1%nat; BLow 2%nat]; (* 246 *)
  Rule "cycles" [PReg] [BConst (29 * 8 + 4); BLow 0%nat; BConst 0; BConst 0]; (* 248 *)
  Rule "halt" [] [BConst (30 * 8 + 0); BConst 0; BConst 0; BConst 0]; (* 250 *)
  Rule "reset" [PReg] [BConst (31 * 8 + 4); BLow 0%nat; BConst 0; BConst 0]; (* 252 *)
  Rule "reset" [PU8] [BConst (31 * 8 + 0); BLow 0%nat; BConst 0; BConst 0]; (* 253 *)
  Rule "zro" [PReg] [BConst (10 * 8 + 6); BLow 0%nat; BLow 0%nat; BConst 0]; (* 256 *)
  Rule "not" [PReg] [BConst (10 * 8 + 6); BLow 0%nat; BLow 0%nat; BConst 0]; (* 257 *)
  Rule "inc" [PReg] [BConst (3 * 8 + 4); BLow 0%nat; BConst 0; BConst 1]; (* 258 *)
  Rule "dec" [PReg] [BConst (4 * 8 + 4); BLow 0%nat; BConst 0; BConst 1]; (* 259 *)
  Rule "ifeq" [] [BConst (17 * 8 + 0); BConst 0; BConst 0; BConst 0]; (* 261 *)
  Rule "ifnq" [] [BConst (18 * 8 + 0); BConst 0; BConst 0; BConst 0]; (* 262 *)
  Rule "ifgt" [] [BConst (19 * 8 + 0); BConst 0; BConst 1; BConst 4]; (* 263 *)
  Rule "ifge" [] [BConst (18 * 8 + 0); BConst 1; BConst 0; BConst 0]; (* 264 *)
  Rule "ifls" [] [BConst (17 * 8 + 0); BConst 1; BConst 0; BConst 0]; (* 265 *)
  Rule "ifle" [] [BConst (19 * 8 + 0); BConst 0; BConst 1; BConst 1]; (* 266 *)
  Rule "ifor" [PReg; PReg] [BConst (19 * 8 + 6); BLow 0%nat; BLow 1%nat; BConst 1]; (* 268 *)
  Rule "ifor" [PReg; PFlag] [BConst (19 * 8 + 4); BLow 0%nat; BLow 1%nat; BConst 1]; (* 269 *)
  Rule "ifor" [PFlag; PReg] [BConst (19 * 8 + 2); BLow 0%nat; BLow 1%nat; BConst 1]; (* 270 *)
  Rule "ifor" [PFlag; PFlag] [BConst (19 * 8 + 0); BLow 0%nat; BLow 1%nat; BConst 1]; (* 271 *)
  Rule "ifand" [PReg; PReg] [BConst (19 * 8 + 6); BLow 0%nat; BLow 1%nat; BConst 2]; (* 272 *)
  Rule "ifand" [PReg; PFlag] [BConst (19 * 8 + 4); BLow 0%nat; BLow 1%nat; BConst 2]; (* 273 *)
  Rule "ifand" [PFlag; PReg] [BConst (19 * 8 + 2); BLow 0%nat; BLow 1%nat; BConst 2]; (* 274 *)
  Rule "ifand" [PFlag; PFlag] [BConst (19 * 8 + 0); BLow 0%nat; BLow 1%nat; BConst 2]; (* 275 *)
  Rule "ifxor" [PReg; PReg] [BConst (19 * 8 + 6); BLow 0%nat; BLow 1%nat; BConst 3]; (* 276 *)
  Rule "ifxor" [PReg; PFlag] [BConst (19 * 8 + 4); BLow 0%nat; BLow 1%nat; BConst 3]; (* 277 *)
  Rule "ifxor" [PFlag; PReg] [BConst (19 * 8 + 2); BLow 0%nat; BLow 1%nat; BConst 3]; (* 278 *)
  Rule "ifxor" [PFlag; PFlag] [BConst (19 * 8 + 0); BLow 0%nat; BLow 1%nat; BConst 3]; (* 279 *)
  Rule "ifnor" [PReg; PReg] [BConst (19 * 8 + 6); BLow 0%nat; BLow 1%nat; BConst 4]; (* 280 *)
  Rule "ifnor" [PReg; PFlag] [BConst (19 * 8 + 4); BLow 0%nat; BLow 1%nat; BConst 4]; (* 281 *)
  Rule "ifnor" [PFlag; PReg] [BConst (19 * 8 + 2); BLow 0%nat; BLow 1%nat; BConst 4]; (* 282 *)
  Rule "ifnor" [PFlag; PFlag] [BConst (19 * 8 + 0); BLow 0%nat; BLow 1%nat; BConst 4]; (* 283 *)
  Rule "ifnand" [PReg; PReg] [BConst (19 * 8 + 6); BLow 0%nat; BLow 1%nat; BConst 5]; (* 284 *)
  Rule "ifnand" [PReg; PFlag] [BConst (19 * 8 + 4); BLow 0%nat; BLow 1%nat; BConst 5]; (* 285 *)
  Rule "ifnand" [PFlag; PReg] [BConst (19 * 8 + 2); BLow 0%nat; BLow 1%nat; BConst 5]; (* 286 *)
  Rule "ifnand" [PFlag; PFlag] [BConst (19 * 8 + 0); BLow 0%nat; BLow 1%nat; BConst 5]; (* 287 *)
  Rule "ifleft" [PReg; PReg] [BConst (19 * 8 + 6); BLow 0%nat; BLow 1%nat; BConst 6]; (* 288 *)
  Rule "ifleft" [PReg; PFlag] [BConst (19 * 8 + 4); BLow 0%nat; BLow 1%nat; BConst 6]; (* 289 *)
  Rule "ifleft" [PFlag; PReg] [BConst (19 * 8 + 2); BLow 0%nat; BLow 1%nat; BConst 6]; (* 290 *)
  Rule "ifleft" [PFlag; PFlag] [BConst (19 * 8 + 0); BLow 0%nat; BLow 1%nat; BConst 6]; (* 291 *)
  Rule "ifright" [PReg; PReg] [BConst (19 * 8 + 6); BLow 0%nat; BLow 1%nat; BConst 7]; (* 292 *)
  Rule "ifright" [PReg; PFlag] [BConst (19 * 8 + 4); BLow 0%nat; BLow 1%nat; BConst 7]; (* 293 *)
  Rule "ifright" [PFlag; PReg] [BConst (19 * 8 + 2); BLow 0%nat; BLow 1%nat; BConst 7]; (* 294 *)
  Rule "ifright" [PFlag; PFlag] [BConst (19 * 8 + 0); BLow 0%nat; BLow 1%nat; BConst 7]; (* 295 *)
  Rule "jp" [PReg] [BConst (1 * 8 + 6); BConst 22; BLow 0%nat; BConst 0]; (* 297 *)
  Rule "jp" [PU16] [BConst (1 * 8 + 4); BConst 22; BHigh 0%nat; BLow 0%nat]; (* 298 *)
  Rule "ret" [] [BConst (26 * 8 + 4); BConst 22; BConst 0; BConst 0] (* 300 *)
].
