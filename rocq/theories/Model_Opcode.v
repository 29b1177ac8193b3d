(** Model of bitcoin-cash-base/src/opcode.rs: the [Opcode] enum (63-2423), its conversions and
    the disabled / retains_input tables.  The constructor list, numbering and names are generated
    from the source text by tools/gen_opcode.py; the comment at each constructor is its line. *)
From Verif Require Import Base.
Local Open Scope Z_scope.

(** opcode.rs:63-2423 [enum Opcode] *)
Inductive opcode : Type :=
| OP_0 (* 81 *)
| OP_PUSHDATA1 (* 85 *)
| OP_PUSHDATA2 (* 89 *)
| OP_PUSHDATA4 (* 93 *)
| OP_1NEGATE (* 114 *)
| OP_RESERVED (* 117 *)
| OP_1 (* 138 *)
| OP_2 (* 159 *)
| OP_3 (* 180 *)
| OP_4 (* 201 *)
| OP_5 (* 222 *)
| OP_6 (* 243 *)
| OP_7 (* 264 *)
| OP_8 (* 285 *)
| OP_9 (* 306 *)
| OP_10 (* 327 *)
| OP_11 (* 348 *)
| OP_12 (* 369 *)
| OP_13 (* 390 *)
| OP_14 (* 411 *)
| OP_15 (* 432 *)
| OP_16 (* 453 *)
| OP_NOP (* 471 *)
| OP_VER (* 474 *)
| OP_IF (* 502 *)
| OP_NOTIF (* 505 *)
| OP_VERIF (* 508 *)
| OP_VERNOTIF (* 511 *)
| OP_ELSE (* 539 *)
| OP_ENDIF (* 567 *)
| OP_VERIFY (* 587 *)
| OP_RETURN (* 590 *)
| OP_TOALTSTACK (* 614 *)
| OP_FROMALTSTACK (* 638 *)
| OP_2DROP (* 667 *)
| OP_2DUP (* 701 *)
| OP_3DUP (* 740 *)
| OP_2OVER (* 780 *)
| OP_2ROT (* 822 *)
| OP_2SWAP (* 858 *)
| OP_IFDUP (* 862 *)
| OP_DEPTH (* 887 *)
| OP_DROP (* 915 *)
| OP_DUP (* 944 *)
| OP_NIP (* 972 *)
| OP_OVER (* 1004 *)
| OP_PICK (* 1038 *)
| OP_ROLL (* 1070 *)
| OP_ROT (* 1103 *)
| OP_SWAP (* 1133 *)
| OP_TUCK (* 1165 *)
| OP_CAT (* 1189 *)
| OP_SPLIT (* 1215 *)
| OP_NUM2BIN (* 1240 *)
| OP_BIN2NUM (* 1264 *)
| OP_SIZE (* 1289 *)
| OP_INVERT (* 1292 *)
| OP_AND (* 1318 *)
| OP_OR (* 1344 *)
| OP_XOR (* 1370 *)
| OP_EQUAL (* 1393 *)
| OP_EQUALVERIFY (* 1414 *)
| OP_RESERVED1 (* 1417 *)
| OP_RESERVED2 (* 1420 *)
| OP_1ADD (* 1443 *)
| OP_1SUB (* 1466 *)
| OP_2MUL (* 1469 *)
| OP_2DIV (* 1472 *)
| OP_NEGATE (* 1495 *)
| OP_ABS (* 1518 *)
| OP_NOT (* 1540 *)
| OP_0NOTEQUAL (* 1562 *)
| OP_ADD (* 1586 *)
| OP_SUB (* 1610 *)
| OP_MUL (* 1613 *)
| OP_DIV (* 1637 *)
| OP_MOD (* 1661 *)
| OP_LSHIFT (* 1664 *)
| OP_RSHIFT (* 1667 *)
| OP_BOOLAND (* 1691 *)
| OP_BOOLOR (* 1714 *)
| OP_NUMEQUAL (* 1737 *)
| OP_NUMEQUALVERIFY (* 1758 *)
| OP_NUMNOTEQUAL (* 1781 *)
| OP_LESSTHAN (* 1804 *)
| OP_GREATERTHAN (* 1827 *)
| OP_LESSTHANOREQUAL (* 1850 *)
| OP_GREATERTHANOREQUAL (* 1873 *)
| OP_MIN (* 1897 *)
| OP_MAX (* 1921 *)
| OP_WITHIN (* 1945 *)
| OP_RIPEMD160 (* 1969 *)
| OP_SHA1 (* 1993 *)
| OP_SHA256 (* 2017 *)
| OP_HASH160 (* 2041 *)
| OP_HASH256 (* 2065 *)
| OP_CODESEPARATOR (* 2086 *)
| OP_CHECKSIG (* 2111 *)
| OP_CHECKSIGVERIFY (* 2135 *)
| OP_CHECKMULTISIG (* 2138 *)
| OP_CHECKMULTISIGVERIFY (* 2141 *)
| OP_NOP1 (* 2159 *)
| OP_CHECKLOCKTIMEVERIFY (* 2192 *)
| OP_CHECKSEQUENCEVERIFY (* 2218 *)
| OP_NOP4 (* 2236 *)
| OP_NOP5 (* 2254 *)
| OP_NOP6 (* 2272 *)
| OP_NOP7 (* 2290 *)
| OP_NOP8 (* 2308 *)
| OP_NOP9 (* 2326 *)
| OP_NOP10 (* 2344 *)
| OP_CHECKDATASIG (* 2370 *)
| OP_CHECKDATASIGVERIFY (* 2396 *)
| OP_REVERSEBYTES (* 2419 *)
| FIRST_UNDEFINED_OP_VALUE (* 2422 *).

(** Explicit discriminants ([opcode as u8]), opcode.rs:63-2423 *)
Definition opcode_u8 (o : opcode) : Z :=
  match o with
  | OP_0 => 0x0
  | OP_PUSHDATA1 => 0x4c
  | OP_PUSHDATA2 => 0x4d
  | OP_PUSHDATA4 => 0x4e
  | OP_1NEGATE => 0x4f
  | OP_RESERVED => 0x50
  | OP_1 => 0x51
  | OP_2 => 0x52
  | OP_3 => 0x53
  | OP_4 => 0x54
  | OP_5 => 0x55
  | OP_6 => 0x56
  | OP_7 => 0x57
  | OP_8 => 0x58
  | OP_9 => 0x59
  | OP_10 => 0x5a
  | OP_11 => 0x5b
  | OP_12 => 0x5c
  | OP_13 => 0x5d
  | OP_14 => 0x5e
  | OP_15 => 0x5f
  | OP_16 => 0x60
  | OP_NOP => 0x61
  | OP_VER => 0x62
  | OP_IF => 0x63
  | OP_NOTIF => 0x64
  | OP_VERIF => 0x65
  | OP_VERNOTIF => 0x66
  | OP_ELSE => 0x67
  | OP_ENDIF => 0x68
  | OP_VERIFY => 0x69
  | OP_RETURN => 0x6a
  | OP_TOALTSTACK => 0x6b
  | OP_FROMALTSTACK => 0x6c
  | OP_2DROP => 0x6d
  | OP_2DUP => 0x6e
  | OP_3DUP => 0x6f
  | OP_2OVER => 0x70
  | OP_2ROT => 0x71
  | OP_2SWAP => 0x72
  | OP_IFDUP => 0x73
  | OP_DEPTH => 0x74
  | OP_DROP => 0x75
  | OP_DUP => 0x76
  | OP_NIP => 0x77
  | OP_OVER => 0x78
  | OP_PICK => 0x79
  | OP_ROLL => 0x7a
  | OP_ROT => 0x7b
  | OP_SWAP => 0x7c
  | OP_TUCK => 0x7d
  | OP_CAT => 0x7e
  | OP_SPLIT => 0x7f
  | OP_NUM2BIN => 0x80
  | OP_BIN2NUM => 0x81
  | OP_SIZE => 0x82
  | OP_INVERT => 0x83
  | OP_AND => 0x84
  | OP_OR => 0x85
  | OP_XOR => 0x86
  | OP_EQUAL => 0x87
  | OP_EQUALVERIFY => 0x88
  | OP_RESERVED1 => 0x89
  | OP_RESERVED2 => 0x8a
  | OP_1ADD => 0x8b
  | OP_1SUB => 0x8c
  | OP_2MUL => 0x8d
  | OP_2DIV => 0x8e
  | OP_NEGATE => 0x8f
  | OP_ABS => 0x90
  | OP_NOT => 0x91
  | OP_0NOTEQUAL => 0x92
  | OP_ADD => 0x93
  | OP_SUB => 0x94
  | OP_MUL => 0x95
  | OP_DIV => 0x96
  | OP_MOD => 0x97
  | OP_LSHIFT => 0x98
  | OP_RSHIFT => 0x99
  | OP_BOOLAND => 0x9a
  | OP_BOOLOR => 0x9b
  | OP_NUMEQUAL => 0x9c
  | OP_NUMEQUALVERIFY => 0x9d
  | OP_NUMNOTEQUAL => 0x9e
  | OP_LESSTHAN => 0x9f
  | OP_GREATERTHAN => 0xa0
  | OP_LESSTHANOREQUAL => 0xa1
  | OP_GREATERTHANOREQUAL => 0xa2
  | OP_MIN => 0xa3
  | OP_MAX => 0xa4
  | OP_WITHIN => 0xa5
  | OP_RIPEMD160 => 0xa6
  | OP_SHA1 => 0xa7
  | OP_SHA256 => 0xa8
  | OP_HASH160 => 0xa9
  | OP_HASH256 => 0xaa
  | OP_CODESEPARATOR => 0xab
  | OP_CHECKSIG => 0xac
  | OP_CHECKSIGVERIFY => 0xad
  | OP_CHECKMULTISIG => 0xae
  | OP_CHECKMULTISIGVERIFY => 0xaf
  | OP_NOP1 => 0xb0
  | OP_CHECKLOCKTIMEVERIFY => 0xb1
  | OP_CHECKSEQUENCEVERIFY => 0xb2
  | OP_NOP4 => 0xb3
  | OP_NOP5 => 0xb4
  | OP_NOP6 => 0xb5
  | OP_NOP7 => 0xb6
  | OP_NOP8 => 0xb7
  | OP_NOP9 => 0xb8
  | OP_NOP10 => 0xb9
  | OP_CHECKDATASIG => 0xba
  | OP_CHECKDATASIGVERIFY => 0xbb
  | OP_REVERSEBYTES => 0xbc
  | FIRST_UNDEFINED_OP_VALUE => 0xbd
  end.

(** [derive(FromPrimitive)]: [num::FromPrimitive::from_u8], opcode.rs:62 *)
Definition opcode_from_u8 (b : Z) : option opcode :=
  match b with
  | 0x0 => Some OP_0
  | 0x4c => Some OP_PUSHDATA1
  | 0x4d => Some OP_PUSHDATA2
  | 0x4e => Some OP_PUSHDATA4
  | 0x4f => Some OP_1NEGATE
  | 0x50 => Some OP_RESERVED
  | 0x51 => Some OP_1
  | 0x52 => Some OP_2
  | 0x53 => Some OP_3
  | 0x54 => Some OP_4
  | 0x55 => Some OP_5
  | 0x56 => Some OP_6
  | 0x57 => Some OP_7
  | 0x58 => Some OP_8
  | 0x59 => Some OP_9
  | 0x5a => Some OP_10
  | 0x5b => Some OP_11
  | 0x5c => Some OP_12
  | 0x5d => Some OP_13
  | 0x5e => Some OP_14
  | 0x5f => Some OP_15
  | 0x60 => Some OP_16
  | 0x61 => Some OP_NOP
  | 0x62 => Some OP_VER
  | 0x63 => Some OP_IF
  | 0x64 => Some OP_NOTIF
  | 0x65 => Some OP_VERIF
  | 0x66 => Some OP_VERNOTIF
  | 0x67 => Some OP_ELSE
  | 0x68 => Some OP_ENDIF
  | 0x69 => Some OP_VERIFY
  | 0x6a => Some OP_RETURN
  | 0x6b => Some OP_TOALTSTACK
  | 0x6c => Some OP_FROMALTSTACK
  | 0x6d => Some OP_2DROP
  | 0x6e => Some OP_2DUP
  | 0x6f => Some OP_3DUP
  | 0x70 => Some OP_2OVER
  | 0x71 => Some OP_2ROT
  | 0x72 => Some OP_2SWAP
  | 0x73 => Some OP_IFDUP
  | 0x74 => Some OP_DEPTH
  | 0x75 => Some OP_DROP
  | 0x76 => Some OP_DUP
  | 0x77 => Some OP_NIP
  | 0x78 => Some OP_OVER
  | 0x79 => Some OP_PICK
  | 0x7a => Some OP_ROLL
  | 0x7b => Some OP_ROT
  | 0x7c => Some OP_SWAP
  | 0x7d => Some OP_TUCK
  | 0x7e => Some OP_CAT
  | 0x7f => Some OP_SPLIT
  | 0x80 => Some OP_NUM2BIN
  | 0x81 => Some OP_BIN2NUM
  | 0x82 => Some OP_SIZE
  | 0x83 => Some OP_INVERT
  | 0x84 => Some OP_AND
  | 0x85 => Some OP_OR
  | 0x86 => Some OP_XOR
  | 0x87 => Some OP_EQUAL
  | 0x88 => Some OP_EQUALVERIFY
  | 0x89 => Some OP_RESERVED1
  | 0x8a => Some OP_RESERVED2
  | 0x8b => Some OP_1ADD
  | 0x8c => Some OP_1SUB
  | 0x8d => Some OP_2MUL
  | 0x8e => Some OP_2DIV
  | 0x8f => Some OP_NEGATE
  | 0x90 => Some OP_ABS
  | 0x91 => Some OP_NOT
  | 0x92 => Some OP_0NOTEQUAL
  | 0x93 => Some OP_ADD
  | 0x94 => Some OP_SUB
  | 0x95 => Some OP_MUL
  | 0x96 => Some OP_DIV
  | 0x97 => Some OP_MOD
  | 0x98 => Some OP_LSHIFT
  | 0x99 => Some OP_RSHIFT
  | 0x9a => Some OP_BOOLAND
  | 0x9b => Some OP_BOOLOR
  | 0x9c => Some OP_NUMEQUAL
  | 0x9d => Some OP_NUMEQUALVERIFY
  | 0x9e => Some OP_NUMNOTEQUAL
  | 0x9f => Some OP_LESSTHAN
  | 0xa0 => Some OP_GREATERTHAN
  | 0xa1 => Some OP_LESSTHANOREQUAL
  | 0xa2 => Some OP_GREATERTHANOREQUAL
  | 0xa3 => Some OP_MIN
  | 0xa4 => Some OP_MAX
  | 0xa5 => Some OP_WITHIN
  | 0xa6 => Some OP_RIPEMD160
  | 0xa7 => Some OP_SHA1
  | 0xa8 => Some OP_SHA256
  | 0xa9 => Some OP_HASH160
  | 0xaa => Some OP_HASH256
  | 0xab => Some OP_CODESEPARATOR
  | 0xac => Some OP_CHECKSIG
  | 0xad => Some OP_CHECKSIGVERIFY
  | 0xae => Some OP_CHECKMULTISIG
  | 0xaf => Some OP_CHECKMULTISIGVERIFY
  | 0xb0 => Some OP_NOP1
  | 0xb1 => Some OP_CHECKLOCKTIMEVERIFY
  | 0xb2 => Some OP_CHECKSEQUENCEVERIFY
  | 0xb3 => Some OP_NOP4
  | 0xb4 => Some OP_NOP5
  | 0xb5 => Some OP_NOP6
  | 0xb6 => Some OP_NOP7
  | 0xb7 => Some OP_NOP8
  | 0xb8 => Some OP_NOP9
  | 0xb9 => Some OP_NOP10
  | 0xba => Some OP_CHECKDATASIG
  | 0xbb => Some OP_CHECKDATASIGVERIFY
  | 0xbc => Some OP_REVERSEBYTES
  | 0xbd => Some FIRST_UNDEFINED_OP_VALUE
  | _ => None
  end.

(** [derive(Debug, IntoStaticStr)]: the variant name, opcode.rs:62 *)
Definition opcode_name (o : opcode) : string :=
  (match o with
  | OP_0 => "OP_0"
  | OP_PUSHDATA1 => "OP_PUSHDATA1"
  | OP_PUSHDATA2 => "OP_PUSHDATA2"
  | OP_PUSHDATA4 => "OP_PUSHDATA4"
  | OP_1NEGATE => "OP_1NEGATE"
  | OP_RESERVED => "OP_RESERVED"
  | OP_1 => "OP_1"
  | OP_2 => "OP_2"
  | OP_3 => "OP_3"
  | OP_4 => "OP_4"
  | OP_5 => "OP_5"
  | OP_6 => "OP_6"
  | OP_7 => "OP_7"
  | OP_8 => "OP_8"
  | OP_9 => "OP_9"
  | OP_10 => "OP_10"
  | OP_11 => "OP_11"
  | OP_12 => "OP_12"
  | OP_13 => "OP_13"
  | OP_14 => "OP_14"
  | OP_15 => "OP_15"
  | OP_16 => "OP_16"
  | OP_NOP => "OP_NOP"
  | OP_VER => "OP_VER"
  | OP_IF => "OP_IF"
  | OP_NOTIF => "OP_NOTIF"
  | OP_VERIF => "OP_VERIF"
  | OP_VERNOTIF => "OP_VERNOTIF"
  | OP_ELSE => "OP_ELSE"
  | OP_ENDIF => "OP_ENDIF"
  | OP_VERIFY => "OP_VERIFY"
  | OP_RETURN => "OP_RETURN"
  | OP_TOALTSTACK => "OP_TOALTSTACK"
  | OP_FROMALTSTACK => "OP_FROMALTSTACK"
  | OP_2DROP => "OP_2DROP"
  | OP_2DUP => "OP_2DUP"
  | OP_3DUP => "OP_3DUP"
  | OP_2OVER => "OP_2OVER"
  | OP_2ROT => "OP_2ROT"
  | OP_2SWAP => "OP_2SWAP"
  | OP_IFDUP => "OP_IFDUP"
  | OP_DEPTH => "OP_DEPTH"
  | OP_DROP => "OP_DROP"
  | OP_DUP => "OP_DUP"
  | OP_NIP => "OP_NIP"
  | OP_OVER => "OP_OVER"
  | OP_PICK => "OP_PICK"
  | OP_ROLL => "OP_ROLL"
  | OP_ROT => "OP_ROT"
  | OP_SWAP => "OP_SWAP"
  | OP_TUCK => "OP_TUCK"
  | OP_CAT => "OP_CAT"
  | OP_SPLIT => "OP_SPLIT"
  | OP_NUM2BIN => "OP_NUM2BIN"
  | OP_BIN2NUM => "OP_BIN2NUM"
  | OP_SIZE => "OP_SIZE"
  | OP_INVERT => "OP_INVERT"
  | OP_AND => "OP_AND"
  | OP_OR => "OP_OR"
  | OP_XOR => "OP_XOR"
  | OP_EQUAL => "OP_EQUAL"
  | OP_EQUALVERIFY => "OP_EQUALVERIFY"
  | OP_RESERVED1 => "OP_RESERVED1"
  | OP_RESERVED2 => "OP_RESERVED2"
  | OP_1ADD => "OP_1ADD"
  | OP_1SUB => "OP_1SUB"
  | OP_2MUL => "OP_2MUL"
  | OP_2DIV => "OP_2DIV"
  | OP_NEGATE => "OP_NEGATE"
  | OP_ABS => "OP_ABS"
  | OP_NOT => "OP_NOT"
  | OP_0NOTEQUAL => "OP_0NOTEQUAL"
  | OP_ADD => "OP_ADD"
  | OP_SUB => "OP_SUB"
  | OP_MUL => "OP_MUL"
  | OP_DIV => "OP_DIV"
  | OP_MOD => "OP_MOD"
  | OP_LSHIFT => "OP_LSHIFT"
  | OP_RSHIFT => "OP_RSHIFT"
  | OP_BOOLAND => "OP_BOOLAND"
  | OP_BOOLOR => "OP_BOOLOR"
  | OP_NUMEQUAL => "OP_NUMEQUAL"
  | OP_NUMEQUALVERIFY => "OP_NUMEQUALVERIFY"
  | OP_NUMNOTEQUAL => "OP_NUMNOTEQUAL"
  | OP_LESSTHAN => "OP_LESSTHAN"
  | OP_GREATERTHAN => "OP_GREATERTHAN"
  | OP_LESSTHANOREQUAL => "OP_LESSTHANOREQUAL"
  | OP_GREATERTHANOREQUAL => "OP_GREATERTHANOREQUAL"
  | OP_MIN => "OP_MIN"
  | OP_MAX => "OP_MAX"
  | OP_WITHIN => "OP_WITHIN"
  | OP_RIPEMD160 => "OP_RIPEMD160"
  | OP_SHA1 => "OP_SHA1"
  | OP_SHA256 => "OP_SHA256"
  | OP_HASH160 => "OP_HASH160"
  | OP_HASH256 => "OP_HASH256"
  | OP_CODESEPARATOR => "OP_CODESEPARATOR"
  | OP_CHECKSIG => "OP_CHECKSIG"
  | OP_CHECKSIGVERIFY => "OP_CHECKSIGVERIFY"
  | OP_CHECKMULTISIG => "OP_CHECKMULTISIG"
  | OP_CHECKMULTISIGVERIFY => "OP_CHECKMULTISIGVERIFY"
  | OP_NOP1 => "OP_NOP1"
  | OP_CHECKLOCKTIMEVERIFY => "OP_CHECKLOCKTIMEVERIFY"
  | OP_CHECKSEQUENCEVERIFY => "OP_CHECKSEQUENCEVERIFY"
  | OP_NOP4 => "OP_NOP4"
  | OP_NOP5 => "OP_NOP5"
  | OP_NOP6 => "OP_NOP6"
  | OP_NOP7 => "OP_NOP7"
  | OP_NOP8 => "OP_NOP8"
  | OP_NOP9 => "OP_NOP9"
  | OP_NOP10 => "OP_NOP10"
  | OP_CHECKDATASIG => "OP_CHECKDATASIG"
  | OP_CHECKDATASIGVERIFY => "OP_CHECKDATASIGVERIFY"
  | OP_REVERSEBYTES => "OP_REVERSEBYTES"
  | FIRST_UNDEFINED_OP_VALUE => "FIRST_UNDEFINED_OP_VALUE"
  end)%string.

Definition all_opcodes : list opcode :=
  [OP_0; OP_PUSHDATA1; OP_PUSHDATA2; OP_PUSHDATA4; OP_1NEGATE; OP_RESERVED; OP_1; OP_2; OP_3; OP_4; OP_5; OP_6; OP_7; OP_8; OP_9; OP_10; OP_11; OP_12; OP_13; OP_14; OP_15; OP_16; OP_NOP; OP_VER; OP_IF; OP_NOTIF; OP_VERIF; OP_VERNOTIF; OP_ELSE; OP_ENDIF; OP_VERIFY; OP_RETURN; OP_TOALTSTACK; OP_FROMALTSTACK; OP_2DROP; OP_2DUP; OP_3DUP; OP_2OVER; OP_2ROT; OP_2SWAP; OP_IFDUP; OP_DEPTH; OP_DROP; OP_DUP; OP_NIP; OP_OVER; OP_PICK; OP_ROLL; OP_ROT; OP_SWAP; OP_TUCK; OP_CAT; OP_SPLIT; OP_NUM2BIN; OP_BIN2NUM; OP_SIZE; OP_INVERT; OP_AND; OP_OR; OP_XOR; OP_EQUAL; OP_EQUALVERIFY; OP_RESERVED1; OP_RESERVED2; OP_1ADD; OP_1SUB; OP_2MUL; OP_2DIV; OP_NEGATE; OP_ABS; OP_NOT; OP_0NOTEQUAL; OP_ADD; OP_SUB; OP_MUL; OP_DIV; OP_MOD; OP_LSHIFT; OP_RSHIFT; OP_BOOLAND; OP_BOOLOR; OP_NUMEQUAL; OP_NUMEQUALVERIFY; OP_NUMNOTEQUAL; OP_LESSTHAN; OP_GREATERTHAN; OP_LESSTHANOREQUAL; OP_GREATERTHANOREQUAL; OP_MIN; OP_MAX; OP_WITHIN; OP_RIPEMD160; OP_SHA1; OP_SHA256; OP_HASH160; OP_HASH256; OP_CODESEPARATOR; OP_CHECKSIG; OP_CHECKSIGVERIFY; OP_CHECKMULTISIG; OP_CHECKMULTISIGVERIFY; OP_NOP1; OP_CHECKLOCKTIMEVERIFY; OP_CHECKSEQUENCEVERIFY; OP_NOP4; OP_NOP5; OP_NOP6; OP_NOP7; OP_NOP8; OP_NOP9; OP_NOP10; OP_CHECKDATASIG; OP_CHECKDATASIGVERIFY; OP_REVERSEBYTES; FIRST_UNDEFINED_OP_VALUE].

(** opcode.rs:2835-2842 [is_disabled] *)
Definition opcode_is_disabled (o : opcode) : bool :=
  match o with
  | OP_RESERVED | OP_RESERVED1 | OP_RESERVED2 | OP_MUL | OP_2MUL | OP_2DIV | OP_INVERT
  | OP_LSHIFT | OP_RSHIFT | OP_VER | OP_VERIF | OP_VERNOTIF => true
  | _ => false
  end.

(** opcode.rs:2844-2850 [retains_input] *)
Definition opcode_retains_input (o : opcode) : bool :=
  match o with
  | OP_SIZE | OP_CHECKLOCKTIMEVERIFY | OP_CHECKSEQUENCEVERIFY => true
  | _ => false
  end.

(** opcode.rs:10-21 [MAP_NAME_TO_ENUM]: the association list built by the loop (later inserts win,
    so newest first); [None] when the construction itself panics (line 17). *)
Fixpoint name_map_loop (codes : list Z) (m : list (string * opcode)) : option (list (string * opcode)) :=
  match codes with
  | [] => Some m
  | c :: rest =>
    match opcode_from_u8 c with
    | None => None
    | Some o => name_map_loop rest ((opcode_name o, o) :: m)
    end
  end.
Definition name_map : option (list (string * opcode)) :=
  name_map_loop (map (fun k => 0x51 + Z.of_nat k) (seq 0 (Z.to_nat (opcode_u8 FIRST_UNDEFINED_OP_VALUE - 0x51))))
    [("OP_1NEGATE"%string, OP_1NEGATE); ("OP_0"%string, OP_0)].
Fixpoint assoc_str {A} (s : string) (m : list (string * A)) : option A :=
  match m with
  | [] => None
  | (k, v) :: rest => if String.eqb k s then Some v else assoc_str s rest
  end.
(** [MAP_NAME_TO_ENUM.get(name)], generate.rs / parse.rs lookups *)
Definition opcode_by_name (s : string) : option opcode :=
  match name_map with Some m => assoc_str s m | None => None end.

(** [derive(PartialEq)] (comparison of discriminants) *)
Definition opcode_eqb (a b : opcode) : bool := opcode_u8 a =? opcode_u8 b.
