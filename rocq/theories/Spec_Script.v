(** Independent specification of Script's byte syntax (Bitcoin Cash "Script" specification).
    An instruction either pushes a byte string or executes an opcode byte. *)
From Verif Require Import Base Spec_Encoding Spec_Integer Model_ByteArray Model_Opcode Model_Script.
Local Open Scope Z_scope.

Inductive instr : Type :=
| Push (d : list Z)
| Exec (b : Z).

(** [chunk bs i]: the bytes [bs] are exactly one encoded instruction, with meaning [i]. *)
Inductive chunk : list Z -> instr -> Prop :=
| CkEmpty : chunk [0x00] (Push [])
| CkDirect n d : 1 <= n <= 75 -> zlen d = n -> chunk (n :: d) (Push d)
| CkData1 l d : bytes_ok l -> length l = 1%nat -> le_value l = zlen d -> chunk (0x4c :: l ++ d) (Push d)
| CkData2 l d : bytes_ok l -> length l = 2%nat -> le_value l = zlen d -> chunk (0x4d :: l ++ d) (Push d)
| CkData4 l d : bytes_ok l -> length l = 4%nat -> le_value l = zlen d -> chunk (0x4e :: l ++ d) (Push d)
| CkNeg1 : chunk [0x4f] (Push [0x81])
| CkSmall n : 1 <= n <= 16 -> chunk [0x50 + n] (Push [n])
| CkExec b : b = 0x50 \/ 0x61 <= b <= 0xff -> chunk [b] (Exec b).

(** A script's bytes [bs] read as the instruction sequence [is]. *)
Definition reads_as (bs : list Z) (is : list instr) : Prop :=
  exists chunks, bs = concat chunks /\ Forall2 chunk chunks is.

(** The bytes of one instruction whose push prefix is the shortest for its data length (an empty push
    may be written 00 or 4c 00). *)
Inductive shortest_prefix : list Z -> Prop :=
| SpShort b r : b <> 0x4c -> b <> 0x4d -> b <> 0x4e -> shortest_prefix (b :: r)
| Sp1 l d : length l = 1%nat -> le_value l = zlen d -> zlen d = 0 \/ 76 <= zlen d -> shortest_prefix (0x4c :: l ++ d)
| Sp2 l d : length l = 2%nat -> le_value l = zlen d -> 256 <= zlen d -> shortest_prefix (0x4d :: l ++ d)
| Sp4 l d : length l = 4%nat -> le_value l = zlen d -> 65536 <= zlen d -> shortest_prefix (0x4e :: l ++ d).
Definition shortest_script (bs : list Z) : Prop :=
  exists chunks is, bs = concat chunks /\ Forall2 chunk chunks is /\ Forall shortest_prefix chunks.

(** [bs] begins a push that announces more bytes than there are. *)
Inductive truncated : list Z -> Prop :=
| TrDirect n d : 1 <= n <= 75 -> zlen d < n -> truncated (n :: d)
| TrLen b n l : (b, n) = (0x4c, 1) \/ (b, n) = (0x4d, 2) \/ (b, n) = (0x4e, 4) -> zlen l < n -> truncated (b :: l)
| TrData b n l d : (b, n) = (0x4c, 1%nat) \/ (b, n) = (0x4d, 2%nat) \/ (b, n) = (0x4e, 4%nat) ->
    length l = n -> zlen d < le_value l -> truncated (b :: l ++ d).
Definition truncated_script (bs : list Z) : Prop :=
  exists chunks is t, bs = concat chunks ++ t /\ Forall2 chunk chunks is /\ truncated t.

(** What an [Op] value of the API stands for. *)
Inductive means : op -> instr -> Prop :=
| MPush a m : means (OPushArray a m) (Push (ba_data a))
| MTrue : means (OPushBool true) (Push [1])
| MFalse : means (OPushBool false) (Push [])
| MInt i d : bytes_ok d -> minimal_num d -> script_num d = i -> means (OPushInt i) (Push d)
| M0 : means (OCode OP_0) (Push [])
| MNeg1 : means (OCode OP_1NEGATE) (Push [0x81])
| MSmall c n : 1 <= n <= 16 -> opcode_u8 c = 0x50 + n -> means (OCode c) (Push [n])
| MExec c : opcode_u8 c = 0x50 \/ 0x61 <= opcode_u8 c -> means (OCode c) (Exec (opcode_u8 c))
| MInvalid b : 0xbe <= b <= 0xff -> means (OInvalid b) (Exec b).

(** Ops a script can consist of: no bare PUSHDATA opcode, no defined opcode disguised as invalid,
    pushes of at most 2^32-1 bytes. *)
Definition op_ok (o : op) : Prop :=
  match o with
  | OCode c => c <> OP_PUSHDATA1 /\ c <> OP_PUSHDATA2 /\ c <> OP_PUSHDATA4
  | OInvalid b => 0xbe <= b <= 0xff
  | OPushArray a _ => bytes_ok (ba_data a) /\ zlen (ba_data a) < 2 ^ 32
  | OPushBool _ => True
  | OPushInt i => script_int i
  end.

(** The shortest way to push [d], as one opcode byte or length prefix + data (minimal push rule). *)
Definition push_head (d : list Z) : Z :=
  match d with
  | [] => 0
  | [x] => if (1 <=? x) && (x <=? 16) then 0x50 + x else if x =? 0x81 then 0x4f else 1
  | _ => if zlen d <=? 75 then zlen d else if zlen d <=? 255 then 0x4c else if zlen d <=? 65535 then 0x4d else 0x4e
  end.

(** [same_op]: same API value up to the provenance of the pushed array. *)
Inductive same_op : op -> op -> Prop :=
| SoCode c : same_op (OCode c) (OCode c)
| SoInvalid b : same_op (OInvalid b) (OInvalid b)
| SoPush a b m : ba_data a = ba_data b -> same_op (OPushArray a m) (OPushArray b m)
| SoBool b : same_op (OPushBool b) (OPushBool b)
| SoInt i : same_op (OPushInt i) (OPushInt i).

(** [c] is a shortest encoding of a push of [d]. *)
Definition minimal_push (c d : list Z) : Prop :=
  chunk c (Push d) /\ forall c', bytes_ok c' -> chunk c' (Push d) -> (length c <= length c')%nat.

(** Number of OP_CODESEPARATORs. *)
Fixpoint count_sep (s : script) : nat :=
  match s with
  | [] => O
  | t :: r => match t_op t with OCode OP_CODESEPARATOR => S (count_sep r) | _ => count_sep r end
  end.

(** The opcode table of the Bitcoin Cash specification (name, byte), typed in by hand from the
    specification, not generated from the source. *)
Definition bch_opcodes : list (string * Z) := ([
  ("OP_0",0x00);("OP_PUSHDATA1",0x4c);("OP_PUSHDATA2",0x4d);("OP_PUSHDATA4",0x4e);("OP_1NEGATE",0x4f);
  ("OP_RESERVED",0x50);("OP_1",0x51);("OP_2",0x52);("OP_3",0x53);("OP_4",0x54);("OP_5",0x55);("OP_6",0x56);
  ("OP_7",0x57);("OP_8",0x58);("OP_9",0x59);("OP_10",0x5a);("OP_11",0x5b);("OP_12",0x5c);("OP_13",0x5d);
  ("OP_14",0x5e);("OP_15",0x5f);("OP_16",0x60);("OP_NOP",0x61);("OP_VER",0x62);("OP_IF",0x63);("OP_NOTIF",0x64);
  ("OP_VERIF",0x65);("OP_VERNOTIF",0x66);("OP_ELSE",0x67);("OP_ENDIF",0x68);("OP_VERIFY",0x69);("OP_RETURN",0x6a);
  ("OP_TOALTSTACK",0x6b);("OP_FROMALTSTACK",0x6c);("OP_2DROP",0x6d);("OP_2DUP",0x6e);("OP_3DUP",0x6f);
  ("OP_2OVER",0x70);("OP_2ROT",0x71);("OP_2SWAP",0x72);("OP_IFDUP",0x73);("OP_DEPTH",0x74);("OP_DROP",0x75);
  ("OP_DUP",0x76);("OP_NIP",0x77);("OP_OVER",0x78);("OP_PICK",0x79);("OP_ROLL",0x7a);("OP_ROT",0x7b);
  ("OP_SWAP",0x7c);("OP_TUCK",0x7d);("OP_CAT",0x7e);("OP_SPLIT",0x7f);("OP_NUM2BIN",0x80);("OP_BIN2NUM",0x81);
  ("OP_SIZE",0x82);("OP_INVERT",0x83);("OP_AND",0x84);("OP_OR",0x85);("OP_XOR",0x86);("OP_EQUAL",0x87);
  ("OP_EQUALVERIFY",0x88);("OP_RESERVED1",0x89);("OP_RESERVED2",0x8a);("OP_1ADD",0x8b);("OP_1SUB",0x8c);
  ("OP_2MUL",0x8d);("OP_2DIV",0x8e);("OP_NEGATE",0x8f);("OP_ABS",0x90);("OP_NOT",0x91);("OP_0NOTEQUAL",0x92);
  ("OP_ADD",0x93);("OP_SUB",0x94);("OP_MUL",0x95);("OP_DIV",0x96);("OP_MOD",0x97);("OP_LSHIFT",0x98);
  ("OP_RSHIFT",0x99);("OP_BOOLAND",0x9a);("OP_BOOLOR",0x9b);("OP_NUMEQUAL",0x9c);("OP_NUMEQUALVERIFY",0x9d);
  ("OP_NUMNOTEQUAL",0x9e);("OP_LESSTHAN",0x9f);("OP_GREATERTHAN",0xa0);("OP_LESSTHANOREQUAL",0xa1);
  ("OP_GREATERTHANOREQUAL",0xa2);("OP_MIN",0xa3);("OP_MAX",0xa4);("OP_WITHIN",0xa5);("OP_RIPEMD160",0xa6);
  ("OP_SHA1",0xa7);("OP_SHA256",0xa8);("OP_HASH160",0xa9);("OP_HASH256",0xaa);("OP_CODESEPARATOR",0xab);
  ("OP_CHECKSIG",0xac);("OP_CHECKSIGVERIFY",0xad);("OP_CHECKMULTISIG",0xae);("OP_CHECKMULTISIGVERIFY",0xaf);
  ("OP_NOP1",0xb0);("OP_CHECKLOCKTIMEVERIFY",0xb1);("OP_CHECKSEQUENCEVERIFY",0xb2);("OP_NOP4",0xb3);
  ("OP_NOP5",0xb4);("OP_NOP6",0xb5);("OP_NOP7",0xb6);("OP_NOP8",0xb7);("OP_NOP9",0xb8);("OP_NOP10",0xb9);
  ("OP_CHECKDATASIG",0xba);("OP_CHECKDATASIGVERIFY",0xbb);("OP_REVERSEBYTES",0xbc)])%string.
(** Opcodes disabled or reserved in that specification. *)
Definition bch_disabled : list Z :=
  [0x50; 0x62; 0x65; 0x66; 0x83; 0x89; 0x8a; 0x8d; 0x8e; 0x95; 0x98; 0x99].
