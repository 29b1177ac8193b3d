(** Model of bitcoin-cash-base/src/data_type.rs and the other [BitcoinDataType] implementations
    (pubkey.rs, hash.rs, tx_preimage.rs). *)
From Verif Require Import Base Model_Encoding Model_Integer Model_ByteArray Model_Opcode Model_Script Model_Code Model_Hash.
Local Open Scope Z_scope.
Local Open Scope list_scope.

(** data_type.rs:3-9 [DataType] *)
Inductive data_type : Type := DGeneric | DInteger | DBoolean | DByteArray (len : option Z).
(** data_type.rs:11-16 [StackItemData]; also the wrappers BitcoinInteger, BitcoinBoolean, BitcoinByteArray (18-23) *)
Inductive stack_data : Type := SInteger (i : Z) | SBoolean (b : bool) | SByteArray (a : barray).

(** The Rust types implementing [BitcoinDataType], as one sum.  An [Integer] is its value, an [IntegerResult] an
    outcome, a hash its byte array, a [Pubkey] its 33 bytes. *)
Inductive api_value : Type :=
| AInteger (i : Z)                  (* data_type.rs:32-43 *)
| AIntegerResult (r : outcome Z)    (* data_type.rs:44-55 *)
| AI32 (n : Z)                      (* data_type.rs:56-67 *)
| ABool (b : bool)                  (* data_type.rs:68-79 *)
| ASlice (s : list Z)               (* data_type.rs:80-91, [u8] *)
| AArray (a : barray)               (* data_type.rs:92-103 *)
| AHash (h : barray)                (* hash.rs:334-397, all five hash types *)
| APubkey (pk : list Z)             (* pubkey.rs:54-65 *)
| APreimage (p : tx_preimage).      (* tx_preimage.rs:144-155 *)

(** [Result::expect] *)
Definition expect {A} (o : outcome A) : outcome A := match o with Ok a => Ok a | _ => Panic end.

(** pubkey.rs:31-33 [as_byte_array] *)
Definition pubkey_array (pk : list Z) : barray := ba_unnamed pk.

(** [to_pushop] *)
Definition to_pushop (v : api_value) : outcome op :=
  match v with
  | AInteger i => Ok (OPushInt i)
  | AIntegerResult r => do i <- expect r; Ok (OPushInt i)
  | AI32 n => do i <- expect (integer_new n); Ok (OPushInt i)
  | ABool b => Ok (OPushBool b)
  | ASlice s => Ok (op_from_array (ba_unnamed s))
  | AArray a => Ok (op_from_array a)
  | AHash h => Ok (op_from_array h)
  | APubkey pk => Ok (op_from_array (pubkey_array pk))
  | APreimage p => do s <- c_ser preimage_codec p; Ok (op_from_array s)
  end.
(** [to_data] *)
Definition to_data (v : api_value) : outcome stack_data :=
  match v with
  | AInteger i => Ok (SInteger i)
  | AIntegerResult r => do i <- expect r; Ok (SInteger i)
  | AI32 n => do i <- expect (integer_new n); Ok (SInteger i)
  | ABool b => Ok (SBoolean b)
  | ASlice s => Ok (SByteArray (ba_unnamed s))
  | AArray a => Ok (SByteArray a)
  | AHash h => Ok (SByteArray h)
  | APubkey pk => Ok (SByteArray (pubkey_array pk))
  | APreimage p => do s <- c_ser preimage_codec p; Ok (SByteArray s)
  end.
(** [to_data_type] *)
Definition to_data_type (v : api_value) : data_type :=
  match v with
  | AInteger _ | AIntegerResult _ | AI32 _ => DInteger
  | ABool _ => DBoolean
  | ASlice _ => DByteArray None
  | AArray a => DByteArray (Some (ba_len a))
  | AHash h => DByteArray (Some (ba_len h))
  | APubkey pk => DByteArray (Some (zlen pk))
  | APreimage _ => DByteArray None
  end.

(** data_type.rs:105-115 [From<Op> for StackItemData]: [unimplemented!()] panics *)
Definition stack_of_op (o : op) : outcome stack_data :=
  match o with
  | OCode _ | OInvalid _ => Panic
  | OPushBool b => Ok (SBoolean b)
  | OPushInt i => Ok (SInteger i)
  | OPushArray a _ => Ok (SByteArray a)
  end.

(** op.rs:56-58 [Op::from_int] *)
Definition op_from_int (n : Z) : outcome op := do i <- expect (integer_new n); Ok (OPushInt i).
