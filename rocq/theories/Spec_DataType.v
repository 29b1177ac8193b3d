(** What pushing an API value onto the stack means. *)
From Verif Require Import Base Spec_Encoding Spec_Integer Model_Encoding Model_ByteArray Model_Opcode Model_Script
  Spec_Script Model_Code Spec_Code Model_DataType.
Local Open Scope Z_scope.

(** [stands_for v d]: [d] is the stack item for [v]: the shortest script number for integers, 01 / empty for booleans,
    the bytes themselves, and the wire encoding of a preimage. *)
Inductive stands_for : api_value -> list Z -> Prop :=
| SfInteger i d : bytes_ok d -> minimal_num d -> script_num d = i -> stands_for (AInteger i) d
| SfResult i d : bytes_ok d -> minimal_num d -> script_num d = i -> stands_for (AIntegerResult (Ok i)) d
| SfI32 i d : bytes_ok d -> minimal_num d -> script_num d = i -> stands_for (AI32 i) d
| SfTrue : stands_for (ABool true) [1]
| SfFalse : stands_for (ABool false) []
| SfSlice s : stands_for (ASlice s) s
| SfArray a : stands_for (AArray a) (ba_data a)
| SfHash h : stands_for (AHash h) (ba_data h)
| SfPubkey pk : stands_for (APubkey pk) pk
| SfPreimage p s : c_ser preimage_codec p = Ok s -> stands_for (APreimage p) (ba_data s).

(** What the Rust types guarantee; pushes are limited to 2^32-1 bytes by the script format. *)
Definition push_size (d : list Z) : Prop := bytes_ok d /\ zlen d < 2 ^ 32.
Definition api_ok (v : api_value) : Prop :=
  match v with
  | AInteger i => script_int i
  | AIntegerResult r => match r with Ok i => script_int i | Err _ => True | Panic => False end
  | AI32 n => i32_ok n
  | ABool _ => True
  | ASlice s => push_size s
  | AArray a => push_size (ba_data a)
  | AHash h => push_size (ba_data h)
  | APubkey pk => bytes_ok pk /\ zlen pk = 33
  | APreimage p => preimage_value p /\ forall s, c_ser preimage_codec p = Ok s -> zlen (ba_data s) < 2 ^ 32
  end.
(** Values that are no script number. *)
Definition no_number (v : api_value) : Prop :=
  match v with
  | AIntegerResult r => match r with Ok _ => False | _ => True end
  | AI32 n => n = - 2 ^ 31
  | _ => False
  end.
