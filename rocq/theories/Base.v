(** Shared vocabulary: bytes, outcomes, little/big-endian integers.
    Bytes are [Z] values; [byte_ok]/[bytes_ok] say that they are in 0..255 (Rust [u8]).
    Machine integers are [Z] with explicit range hypotheses. *)
From Coq Require Export String.
From Coq Require Export ZArith List Lia Bool.
Export ListNotations.
Local Open Scope Z_scope.

Definition byte_ok (b : Z) : Prop := 0 <= b < 256.
Definition bytes_ok (l : list Z) : Prop := Forall byte_ok l.

Definition u16_ok (n : Z) : Prop := 0 <= n < 2 ^ 16.
Definition u32_ok (n : Z) : Prop := 0 <= n < 2 ^ 32.
Definition u64_ok (n : Z) : Prop := 0 <= n < 2 ^ 64.
Definition i32_ok (n : Z) : Prop := - 2 ^ 31 <= n < 2 ^ 31.
Definition i64_ok (n : Z) : Prop := - 2 ^ 63 <= n < 2 ^ 63.

(** Length of a list as [Z] (Rust [len()]). *)
Definition zlen {A} (l : list A) : Z := Z.of_nat (length l).

(** Rust panic / Result.  [err] is a union of the error enums of the repository
    (bitcoin-cash/src/error.rs:19-68, bitcoin-cash-base/src/byte_array.rs:26-36,
    integer.rs:10-44, address.rs, serialize_json.rs) as far as they are modelled. *)
(** address.rs:37-45 [CashAddrError] *)
Inductive cash_addr_err : Type :=
| AInvalidChecksum
| AInvalidBase32Letter (index letter : Z)
| AInvalidAddressType (version : Z).
Inductive err : Type :=
| EEof                                (* io::Error UnexpectedEof *)
| EIntOverflow                        (* vec_to_int: "Overflow for {hex}" *)
| EInvalidSplit (idx len : Z)         (* ByteArrayError::InvalidSplit *)
| EInvalidSlice (expected actual : Z) (* ByteArrayError::InvalidSlice *)
| EFromInteger (int n_bytes : Z)      (* ByteArrayError::FromIntegerError *)
| ELeftover (bytes : list Z)          (* ByteArrayError::LeftoverBytes *)
| EPushTooLarge                       (* ScriptSerializeError::PushTooLarge *)
| EFromHex                            (* hex::FromHexError *)
| EMsg (n : Z)                        (* Error::Msg / other message, numbered *)
| EAddOverflow (a b : Z) | ESubOverflow (a b : Z) | EMulOverflow (a b : Z)
| EDivision (a b : Z) | EModulo (a b : Z)
| EShlOverflow (a b : Z) | EShrOverflow (a b : Z) | ENegOverflow (a : Z)
| EInvalidScriptInteger (a : Z) | ECastOverflow (a : Z) | ECastOverflowI128
| EInvalidCashAddr (e : cash_addr_err) (* CashAddrError *)
| EInvalidAddressType
| EInvalidPubkey
| EInvalidSignatureFormat
| EInvalidSize (expected actual : Z)
| EInsufficientInputAmount (amount : Z)
| EInputAlreadySigned (idx : Z)
| EJson (e : json_err)                (* JsonError, and serde_json errors *)
(** serialize_json.rs:87-103 [JsonError]; [JShape] stands for every [serde_json::Error] (error.rs:32-33),
    the payload of [base64::DecodeError] is dropped *)
with json_err : Type :=
| JShape | JDecodeError | JInvalidDataIdx (idx : Z) | JInvalidStringIdx (idx : Z) | JInvalidHash | JInvalidInteger (e : err).

Inductive outcome (A : Type) : Type :=
| Ok (a : A)
| Err (e : err)
| Panic.
Arguments Ok {A} a. Arguments Err {A} e. Arguments Panic {A}.

Definition obind {A B} (o : outcome A) (f : A -> outcome B) : outcome B :=
  match o with Ok a => f a | Err e => Err e | Panic => Panic end.
Notation "'do' x <- o ; f" := (obind o (fun x => f))
  (at level 200, x pattern, o at level 100, f at level 200).

(** Little-endian encoding in [n] bytes (byteorder [write_uN::<LittleEndian>],
    [to_le_bytes]) and decoding.  For negative values [le_bytes] is two's complement,
    because [Z] division and modulo round down. *)
Fixpoint le_bytes (n : nat) (v : Z) : list Z :=
  match n with
  | O => []
  | S k => (v mod 256) :: le_bytes k (v / 256)
  end.
Fixpoint le_value (l : list Z) : Z :=
  match l with
  | [] => 0
  | b :: t => b + 256 * le_value t
  end.

Definition be_bytes (n : nat) (v : Z) : list Z := rev (le_bytes n v).
Definition be_value (l : list Z) : Z := le_value (rev l).

(** Replace element [i] of a vector ([vec[i] = x], index in range). *)
Fixpoint upd {A} (l : list A) (i : nat) (x : A) : list A :=
  match l, i with
  | [], _ => []
  | _ :: t, O => x :: t
  | h :: t, S k => h :: upd t k x
  end.

(** Two's complement reinterpretation of an integer as [i32]. *)
Definition wrap32 (n : Z) : Z := (n + 2 ^ 31) mod 2 ^ 32 - 2 ^ 31.

(** All 256 byte values, for finite sweeps. *)
Definition all_bytes : list Z := map Z.of_nat (seq 0 256).
