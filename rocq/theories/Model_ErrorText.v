(** Model of the messages of errors ([Display], generated by thiserror): bitcoin-cash/src/error.rs, address.rs:37-45,
    serialize_json.rs:86-103, bitcoin-cash-base/src/byte_array.rs:26-36. *)
From Verif Require Import Base Model_Hash Model_Address Model_Text.
Local Open Scope string_scope.
Local Open Scope list_scope.
Local Open Scope Z_scope.

(** address.rs:37-45 [CashAddrError] *)
Definition cash_addr_error_display (e : cash_addr_err) : list Z :=
  match e with
  | AInvalidChecksum => text "Invalid checksum"
  | AInvalidBase32Letter i l => text "Invalid Base32 letter " ++ int_display l ++ text " at index " ++ int_display i
  | AInvalidAddressType v => text "Invalid address type " ++ int_display v
  end.
(** error.rs:18-68 [Error], including the messages it embeds: ByteArrayError (byte_array.rs:26-36; a [ByteArray] is displayed
    in hexadecimal), JsonError (serialize_json.rs:86-103), ScriptSerializeError (error.rs:3-9), IntegerError (Model_Text.v).
    [other] gives the texts of errors of other crates and of free-form messages. *)
Definition error_display (other : err -> list Z) (e : err) : list Z :=
  match e with
  | EInvalidCashAddr _ => text "Invalid CashAddr"
  | EFromHex => text "Invalid hex: " ++ other e
  | EEof => text "IO error: " ++ other e
  | EJson JShape => text "Serde JSON error: " ++ other e
  | EJson JDecodeError => text "JSON error: " ++ text "Decode error: " ++ other e
  | EJson (JInvalidDataIdx i) => text "JSON error: " ++ text "Invalid data_idx: " ++ int_display i
  | EJson (JInvalidStringIdx i) => text "JSON error: " ++ text "Invalid data_idx: " ++ int_display i
  | EJson JInvalidHash => text "JSON error: " ++ text "Invalid hash"
  | EJson (JInvalidInteger i) => text "JSON error: " ++ text "Invalid integer: " ++ integer_error_display i
  | EInvalidSize expected actual => text "Invalid size: expected " ++ int_display expected ++ text ", got " ++ int_display actual
  | EPushTooLarge => text "Script serialize error: " ++ text "Push too large"
  | EInsufficientInputAmount amount => text "Script serialize error: " ++ int_display amount
  | EInvalidSignatureFormat => text "Invalid signature format"
  | EInvalidPubkey => text "Invalid invalid pubkey"
  | EInputAlreadySigned i => text "Input " ++ int_display i ++ text " already spent"
  | EInvalidAddressType => text "Invalid address type"
  | EInvalidSplit i len => text "Byte array error: " ++ text "Index " ++ int_display i ++ text " is out of bounds for array with length " ++ int_display len
  | EInvalidSlice expected actual => text "Byte array error: " ++ text "Invalid slice, expected " ++ int_display expected ++ text " but got " ++ int_display actual ++ text "."
  | EFromInteger i n => text "Byte array error: " ++ text "int=" ++ int_display i ++ text " not valid for n_bytes=" ++ int_display n
  | ELeftover bytes => text "Byte array error: " ++ text "Leftover bytes: " ++ hex_encode bytes
  | EMsg _ | EIntOverflow => other e
  | e => text "Integer error: " ++ integer_error_display e
  end.
