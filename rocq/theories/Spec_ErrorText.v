(** What the message of an error should tell. *)
From Verif Require Import Base Model_ByteArray Model_Opcode Model_Script Model_Address Spec_Hash Spec_Text.
Local Open Scope string_scope.
Local Open Scope list_scope.
Local Open Scope Z_scope.

(** Errors defined by the library itself: everything but input/output, hexadecimal, base64 and serde_json errors and free-form messages. *)
Definition own_error (e : err) : Prop :=
  match e with
  | EFromHex | EEof | EMsg _ | EIntOverflow | EJson JShape | EJson JDecodeError => False
  | EJson (JInvalidInteger i) => integer_error i
  | ELeftover bytes => bytes_ok bytes
  | _ => True
  end.
(** The numbers an error carries. *)
Definition integer_payload (e : err) : list Z :=
  match e with
  | EAddOverflow a b | ESubOverflow a b | EMulOverflow a b | EDivision a b | EModulo a b | EShlOverflow a b | EShrOverflow a b => [a; b]
  | ENegOverflow a | EInvalidScriptInteger a | ECastOverflow a => [a]
  | _ => []
  end.
Definition cash_addr_payload (e : cash_addr_err) : list Z :=
  match e with AInvalidChecksum => [] | AInvalidBase32Letter i l => [i; l] | AInvalidAddressType v => [v] end.
Definition payload (e : err) : list Z :=
  match e with
  | EInvalidSplit a b | EInvalidSlice a b | EFromInteger a b | EInvalidSize a b => [a; b]
  | EInsufficientInputAmount a | EInputAlreadySigned a => [a]
  | EJson (JInvalidDataIdx i) | EJson (JInvalidStringIdx i) => [i]
  | EJson (JInvalidInteger i) => integer_payload i
  | EInvalidCashAddr c => cash_addr_payload c
  | _ => integer_payload e
  end.
(** The number [v] stands in the text, not as a part of a longer number. *)
Definition digit (c : Z) : Prop := 48 <= c <= 57.
Definition shows_number (v : Z) (s : list Z) : Prop :=
  exists before d after, s = before ++ d ++ after /\ decimal v d /\
    (forall c r, before = r ++ [c] -> ~ digit c) /\ (forall c r, after = c :: r -> ~ digit c).
(** Errors that share one message. *)
Definition same_message (e e' : err) : Prop :=
  e = e' \/ (exists c c', e = EInvalidCashAddr c /\ e' = EInvalidCashAddr c') \/
  exists i, (e = EJson (JInvalidDataIdx i) /\ e' = EJson (JInvalidStringIdx i)) \/ (e = EJson (JInvalidStringIdx i) /\ e' = EJson (JInvalidDataIdx i)).
(** [s] starts with [p]. *)
Definition starts (p s : list Z) : Prop := exists r, s = p ++ r.
(** Debugging texts of ops. *)
Inductive debug_text : op -> list Z -> Prop :=
| DCode c : debug_text (OCode c) (text "Code(" ++ text (opcode_name c) ++ text ")")
| DInvalid b s : hex_of [b] s -> debug_text (OInvalid b) (text "Invalid(0x" ++ s ++ text ")")
| DArray a (m : bool) s : hex_of (ba_data a) s ->
    debug_text (OPushArray a m) (text "PushByteArray{array: hex!(""" ++ s ++ text """).to_vec(), is_minimal: " ++ text (if m then "true" else "false") ++ text "})")
| DBool (b : bool) : debug_text (OPushBool b) (text "PushBoolean(" ++ text (if b then "true" else "false") ++ text ")")
| DInt i s : decimal i s -> debug_text (OPushInt i) (text "PushInteger(" ++ s ++ text ")").
(** How often a character stands in a text. *)
Fixpoint count (c : Z) (l : list Z) : Z := match l with [] => 0 | x :: r => (if x =? c then 1 else 0) + count c r end.
