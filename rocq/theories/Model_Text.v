(** Model of the texts values are displayed as: op.rs:20-47, script.rs:340-347, opcode.rs:2425-2430 (and its derived Debug),
    integer.rs:11-45 and 156-169, byte_array.rs:604-608, pubkey.rs:36-46, hash.rs:88-138, SlpTxType (slp lib.rs:191-195).
    Texts are lists of character codes. *)
From Verif Require Import Base Model_ByteArray Model_Opcode Model_Script Model_Address Model_Hash.
Local Open Scope string_scope.
Local Open Scope list_scope.
Local Open Scope Z_scope.

(** [Display] of Rust's integer types: the decimal digits (the last one first in the loop), with a minus sign *)
Fixpoint digits_loop (fuel : nat) (n : Z) (acc : list Z) : list Z :=
  let acc := 48 + n mod 10 :: acc in
  if n <? 10 then acc else match fuel with O => acc | S f => digits_loop f (n / 10) acc end.
Definition digits (n : Z) : list Z := digits_loop (Z.to_nat (Z.log2 n)) n [].
Definition int_display (v : Z) : list Z := if v <? 0 then 45 :: digits (- v) else digits v.
(** [{:02x}] of a byte *)
Definition byte_display (b : Z) : list Z := [hex_digit (b / 16); hex_digit (b mod 16)].
(** [Display] and [Debug] of [bool] *)
Definition bool_display (b : bool) : list Z := if b then text "true" else text "false".

(** opcode.rs:2425-2430 [Display for Opcode] (strum's name of the variant) and the derived [Debug] *)
Definition opcode_display (c : opcode) : list Z := text (opcode_name c).
(** byte_array.rs:604-608, pubkey.rs:42-46 *)
Definition array_display (a : barray) : list Z := hex_encode (ba_data a).
Definition pubkey_display (pk : list Z) : list Z := hex_encode pk.
(** pubkey.rs:36-40; hash.rs:88-112 (name is that of the type) *)
Definition pubkey_debug (pk : list Z) : list Z := text "Pubkey(" ++ hex_encode pk ++ text ")".
Definition hash_debug (name : string) (h : barray) : list Z := text name ++ text "(" ++ hash_to_hex_le h ++ text ")".

(** op.rs:20-32 [Display for Op] *)
Definition op_display (o : op) : list Z :=
  match o with
  | OCode c => opcode_display c
  | OInvalid b => byte_display b
  | OPushArray a _ => text "0x" ++ hex_encode (ba_data a)
  | OPushBool b => if b then text "OP_TRUE" else text "OP_FALSE"
  | OPushInt i => int_display i
  end.
(** op.rs:34-47 [Debug for Op]; [{:?}] of the hex text puts it in double quotes (there is nothing to escape) *)
Definition quote : list Z := [34].
Definition op_debug (o : op) : list Z :=
  match o with
  | OCode c => text "Code(" ++ opcode_display c ++ text ")"
  | OInvalid b => text "Invalid(0x" ++ byte_display b ++ text ")"
  | OPushArray a m =>
    text "PushByteArray{array: hex!(" ++ quote ++ hex_encode (ba_data a) ++ quote ++ text ").to_vec(), is_minimal: " ++ bool_display m ++ text "})"
  | OPushBool b => text "PushBoolean(" ++ bool_display b ++ text ")"
  | OPushInt i => text "PushInteger(" ++ int_display i ++ text ")"
  end.
(** script.rs:340-347 [Display for Script]: every op's text followed by a space *)
Definition script_display (s : script) : list Z := flat_map (fun t => op_display (t_op t) ++ text " ") s.

(** integer.rs:11-45: the messages of IntegerError *)
Definition integer_error_display (e : err) : list Z :=
  match e with
  | EAddOverflow a b => text "Addition overflowed: " ++ int_display a ++ text " + " ++ int_display b
  | ESubOverflow a b => text "Subtraction overflowed: " ++ int_display a ++ text " + " ++ int_display b
  | EMulOverflow a b => text "Multiplication overflowed: " ++ int_display a ++ text " / " ++ int_display b
  | EDivision a b => text "Division error: " ++ int_display a ++ text " / " ++ int_display b
  | EModulo a b => text "Modulo error: " ++ int_display a ++ text " % " ++ int_display b
  | EShlOverflow a b => text "Left shift overflow: " ++ int_display a ++ text " << " ++ int_display b
  | EShrOverflow a b => text "Right shift overflow: " ++ int_display a ++ text " << " ++ int_display b
  | ENegOverflow a => text "Negation overflowed: -" ++ int_display a
  | EInvalidScriptInteger a => text "Invalid script integer: " ++ int_display a
  | ECastOverflow a => text "Cast overflowed: " ++ int_display a
  | ECastOverflowI128 => text "Cast overflowed i128"
  | _ => []                                      (* not an IntegerError *)
  end.
(** integer.rs:162-169 [Display for IntegerResult]; never [Panic] *)
Definition ires_display (r : outcome Z) : list Z :=
  match r with
  | Ok v => int_display v
  | Err e => text "(integer error: " ++ integer_error_display e ++ text ")"
  | Panic => []
  end.
