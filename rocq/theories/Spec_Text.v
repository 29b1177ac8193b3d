(** Independent specification of the displayed texts: decimal numerals, hexadecimal texts, words separated by spaces. *)
From Verif Require Import Base Model_ByteArray Model_Opcode Model_Script Model_Address Spec_Hash Spec_Script.
Local Open Scope string_scope.
Local Open Scope list_scope.
Local Open Scope Z_scope.

(** [numeral n s]: [s] writes [n] in decimal without leading zeros. *)
Inductive numeral : Z -> list Z -> Prop :=
| NumDigit d : 0 <= d <= 9 -> numeral d [48 + d]
| NumMore n d s : 0 < n -> 0 <= d <= 9 -> numeral n s -> numeral (10 * n + d) (s ++ [48 + d]).
Definition decimal (v : Z) (s : list Z) : Prop :=
  (0 <= v /\ numeral v s) \/ (v < 0 /\ exists d, s = text "-" ++ d /\ numeral (- v) d).
(** Lower-case hexadecimal. *)
Definition hex_of (d s : list Z) : Prop := hex_text s d /\ Forall lower_hex s.

(** Ops whose text is meaningful: bytes are bytes and no defined opcode is disguised as invalid. *)
Definition printable (o : op) : Prop :=
  match o with OInvalid b => 0xbe <= b <= 0xff | OPushArray a _ => bytes_ok (ba_data a) | _ => True end.
(** The word for an op. *)
Inductive op_text : op -> list Z -> Prop :=
| TCode c : op_text (OCode c) (text (opcode_name c))
| TInvalid b s : hex_of [b] s -> op_text (OInvalid b) s
| TArray a m s : hex_of (ba_data a) s -> op_text (OPushArray a m) (text "0x" ++ s)
| TTrue : op_text (OPushBool true) (text "OP_TRUE")
| TFalse : op_text (OPushBool false) (text "OP_FALSE")
| TInt i s : decimal i s -> op_text (OPushInt i) s.
(** A script's text: the words of its ops, each followed by a space; no word contains a space. *)
Definition word (w : list Z) : Prop := w <> [] /\ Forall (fun c => c <> 32) w.
Definition script_text (ops : list op) (s : list Z) : Prop :=
  exists words, Forall2 op_text ops words /\ Forall word words /\ s = concat (map (fun w => w ++ [32]) words).

(** The same op up to the names attached to byte arrays ([same_op] of Spec_Script.v) and the way an array is pushed. *)
Definition same_instr (o o' : op) : Prop :=
  match o, o' with
  | OPushArray a _, OPushArray a' _ => ba_data a = ba_data a'
  | _, _ => o = o'
  end.

(** The errors of integer arithmetic, and the expression each one should show *)
Definition integer_error (e : err) : Prop :=
  match e with
  | EAddOverflow _ _ | ESubOverflow _ _ | EMulOverflow _ _ | EDivision _ _ | EModulo _ _ | EShlOverflow _ _ | EShrOverflow _ _
  | ENegOverflow _ | EInvalidScriptInteger _ | ECastOverflow _ | ECastOverflowI128 => True
  | _ => False
  end.
Definition integer_result (r : outcome Z) : Prop := match r with Ok _ => True | Err e => integer_error e | Panic => False end.
Definition operation (e : err) : option (Z * list Z * Z) :=
  match e with
  | EAddOverflow a b => Some (a, text "+", b) | ESubOverflow a b => Some (a, text "-", b) | EMulOverflow a b => Some (a, text "*", b)
  | EDivision a b => Some (a, text "/", b) | EModulo a b => Some (a, text "%", b)
  | EShlOverflow a b => Some (a, text "<<", b) | EShrOverflow a b => Some (a, text ">>", b)
  | _ => None
  end.
(** The text ends with the failed operation: [a op b]. *)
Definition shows_operation (e : err) (s : list Z) : Prop :=
  forall a o b, operation e = Some (a, o, b) ->
    exists before sa sb, decimal a sa /\ decimal b sb /\ s = before ++ text " " ++ sa ++ text " " ++ o ++ text " " ++ sb.
Definition wrong_sign (e : err) : Prop := match e with ESubOverflow _ _ | EMulOverflow _ _ | EShrOverflow _ _ => True | _ => False end.
