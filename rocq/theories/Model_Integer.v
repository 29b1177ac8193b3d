(** Model of bitcoin-cash-base/src/integer.rs and ByteArray::from_int (byte_array.rs:425-457).
    [IntegerResult] (integer.rs:53) is an [outcome Z] that is never [Panic]. *)
From Verif Require Import Base Model_Encoding.
Local Open Scope Z_scope.

(** integer.rs:7-8 *)
Definition MIN_SCRIPT_INTEGER : Z := -0x7fffffff.
Definition MAX_SCRIPT_INTEGER : Z := 0x7fffffff.

Definition in_i32 (v : Z) : bool := (- 2 ^ 31 <=? v) && (v <? 2 ^ 31).
Definition in_i128 (v : Z) : bool := (- 2 ^ 127 <=? v) && (v <? 2 ^ 127).

(** integer.rs:58-74 [Integer::new]: [v] is the mathematical value of the argument of any
    Rust integer type; [try_into::<i32>] succeeds iff it is in range. *)
Definition integer_new (v : Z) : outcome Z :=
  if in_i32 v then
    if (MIN_SCRIPT_INTEGER <=? v) && (v <=? MAX_SCRIPT_INTEGER) then Ok v
    else Err (EInvalidScriptInteger v)
  else if in_i128 v then Err (ECastOverflow v) else Err ECastOverflowI128.

(** integer.rs:84-100 [UInteger::new] *)
Definition uinteger_new (v : Z) : outcome Z :=
  if in_i32 v then
    if (0 <=? v) && (v <=? MAX_SCRIPT_INTEGER) then Ok v
    else Err (EInvalidScriptInteger v)
  else if in_i128 v then Err (ECastOverflow v) else Err ECastOverflowI128.

(** integer.rs:116-126 [IntegerResult::op] *)
Definition int_op (self other : outcome Z) (op : Z -> Z -> outcome Z) : outcome Z :=
  do a <- self; do b <- other; do r <- op a b; integer_new r.

(** integer.rs:128-133 [IntegerResult::unop] *)
Definition int_unop (self : outcome Z) (op : Z -> outcome Z) : outcome Z :=
  do a <- self; do r <- op a; integer_new r.

(** [i32::checked_*(..).ok_or(e)] for a mathematical result [v] *)
Definition checked (v : Z) (e : err) : outcome Z := if in_i32 v then Ok v else Err e.

(** integer.rs:463-475 Add, 639-651 Sub, 587-599 Mul *)
Definition int_add x y := int_op x y (fun a b => checked (a + b) (EAddOverflow a b)).
Definition int_sub x y := int_op x y (fun a b => checked (a - b) (ESubOverflow a b)).
Definition int_mul x y := int_op x y (fun a b => checked (a * b) (EMulOverflow a b)).
(** integer.rs:561-573 Div, 613-625 Rem: [checked_div]/[checked_rem] are None for a zero divisor
    and for i32::MIN / -1. Rust division truncates: [Z.quot]/[Z.rem]. *)
Definition int_div x y := int_op x y (fun a b =>
  if (b =? 0) || ((a =? - 2 ^ 31) && (b =? -1)) then Err (EDivision a b) else Ok (Z.quot a b)).
Definition int_rem x y := int_op x y (fun a b =>
  if (b =? 0) || ((a =? - 2 ^ 31) && (b =? -1)) then Err (EModulo a b) else Ok (Z.rem a b)).
(** integer.rs:665-671 Neg for IntegerResult *)
Definition int_neg x := int_unop x (fun a => checked (- a) (ENegOverflow a)).
(** integer.rs:673-679 Neg for Integer: unchecked [-self.0] *)
Definition integer_neg (a : Z) : Z := - a.
(** integer.rs:489-, 513-, 537- bit operators (two's complement = [Z] bit operations) *)
Definition int_and x y := int_op x y (fun a b => Ok (Z.land a b)).
Definition int_or x y := int_op x y (fun a b => Ok (Z.lor a b)).
Definition int_xor x y := int_op x y (fun a b => Ok (Z.lxor a b)).
(** integer.rs:681-711 Shl, Shr (by a u32 amount): only the amount is checked *)
Definition int_shl x s := int_unop x (fun a =>
  match checked_shl32 a s with Some v => Ok v | None => Err (EShlOverflow a s) end).
Definition int_shr x s := int_unop x (fun a =>
  if s <? 32 then Ok (Z.shiftr a s) else Err (EShrOverflow a s)).

(** integer.rs:365-386 PartialEq for IntegerResult, 394-416 PartialOrd *)
Definition ires_eq (x y : outcome Z) : bool :=
  match x, y with Ok a, Ok b => a =? b | _, _ => false end.
Definition ires_cmp (x y : outcome Z) : option comparison :=
  match x, y with Ok a, Ok b => Some (a ?= b) | _, _ => None end.

(** byte_array.rs:425-457 [ByteArray::from_int] (data bytes only; name None, function Num2Bin,
    no preimage).  [inner_n_bytes * 8 - 1] is i32 arithmetic (debug overflow = Panic). *)
Definition from_int (int n_bytes : Z) : outcome (list Z) :=
  if n_bytes <=? 0 then Err (EFromInteger int n_bytes)
  else
    do p <- i32_checked (n_bytes * 8);
    do q <- i32_checked (p - 1);
    let max_bits := Z.min q 31 in
    let max_num := wrap32 (Z.shiftl 1 max_bits - 1) in
    do min_num <- i32_checked (- max_num);
    if (int <? min_num) || (max_num <? int) then Err (EFromInteger int n_bytes)
    else
      do a <- i32_checked (Z.abs int);
      let bytes := le_bytes 4 a in
      let n := Z.to_nat n_bytes in
      let bytes := if Nat.ltb (length bytes) n then bytes ++ repeat 0 (n - length bytes)
                   else if Nat.ltb n (length bytes) then firstn n bytes else bytes in
      if int <? 0 then
        Ok (upd bytes (length bytes - 1) (Z.lor (nth (length bytes - 1) bytes 0) 0x80))
      else Ok bytes.
