(* The unit tests of bitcoin-cash-base/src/integer.rs (717-1009), transcribed and run on the model.
   These are checks of the model's fidelity, not proofs of any property. *)
From Coq Require Import ZArith List Bool.
From Verif Require Import Base Model_Integer.
Import ListNotations.
Open Scope Z_scope.

(* Result<Integer, IntegerError> compared with assert_eq (derived PartialEq) *)
Definition same_err (a b : err) : bool :=
  match a, b with
  | EInvalidScriptInteger x, EInvalidScriptInteger y => x =? y
  | ECastOverflow x, ECastOverflow y => x =? y
  | EAddOverflow x y, EAddOverflow x' y' | ESubOverflow x y, ESubOverflow x' y' | EMulOverflow x y, EMulOverflow x' y'
  | EDivision x y, EDivision x' y' | EModulo x y, EModulo x' y'
  | EShlOverflow x y, EShlOverflow x' y' | EShrOverflow x y, EShrOverflow x' y' => (x =? x') && (y =? y')
  | _, _ => false
  end.
Definition same_result (a b : outcome Z) : bool :=
  match a, b with Ok x, Ok y => x =? y | Err x, Err y => same_err x y | _, _ => false end.
(* the operators Rust derives from PartialOrd::partial_cmp *)
Definition ires_lt (a b : outcome Z) : bool := match ires_cmp a b with Some Lt => true | _ => false end.
Definition ires_gt (a b : outcome Z) : bool := match ires_cmp a b with Some Gt => true | _ => false end.
Definition ires_le (a b : outcome Z) : bool := match ires_cmp a b with Some Lt | Some Eq => true | _ => false end.
Definition ires_ge (a b : outcome Z) : bool := match ires_cmp a b with Some Gt | Some Eq => true | _ => false end.

Example integer_test_new : forallb (fun b : bool => b) [
  same_result (integer_new (0)) (Ok (0));
  same_result (integer_new (0)) (Ok (0));
  same_result (integer_new (MIN_SCRIPT_INTEGER)) (Ok (MIN_SCRIPT_INTEGER));
  same_result (integer_new (MAX_SCRIPT_INTEGER)) (Ok (MAX_SCRIPT_INTEGER));
  same_result (integer_new (-0x80000000)) (Err (EInvalidScriptInteger (-0x80000000)));
  same_result (integer_new (0x100000000000)) (Err (ECastOverflow (0x100000000000))) ] = true.
Proof. vm_compute. reflexivity. Qed.

Example integer_test_eq : forallb (fun b : bool => b) [
  ires_eq (integer_new (0)) (integer_new (0));
  ires_eq (integer_new (1)) (integer_new (1));
  ires_eq (integer_new (0)) (integer_new (0));
  ires_eq (integer_new (1)) (integer_new (1));
  ires_eq (integer_new (0)) (integer_new (0));
  ires_eq (integer_new (1)) (integer_new (1));
  same_result (integer_new (MAX_SCRIPT_INTEGER)) (integer_new (MAX_SCRIPT_INTEGER));
  same_result (integer_new (MIN_SCRIPT_INTEGER)) (integer_new (MIN_SCRIPT_INTEGER));
  ires_eq (integer_new (MAX_SCRIPT_INTEGER)) (integer_new (MAX_SCRIPT_INTEGER));
  ires_eq (integer_new (MIN_SCRIPT_INTEGER)) (integer_new (MIN_SCRIPT_INTEGER)) ] = true.
Proof. vm_compute. reflexivity. Qed.

Example integer_test_ne : forallb (fun b : bool => b) [
  negb (same_result (integer_new (0)) (integer_new (1)));
  negb (same_result (integer_new (1)) (integer_new (0)));
  negb (ires_eq (integer_new (0)) (integer_new (1)));
  negb (ires_eq (integer_new (1)) (integer_new (0)));
  negb (ires_eq (integer_new (0)) (integer_new (1)));
  negb (ires_eq (integer_new (1)) (integer_new (0)));
  negb (ires_eq (integer_new (-0x80000000)) (integer_new (-0x80000000)));
  negb (ires_eq (integer_new (-0x80000000)) (integer_new (-0x80000000)));
  negb (ires_eq (integer_new (-0x80000000)) (integer_new (0)));
  negb (ires_eq (integer_new (-0x80000000)) (integer_new (1)));
  negb (ires_eq (integer_new (-0x80000000)) (integer_new (0)));
  negb (ires_eq (integer_new (0x100000000000)) (integer_new (0)));
  negb (ires_eq (integer_new (0x100000000000)) (integer_new (0)));
  negb (ires_eq (integer_new (0x100000000000)) (integer_new (-0x80000000)));
  negb (ires_eq (integer_new (0x100000000000)) (integer_new (0x100000000000))) ] = true.
Proof. vm_compute. reflexivity. Qed.

Example integer_test_ord : forallb (fun b : bool => b) [
  ires_lt (integer_new (0)) (integer_new (1));
  ires_lt (integer_new (0)) (integer_new (1));
  ires_lt (integer_new (0)) (integer_new (1));
  ires_le (integer_new (0)) (integer_new (1));
  ires_le (integer_new (0)) (integer_new (1));
  ires_le (integer_new (0)) (integer_new (1));
  ires_gt (integer_new (1)) (integer_new (0));
  ires_gt (integer_new (1)) (integer_new (0));
  ires_gt (integer_new (1)) (integer_new (0));
  ires_ge (integer_new (1)) (integer_new (0));
  ires_ge (integer_new (1)) (integer_new (0));
  ires_ge (integer_new (1)) (integer_new (0));
  ires_ge (integer_new (MIN_SCRIPT_INTEGER)) (integer_new (MIN_SCRIPT_INTEGER));
  ires_ge (integer_new (MIN_SCRIPT_INTEGER)) (integer_new (MIN_SCRIPT_INTEGER));
  ires_gt (integer_new (MIN_SCRIPT_INTEGER + 1)) (integer_new (MIN_SCRIPT_INTEGER));
  negb (ires_lt (integer_new (-0x80000000)) (integer_new (0)));
  negb (ires_lt (integer_new (-0x80000000)) (integer_new (0)));
  negb (ires_le (integer_new (-0x80000000)) (integer_new (0)));
  negb (ires_le (integer_new (-0x80000000)) (integer_new (0)));
  negb (ires_gt (integer_new (-0x80000000)) (integer_new (0)));
  negb (ires_gt (integer_new (-0x80000000)) (integer_new (0)));
  negb (ires_ge (integer_new (-0x80000000)) (integer_new (0)));
  negb (ires_ge (integer_new (-0x80000000)) (integer_new (0)));
  negb (ires_lt (integer_new (0)) (integer_new (-0x80000000)));
  negb (ires_lt (integer_new (0)) (integer_new (-0x80000000)));
  negb (ires_le (integer_new (0)) (integer_new (-0x80000000)));
  negb (ires_le (integer_new (0)) (integer_new (-0x80000000)));
  negb (ires_gt (integer_new (0)) (integer_new (-0x80000000)));
  negb (ires_gt (integer_new (0)) (integer_new (-0x80000000)));
  negb (ires_ge (integer_new (0)) (integer_new (-0x80000000)));
  negb (ires_ge (integer_new (0)) (integer_new (-0x80000000))) ] = true.
Proof. vm_compute. reflexivity. Qed.

Example integer_test_add : forallb (fun b : bool => b) [
  ires_eq (int_add (integer_new (0)) (integer_new (1))) (integer_new (1));
  ires_eq (int_add (integer_new (0)) (integer_new (1))) (integer_new (1));
  ires_eq (int_add (integer_new (1000)) (integer_new (2000))) (integer_new (3000));
  ires_eq (int_add (integer_new (1000)) (integer_new (2000))) (integer_new (3000));
  ires_eq (int_add (integer_new (MIN_SCRIPT_INTEGER)) (integer_new (MAX_SCRIPT_INTEGER))) (integer_new (0));
  ires_eq (int_add (integer_new (MIN_SCRIPT_INTEGER)) (integer_new (MAX_SCRIPT_INTEGER))) (integer_new (0));
  ires_eq (int_add (integer_new (MAX_SCRIPT_INTEGER)) (integer_new (MIN_SCRIPT_INTEGER))) (integer_new (0));
  ires_eq (int_add (integer_new (MAX_SCRIPT_INTEGER)) (integer_new (MIN_SCRIPT_INTEGER))) (integer_new (0));
  same_result (int_add (integer_new (MIN_SCRIPT_INTEGER)) (integer_new ((-1)))) (Err (EInvalidScriptInteger (-0x80000000)));
  same_result (int_add (integer_new (MIN_SCRIPT_INTEGER)) (integer_new ((-2)))) (Err (EAddOverflow (MIN_SCRIPT_INTEGER) (-2))) ] = true.
Proof. vm_compute. reflexivity. Qed.

Example integer_test_sub : forallb (fun b : bool => b) [
  ires_eq (int_sub (integer_new (0)) (integer_new (1))) (integer_new (-1));
  ires_eq (int_sub (integer_new (0)) (integer_new (1))) (integer_new (-1));
  ires_eq (int_sub (integer_new (1000)) (integer_new (2000))) (integer_new (-1000));
  ires_eq (int_sub (integer_new (1000)) (integer_new (2000))) (integer_new (-1000));
  ires_eq (int_sub (integer_new (MAX_SCRIPT_INTEGER)) (integer_new (MAX_SCRIPT_INTEGER))) (integer_new (0));
  ires_eq (int_sub (integer_new (MIN_SCRIPT_INTEGER)) (integer_new (MIN_SCRIPT_INTEGER))) (integer_new (0));
  ires_eq (int_sub (integer_new (MIN_SCRIPT_INTEGER)) (integer_new (MIN_SCRIPT_INTEGER))) (integer_new (0));
  ires_eq (int_sub (integer_new (MIN_SCRIPT_INTEGER)) (integer_new (MIN_SCRIPT_INTEGER))) (integer_new (0));
  same_result (int_sub (integer_new (MIN_SCRIPT_INTEGER)) (integer_new (1))) (Err (EInvalidScriptInteger (-0x80000000)));
  same_result (int_sub (integer_new (MIN_SCRIPT_INTEGER)) (integer_new (2))) (Err (ESubOverflow (MIN_SCRIPT_INTEGER) (2))) ] = true.
Proof. vm_compute. reflexivity. Qed.

Example integer_test_div : forallb (fun b : bool => b) [
  ires_eq (int_div (integer_new (7)) (integer_new (3))) (integer_new (2));
  ires_eq (int_div (integer_new (7)) (integer_new (3))) (integer_new (2));
  ires_eq (int_div (integer_new (2000)) (integer_new (1000))) (integer_new (2));
  ires_eq (int_div (integer_new (2000)) (integer_new (1000))) (integer_new (2));
  ires_eq (int_div (integer_new (MAX_SCRIPT_INTEGER)) (integer_new (MAX_SCRIPT_INTEGER))) (integer_new (1));
  ires_eq (int_div (integer_new (MIN_SCRIPT_INTEGER)) (integer_new (MAX_SCRIPT_INTEGER))) (integer_new (-1));
  ires_eq (int_div (integer_new (MAX_SCRIPT_INTEGER)) (integer_new (MIN_SCRIPT_INTEGER))) (integer_new (-1));
  ires_eq (int_div (integer_new (MIN_SCRIPT_INTEGER)) (integer_new (MIN_SCRIPT_INTEGER))) (integer_new (1));
  same_result (int_div (integer_new (MIN_SCRIPT_INTEGER)) (integer_new (0))) (Err (EDivision (MIN_SCRIPT_INTEGER) (0))) ] = true.
Proof. vm_compute. reflexivity. Qed.

Example integer_test_rem : forallb (fun b : bool => b) [
  ires_eq (int_rem (integer_new (7)) (integer_new (3))) (integer_new (1));
  ires_eq (int_rem (integer_new (7)) (integer_new (3))) (integer_new (1));
  ires_eq (int_rem (integer_new (2000)) (integer_new (1000))) (integer_new (0));
  ires_eq (int_rem (integer_new (2000)) (integer_new (1000))) (integer_new (0));
  ires_eq (int_rem (integer_new (MAX_SCRIPT_INTEGER)) (integer_new (MAX_SCRIPT_INTEGER))) (integer_new (0));
  ires_eq (int_rem (integer_new (MIN_SCRIPT_INTEGER)) (integer_new (MAX_SCRIPT_INTEGER))) (integer_new (0));
  ires_eq (int_rem (integer_new (MAX_SCRIPT_INTEGER)) (integer_new (MIN_SCRIPT_INTEGER))) (integer_new (0));
  ires_eq (int_rem (integer_new (MIN_SCRIPT_INTEGER)) (integer_new (MIN_SCRIPT_INTEGER))) (integer_new (0));
  same_result (int_rem (integer_new (MIN_SCRIPT_INTEGER)) (integer_new (0))) (Err (EModulo (MIN_SCRIPT_INTEGER) (0))) ] = true.
Proof. vm_compute. reflexivity. Qed.

Example integer_test_mul : forallb (fun b : bool => b) [
  ires_eq (int_mul (integer_new (7)) (integer_new (3))) (integer_new (21));
  ires_eq (int_mul (integer_new (7)) (integer_new (3))) (integer_new (21));
  ires_eq (int_mul (integer_new (2000)) (integer_new (1000))) (integer_new (2000000));
  ires_eq (int_mul (integer_new (2000)) (integer_new (1000))) (integer_new (2000000));
  ires_eq (int_mul (integer_new (MAX_SCRIPT_INTEGER)) (integer_new (1))) (integer_new (MAX_SCRIPT_INTEGER));
  ires_eq (int_mul (integer_new (MIN_SCRIPT_INTEGER)) (integer_new (1))) (integer_new (MIN_SCRIPT_INTEGER));
  same_result (int_mul (integer_new (MAX_SCRIPT_INTEGER)) (integer_new (2))) (Err (EMulOverflow (MAX_SCRIPT_INTEGER) (2)));
  same_result (int_mul (integer_new (-0x8000)) (integer_new (0x10000))) (Err (EInvalidScriptInteger (-0x80000000)));
  same_result (int_mul (integer_new (0x8000)) (integer_new (0x10000))) (Err (EMulOverflow (0x8000) (0x10000))) ] = true.
Proof. vm_compute. reflexivity. Qed.

Example integer_test_shr : forallb (fun b : bool => b) [
  ires_eq (int_shr (integer_new (0x700)) (4)) (integer_new (0x70));
  ires_eq (int_shr (integer_new (0x2000)) (10)) (integer_new (8));
  ires_eq (int_shr (integer_new (MAX_SCRIPT_INTEGER)) (8)) (integer_new (0x007fffff));
  ires_eq (int_shr (integer_new (MIN_SCRIPT_INTEGER)) (8)) (integer_new (-0x00800000));
  ires_eq (int_shr (integer_new (MAX_SCRIPT_INTEGER)) (31)) (integer_new (0));
  same_result (int_shr (integer_new (MAX_SCRIPT_INTEGER)) (32)) (Err (EShrOverflow (MAX_SCRIPT_INTEGER) (32))) ] = true.
Proof. vm_compute. reflexivity. Qed.

Example integer_test_shl : forallb (fun b : bool => b) [
  ires_eq (int_shl (integer_new (0x700)) (4)) (integer_new (0x7000));
  ires_eq (int_shl (integer_new (0x2000)) (8)) (integer_new (0x200000));
  ires_eq (int_shl (integer_new (MAX_SCRIPT_INTEGER)) (8)) (integer_new (-0x100));
  ires_eq (int_shl (integer_new (MIN_SCRIPT_INTEGER)) (8)) (integer_new (0x100));
  ires_eq (int_shl (integer_new (MAX_SCRIPT_INTEGER)) (30)) (integer_new (-0x40000000));
  same_result (int_shl (integer_new (MAX_SCRIPT_INTEGER)) (31)) (Err (EInvalidScriptInteger (-0x80000000)));
  same_result (int_shl (integer_new (MAX_SCRIPT_INTEGER)) (32)) (Err (EShlOverflow (MAX_SCRIPT_INTEGER) (32))) ] = true.
Proof. vm_compute. reflexivity. Qed.

