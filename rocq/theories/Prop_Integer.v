(** Properties C04, C05, C06, C07: script integers. *)
From Verif Require Import Base Model_Encoding Spec_Encoding Model_Integer Spec_Integer Spec_IntegerExpr Proofs_Encoding Proofs_Integer.
Local Open Scope Z_scope.

(** C04: construction admits exactly +-(2^31-1). *)
Theorem C04_integer_new : forall v,
  (script_int v -> integer_new v = Ok v) /\
  (forall w, integer_new v = Ok w -> v = w /\ script_int w) /\
  integer_new v <> Panic.
Proof. exact (fun v => conj (integer_new_ok v) (conj (integer_new_inv v) (integer_new_no_panic v))). Qed.
Print Assumptions C04_integer_new.

Theorem C04_uinteger_new : forall v,
  (0 <= v <= 2 ^ 31 - 1 -> uinteger_new v = Ok v) /\
  (forall w, uinteger_new v = Ok w -> v = w /\ 0 <= w <= 2 ^ 31 - 1).
Proof. exact uinteger_new_spec. Qed.
Print Assumptions C04_uinteger_new.

Theorem C04_add_exact_or_error : forall a b, script_int a -> script_int b ->
  (script_int (a + b) -> int_add (Ok a) (Ok b) = Ok (a + b)) /\
  (~ script_int (a + b) -> int_add (Ok a) (Ok b) = Err (range_error (a + b) (EAddOverflow a b))).
Proof. exact (int_op_checked Z.add EAddOverflow). Qed.
Print Assumptions C04_add_exact_or_error.

Theorem C04_sub_exact_or_error : forall a b, script_int a -> script_int b ->
  (script_int (a - b) -> int_sub (Ok a) (Ok b) = Ok (a - b)) /\
  (~ script_int (a - b) -> int_sub (Ok a) (Ok b) = Err (range_error (a - b) (ESubOverflow a b))).
Proof. exact (int_op_checked Z.sub ESubOverflow). Qed.
Print Assumptions C04_sub_exact_or_error.

Theorem C04_mul_exact_or_error : forall a b, script_int a -> script_int b ->
  (script_int (a * b) -> int_mul (Ok a) (Ok b) = Ok (a * b)) /\
  (~ script_int (a * b) -> int_mul (Ok a) (Ok b) = Err (range_error (a * b) (EMulOverflow a b))).
Proof. exact (int_op_checked Z.mul EMulOverflow). Qed.
Print Assumptions C04_mul_exact_or_error.

Theorem C04_div_exact_or_error : forall a b, script_int a -> script_int b ->
  (b <> 0 -> int_div (Ok a) (Ok b) = Ok (Z.quot a b)) /\
  (b = 0 -> int_div (Ok a) (Ok b) = Err (EDivision a 0)).
Proof. exact int_div_ok. Qed.
Print Assumptions C04_div_exact_or_error.

Theorem C04_rem_exact_or_error : forall a b, script_int a -> script_int b ->
  (b <> 0 -> int_rem (Ok a) (Ok b) = Ok (Z.rem a b)) /\
  (b = 0 -> int_rem (Ok a) (Ok b) = Err (EModulo a 0)).
Proof. exact int_rem_ok. Qed.
Print Assumptions C04_rem_exact_or_error.

Theorem C04_neg_exact : forall a, script_int a ->
  int_neg (Ok a) = Ok (- a) /\ integer_neg a = - a /\ script_int (integer_neg a).
Proof.
  exact (fun a H => conj (int_neg_ok a H) (conj eq_refl
    (denotes_range (ENeg (ELit a)) (- a) (DNeg _ _ (DLit a H))))).
Qed.
Print Assumptions C04_neg_exact.

Example C04_nonvacuous : script_int (2 ^ 31 - 1) /\ ~ script_int (- 2 ^ 31) /\
  int_add (Ok 0x7fffffff) (Ok 1) = Err (EAddOverflow 0x7fffffff 1) /\
  int_sub (Ok (-0x7fffffff)) (Ok 1) = Err (EInvalidScriptInteger (- 2 ^ 31)) /\
  int_div (Ok (-7)) (Ok 2) = Ok (-3) /\ int_rem (Ok (-7)) (Ok 2) = Ok (-1).
Proof. unfold script_int. repeat split; try lia; vm_compute; auto. Qed.

(** C05: evaluation of an arbitrary expression tree: the value exactly when every sub-result is in
    range, otherwise exactly the first error, never a panic. *)
Theorem C05_expression_evaluation : forall e, lits_ok e ->
  (forall n, eval e = Ok n <-> denotes e n) /\
  (forall er, eval e = Err er <-> fails e er) /\
  eval e <> Panic.
Proof. exact eval_spec. Qed.
Print Assumptions C05_expression_evaluation.

Theorem C05_results_in_range : forall e n, denotes e n -> script_int n.
Proof. exact denotes_range. Qed.
Print Assumptions C05_results_in_range.

(** C05: comparisons. *)
Theorem C05_comparison : forall x y,
  (ires_eq x y = true <-> exists a, x = Ok a /\ y = Ok a) /\
  (forall c, ires_cmp x y = Some c <-> exists a b, x = Ok a /\ y = Ok b /\ Z.compare a b = c).
Proof.
  intros x y; split; [split|intros c; split].
  - destruct x as [a| |]; destruct y as [b| |]; cbn; try discriminate.
    intros H. apply Z.eqb_eq in H. subst. eauto.
  - intros (a & -> & ->). apply Z.eqb_refl.
  - destruct x as [a| |]; destruct y as [b| |]; cbn; try discriminate. intros H. injection H as H. eauto.
  - intros (a & b & -> & -> & H). cbn. now rewrite H.
Qed.
Print Assumptions C05_comparison.

Theorem C05_error_not_equal_to_itself : forall e x, ires_eq (Err e) x = false /\ ires_cmp (Err e) x = None
  /\ ires_eq x (Err e) = false /\ ires_cmp x (Err e) = None.
Proof. intros e x. destruct x; repeat split. Qed.
Print Assumptions C05_error_not_equal_to_itself.

Example C05_nonvacuous :
  let e := EAdd (EMul (ELit 65536) (ELit 32768)) (EDiv (ELit 1) (ELit 0)) in
  lits_ok e /\ eval e = Err (EMulOverflow 65536 32768) /\
  eval (ESub (ENeg (ELit 7)) (EDiv (ELit 100) (ELit 7))) = Ok (-21) /\
  denotes (ESub (ELit 3) (ELit 5)) (-2).
Proof.
  cbv zeta. split; [cbn; lia|]. split; [vm_compute; reflexivity|]. split; [vm_compute; reflexivity|].
  apply (DSub (ELit 3) (ELit 5) 3 5); [constructor| constructor|]; unfold script_int; lia.
Qed.

(** C06: bitwise operators: [r] is the 32-bit word with the expected bits. *)
Theorem C06_and : forall a b r, script_int a -> script_int b -> i32_ok r ->
  (forall k, 0 <= k < 32 -> Z.testbit r k = Z.testbit a k && Z.testbit b k) ->
  int_and (Ok a) (Ok b) = if r =? - 2 ^ 31 then Err (EInvalidScriptInteger r) else Ok r.
Proof. exact int_and_spec. Qed.
Print Assumptions C06_and.
Theorem C06_or : forall a b r, script_int a -> script_int b -> i32_ok r ->
  (forall k, 0 <= k < 32 -> Z.testbit r k = Z.testbit a k || Z.testbit b k) ->
  int_or (Ok a) (Ok b) = if r =? - 2 ^ 31 then Err (EInvalidScriptInteger r) else Ok r.
Proof. exact int_or_spec. Qed.
Print Assumptions C06_or.
Theorem C06_xor : forall a b r, script_int a -> script_int b -> i32_ok r ->
  (forall k, 0 <= k < 32 -> Z.testbit r k = xorb (Z.testbit a k) (Z.testbit b k)) ->
  int_xor (Ok a) (Ok b) = if r =? - 2 ^ 31 then Err (EInvalidScriptInteger r) else Ok r.
Proof. exact int_xor_spec. Qed.
Print Assumptions C06_xor.

(** C06: left shift is modulo 2^32 (two's complement), right shift is the floor division. *)
Theorem C06_shl : forall a s r, script_int a -> u32_ok s -> i32_ok r -> (r - a * 2 ^ s) mod 2 ^ 32 = 0 ->
  int_shl (Ok a) s = if 32 <=? s then Err (EShlOverflow a s)
                     else if r =? - 2 ^ 31 then Err (EInvalidScriptInteger r) else Ok r.
Proof. exact int_shl_spec. Qed.
Print Assumptions C06_shl.
Theorem C06_shr : forall a s, script_int a -> u32_ok s ->
  int_shr (Ok a) s = if 32 <=? s then Err (EShrOverflow a s) else Ok (a / 2 ^ s).
Proof. exact int_shr_spec. Qed.
Print Assumptions C06_shr.

(** C06: left shift is not exact-or-error. *)
Theorem C06_shl_exact_or_error_refuted : exists a s v, script_int a /\ u32_ok s /\
  int_shl (Ok a) s = Ok v /\ v <> a * 2 ^ s.
Proof.
  exists 0x10000001, 4, 16. unfold script_int, u32_ok. repeat split; try lia; vm_compute; try reflexivity; discriminate.
Qed.
Print Assumptions C06_shl_exact_or_error_refuted.

Example C06_nonvacuous :
  int_and (Ok (-0x7fffffff)) (Ok (-2)) = Err (EInvalidScriptInteger (- 2 ^ 31)) /\
  int_xor (Ok 5) (Ok 3) = Ok 6 /\ int_shr (Ok (-5)) 1 = Ok (-3) /\ int_shl (Ok 3) 30 = Ok (- 2 ^ 30) /\
  (- 2 ^ 30 - 3 * 2 ^ 30) mod 2 ^ 32 = 0 /\ i32_ok (- 2 ^ 30) /\
  (forall k, 0 <= k < 32 -> Z.testbit 6 k = xorb (Z.testbit 5 k) (Z.testbit 3 k)).
Proof.
  split; [vm_compute; reflexivity|]. split; [vm_compute; reflexivity|]. split; [vm_compute; reflexivity|].
  split; [vm_compute; reflexivity|]. split; [vm_compute; reflexivity|]. split; [unfold i32_ok; lia|].
  intros k Hk. change 6 with (Z.lxor 5 3). apply Z.lxor_spec.
Qed.

(** C07: NUM2BIN. *)
Theorem C07_num2bin : forall i n, script_int i -> 1 <= n < 2 ^ 28 ->
  (Z.abs i < 2 ^ (8 * n - 1) ->
     exists bs, from_int i n = Ok bs /\ zlen bs = n /\ bytes_ok bs /\ script_num bs = i) /\
  (~ Z.abs i < 2 ^ (8 * n - 1) -> from_int i n = Err (EFromInteger i n)).
Proof. exact from_int_spec. Qed.
Print Assumptions C07_num2bin.

Theorem C07_num2bin_nonpositive_length : forall i n, n <= 0 -> from_int i n = Err (EFromInteger i n).
Proof. exact from_int_neg_n. Qed.
Print Assumptions C07_num2bin_nonpositive_length.

(** C07: for lengths of 2^28 and more the length computation overflows i32 and panics. *)
Theorem C07_num2bin_no_panic_refuted : forall i n, 2 ^ 28 <= n < 2 ^ 31 -> from_int i n = Panic.
Proof. exact from_int_panic. Qed.
Print Assumptions C07_num2bin_no_panic_refuted.

Example C07_nonvacuous : from_int (-255) 2 = Ok [0xff; 0x80] /\ from_int 5 6 = Ok [5; 0; 0; 0; 0; 0] /\
  from_int 128 1 = Err (EFromInteger 128 1) /\ from_int (-127) 1 = Ok [0xff].
Proof. vm_compute. auto. Qed.
