From Verif Require Import Base BaseLemmas Model_Encoding Spec_Encoding Proofs_Encoding Model_Integer Spec_Integer Spec_IntegerExpr.
From Coq Require Import ZifyBool ZifyNat.
Local Open Scope Z_scope.

Lemma i32_const : - 2 ^ 31 = -2147483648 /\ 2 ^ 31 = 2147483648.
Proof. split; reflexivity. Qed.

Lemma integer_new_ok v : script_int v -> integer_new v = Ok v.
Proof.
  unfold script_int, integer_new, in_i32, MIN_SCRIPT_INTEGER, MAX_SCRIPT_INTEGER.
  change (2 ^ 31) with 2147483648. intros H.
  destruct ((- (2147483648) <=? v) && (v <? 2147483648)) eqn:E; [|lia].
  destruct ((-0x7fffffff <=? v) && (v <=? 0x7fffffff)) eqn:E2; [reflexivity|lia].
Qed.

Lemma integer_new_inv v w : integer_new v = Ok w -> v = w /\ script_int w.
Proof.
  unfold script_int, integer_new, in_i32, MIN_SCRIPT_INTEGER, MAX_SCRIPT_INTEGER.
  change (2 ^ 31) with 2147483648. intros H.
  destruct ((- (2147483648) <=? v) && (v <? 2147483648)) eqn:E.
  - destruct ((-0x7fffffff <=? v) && (v <=? 0x7fffffff)) eqn:E2; [injection H as <-; lia|discriminate].
  - destruct (in_i128 v); discriminate.
Qed.

Lemma integer_new_no_panic v : integer_new v <> Panic.
Proof. unfold integer_new. repeat match goal with |- context[if ?c then _ else _] => destruct c end; discriminate. Qed.

Lemma uinteger_new_spec v : 
  (0 <= v <= 2 ^ 31 - 1 -> uinteger_new v = Ok v) /\
  (forall w, uinteger_new v = Ok w -> v = w /\ 0 <= w <= 2 ^ 31 - 1).
Proof.
  unfold uinteger_new, in_i32, MAX_SCRIPT_INTEGER. change (2 ^ 31) with 2147483648. split.
  - intros H. destruct ((- (2147483648) <=? v) && (v <? 2147483648)) eqn:E; [|lia].
    destruct ((0 <=? v) && (v <=? 0x7fffffff)) eqn:E2; [reflexivity|lia].
  - intros w H. destruct ((- (2147483648) <=? v) && (v <? 2147483648)) eqn:E.
    + destruct ((0 <=? v) && (v <=? 0x7fffffff)) eqn:E2; [injection H as <-; lia|discriminate].
    + destruct (in_i128 v); discriminate.
Qed.

(** A checked operation followed by [Integer::new]. *)
Lemma checked_new v e : 
  (script_int v -> (do r <- checked v e; integer_new r) = Ok v) /\
  (~ script_int v -> (do r <- checked v e; integer_new r) = Err (range_error v e)).
Proof.
  split; intros H.
  - unfold checked, in_i32. unfold script_int in H. 
    destruct ((- 2 ^ 31 <=? v) && (v <? 2 ^ 31)) eqn:E; [cbn [obind]; now apply integer_new_ok|lia].
  - unfold checked, in_i32. unfold script_int in H.
    destruct ((- 2 ^ 31 <=? v) && (v <? 2 ^ 31)) eqn:E; cbn [obind].
    + assert (v = - 2 ^ 31) as -> by (change (2 ^ 31) with 2147483648 in *; lia). vm_compute. reflexivity.
    + unfold range_error. destruct (Z.eqb_spec v (- 2 ^ 31)); [|reflexivity].
      change (2 ^ 31) with 2147483648 in *. lia.
Qed.

Section BinOp.
  Variables (f : Z -> Z -> Z) (e : Z -> Z -> err) .
  Lemma int_op_checked a b : script_int a -> script_int b ->
    (script_int (f a b) -> int_op (Ok a) (Ok b) (fun a b => checked (f a b) (e a b)) = Ok (f a b)) /\
    (~ script_int (f a b) -> int_op (Ok a) (Ok b) (fun a b => checked (f a b) (e a b)) = Err (range_error (f a b) (e a b))).
  Proof. intros _ _. unfold int_op. cbn [obind]. apply checked_new. Qed.
End BinOp.

Lemma quot_range a b : script_int a -> script_int b -> b <> 0 -> script_int (Z.quot a b).
Proof.
  unfold script_int. intros Ha Hb Hz.
  assert (Z.abs (Z.quot a b) <= Z.abs a) as H; [|lia].
  rewrite <- Z.quot_abs by assumption. apply Z.quot_le_upper_bound; [lia|]. nia.
Qed.
Lemma rem_range a b : script_int a -> script_int b -> b <> 0 -> script_int (Z.rem a b).
Proof.
  unfold script_int. intros Ha Hb Hz. pose proof (Z.rem_bound_abs a b Hz). lia.
Qed.

Lemma div_guard a b : script_int a -> (b =? 0) || ((a =? - 2 ^ 31) && (b =? -1)) = (b =? 0).
Proof. unfold script_int. change (2 ^ 31) with 2147483648. intros. lia. Qed.

Lemma int_div_ok a b : script_int a -> script_int b ->
  (b <> 0 -> int_div (Ok a) (Ok b) = Ok (Z.quot a b)) /\
  (b = 0 -> int_div (Ok a) (Ok b) = Err (EDivision a 0)).
Proof.
  intros Ha Hb. unfold int_div, int_op. cbn [obind]. rewrite div_guard by assumption. split; intros Hz.
  - destruct (Z.eqb_spec b 0); [contradiction|]. cbn [obind]. apply integer_new_ok. now apply quot_range.
  - subst b. reflexivity.
Qed.
Lemma int_rem_ok a b : script_int a -> script_int b ->
  (b <> 0 -> int_rem (Ok a) (Ok b) = Ok (Z.rem a b)) /\
  (b = 0 -> int_rem (Ok a) (Ok b) = Err (EModulo a 0)).
Proof.
  intros Ha Hb. unfold int_rem, int_op. cbn [obind]. rewrite div_guard by assumption. split; intros Hz.
  - destruct (Z.eqb_spec b 0); [contradiction|]. cbn [obind]. apply integer_new_ok. now apply rem_range.
  - subst b. reflexivity.
Qed.
Lemma int_neg_ok a : script_int a -> int_neg (Ok a) = Ok (- a).
Proof.
  intros Ha. unfold int_neg, int_unop. cbn [obind]. apply checked_new. unfold script_int in *. lia.
Qed.

Lemma denotes_range e n : denotes e n -> script_int n.
Proof.
  intros H; induction H; auto.
  - now apply quot_range.
  - now apply rem_range.
  - unfold script_int in *. lia.
Qed.

Lemma eval_denotes e n : denotes e n -> eval e = Ok n.
Proof.
  intros H; induction H; cbn [eval]; rewrite ?IHdenotes, ?IHdenotes1, ?IHdenotes2.
  - now apply integer_new_ok.
  - unfold int_add. apply (int_op_checked Z.add EAddOverflow); eauto using denotes_range.
  - unfold int_sub. apply (int_op_checked Z.sub ESubOverflow); eauto using denotes_range.
  - unfold int_mul. apply (int_op_checked Z.mul EMulOverflow); eauto using denotes_range.
  - apply int_div_ok; eauto using denotes_range.
  - apply int_rem_ok; eauto using denotes_range.
  - apply int_neg_ok; eauto using denotes_range.
Qed.

Lemma eval_fails e er : fails e er -> eval e = Err er.
Proof.
  intros H; induction H; cbn [eval];
  repeat match goal with
  | D : denotes _ _ |- _ => rewrite (eval_denotes _ _ D); revert D
  | D : eval _ = _ |- _ => rewrite D; clear D
  end; intros; try reflexivity.
  - unfold integer_new, in_i32, in_i128, script_int, MIN_SCRIPT_INTEGER, MAX_SCRIPT_INTEGER in *.
    change (2 ^ 31) with 2147483648 in *.
    destruct ((- (2147483648) <=? n) && (n <? 2147483648)) eqn:E.
    + destruct ((-0x7fffffff <=? n) && (n <=? 0x7fffffff)) eqn:E2; [lia|reflexivity].
    + destruct ((- 2 ^ 127 <=? n) && (n <? 2 ^ 127)) eqn:E3; [reflexivity|lia].
  - unfold int_add. apply (int_op_checked Z.add EAddOverflow); eauto using denotes_range.
  - unfold int_sub. apply (int_op_checked Z.sub ESubOverflow); eauto using denotes_range.
  - unfold int_mul. apply (int_op_checked Z.mul EMulOverflow); eauto using denotes_range.
Qed.

Lemma script_int_dec n : {script_int n} + {~ script_int n}.
Proof. unfold script_int. destruct (Z_le_dec (- (2 ^ 31 - 1)) n); destruct (Z_le_dec n (2 ^ 31 - 1)); try (left; lia); right; lia. Qed.

Lemma expr_total e : lits_ok e -> (exists n, denotes e n) \/ (exists er, fails e er).
Proof.
  induction e as [n|a IHa b IHb|a IHa b IHb|a IHa b IHb|a IHa b IHb|a IHa b IHb|a IHa]; cbn [lits_ok]; intros H.
  1:{ destruct (script_int_dec n); [left; eexists; now constructor|right; eexists; now constructor]. }
  all: try (destruct H as [Ha Hb]; destruct (IHa Ha) as [[x Hx]|[er Hx]];
    [destruct (IHb Hb) as [[y Hy]|[er Hy]]; [|right; exists er;
       first [eapply FAddR; eassumption|eapply FSubR; eassumption|eapply FMulR; eassumption|eapply FDivR; eassumption|eapply FRemR; eassumption]]
     |right; exists er; first [apply FAddL|apply FSubL|apply FMulL|apply FDivL|apply FRemL]; assumption]).
  - destruct (script_int_dec (x + y)); [left; eexists; constructor; eassumption|right; eexists; eapply FAdd; eassumption].
  - destruct (script_int_dec (x - y)); [left; eexists; constructor; eassumption|right; eexists; eapply FSub; eassumption].
  - destruct (script_int_dec (x * y)); [left; eexists; constructor; eassumption|right; eexists; eapply FMul; eassumption].
  - destruct (Z.eq_dec y 0) as [->|]; [right; eexists; eapply FDiv; eassumption|left; eexists; constructor; eassumption].
  - destruct (Z.eq_dec y 0) as [->|]; [right; eexists; eapply FRem; eassumption|left; eexists; constructor; eassumption].
  - destruct (IHa H) as [[x Hx]|[er Hx]]; [left; eexists; constructor; eassumption|right; eexists; constructor; eassumption].
Qed.

Lemma eval_spec e : lits_ok e ->
  (forall n, eval e = Ok n <-> denotes e n) /\ (forall er, eval e = Err er <-> fails e er) /\ eval e <> Panic.
Proof.
  intros H. destruct (expr_total e H) as [[m Hm]|[er Hm]].
  - pose proof (eval_denotes _ _ Hm) as E. repeat split.
    + rewrite E; intros G; injection G as <-; exact Hm.
    + apply eval_denotes.
    + rewrite E; discriminate.
    + apply eval_fails.
    + rewrite E; discriminate.
  - pose proof (eval_fails _ _ Hm) as E. repeat split.
    + rewrite E; discriminate.
    + apply eval_denotes.
    + rewrite E; intros G; injection G as <-; exact Hm.
    + apply eval_fails.
    + rewrite E; discriminate.
Qed.

(* ---- bit operators ---- *)

Lemma i32_shiftr a : i32_ok a <-> Z.shiftr a 31 = 0 \/ Z.shiftr a 31 = -1.
Proof.
  unfold i32_ok. rewrite Z.shiftr_div_pow2 by lia. change (2 ^ 31) with 2147483648. zdm.
Qed.

Lemma bitop_range (f : Z -> Z -> Z) a b :
  (forall x y n, Z.shiftr (f x y) n = f (Z.shiftr x n) (Z.shiftr y n)) ->
  (forall x y, x = 0 \/ x = -1 -> y = 0 \/ y = -1 -> f x y = 0 \/ f x y = -1) ->
  i32_ok a -> i32_ok b -> i32_ok (f a b).
Proof. intros Hs Hf Ha Hb. apply i32_shiftr. rewrite Hs. apply Hf; now apply i32_shiftr. Qed.

Lemma i32_bits_high a k : i32_ok a -> 31 <= k -> Z.testbit a k = Z.testbit a 31.
Proof.
  intros Ha Hk. apply i32_shiftr in Ha.
  replace k with ((k - 31) + 31) by lia. rewrite <- Z.shiftr_spec by lia.
  transitivity (Z.testbit a (0 + 31)); [|reflexivity]. rewrite <- (Z.shiftr_spec a 31 0) by lia.
  destruct Ha as [-> | ->]; [now rewrite !Z.testbit_0_l|now rewrite !Z.bits_m1 by lia].
Qed.

Lemma i32_bits_inj a b : i32_ok a -> i32_ok b ->
  (forall k, 0 <= k < 32 -> Z.testbit a k = Z.testbit b k) -> a = b.
Proof.
  intros Ha Hb H. apply Z.bits_inj'. intros k Hk.
  destruct (Z_lt_le_dec k 32); [apply H; lia|].
  rewrite (i32_bits_high a k), (i32_bits_high b k) by (auto; lia). apply H. lia.
Qed.

Lemma script_int_i32 a : script_int a -> i32_ok a.
Proof. unfold script_int, i32_ok. lia. Qed.

Lemma new_i32 r : i32_ok r -> integer_new r = if r =? - 2 ^ 31 then Err (EInvalidScriptInteger r) else Ok r.
Proof.
  intros H. destruct (Z.eqb_spec r (- 2 ^ 31)) as [->|]; [vm_compute; reflexivity|].
  apply integer_new_ok. unfold script_int, i32_ok in *. change (2 ^ 31) with 2147483648 in *. lia.
Qed.

Lemma int_bitop_spec (f : Z -> Z -> Z) (g : bool -> bool -> bool) :
  (forall x y n, Z.shiftr (f x y) n = f (Z.shiftr x n) (Z.shiftr y n)) ->
  (forall x y, x = 0 \/ x = -1 -> y = 0 \/ y = -1 -> f x y = 0 \/ f x y = -1) ->
  (forall x y k, Z.testbit (f x y) k = g (Z.testbit x k) (Z.testbit y k)) ->
  forall a b r, script_int a -> script_int b -> i32_ok r ->
  (forall k, 0 <= k < 32 -> Z.testbit r k = g (Z.testbit a k) (Z.testbit b k)) ->
  int_op (Ok a) (Ok b) (fun a b => Ok (f a b)) =
  if r =? - 2 ^ 31 then Err (EInvalidScriptInteger r) else Ok r.
Proof.
  intros Hs Hf Hb a b r Ha Hb' Hr Hk.
  unfold int_op. cbn [obind].
  assert (i32_ok (f a b)) as Hfr by (apply bitop_range; auto using script_int_i32).
  assert (f a b = r) as ->; [|now apply new_i32].
  apply i32_bits_inj; auto. intros k Hk'. rewrite Hb, Hk by assumption. reflexivity.
Qed.

Lemma int_and_spec a b r : script_int a -> script_int b -> i32_ok r ->
  (forall k, 0 <= k < 32 -> Z.testbit r k = Z.testbit a k && Z.testbit b k) ->
  int_and (Ok a) (Ok b) = if r =? - 2 ^ 31 then Err (EInvalidScriptInteger r) else Ok r.
Proof.
  apply (int_bitop_spec Z.land andb); [intros; apply Z.shiftr_land| |intros; apply Z.land_spec].
  intros x y [-> | ->] [-> | ->]; cbn; auto.
Qed.
Lemma int_or_spec a b r : script_int a -> script_int b -> i32_ok r ->
  (forall k, 0 <= k < 32 -> Z.testbit r k = Z.testbit a k || Z.testbit b k) ->
  int_or (Ok a) (Ok b) = if r =? - 2 ^ 31 then Err (EInvalidScriptInteger r) else Ok r.
Proof.
  apply (int_bitop_spec Z.lor orb); [intros; apply Z.shiftr_lor| |intros; apply Z.lor_spec].
  intros x y [-> | ->] [-> | ->]; cbn; auto.
Qed.
Lemma int_xor_spec a b r : script_int a -> script_int b -> i32_ok r ->
  (forall k, 0 <= k < 32 -> Z.testbit r k = xorb (Z.testbit a k) (Z.testbit b k)) ->
  int_xor (Ok a) (Ok b) = if r =? - 2 ^ 31 then Err (EInvalidScriptInteger r) else Ok r.
Proof.
  apply (int_bitop_spec Z.lxor xorb); [intros; apply Z.shiftr_lxor| |intros; apply Z.lxor_spec].
  intros x y [-> | ->] [-> | ->]; cbn; auto.
Qed.

(** A 32-bit word with the required bits always exists, so the hypotheses above are satisfiable. *)
Lemma bitop_exists (f : Z -> Z -> Z) (g : bool -> bool -> bool) a b :
  (forall x y n, Z.shiftr (f x y) n = f (Z.shiftr x n) (Z.shiftr y n)) ->
  (forall x y, x = 0 \/ x = -1 -> y = 0 \/ y = -1 -> f x y = 0 \/ f x y = -1) ->
  (forall x y k, Z.testbit (f x y) k = g (Z.testbit x k) (Z.testbit y k)) ->
  script_int a -> script_int b ->
  exists r, i32_ok r /\ forall k, 0 <= k < 32 -> Z.testbit r k = g (Z.testbit a k) (Z.testbit b k).
Proof.
  intros Hs Hf Hb Ha Hb'. exists (f a b). split; [apply bitop_range; auto using script_int_i32|].
  intros; apply Hb.
Qed.

Lemma int_shl_spec a s r : script_int a -> u32_ok s -> i32_ok r -> (r - a * 2 ^ s) mod 2 ^ 32 = 0 ->
  int_shl (Ok a) s = if 32 <=? s then Err (EShlOverflow a s)
                     else if r =? - 2 ^ 31 then Err (EInvalidScriptInteger r) else Ok r.
Proof.
  intros Ha Hs Hr Hm. unfold int_shl, int_unop, checked_shl32. cbn [obind]. unfold u32_ok in Hs.
  destruct (Z.ltb_spec s 32); destruct (Z.leb_spec 32 s); try lia; [|reflexivity]. cbn [obind].
  rewrite Z.shiftl_mul_pow2 by lia.
  assert (wrap32 (a * 2 ^ s) = r) as ->; [|now apply new_i32].
  unfold wrap32, i32_ok in *. change (2 ^ 31) with 2147483648 in *. change (2 ^ 32) with 4294967296 in *.
  set (x := a * 2 ^ s) in *. zdm.
Qed.

Lemma int_shr_spec a s : script_int a -> u32_ok s ->
  int_shr (Ok a) s = if 32 <=? s then Err (EShrOverflow a s) else Ok (a / 2 ^ s).
Proof.
  intros Ha Hs. unfold int_shr, int_unop. cbn [obind]. unfold u32_ok in Hs.
  destruct (Z.ltb_spec s 32); destruct (Z.leb_spec 32 s); try lia; [|reflexivity]. cbn [obind].
  rewrite Z.shiftr_div_pow2 by lia. apply integer_new_ok. unfold script_int in *.
  assert (0 < 2 ^ s) by (apply Z.pow_pos_nonneg; lia). 
  change (2 ^ 31) with 2147483648 in *.
  split; [apply Z.div_le_lower_bound; [lia|nia]|apply Z.div_le_upper_bound; [lia|nia]].
Qed.

(* ---- NUM2BIN ---- *)
Lemma from_int_neg_n i n : n <= 0 -> from_int i n = Err (EFromInteger i n).
Proof. intros H. unfold from_int. destruct (Z.leb_spec n 0); [reflexivity|lia]. Qed.

Lemma max_num_val n : 1 <= n -> 
  wrap32 (Z.shiftl 1 (Z.min (n * 8 - 1) 31) - 1) = 2 ^ (Z.min (8 * n - 1) 31) - 1.
Proof.
  intros H. rewrite Z.shiftl_mul_pow2 by lia. rewrite Z.mul_1_l.
  replace (n * 8) with (8 * n) by lia. apply wrap32_id. unfold i32_ok.
  assert (2 ^ Z.min (8 * n - 1) 31 <= 2 ^ 31) by (apply Z.pow_le_mono_r; lia).
  assert (0 < 2 ^ Z.min (8 * n - 1) 31) by (apply Z.pow_pos_nonneg; lia). lia.
Qed.

Lemma pow_min_equiv i n : script_int i -> 1 <= n ->
  (Z.abs i <= 2 ^ (Z.min (8 * n - 1) 31) - 1 <-> Z.abs i < 2 ^ (8 * n - 1)).
Proof.
  unfold script_int. intros Hi Hn. destruct (Z.le_gt_cases (8 * n - 1) 31).
  - rewrite Z.min_l by lia. lia.
  - rewrite Z.min_r by lia.
    assert (2 ^ 31 <= 2 ^ (8 * n - 1)) by (apply Z.pow_le_mono_r; lia). lia.
Qed.

Lemma le_value_repeat0 k : le_value (repeat 0 k) = 0.
Proof. induction k; cbn [repeat le_value]; lia. Qed.
Lemma bytes_ok_repeat0 k : bytes_ok (repeat 0 k).
Proof. induction k; cbn [repeat]; constructor; auto. unfold byte_ok; lia. Qed.

Lemma le_bytes_firstn n m v : (n <= m)%nat -> firstn n (le_bytes m v) = le_bytes n v.
Proof.
  revert m v; induction n as [|n IH]; intros m v H; [reflexivity|].
  destruct m as [|m]; [lia|]. cbn [le_bytes firstn]. f_equal. apply IH. lia.
Qed.

(** Bytes of the magnitude, padded or cut to n bytes. *)
Definition magbytes (a : Z) (n : nat) : list Z :=
  if Nat.ltb 4 n then le_bytes 4 a ++ repeat 0 (n - 4)
  else if Nat.ltb n 4 then firstn n (le_bytes 4 a) else le_bytes 4 a.

Lemma magbytes_spec a n : (1 <= n)%nat -> 0 <= a < 2 ^ 31 -> a < 2 ^ (8 * Z.of_nat n - 1) ->
  bytes_ok (magbytes a n) /\ length (magbytes a n) = n /\ le_value (magbytes a n) = a.
Proof.
  intros Hn Ha Hb. unfold magbytes.
  destruct (Nat.ltb_spec 4 n).
  - split; [apply bytes_ok_app; split; [apply le_bytes_ok|apply bytes_ok_repeat0]|].
    split; [rewrite app_length, le_bytes_length, repeat_length; lia|].
    rewrite le_value_app, le_value_repeat0, le_value_bytes_small; [lia|].
    change (2 ^ (8 * Z.of_nat 4)) with (2 * 2 ^ 31). lia.
  - destruct (Nat.ltb_spec n 4).
    + rewrite le_bytes_firstn by lia. split; [apply le_bytes_ok|]. split; [apply le_bytes_length|].
      apply le_value_bytes_small. split; [lia|].
      assert (2 ^ (8 * Z.of_nat n - 1) <= 2 ^ (8 * Z.of_nat n)) by (apply Z.pow_le_mono_r; lia). lia.
    + assert (n = 4%nat) as -> by lia. split; [apply le_bytes_ok|]. split; [apply le_bytes_length|].
      apply le_value_bytes_small. change (2 ^ (8 * Z.of_nat 4)) with (2 * 2 ^ 31). lia.
Qed.

Lemma from_int_unfold i n : script_int i -> 1 <= n < 2 ^ 28 ->
  from_int i n =
  if Z.abs i <? 2 ^ (8 * n - 1) then
    let bytes := magbytes (Z.abs i) (Z.to_nat n) in
    if i <? 0 then Ok (upd bytes (length bytes - 1) (Z.lor (nth (length bytes - 1) bytes 0) 0x80))
    else Ok bytes
  else Err (EFromInteger i n).
Proof.
  intros Hi Hn. unfold from_int. destruct (Z.leb_spec n 0); [lia|].
  change (2 ^ 28) with 268435456 in Hn.
  rewrite i32_checked_id by (unfold i32_ok; change (2 ^ 31) with 2147483648; lia). cbn [obind].
  rewrite i32_checked_id by (unfold i32_ok; change (2 ^ 31) with 2147483648; lia). cbn [obind].
  cbv zeta. rewrite max_num_val by lia.
  assert (2 ^ Z.min (8 * n - 1) 31 <= 2 ^ 31) by (apply Z.pow_le_mono_r; lia).
  assert (0 < 2 ^ Z.min (8 * n - 1) 31) by (apply Z.pow_pos_nonneg; lia).
  rewrite i32_checked_id by (unfold i32_ok; lia). cbn [obind].
  pose proof (pow_min_equiv i n Hi ltac:(lia)) as PE.
  destruct ((i <? - (2 ^ Z.min (8 * n - 1) 31 - 1)) || (2 ^ Z.min (8 * n - 1) 31 - 1 <? i)) eqn:E.
  - destruct (Z.ltb_spec (Z.abs i) (2 ^ (8 * n - 1))); [exfalso; lia|reflexivity].
  - destruct (Z.ltb_spec (Z.abs i) (2 ^ (8 * n - 1))); [|exfalso; lia].
    rewrite i32_checked_id by (unfold i32_ok, script_int in *; lia). cbn [obind].
    rewrite le_bytes_length. reflexivity.
Qed.

Lemma upd_snoc {A} (i : list A) b x : upd (i ++ [b]) (length (i ++ [b]) - 1) x = i ++ [x].
Proof. rewrite app_length. cbn [length]. replace (length i + 1 - 1)%nat with (length i) by lia. apply upd_app_mid. Qed.

Lemma from_int_spec i n : script_int i -> 1 <= n < 2 ^ 28 ->
  (Z.abs i < 2 ^ (8 * n - 1) ->
     exists bs, from_int i n = Ok bs /\ zlen bs = n /\ bytes_ok bs /\ script_num bs = i) /\
  (~ Z.abs i < 2 ^ (8 * n - 1) -> from_int i n = Err (EFromInteger i n)).
Proof.
  intros Hi Hn. rewrite from_int_unfold by assumption.
  destruct (Z.ltb_spec (Z.abs i) (2 ^ (8 * n - 1))) as [Hf|Hf]; (split; [|intros G]); try lia; [|intros; reflexivity].
  intros _. cbv zeta.
  destruct (magbytes_spec (Z.abs i) (Z.to_nat n)) as (A & B & C).
  { lia. } { unfold script_int in Hi. lia. } { rewrite Z2Nat.id by lia. assumption. }
  destruct (list_snoc (magbytes (Z.abs i) (Z.to_nat n))) as [E|(m & b & E)].
  { rewrite E in B. cbn in B. lia. }
  rewrite E in *. apply bytes_ok_app in A. destruct A as [A1 A2]. apply bytes_ok_cons in A2. destruct A2 as [A2 _].
  assert (zlen m = n - 1) as Hm by (unfold zlen; rewrite app_length in B; cbn in B; lia).
  rewrite le_value_app in C. cbn [le_value] in C. pose proof (le_value_bound m A1) as Bm.
  assert (b < 128) as Hb.
  { rewrite Hm in *. replace (8 * n - 1) with (8 * (n - 1) + 7) in Hf by lia.
    rewrite Z.pow_add_r in Hf by lia. change (2 ^ 7) with 128 in Hf.
    assert (0 < 2 ^ (8 * (n - 1))) by (apply Z.pow_pos_nonneg; lia). nia. }
  destruct (Z.ltb_spec i 0).
  - rewrite nth_snoc, upd_snoc, lor80 by assumption.
    exists (m ++ [b + 128]). split; [reflexivity|].
    assert (byte_ok (b + 128)) by (unfold byte_ok in *; lia).
    split; [rewrite zlen_app; change (zlen [b + 128]) with 1; lia|].
    split; [apply bytes_ok_app; split; [assumption|apply bytes_ok_cons; split; [assumption|constructor]]|].
    rewrite script_num_snoc by assumption. unfold byte_ok in *. destruct (Z.ltb_spec (b + 128) 128); lia.
  - exists (m ++ [b]). split; [reflexivity|].
    split; [rewrite zlen_app; change (zlen [b]) with 1; lia|].
    split; [apply bytes_ok_app; split; [assumption|apply bytes_ok_cons; split; [assumption|constructor]]|].
    rewrite script_num_snoc by assumption. destruct (Z.ltb_spec b 128); lia.
Qed.

Lemma from_int_panic i n : 2 ^ 28 <= n < 2 ^ 31 -> from_int i n = Panic.
Proof.
  change (2 ^ 28) with 268435456. change (2 ^ 31) with 2147483648. intros H. unfold from_int.
  destruct (Z.leb_spec n 0); [lia|]. unfold i32_checked at 1. change (2 ^ 31) with 2147483648.
  destruct ((- (2147483648) <=? n * 8) && (n * 8 <? 2147483648)) eqn:E; [lia|reflexivity].
Qed.
