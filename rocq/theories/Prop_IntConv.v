(** Property C48: conversions between Rust integers and script integers. *)
From Verif Require Import Base Model_Encoding Model_Integer Spec_Integer Proofs_Integer Model_IntConv Spec_IntConv.
From Coq Require Import ZifyBool.
Local Open Scope Z_scope.

Lemma new_converts v : converts v (integer_new v).
Proof.
  unfold integer_new, in_i32, in_i128, MIN_SCRIPT_INTEGER, MAX_SCRIPT_INTEGER.
  destruct ((- 2 ^ 31 <=? v) && (v <? 2 ^ 31)) eqn:E.
  - destruct ((-0x7fffffff <=? v) && (v <=? 0x7fffffff)) eqn:E2.
    + apply CvOk. unfold script_int. lia.
    + apply CvScript. lia.
  - destruct ((- 2 ^ 127 <=? v) && (v <? 2 ^ 127)) eqn:E2; [apply CvCast|apply CvWide]; lia.
Qed.
Lemma converts_fun v r r' : converts v r -> converts v r' -> r = r'.
Proof. intros H H'. inversion H; inversion H'; subst; unfold script_int in *; try reflexivity; try congruence; exfalso; lia. Qed.
Lemma small_script v : - 2 ^ 16 <= v <= 2 ^ 16 -> script_int v.
Proof. unfold script_int. lia. Qed.

(** C48: from any Rust integer type, both conversions give the number itself exactly if it is a script integer, and
    otherwise the error that says which range was left; they never panic. *)
Theorem C48_conversions : forall t v, in_type t v ->
  (forall r, iresult_from t v = r <-> converts v r) /\ (forall r, integer_try_from t v = r <-> converts v r).
Proof.
  intros t v H. assert (converts v (iresult_from t v)) as K.
  { destruct t; cbn [iresult_from in_type] in *; try apply new_converts; apply CvOk, small_script; lia. }
  assert (integer_try_from t v = iresult_from t v) as E by (destruct t; reflexivity).
  rewrite E. split; intros r; (split; [intros <-; exact K|intros K'; eapply converts_fun; eauto]).
Qed.
Print Assumptions C48_conversions.

(** C48: types of at most 16 bits always convert. *)
Theorem C48_small_types : forall t v, In t [I8; U8; I16; U16] -> in_type t v -> integer_try_from t v = Ok v /\ iresult_from t v = Ok v.
Proof. intros t v [<-|[<-|[<-|[<-|[]]]]] _; split; reflexivity. Qed.
Print Assumptions C48_small_types.

(** C48: and back: a script integer is an i32, unchanged. *)
Theorem C48_back : forall t v n, in_type t v -> iresult_from t v = Ok n -> n = v /\ i32_from_result (Ok n) = Ok v /\ in_type I32 n.
Proof.
  intros t v n H E. apply (C48_conversions t v H) in E. inversion E; subst. split; [reflexivity|]. split; [reflexivity|]. unfold script_int in *. cbn [in_type]. lia.
Qed.
Print Assumptions C48_back.

(** C48: arithmetic, equality and ordering with a Rust integer on the right are those with the converted number; if the
    number does not convert, the result is its conversion error, and nothing equals or compares to it. *)
Theorem C48_mixed_add_sub_mul : forall a t v, script_int a -> in_type t v -> script_int v ->
  (script_int (a + v) -> mixed int_add (Ok a) t v = Ok (a + v)) /\ (~ script_int (a + v) -> exists e, mixed int_add (Ok a) t v = Err e) /\
  (script_int (a - v) -> mixed int_sub (Ok a) t v = Ok (a - v)) /\ (~ script_int (a - v) -> exists e, mixed int_sub (Ok a) t v = Err e) /\
  (script_int (a * v) -> mixed int_mul (Ok a) t v = Ok (a * v)) /\ (~ script_int (a * v) -> exists e, mixed int_mul (Ok a) t v = Err e).
Proof.
  intros a t v Ha Hv Hs. assert (iresult_from t v = Ok v) as E by (apply (C48_conversions t v Hv); now constructor). unfold mixed. rewrite E.
  destruct (int_op_checked Z.add EAddOverflow a v Ha Hs) as [A1 A2]. destruct (int_op_checked Z.sub ESubOverflow a v Ha Hs) as [B1 B2]. destruct (int_op_checked Z.mul EMulOverflow a v Ha Hs) as [C1 C2].
  split; [exact A1|]. split; [intros H; eexists; exact (A2 H)|]. split; [exact B1|]. split; [intros H; eexists; exact (B2 H)|]. split; [exact C1|]. intros H; eexists; exact (C2 H).
Qed.
Print Assumptions C48_mixed_add_sub_mul.
Theorem C48_mixed_errors : forall op t v x e, In op [int_add; int_sub; int_mul; int_div; int_rem; int_and; int_or; int_xor] ->
  in_type t v -> ~ script_int v -> converts v (Err e) ->
  mixed op x t v = match x with Ok _ => Err e | _ => x end /\ mixed_eq x t v = false /\ mixed_cmp x t v = None.
Proof.
  intros op t v x e Ho Hv Hs He. assert (iresult_from t v = Err e) as E by (apply (C48_conversions t v Hv); exact He). unfold mixed, mixed_eq, mixed_cmp. rewrite E.
  split; [|destruct x; split; reflexivity]. cbn in Ho. repeat (destruct Ho as [<-|Ho]; [destruct x; reflexivity|]). destruct Ho.
Qed.
Print Assumptions C48_mixed_errors.
Theorem C48_mixed_comparison : forall a t v, script_int a -> in_type t v -> script_int v ->
  (mixed_eq (Ok a) t v = true <-> a = v) /\ mixed_cmp (Ok a) t v = Some (Z.compare a v).
Proof.
  intros a t v Ha Hv Hs. assert (iresult_from t v = Ok v) as E by (apply (C48_conversions t v Hv); now constructor). unfold mixed_eq, mixed_cmp. rewrite E. cbn. split; [apply Z.eqb_eq|reflexivity].
Qed.
Print Assumptions C48_mixed_comparison.

(** C48: serde: written as the number; exactly the script integers (the non-negative ones for UInteger) are readable,
    as themselves; other i32 values are errors, not panics. *)
Theorem C48_serde : forall v, in_type I32 v ->
  (script_int v -> integer_from_serde (integer_to_serde v) = Ok v) /\
  (forall w, integer_from_serde v = Ok w <-> w = v /\ script_int v) /\
  (0 <= v -> uinteger_from_serde (uinteger_to_serde v) = Ok v) /\
  (forall w, uinteger_from_serde v = Ok w <-> w = v /\ 0 <= v) /\
  integer_from_serde v <> Panic /\ uinteger_from_serde v <> Panic.
Proof.
  intros v Hv. cbn [in_type] in Hv. unfold integer_from_serde, integer_to_serde, uinteger_from_serde, uinteger_to_serde. destruct (uinteger_new_spec v) as [U1 U2].
  split; [apply integer_new_ok|]. split.
  { intros w. split; [intros H; apply integer_new_inv in H; destruct H as [-> H]; auto|intros [-> H]; now apply integer_new_ok]. }
  split; [intros H; apply U1; lia|]. split.
  { intros w. split; [intros H; apply U2 in H; destruct H as [<- H]; lia|intros [-> H]; apply U1; lia]. }
  split; [apply integer_new_no_panic|]. unfold uinteger_new. repeat match goal with |- context[if ?c then _ else _] => destruct c end; discriminate.
Qed.
Print Assumptions C48_serde.

Example C48_nonvacuous : in_type U128 (2 ^ 127) /\ iresult_from U128 (2 ^ 127) = Err ECastOverflowI128 /\
  in_type I32 (- 2 ^ 31) /\ integer_try_from I32 (- 2 ^ 31) = Err (EInvalidScriptInteger (- 2 ^ 31)) /\
  in_type U32 (2 ^ 31) /\ integer_try_from U32 (2 ^ 31) = Err (ECastOverflow (2 ^ 31)) /\
  mixed int_add (Ok 5) U8 200 = Ok 205 /\ mixed int_mul (Ok 70000) U16 65535 = Err (EMulOverflow 70000 65535) /\
  mixed int_add (Err (EDivision 1 0)) U64 (2 ^ 40) = Err (EDivision 1 0) /\ mixed_cmp (Ok 5) I8 (-3) = Some Gt /\
  uinteger_from_serde (-1) = Err (EInvalidScriptInteger (-1)).
Proof. unfold in_type. repeat split; try lia; vm_compute; reflexivity. Qed.
