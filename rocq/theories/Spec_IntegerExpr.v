(** Evaluation of an integer expression with the library's operators, as a user's program does it (C05):
    every sub-expression is a result, and the operators are applied to results. *)
From Verif Require Import Base Model_Integer Spec_Integer.
Local Open Scope Z_scope.

Fixpoint eval (e : expr) : outcome Z :=
  match e with
  | ELit n => integer_new n
  | EAdd a b => int_add (eval a) (eval b)
  | ESub a b => int_sub (eval a) (eval b)
  | EMul a b => int_mul (eval a) (eval b)
  | EDiv a b => int_div (eval a) (eval b)
  | ERem a b => int_rem (eval a) (eval b)
  | ENeg a => int_neg (eval a)
  end.
