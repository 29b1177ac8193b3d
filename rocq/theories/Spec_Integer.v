(** Specification of script-integer expressions: mathematical values, range +-(2^31-1). *)
From Verif Require Import Base.
Local Open Scope Z_scope.

Definition script_int (n : Z) : Prop := - (2 ^ 31 - 1) <= n <= 2 ^ 31 - 1.

Inductive expr : Type :=
| ELit (n : Z)
| EAdd (a b : expr) | ESub (a b : expr) | EMul (a b : expr)
| EDiv (a b : expr) | ERem (a b : expr) | ENeg (a : expr).

(** [denotes e n]: every sub-expression has a value in range, and [n] is the value of [e]. *)
Inductive denotes : expr -> Z -> Prop :=
| DLit n : script_int n -> denotes (ELit n) n
| DAdd a b x y : denotes a x -> denotes b y -> script_int (x + y) -> denotes (EAdd a b) (x + y)
| DSub a b x y : denotes a x -> denotes b y -> script_int (x - y) -> denotes (ESub a b) (x - y)
| DMul a b x y : denotes a x -> denotes b y -> script_int (x * y) -> denotes (EMul a b) (x * y)
| DDiv a b x y : denotes a x -> denotes b y -> y <> 0 -> denotes (EDiv a b) (Z.quot x y)
| DRem a b x y : denotes a x -> denotes b y -> y <> 0 -> denotes (ERem a b) (Z.rem x y)
| DNeg a x : denotes a x -> denotes (ENeg a) (- x).

(** Error raised for an out-of-range mathematical result [r]: [e] if it does not even fit 32 bits,
    otherwise (only -2^31) "invalid script integer". *)
Definition range_error (r : Z) (e : err) : err :=
  if r =? - 2 ^ 31 then EInvalidScriptInteger r else e.

(** [fails e er]: evaluation stops with error [er], the first one in evaluation order. *)
Inductive fails : expr -> err -> Prop :=
| FLit n : ~ script_int n -> - 2 ^ 127 <= n < 2 ^ 127 -> fails (ELit n)
    (if (- 2 ^ 31 <=? n) && (n <? 2 ^ 31) then EInvalidScriptInteger n else ECastOverflow n)
| FAddL a b er : fails a er -> fails (EAdd a b) er
| FAddR a b x er : denotes a x -> fails b er -> fails (EAdd a b) er
| FAdd a b x y : denotes a x -> denotes b y -> ~ script_int (x + y) ->
    fails (EAdd a b) (range_error (x + y) (EAddOverflow x y))
| FSubL a b er : fails a er -> fails (ESub a b) er
| FSubR a b x er : denotes a x -> fails b er -> fails (ESub a b) er
| FSub a b x y : denotes a x -> denotes b y -> ~ script_int (x - y) ->
    fails (ESub a b) (range_error (x - y) (ESubOverflow x y))
| FMulL a b er : fails a er -> fails (EMul a b) er
| FMulR a b x er : denotes a x -> fails b er -> fails (EMul a b) er
| FMul a b x y : denotes a x -> denotes b y -> ~ script_int (x * y) ->
    fails (EMul a b) (range_error (x * y) (EMulOverflow x y))
| FDivL a b er : fails a er -> fails (EDiv a b) er
| FDivR a b x er : denotes a x -> fails b er -> fails (EDiv a b) er
| FDiv a b x : denotes a x -> denotes b 0 -> fails (EDiv a b) (EDivision x 0)
| FRemL a b er : fails a er -> fails (ERem a b) er
| FRemR a b x er : denotes a x -> fails b er -> fails (ERem a b) er
| FRem a b x : denotes a x -> denotes b 0 -> fails (ERem a b) (EModulo x 0)
| FNegA a er : fails a er -> fails (ENeg a) er.

(** Literals fit Rust's widest integer type i128. *)
Fixpoint lits_ok (e : expr) : Prop :=
  match e with
  | ELit n => - 2 ^ 127 <= n < 2 ^ 127
  | EAdd a b | ESub a b | EMul a b | EDiv a b | ERem a b => lits_ok a /\ lits_ok b
  | ENeg a => lits_ok a
  end.
