(** Model of the conversions and serde forms of script integers: bitcoin-cash-base/src/integer.rs:170-363, 418-455. *)
From Verif Require Import Base Model_Integer.
Local Open Scope Z_scope.

(** The integer types with a conversion.  [isize]/[usize] are 64-bit. *)
Inductive int_type : Type := I8 | U8 | I16 | U16 | I32 | U32 | I64 | U64 | I128 | U128 | Isize | Usize.

(** Conversion to [IntegerResult] (integer.rs:198-202 i32; 234-256 i8, u8, i16, u16 wrap the value unchecked;
    258-300 the others go through [Integer::new]) *)
Definition iresult_from (t : int_type) (v : Z) : outcome Z :=
  match t with
  | I8 | U8 | I16 | U16 => Ok v
  | _ => integer_new v
  end.
(** [Integer::try_from] (integer.rs:190-196 i32; 302-356; for i8, u8, i16, u16 the [From] impls 210-232, infallible) *)
Definition integer_try_from (t : int_type) (v : Z) : outcome Z :=
  match t with
  | I8 | U8 | I16 | U16 => Ok v
  | _ => integer_new v
  end.
(** integer.rs:182-188 [i32::try_from(IntegerResult)], 135-141 [value], [integer] *)
Definition i32_from_result (r : outcome Z) : outcome Z := r.
(** integer.rs:418-455 serde: an i32; reading checks the range again *)
Definition integer_to_serde (v : Z) : Z := v.
Definition integer_from_serde (v : Z) : outcome Z := integer_new v.
Definition uinteger_to_serde (v : Z) : Z := v.
Definition uinteger_from_serde (v : Z) : outcome Z := uinteger_new v.

(** An operator with a Rust integer on the right: [op] converts it first, after looking at the left side
    (integer.rs:116-126) *)
Definition mixed (op : outcome Z -> outcome Z -> outcome Z) (x : outcome Z) (t : int_type) (v : Z) : outcome Z :=
  op x (iresult_from t v).
(** [==] and [<] with a Rust integer on the right (integer.rs:365-416) *)
Definition mixed_eq (x : outcome Z) (t : int_type) (v : Z) : bool := ires_eq x (iresult_from t v).
Definition mixed_cmp (x : outcome Z) (t : int_type) (v : Z) : option comparison := ires_cmp x (iresult_from t v).
