(** Specification of integer conversions: the ranges of Rust's integer types and what converting must give. *)
From Verif Require Import Base Spec_Integer Model_IntConv.
Local Open Scope Z_scope.

Definition in_type (t : int_type) (v : Z) : Prop :=
  match t with
  | I8 => - 2 ^ 7 <= v < 2 ^ 7 | U8 => 0 <= v < 2 ^ 8
  | I16 => - 2 ^ 15 <= v < 2 ^ 15 | U16 => 0 <= v < 2 ^ 16
  | I32 => - 2 ^ 31 <= v < 2 ^ 31 | U32 => 0 <= v < 2 ^ 32
  | I64 | Isize => - 2 ^ 63 <= v < 2 ^ 63 | U64 | Usize => 0 <= v < 2 ^ 64
  | I128 => - 2 ^ 127 <= v < 2 ^ 127 | U128 => 0 <= v < 2 ^ 128
  end.

(** [converts v r]: a number converts to itself if it is a script integer; otherwise to the error for numbers that fit
    32 bits, fit 128 bits, or do not even fit those. *)
Inductive converts (v : Z) : outcome Z -> Prop :=
| CvOk : script_int v -> converts v (Ok v)
| CvScript : v = - 2 ^ 31 -> converts v (Err (EInvalidScriptInteger v))
| CvCast : ~ - 2 ^ 31 <= v < 2 ^ 31 -> - 2 ^ 127 <= v < 2 ^ 127 -> converts v (Err (ECastOverflow v))
| CvWide : ~ - 2 ^ 127 <= v < 2 ^ 127 -> converts v (Err ECastOverflowI128).
