(** Independent specification of var-ints and script numbers.
    Uses only [le_value] (value of little-endian bytes) and [zlen]. *)
From Verif Require Import Base.
Local Open Scope Z_scope.

(** The four wire forms of a "compact size" integer (Bitcoin protocol documentation). *)
Inductive is_varint (n : Z) : list Z -> Prop :=
| VI1 : 0 <= n <= 252 -> is_varint n [n]
| VI3 : forall bs, bytes_ok bs -> length bs = 2%nat -> le_value bs = n -> is_varint n (253 :: bs)
| VI5 : forall bs, bytes_ok bs -> length bs = 4%nat -> le_value bs = n -> is_varint n (254 :: bs)
| VI9 : forall bs, bytes_ok bs -> length bs = 8%nat -> le_value bs = n -> is_varint n (255 :: bs).

(** Number denoted by a byte vector in Script: little-endian magnitude, the top bit of
    the last byte is the sign. *)
Definition script_num (l : list Z) : Z :=
  match l with
  | [] => 0
  | _ => let half := 2 ^ (8 * zlen l - 1) in
         if le_value l <? half then le_value l else - (le_value l - half)
  end.

(** Consensus minimality (BIP62 rule 4): either empty, or the last byte has a bit other than
    the sign bit, or the byte before it has its top bit set. *)
Definition minimal_num (l : list Z) : Prop :=
  l = [] \/ exists i last, l = i ++ [last] /\
    (last mod 128 <> 0 \/ exists j p, i = j ++ [p] /\ 128 <= p).
