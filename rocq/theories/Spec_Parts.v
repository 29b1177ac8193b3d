(** What a byte array was put together from. *)
From Verif Require Import Base Model_ByteArray Spec_ByteArray.
Local Open Scope Z_scope.
Local Open Scope list_scope.

(** The atomic parts of an array, left to right: concatenations are taken apart, results of functions (hashes,
    signatures, ...) and arrays with no recorded origin are atoms. *)
Fixpoint parts (a : barray) : list barray :=
  match a with
  | BA _ _ FPlain (Some ps) => (fix all (l : list barray) : list barray := match l with [] => [] | p :: r => parts p ++ all r end) ps
  | _ => [a]
  end.

(** Part [p] was cut in two: the pieces have p's bytes, no name and no recorded origin; pieces of a hash (whose
    preimage is recorded) are marked as an unexpected split, pieces of plain data are plain data. *)
Definition cut (p pl pr : barray) : Prop :=
  exists d1 d2 f, pl = BA d1 None f None /\ pr = BA d2 None f None /\ ba_data p = d1 ++ d2 /\ (f = FPlain \/ f = FUnexpectedSplit) /\
    (is_hash (ba_function p) = true -> ba_preimage p <> None -> f = FUnexpectedSplit) /\ (ba_function p = FPlain -> f = FPlain).
