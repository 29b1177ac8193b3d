(** What equality, order and hashing of values are for. *)
From Verif Require Import Base Model_ByteArray Model_Opcode Model_Script Model_Code Spec_Script Spec_Code Spec_Serde.
Local Open Scope Z_scope.

(** The same op up to the provenance of a pushed array and its minimality flag. *)
Definition equal_op (o o' : op) : Prop :=
  same_op o o' \/ exists a b m, o = OPushArray a m /\ o' = OPushArray b (negb m) /\ ba_data a = ba_data b.
(** Two scripts are equal when their ops are, one by one; source positions and item names do not count. *)
Definition equal_script (s s' : script) : Prop := Forall2 (fun t t' => equal_op (t_op t) (t_op t')) s s'.

Definition equivalence {A} (eqb : A -> A -> bool) : Prop :=
  (forall a, eqb a a = true) /\ (forall a b, eqb a b = eqb b a) /\
  (forall a b c, eqb a b = true -> eqb b c = true -> eqb a c = true).

(** A total order on [A] whose ties are exactly the pairs [same]. *)
Definition total_order {A} (cmp : A -> A -> comparison) (same : A -> A -> Prop) : Prop :=
  (forall a b, cmp a b = Eq <-> same a b) /\ (forall a b, cmp b a = CompOpp (cmp a b)) /\
  (forall a b c, cmp a b = Lt -> cmp b c = Lt -> cmp a c = Lt).

(** The wire form of a value of type [A], read, written and read again, gives an equal value. *)
Definition rereads_equal {A} (c : codec A) (eqb : A -> A -> bool) : Prop :=
  forall d a rest, bytes_ok (ba_data d) -> in_memory (ba_len d) -> c_deser_rest c d = Ok (a, rest) ->
    exists s, c_ser c a = Ok s /\
      forall d' rest', ba_data d' = ba_data s ++ rest' -> bytes_ok rest' ->
        exists a' u, c_deser_rest c d' = Ok (a', u) /\ eqb a a' = true /\ ba_data u = rest'.
