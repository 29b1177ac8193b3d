(** Properties C01, C02, C03: var-ints and script numbers. *)
From Verif Require Import Base BaseLemmas Model_Encoding Spec_Encoding Proofs_Encoding.
Local Open Scope Z_scope.

(** C01: what is written is read back, whatever follows. *)
Theorem C01_var_int_roundtrip : forall n rest, u64_ok n ->
  read_var_int (encode_var_int n ++ rest) = Ok (n, rest).
Proof. exact var_int_roundtrip. Qed.
Print Assumptions C01_var_int_roundtrip.

(** C01: the written bytes are one of the four wire forms, and the shortest. *)
Theorem C01_var_int_shortest : forall n, u64_ok n ->
  is_varint n (encode_var_int n) /\ bytes_ok (encode_var_int n) /\
  forall f, is_varint n f -> (length (encode_var_int n) <= length f)%nat.
Proof.
  exact (fun n H => conj (encode_var_int_form n H) (conj (encode_var_int_ok n H) (fun f => encode_var_int_shortest n f H))).
Qed.
Print Assumptions C01_var_int_shortest.

Theorem C01_var_int_prefix_free : forall n m r s, u64_ok n -> u64_ok m ->
  encode_var_int n ++ r = encode_var_int m ++ s -> n = m /\ r = s.
Proof. exact encode_var_int_prefix_free. Qed.
Print Assumptions C01_var_int_prefix_free.

(** C01: the reader accepts exactly the four forms and fails only at end of input. *)
Theorem C01_read_var_int_characterised : forall bs, bytes_ok bs ->
  (forall n rest, read_var_int bs = Ok (n, rest) <-> exists f, is_varint n f /\ bs = f ++ rest) /\
  ((exists n rest, read_var_int bs = Ok (n, rest)) \/ read_var_int bs = Err EEof).
Proof. exact (fun bs H => conj (fun n rest => read_var_int_spec bs n rest H) (read_var_int_total bs)). Qed.
Print Assumptions C01_read_var_int_characterised.

(** C01: writing what was read does not give the input back: over-long forms are accepted. *)
Theorem C01_read_canonical_refuted : exists bs n rest, bytes_ok bs /\
  read_var_int bs = Ok (n, rest) /\ encode_var_int n ++ rest <> bs.
Proof.
  exists [0xfd; 5; 0], 5, []. split; [repeat constructor; unfold byte_ok; lia|].
  split; [vm_compute; reflexivity|vm_compute; discriminate].
Qed.
Print Assumptions C01_read_canonical_refuted.

Example C01_nonvacuous : u64_ok 0x123456789 /\
  encode_var_int 0x123456789 = [0xff; 0x89; 0x67; 0x45; 0x23; 1; 0; 0; 0] /\
  encode_var_int 0xfd = [0xfd; 0xfd; 0] /\
  read_var_int (encode_var_int 70000 ++ [1; 2]) = Ok (70000, [1; 2]).
Proof. unfold u64_ok. repeat split; try lia; vm_compute; reflexivity. Qed.

(** C02: same number, minimal, not longer. *)
Theorem C02_encode_minimally_correct : forall v, bytes_ok v ->
  script_num (encode_minimally v) = script_num v /\
  minimal_num (encode_minimally v) /\
  bytes_ok (encode_minimally v) /\
  (length (encode_minimally v) <= length v)%nat.
Proof. exact encode_minimally_correct. Qed.
Print Assumptions C02_encode_minimally_correct.

Theorem C02_encode_minimally_fixpoint : forall v, bytes_ok v ->
  (encode_minimally v = v <-> minimal_num v).
Proof. exact encode_minimally_fix. Qed.
Print Assumptions C02_encode_minimally_fixpoint.

(** C02: minimal vectors are unique, hence the result is the only minimal vector of that value. *)
Theorem C02_minimal_unique : forall u v, bytes_ok u -> bytes_ok v -> minimal_num u ->
  script_num u = script_num v -> u = encode_minimally v.
Proof.
  exact (fun u v Hu Hv Mu E =>
    let c := encode_minimally_correct v Hv in
    minimal_unique u (encode_minimally v) Hu (proj1 (proj2 (proj2 c))) Mu (proj1 (proj2 c))
      (eq_trans E (eq_sym (proj1 c)))).
Qed.
Print Assumptions C02_minimal_unique.

Example C02_nonvacuous : bytes_ok [0xff; 0; 0; 0x80] /\
  encode_minimally [0xff; 0; 0; 0x80] = [0xff; 0x80] /\ script_num [0xff; 0; 0; 0x80] = -255 /\
  encode_minimally [1; 0; 0x80] = [0x81] /\ encode_minimally [0; 0x80] = [].
Proof. split; [repeat constructor; unfold byte_ok; lia|]. vm_compute. auto. Qed.

(** C03: encoding of every script integer. *)
Theorem C03_encode_int_correct : forall i, - 2 ^ 31 < i < 2 ^ 31 ->
  script_num (encode_int i) = i /\ minimal_num (encode_int i) /\ bytes_ok (encode_int i) /\
  (length (encode_int i) <= 4)%nat.
Proof. exact encode_int_correct. Qed.
Print Assumptions C03_encode_int_correct.

Theorem C03_int_roundtrip : forall i, - 2 ^ 31 < i < 2 ^ 31 -> vec_to_int (encode_int i) = Ok i.
Proof. exact vec_to_int_encode. Qed.
Print Assumptions C03_int_roundtrip.

Theorem C03_encode_int_injective : forall i j, - 2 ^ 31 < i < 2 ^ 31 -> - 2 ^ 31 < j < 2 ^ 31 ->
  encode_int i = encode_int j -> i = j.
Proof. exact encode_int_inj. Qed.
Print Assumptions C03_encode_int_injective.

Theorem C03_vec_to_int_short : forall l, bytes_ok l -> zlen l <= 4 -> vec_to_int l = Ok (script_num l).
Proof. exact vec_to_int_short. Qed.
Print Assumptions C03_vec_to_int_short.

(** C03: exact behaviour on longer vectors: an error as soon as a byte from the fifth on is
    non-zero, otherwise the first four bytes reinterpreted as i32. *)
Theorem C03_vec_to_int_long : forall l, bytes_ok l -> 5 <= zlen l < 2 ^ 29 ->
  vec_to_int l = if forallb (Z.eqb 0) (skipn 4 l)
                 then Ok (wrap32 (le_value (firstn 4 l))) else Err EIntOverflow.
Proof. exact vec_to_int_long. Qed.
Print Assumptions C03_vec_to_int_long.

(** C03: "vec_to_int returns the denoted number or an error" is false. *)
Theorem C03_vec_to_int_right_or_error_refuted : exists l v, bytes_ok l /\
  vec_to_int l = Ok v /\ v <> script_num l.
Proof.
  exists [0xff; 0xff; 0xff; 0xff; 0], (-1). split; [repeat constructor; unfold byte_ok; lia|].
  split; [vm_compute; reflexivity|vm_compute; discriminate].
Qed.
Print Assumptions C03_vec_to_int_right_or_error_refuted.

Example C03_nonvacuous : vec_to_int (encode_int (-2147483647)) = Ok (-2147483647) /\
  encode_int (-255) = [0xff; 0x80] /\ vec_to_int [1; 0; 0; 0; 0x80] = Err EIntOverflow /\
  vec_to_int [0xff; 0xff; 0xff; 0xff] = Ok (-2147483647).
Proof. vm_compute. auto. Qed.
