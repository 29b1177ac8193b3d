(** Specification vocabulary for the wire format: when two API values are the same up to provenance
    of byte arrays and fields that are not on the wire, and the laws a self-delimiting codec obeys. *)
From Verif Require Import Base Spec_Encoding Spec_Integer Model_ByteArray Model_Opcode Model_Script Spec_Script Model_Code.
Local Open Scope Z_scope.

(** Same bytes (what [==] on byte arrays and hashes means). *)
Definition same_bytes (a b : barray) : Prop := ba_data a = ba_data b.
(** Same instruction sequence. *)
Definition same_script (s s' : script) : Prop :=
  Forall2 (fun t t' => exists i, means (t_op t) i /\ means (t_op t') i) s s'.
Definition same_outpoint (a b : tx_outpoint) : Prop :=
  ba_data (op_tx_hash a) = ba_data (op_tx_hash b) /\ op_vout a = op_vout b.
Definition same_input (a b : tx_input) : Prop :=
  same_outpoint (in_prev_out a) (in_prev_out b) /\ same_script (in_script a) (in_script b) /\
  in_sequence a = in_sequence b.
Definition same_output (a b : tx_output) : Prop :=
  out_value a = out_value b /\ same_script (out_script a) (out_script b).
Definition same_tx (a b : unhashed_tx) : Prop :=
  tx_version a = tx_version b /\ Forall2 same_input (tx_inputs a) (tx_inputs b) /\
  Forall2 same_output (tx_outputs a) (tx_outputs b) /\ tx_lock_time a = tx_lock_time b.
Definition same_raw (a b : tx) : Prop := ba_data (tx_raw a) = ba_data (tx_raw b).
Definition same_preimage (a b : tx_preimage) : Prop :=
  pi_version a = pi_version b /\ ba_data (pi_hash_prevouts a) = ba_data (pi_hash_prevouts b) /\
  ba_data (pi_hash_sequence a) = ba_data (pi_hash_sequence b) /\ same_outpoint (pi_outpoint a) (pi_outpoint b) /\
  same_script (pi_script_code a) (pi_script_code b) /\ pi_value a = pi_value b /\ pi_sequence a = pi_sequence b /\
  ba_data (pi_hash_outputs a) = ba_data (pi_hash_outputs b) /\ pi_lock_time a = pi_lock_time b /\
  pi_sig_hash_type a = pi_sig_hash_type b.

(** What the Rust types guarantee: byte range, 20/32-byte hashes, integer ranges, allocations of at most
    isize::MAX bytes; plus [op_ok] for scripts (see Spec_Script). *)
Definition in_memory (n : Z) : Prop := n <= 2 ^ 63 - 1.
Definition bytes_value (a : barray) : Prop := bytes_ok (ba_data a) /\ in_memory (ba_len a).
Definition fixed_value (n : Z) (a : barray) : Prop := bytes_ok (ba_data a) /\ ba_len a = n.
Definition script_value (s : script) : Prop :=
  Forall op_ok (map t_op s) /\ forall a, script_ser_ops s = Ok a -> in_memory (ba_len a).
Definition int_value (n : nat) (signed : bool) (v : Z) : Prop :=
  if signed then - 2 ^ (8 * Z.of_nat n - 1) <= v < 2 ^ (8 * Z.of_nat n - 1) else 0 <= v < 2 ^ (8 * Z.of_nat n).
Definition vec_value {A} (elem_size : Z) (ok : A -> Prop) (v : list A) : Prop :=
  Forall ok v /\ zlen v * elem_size <= 2 ^ 63 - 1 /\ zlen v < 2 ^ 64.
Definition outpoint_value (o : tx_outpoint) : Prop := fixed_value 32 (op_tx_hash o) /\ u32_ok (op_vout o).
Definition input_value (i : tx_input) : Prop :=
  outpoint_value (in_prev_out i) /\ script_value (in_script i) /\ u32_ok (in_sequence i).
Definition output_value (o : tx_output) : Prop := u64_ok (out_value o) /\ script_value (out_script o).
Definition tx_value (in_size out_size : Z) (t : unhashed_tx) : Prop :=
  i32_ok (tx_version t) /\ vec_value in_size input_value (tx_inputs t) /\
  vec_value out_size output_value (tx_outputs t) /\ u32_ok (tx_lock_time t).
Definition preimage_value (p : tx_preimage) : Prop :=
  i32_ok (pi_version p) /\ fixed_value 32 (pi_hash_prevouts p) /\ fixed_value 32 (pi_hash_sequence p) /\
  outpoint_value (pi_outpoint p) /\ script_value (pi_script_code p) /\ u64_ok (pi_value p) /\ u32_ok (pi_sequence p) /\
  fixed_value 32 (pi_hash_outputs p) /\ u32_ok (pi_lock_time p) /\ u32_ok (pi_sig_hash_type p).

(** Law 1: whatever follows the serialised bytes, reading gives the value back and leaves exactly what follows
    (for every provenance of the array read). *)
Definition roundtrips {A} (c : codec A) (value : A -> Prop) (same : A -> A -> Prop) : Prop :=
  forall a, value a -> exists s, c_ser c a = Ok s /\ bytes_ok (ba_data s) /\
    forall t rest, ba_data t = ba_data s ++ rest -> bytes_ok rest ->
      exists a' t', c_deser_rest c t = Ok (a', t') /\ same a a' /\ ba_data t' = rest.
(** Law 2: an accepted encoding is a prefix [p] of the input whose reading does not depend on what follows. *)
Definition self_delimiting {A} (c : codec A) (same : A -> A -> Prop) : Prop :=
  forall t a t', bytes_ok (ba_data t) -> c_deser_rest c t = Ok (a, t') ->
    exists p, ba_data t = p ++ ba_data t' /\
      forall u s, ba_data u = p ++ s -> bytes_ok s ->
        exists a' u', c_deser_rest c u = Ok (a', u') /\ same a a' /\ ba_data u' = s.
