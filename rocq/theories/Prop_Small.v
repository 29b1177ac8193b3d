(** Small API functions, completing C03, C22, C35 and C49. *)
From Verif Require Import Base BaseLemmas Model_Encoding Spec_Encoding Proofs_Encoding Prop_Encoding Model_ByteArray Model_Opcode Model_Script Model_Code Model_Address Model_Destination Model_Slp Spec_Twin.
Local Open Scope list_scope.
Local Open Scope Z_scope.

(** C03: booleans are encoded as the minimal script numbers 0 and 1, like the integers. *)
Theorem C03_encode_bool : forall b : bool, let n := if b then 1 else 0 in
  script_num (encode_bool b) = n /\ minimal_num (encode_bool b) /\ encode_bool b = encode_int n /\ vec_to_int (encode_bool b) = Ok n.
Proof.
  intros [|]; cbv zeta; (split; [reflexivity|]); (split; [|split; reflexivity]).
  - right. exists [], 1. split; [reflexivity|]. left. discriminate.
  - left. reflexivity.
Qed.
Print Assumptions C03_encode_bool.

(** C22: a destination has an address exactly if it is one. *)
Theorem C22_address_of_destination : forall prefix s d a, script_destination prefix s = Ok d ->
  (destination_address d = Some a <-> script_destination prefix s = Ok (DAddress a)).
Proof. intros prefix s d a ->. destruct d as [x|x|x|x]; cbn; split; intros H; try discriminate; try (injection H as ->; reflexivity). Qed.
Print Assumptions C22_address_of_destination.

(** C35: an SLP transaction is converted without changing it: same version, lock time, inputs and outputs in order. *)
Theorem C35_into_unhashed_tx : forall t, let u := into_unhashed_tx t in
  tx_version u = Model_Slp.st_version t /\ tx_lock_time u = st_lock_time t /\ tx_inputs u = map si_input (st_inputs t) /\ tx_outputs u = map so_output (st_outputs t).
Proof. intros t. repeat split. Qed.
Print Assumptions C35_into_unhashed_tx.

(** C49: naming an array or an op only adds an annotation. *)
Theorem C49_naming_is_annotation : forall a n t, twin_array (ba_named a n) a /\ twin_tagged (tagged_named t n) t /\ ba_name (ba_named a n) = Some n /\
  t_pushed_names (tagged_named t n) = Some [Some n] /\ t_alt_pushed_names (tagged_named t n) = t_alt_pushed_names t.
Proof.
  intros [d n' f p] n t. split; [reflexivity|]. split; [|repeat split]. unfold twin_tagged. destruct t as [o]; cbn. destruct o; cbn; auto. unfold twin_array. auto.
Qed.
Print Assumptions C49_naming_is_annotation.
