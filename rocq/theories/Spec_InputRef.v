(** Specification vocabulary for the preimages read back from an unsigned transaction. *)
From Verif Require Import Base Model_ByteArray Model_Script Model_Code Spec_Code Model_Destination Model_Preimage Model_TxBuilder.
Local Open Scope Z_scope.

(** The preimage is for this coin, this locking script and these flags, in a transaction with this version and lock time. *)
Definition preimage_for (version lock_time : Z) (input : unsigned_tx_input) (lock : script) (flags : Z) (p : tx_preimage) : Prop :=
  pi_version p = version /\ pi_lock_time p = lock_time /\ pi_outpoint p = ui_prev_out input /\ pi_sequence p = ui_sequence input /\
  pi_value p = ui_value input /\ pi_script_code p = to_script_code_first lock /\ pi_sig_hash_type p = flags.
(** The value and the locking script of every coin spent are recorded. *)
Definition coins_known (t : unhashed_tx) : Prop := Forall (fun i => in_value i <> None /\ in_lock_script i <> None) (tx_inputs t).
(** ... and are values of their Rust types. *)
Definition coins_value (t : unhashed_tx) : Prop :=
  Forall (fun i => (exists v, in_value i = Some v /\ u64_ok v) /\ (exists l, in_lock_script i = Some l /\ script_value l)) (tx_inputs t).
(** The same transaction but for the scripts of the inputs: version, lock time, coins spent with their sequences, outputs. *)
Definition same_but_scripts (t t' : unhashed_tx) : Prop :=
  tx_version t = tx_version t' /\ tx_lock_time t = tx_lock_time t' /\
  Forall2 (fun i i' => same_outpoint (in_prev_out i) (in_prev_out i') /\ in_sequence i = in_sequence i') (tx_inputs t) (tx_inputs t') /\
  Forall2 same_output (tx_outputs t) (tx_outputs t').
