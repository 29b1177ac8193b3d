(** Model of bitcoin-cash/src/tx_preimage.rs, the [ToPreimages] trait (tx_builder.rs:77-88) and
    tx.rs:85-91, 152-193. *)
From Coq Require Import DecimalString.
From Verif Require Import Base Model_ByteArray Model_Opcode Model_Script Model_Code Model_Destination.
Local Open Scope Z_scope.
Local Open Scope list_scope.

(** tx_builder.rs:77-88 [trait ToPreimages]: what the trait lets [build_preimages] see.  The value and
    lock script accessors may panic ([expect], tx.rs:172-182), hence [option]. *)
Record sig_input : Type := SigInput {
  si_outpoint : tx_outpoint; si_sequence : Z; si_flags : list Z; si_value : option Z; si_lock_script : option script
}.
Record sig_tx : Type := SigTx { st_version : Z; st_inputs : list sig_input; st_outputs : list tx_output; st_lock_time : Z }.

(** [format!("{}{}", label, idx)] *)
Definition label_idx (label : string) (idx : nat) : string :=
  (label ++ NilEmpty.string_of_uint (Nat.to_uint idx))%string.

Definition expect {A} (o : option A) : outcome A := match o with Some a => Ok a | None => Panic end.

(** bitflags [contains], [&] *)
Definition flags_contains (f g : Z) : bool := Z.land f g =? g.

Section Preimage.
Variable sha256d : list Z -> list Z.

(** tx_preimage.rs:46-55, 57-66, 69-78: the three accumulation loops *)
Fixpoint concat_loop {A} (ser : A -> outcome barray) (label : string) (idx : nat) (l : list A) (acc : barray) : outcome barray :=
  match l with
  | [] => Ok acc
  | x :: rest =>
    do b <- ser x;
    concat_loop ser label (S idx) rest (ba_concat acc (ba_named b (label_idx label idx)))
  end.
Definition hash_all {A} (ser : A -> outcome barray) (label all name : string) (l : list A) : outcome barray :=
  do acc <- concat_loop ser label 0 l (ba_unnamed []);
  do h <- digest_sha256d sha256d (ba_named acc all);
  Ok (ba_named h name).

Definition zero_hash (name : string) : barray := ba_new name (repeat 0 32).

(** tx_preimage.rs:85-117: one input, one flag set *)
Definition build_preimage (t : sig_tx) (hash_all_prevouts hash_all_sequences hash_all_outputs : barray)
    (idx : nat) (i : sig_input) (flags : Z) : outcome tx_preimage :=
  let anyone := flags_contains flags SIGHASH_ANYONECANPAY in
  let hash_prevouts := if negb anyone then hash_all_prevouts else zero_hash "hashPrevouts" in
  let masked := Z.land flags SIGHASH_MASK in
  let hash_sequence :=
    if negb anyone && negb (masked =? SIGHASH_SINGLE) && negb (masked =? SIGHASH_NONE)
    then hash_all_sequences else zero_hash "hashSequence" in
  do hash_outputs <-
    (if negb (masked =? SIGHASH_SINGLE) && negb (masked =? SIGHASH_NONE) then Ok hash_all_outputs
     else if (masked =? SIGHASH_SINGLE) && (Nat.ltb idx (length (st_outputs t))) then
       match nth_error (st_outputs t) idx with
       | None => Panic
       | Some o => do s <- c_ser output_codec o; digest_sha256d sha256d s
       end
     else Ok (zero_hash "hashOutputs"));
  do lock_script <- expect (si_lock_script i);
  do value <- expect (si_value i);
  Ok (TxPreimage (st_version t) hash_prevouts hash_sequence (si_outpoint i) (to_script_code_first lock_script)
        value (si_sequence i) hash_outputs (st_lock_time t) flags).

(** tx_preimage.rs:81-121: the loops over inputs and flags *)
Fixpoint build_inputs (t : sig_tx) (hp hs ho : barray) (idx : nat) (inputs : list sig_input) : outcome (list (list tx_preimage)) :=
  match inputs with
  | [] => Ok []
  | i :: rest =>
    do ps <- omap (build_preimage t hp hs ho idx i) (si_flags i);
    do r <- build_inputs t hp hs ho (S idx) rest;
    Ok (ps :: r)
  end.

(** tx_preimage.rs:45-122 [TxPreimage::build_preimages] *)
Definition build_preimages (t : sig_tx) : outcome (list (list tx_preimage)) :=
  do hp <- hash_all (c_ser outpoint_codec) "outpoint_" "prevouts" "hashPrevouts" (map si_outpoint (st_inputs t));
  do hs <- hash_all (c_ser u32_codec) "sequence_" "sequences" "hashSequence" (map si_sequence (st_inputs t));
  do ho <- hash_all (c_ser output_codec) "output_" "outputs" "hashOutputs" (st_outputs t);
  build_inputs t hp hs ho 0 (st_inputs t).

(** tx.rs:152-193 [SigTxPreimage] *)
Definition sig_tx_of (t : unhashed_tx) (flags : list Z) : sig_tx :=
  SigTx (tx_version t) (map (fun i => SigInput (in_prev_out i) (in_sequence i) flags (in_value i) (in_lock_script i)) (tx_inputs t))
        (tx_outputs t) (tx_lock_time t).
(** tx.rs:85-91 [UnhashedTx::preimages] (and tx.rs:129-131 [Tx::preimages]) *)
Definition tx_preimages (t : unhashed_tx) (flags : list Z) : outcome (list (list tx_preimage)) :=
  build_preimages (sig_tx_of t flags).
End Preimage.

(** tx_preimage.rs:124-141 [empty_with_script] *)
Definition empty_with_script (script_code : script) : tx_preimage :=
  TxPreimage 0 (zero_hash "hashPrevouts") (zero_hash "hashSequence") (TxOutpoint (ba_unnamed (repeat 0 32)) 0)
    (to_script_code_first script_code) 0 0 (zero_hash "hashOutputs") 0 SIGHASH_ALL.
