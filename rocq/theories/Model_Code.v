(** Model of bitcoin-cash/src/bitcoin_code.rs, serializer.rs, tx.rs (data types and codecs),
    the [BitcoinCode] derive of bitcoin-cash-code/src/lib.rs and the [TxPreimage] struct. *)
From Verif Require Import Base Model_Encoding Model_ByteArray Model_Opcode Model_Script.
Local Open Scope Z_scope.
Local Open Scope list_scope.

(** bitcoin_code.rs:9-11 trait [BitcoinCode]: the two required methods.  [ser] is an [outcome]
    because [Script::ser] can panic. *)
Record codec (A : Type) : Type := Codec {
  c_ser : A -> outcome barray;
  c_deser_rest : barray -> outcome (A * barray)
}.
Arguments Codec {A}. Arguments c_ser {A}. Arguments c_deser_rest {A}.

(** bitcoin_code.rs:12-18 provided method [deser] *)
Definition c_deser {A} (c : codec A) (data : barray) : outcome A :=
  do (item, leftover) <- c_deser_rest c data;
  if ba_len leftover =? 0 then Ok item else Err (ELeftover (ba_data leftover)).

(** bitcoin_code.rs:21-27 [read_size]: the cursor position is what the var-int reader consumed *)
Definition read_size (data : barray) : outcome (Z * barray) :=
  do (len, unread) <- read_var_int (ba_data data);
  let position := ba_len data - zlen unread in
  do (_, rest) <- ba_split data position;
  Ok (len, rest).

(** bitcoin_code.rs:29-39 *)
Definition bytearray_codec : codec barray := Codec
  (fun a => Ok (ba_concat (ba_new "size" (encode_var_int (ba_len a))) a))
  (fun data => do (len, rest) <- read_size data; ba_split rest len).

(** bitcoin_code.rs:41-56 and hash.rs:356-411: FixedByteArray<[u8; n]> and the hash newtypes *)
Definition fixed_codec (n : Z) : codec barray := Codec
  (fun a => Ok a)
  (fun data => do (lft, rgt) <- ba_split data n;
               do f <- fixed_from_byte_array n lft; Ok (f, rgt)).

(** bitcoin_code.rs:69-73: the loop of [Vec::deser_rest] *)
Fixpoint vec_loop {A} (c : codec A) (n : nat) (data : barray) : outcome (list A * barray) :=
  match n with
  | O => Ok ([], data)
  | S k => do (item, rest) <- c_deser_rest c data;
           do (items, rest') <- vec_loop c k rest;
           Ok (item :: items, rest')
  end.
(** bitcoin_code.rs:58-75.  [elem_size] is [size_of::<T>()]; [Vec::with_capacity] panics ("capacity
    overflow") when the allocation would exceed isize::MAX bytes; allocation itself always succeeds here. *)
Definition vec_codec {A} (elem_size : Z) (c : codec A) : codec (list A) := Codec
  (fun v => do parts <- omap (c_ser c) v;
            Ok (ba_concat (ba_new "size" (encode_var_int (zlen v))) (ba_from_parts parts)))
  (fun data => do (len, rest) <- read_size data;
               if 2 ^ 63 - 1 <? len * elem_size then Panic
               else vec_loop c (Z.to_nat len) rest).

(** bitcoin_code.rs:77-86 *)
Definition bool_codec : codec bool := Codec
  (fun b : bool => Ok (ba_unnamed [if b then 1 else 0]))
  (fun data => do (lft, rgt) <- ba_split data 1; Ok (negb (nth 0 (ba_data lft) 0 =? 0), rgt)).

(** bitcoin_code.rs:88-111: [to_le_bytes] / [from_le_bytes] of an [n]-byte integer type *)
Definition int_of_le (n : nat) (signed : bool) (bs : list Z) : Z :=
  let v := le_value bs in
  if signed && (2 ^ (8 * Z.of_nat n - 1) <=? v) then v - 2 ^ (8 * Z.of_nat n) else v.
Definition int_codec (n : nat) (signed : bool) : codec Z := Codec
  (fun v => Ok (ba_unnamed (le_bytes n v)))
  (fun data => do (lft, rgt) <- ba_split data (Z.of_nat n);
               Ok (int_of_le n signed (ba_data lft), rgt)).
Definition u8_codec := int_codec 1 false.
Definition i32_codec := int_codec 4 true.
Definition u32_codec := int_codec 4 false.
Definition u64_codec := int_codec 8 false.

(** script.rs:298-308 *)
Definition script_codec : codec script := Codec
  (fun s => do a <- script_ser_ops s; c_ser bytearray_codec a)
  (fun data => do (script_code, rest) <- c_deser_rest bytearray_codec data;
               do ops <- deserialize_ops_ba script_code;
               Ok (script_from_ops ops, rest)).

(** tx.rs:11-17 *)
Record tx_outpoint : Type := TxOutpoint { op_tx_hash : barray; op_vout : Z }.
(** tx.rs:19-38; [sig_hash_flags] as their bits *)
Record tx_input : Type := TxInput {
  in_prev_out : tx_outpoint; in_script : script; in_sequence : Z;
  in_lock_script : option script; in_value : option Z; in_is_p2sh : option bool;
  in_sig_hash_flags : option (list Z)
}.
(** tx.rs:40-45 *)
Record tx_output : Type := TxOutput { out_value : Z; out_script : script }.
(** tx.rs:47-55 *)
Record unhashed_tx : Type := UnhashedTx {
  tx_version : Z; tx_inputs : list tx_input; tx_outputs : list tx_output; tx_lock_time : Z
}.
(** tx.rs:57-68 *)
Record tx : Type := Tx { tx_unhashed : unhashed_tx; tx_hash : barray; tx_raw : barray }.
(** tx_preimage.rs:21-34 *)
Record tx_preimage : Type := TxPreimage {
  pi_version : Z; pi_hash_prevouts : barray; pi_hash_sequence : barray; pi_outpoint : tx_outpoint;
  pi_script_code : script; pi_value : Z; pi_sequence : Z; pi_hash_outputs : barray; pi_lock_time : Z;
  pi_sig_hash_type : Z
}.

(** tx.rs:71-81 [TxInput::new] *)
Definition tx_input_new (prev_out : tx_outpoint) (s : script) (sequence : Z) : tx_input :=
  TxInput prev_out s sequence None None None None.

(** Derived codecs, bitcoin-cash-code/src/lib.rs:119-166: fields in declaration order, each serialised
    field named after itself; skipped fields get [Default::default()]. *)
Definition sha256d_codec : codec barray := fixed_codec 32.

Definition outpoint_codec : codec tx_outpoint := Codec
  (fun o => do a <- c_ser sha256d_codec (op_tx_hash o); do b <- c_ser u32_codec (op_vout o);
            Ok (ba_from_parts [ba_named a "tx_hash"; ba_named b "vout"]))
  (fun data => do (h, data) <- c_deser_rest sha256d_codec data; do (v, data) <- c_deser_rest u32_codec data;
               Ok (TxOutpoint h v, data)).

Definition input_codec : codec tx_input := Codec
  (fun i => do a <- c_ser outpoint_codec (in_prev_out i); do b <- c_ser script_codec (in_script i);
            do c <- c_ser u32_codec (in_sequence i);
            Ok (ba_from_parts [ba_named a "prev_out"; ba_named b "script"; ba_named c "sequence"]))
  (fun data => do (p, data) <- c_deser_rest outpoint_codec data; do (s, data) <- c_deser_rest script_codec data;
               do (q, data) <- c_deser_rest u32_codec data;
               Ok (TxInput p s q None None None None, data)).

Definition output_codec : codec tx_output := Codec
  (fun o => do a <- c_ser u64_codec (out_value o); do b <- c_ser script_codec (out_script o);
            Ok (ba_from_parts [ba_named a "value"; ba_named b "script"]))
  (fun data => do (v, data) <- c_deser_rest u64_codec data; do (s, data) <- c_deser_rest script_codec data;
               Ok (TxOutput v s, data)).

(** [in_size], [out_size]: [size_of] of [TxInput] / [TxOutput] (layout chosen by the compiler) *)
Definition unhashed_tx_codec (in_size out_size : Z) : codec unhashed_tx := Codec
  (fun t => do a <- c_ser i32_codec (tx_version t); do b <- c_ser (vec_codec in_size input_codec) (tx_inputs t);
            do c <- c_ser (vec_codec out_size output_codec) (tx_outputs t); do d <- c_ser u32_codec (tx_lock_time t);
            Ok (ba_from_parts [ba_named a "version"; ba_named b "inputs"; ba_named c "outputs"; ba_named d "lock_time"]))
  (fun data => do (v, data) <- c_deser_rest i32_codec data;
               do (i, data) <- c_deser_rest (vec_codec in_size input_codec) data;
               do (o, data) <- c_deser_rest (vec_codec out_size output_codec) data;
               do (l, data) <- c_deser_rest u32_codec data;
               Ok (UnhashedTx v i o l, data)).

(** tx.rs:141-150 [Default for UnhashedTx]; byte_array.rs:668-675 default hash (32 zero bytes) *)
Definition unhashed_tx_default : unhashed_tx := UnhashedTx 1 [] [] 0.
Definition sha256d_default : barray := ba_unnamed (repeat 0 32).

Definition tx_codec : codec tx := Codec
  (fun t => do a <- c_ser bytearray_codec (tx_raw t); Ok (ba_from_parts [ba_named a "raw"]))
  (fun data => do (raw, data) <- c_deser_rest bytearray_codec data;
               Ok (Tx unhashed_tx_default sha256d_default raw, data)).

Definition preimage_codec : codec tx_preimage := Codec
  (fun p => do a <- c_ser i32_codec (pi_version p); do b <- c_ser sha256d_codec (pi_hash_prevouts p);
            do c <- c_ser sha256d_codec (pi_hash_sequence p); do d <- c_ser outpoint_codec (pi_outpoint p);
            do e <- c_ser script_codec (pi_script_code p); do f <- c_ser u64_codec (pi_value p);
            do g <- c_ser u32_codec (pi_sequence p); do h <- c_ser sha256d_codec (pi_hash_outputs p);
            do i <- c_ser u32_codec (pi_lock_time p); do j <- c_ser u32_codec (pi_sig_hash_type p);
            Ok (ba_from_parts [ba_named a "version"; ba_named b "hash_prevouts"; ba_named c "hash_sequence";
              ba_named d "outpoint"; ba_named e "script_code"; ba_named f "value"; ba_named g "sequence";
              ba_named h "hash_outputs"; ba_named i "lock_time"; ba_named j "sig_hash_type"]))
  (fun data => do (a, data) <- c_deser_rest i32_codec data; do (b, data) <- c_deser_rest sha256d_codec data;
            do (c, data) <- c_deser_rest sha256d_codec data; do (d, data) <- c_deser_rest outpoint_codec data;
            do (e, data) <- c_deser_rest script_codec data; do (f, data) <- c_deser_rest u64_codec data;
            do (g, data) <- c_deser_rest u32_codec data; do (h, data) <- c_deser_rest sha256d_codec data;
            do (i, data) <- c_deser_rest u32_codec data; do (j, data) <- c_deser_rest u32_codec data;
            Ok (TxPreimage a b c d e f g h i j, data)).

(** serializer.rs:3-12 [encode_bitcoin_code_all] *)
Definition encode_all {A} (c : codec A) (values : list A) : outcome barray :=
  do parts <- omap (c_ser c) values; Ok (ba_from_parts parts).
(** serializer.rs:14-24 [decode_bitcoin_code_all]: an unbounded [loop]; [fuel] bounds its iterations
    ([None] = still running after [fuel] iterations). *)
Fixpoint decode_all_loop {A} (c : codec A) (fuel : nat) (data : barray) (items : list A) : option (outcome (list A)) :=
  match fuel with
  | O => None
  | S k =>
    match c_deser_rest c data with
    | Ok (item, rest) =>
      let items := items ++ [item] in
      if ba_len rest =? 0 then Some (Ok items) else decode_all_loop c k rest items
    | Err e => Some (Err e)
    | Panic => Some Panic
    end
  end.

(** hash.rs:19-24 [Hashed::digest] for Sha256d; [sha256d] is the external hash function *)
Section Digest.
Variable sha256d : list Z -> list Z.
Definition digest_sha256d (msg : barray) : outcome barray :=
  match fixed_from_byte_array 32 (ba_apply_function msg (sha256d (ba_data msg)) FHash256) with
  | Ok h => Ok h
  | _ => Panic      (* .expect(..) *)
  end.
(** tx.rs:92-100 [UnhashedTx::hashed] *)
Definition tx_hashed (in_size out_size : Z) (t : unhashed_tx) : outcome tx :=
  do raw <- c_ser (unhashed_tx_codec in_size out_size) t;
  do hash <- digest_sha256d raw;
  Ok (Tx t hash raw).
End Digest.
