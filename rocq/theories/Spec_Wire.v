(** The Bitcoin wire format of transactions as a relation between API values and bytes, written from the
    protocol documentation.  [strict = true]: what a writer must emit (shortest length prefixes);
    [strict = false]: everything a reader accepts. *)
From Verif Require Import Base Spec_Encoding Spec_Integer Model_ByteArray Model_Opcode Model_Script Spec_Script Model_Code.
Local Open Scope Z_scope.

(** [n]-byte little-endian two's complement. *)
Definition wire_int (n : nat) (v : Z) (bs : list Z) : Prop :=
  length bs = n /\ bytes_ok bs /\ le_value bs = v mod 2 ^ (8 * Z.of_nat n).
Definition wire_size (strict : bool) (n : Z) (bs : list Z) : Prop :=
  is_varint n bs /\ (strict = true -> forall f, is_varint n f -> (length bs <= length f)%nat).
Definition wire_fixed (n : Z) (a : barray) (bs : list Z) : Prop := bs = ba_data a /\ zlen bs = n.
Definition wire_bytes (strict : bool) (a : barray) (bs : list Z) : Prop :=
  exists len, bs = len ++ ba_data a /\ wire_size strict (zlen (ba_data a)) len.
Definition wire_script (strict : bool) (s : script) (bs : list Z) : Prop :=
  exists len body is, bs = len ++ body /\ wire_size strict (zlen body) len /\
    reads_as body is /\ Forall2 means (map t_op s) is /\ (strict = true -> shortest_script body).
Definition wire_vec {A} (R : A -> list Z -> Prop) (strict : bool) (v : list A) (bs : list Z) : Prop :=
  exists len parts, bs = len ++ concat parts /\ wire_size strict (zlen v) len /\ Forall2 R v parts.

Definition wire_outpoint (o : tx_outpoint) (bs : list Z) : Prop :=
  exists h v, bs = h ++ v /\ wire_fixed 32 (op_tx_hash o) h /\ wire_int 4 (op_vout o) v.
Definition wire_input (strict : bool) (i : tx_input) (bs : list Z) : Prop :=
  exists o s q, bs = o ++ s ++ q /\ wire_outpoint (in_prev_out i) o /\ wire_script strict (in_script i) s /\
    wire_int 4 (in_sequence i) q.
Definition wire_output (strict : bool) (o : tx_output) (bs : list Z) : Prop :=
  exists v s, bs = v ++ s /\ wire_int 8 (out_value o) v /\ wire_script strict (out_script o) s.
Definition wire_tx (strict : bool) (t : unhashed_tx) (bs : list Z) : Prop :=
  exists v i o l, bs = v ++ i ++ o ++ l /\ wire_int 4 (tx_version t) v /\
    wire_vec (wire_input strict) strict (tx_inputs t) i /\ wire_vec (wire_output strict) strict (tx_outputs t) o /\
    wire_int 4 (tx_lock_time t) l.
(** The signature-hash message of the replay-protected sighash specification. *)
Definition wire_preimage (strict : bool) (p : tx_preimage) (bs : list Z) : Prop :=
  exists version hash_prevouts hash_sequence outpoint script_code value sequence hash_outputs lock_time sighash_type,
    bs = version ++ hash_prevouts ++ hash_sequence ++ outpoint ++ script_code ++ value ++ sequence ++
         hash_outputs ++ lock_time ++ sighash_type /\
    wire_int 4 (pi_version p) version /\ wire_fixed 32 (pi_hash_prevouts p) hash_prevouts /\
    wire_fixed 32 (pi_hash_sequence p) hash_sequence /\ wire_outpoint (pi_outpoint p) outpoint /\
    wire_script strict (pi_script_code p) script_code /\ wire_int 8 (pi_value p) value /\
    wire_int 4 (pi_sequence p) sequence /\ wire_fixed 32 (pi_hash_outputs p) hash_outputs /\
    wire_int 4 (pi_lock_time p) lock_time /\ wire_int 4 (pi_sig_hash_type p) sighash_type.
