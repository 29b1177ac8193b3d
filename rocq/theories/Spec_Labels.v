(** What the parts of serialised values, and of the hashes in a signature message, are called. *)
From Verif Require Import Base Spec_Encoding Spec_Integer Model_ByteArray Model_Opcode Model_Script Spec_Script Model_Code Spec_Wire Spec_Parts
  Model_Address Spec_Text Model_Preimage Spec_Preimage.
Local Open Scope string_scope.
Local Open Scope list_scope.
Local Open Scope Z_scope.

(** Plain bytes with a name, and without one. *)
Definition labelled (name : string) (bs : list Z) : barray := BA bs (Some name) FPlain None.
Definition bare (bs : list Z) : barray := BA bs None FPlain None.
(** The parts of [a] once it has been given a name: a concatenation shows its own parts, whatever it is called;
    anything else shows up as one part of that name, with its origin. *)
Definition under (name : string) (a : barray) : list barray :=
  match a with
  | BA _ _ FPlain (Some _) => parts a
  | BA d _ f p => [BA d (Some name) f p]
  end.

Definition number_part (name : string) (n : nat) (v : Z) (p : barray) : Prop := exists bs, p = labelled name bs /\ wire_int n v bs.
Definition size_part (n : Z) (p : barray) : Prop := exists bs, p = labelled "size" bs /\ wire_size true n bs.

(** One op of a script.  Opcodes and small numbers carry the name of the opcode; pushed arrays keep their parts, after an
    unnamed push prefix -- unless the push is a single opcode, which is unnamed and leaves no trace of the array. *)
Definition one_byte_push (d : list Z) : Prop := d = [] \/ (exists n, 1 <= n <= 16 /\ d = [n]) \/ d = [0x81].
Inductive op_parts : op -> list barray -> Prop :=
| OpCode c : op_parts (OCode c) [labelled (opcode_name c) [opcode_u8 c]]
| OpInvalid b : op_parts (OInvalid b) [labelled "Invalid Opcode" [b]]
| OpTrue : op_parts (OPushBool true) [labelled "OP_TRUE" [0x51]]
| OpFalse : op_parts (OPushBool false) [labelled "OP_FALSE" [0x00]]
| OpSmall i c : -1 <= i <= 16 -> opcode_u8 c = (if i =? 0 then 0 else 0x50 + i) -> op_parts (OPushInt i) [labelled (opcode_name c) [opcode_u8 c]]
| OpInt i d : ~ -1 <= i <= 16 -> bytes_ok d -> minimal_num d -> script_num d = i -> op_parts (OPushInt i) [bare [zlen d]; bare d]
| OpShort a b : one_byte_push (ba_data a) -> chunk [b] (Push (ba_data a)) -> op_parts (OPushArray a true) [bare [b]]
| OpPush a m prefix : (m = true -> ~ one_byte_push (ba_data a)) -> chunk (prefix ++ ba_data a) (Push (ba_data a)) ->
    op_parts (OPushArray a m) (bare prefix :: parts a).
Arguments op_parts : clear implicits.

(** The parts of a sequence: those of its elements; an empty sequence has one empty part. *)
Definition sequence_parts {A} (R : A -> list barray -> Prop) (l : list A) (ps : list barray) : Prop :=
  (l = [] /\ ps = [bare []]) \/ (l <> [] /\ exists pss, ps = concat pss /\ Forall2 R l pss).
Definition script_parts (s : script) (ps : list barray) : Prop :=
  exists len bytes body, ps = labelled "size" len :: body /\ wire_script true s (len ++ bytes) /\ wire_size true (zlen bytes) len /\
    sequence_parts op_parts (map t_op s) body.
Definition vec_parts {A} (R : A -> list barray -> Prop) (l : list A) (ps : list barray) : Prop :=
  exists size body, ps = size :: body /\ size_part (zlen l) size /\ sequence_parts R l body.

Definition outpoint_parts (o : tx_outpoint) (ps : list barray) : Prop :=
  exists vout, ps = under "tx_hash" (op_tx_hash o) ++ [vout] /\ number_part "vout" 4 (op_vout o) vout.
Definition output_parts (o : tx_output) (ps : list barray) : Prop :=
  exists value script, ps = value :: script /\ number_part "value" 8 (out_value o) value /\ script_parts (out_script o) script.
Definition input_parts (i : tx_input) (ps : list barray) : Prop :=
  exists prev_out script sequence, ps = prev_out ++ script ++ [sequence] /\ outpoint_parts (in_prev_out i) prev_out /\
    script_parts (in_script i) script /\ number_part "sequence" 4 (in_sequence i) sequence.
Definition tx_parts (t : unhashed_tx) (ps : list barray) : Prop :=
  exists version inputs outputs lock_time, ps = version :: inputs ++ outputs ++ [lock_time] /\
    number_part "version" 4 (tx_version t) version /\ vec_parts input_parts (tx_inputs t) inputs /\
    vec_parts output_parts (tx_outputs t) outputs /\ number_part "lock_time" 4 (tx_lock_time t) lock_time.
Definition preimage_parts (p : tx_preimage) (ps : list barray) : Prop :=
  exists version outpoint script value sequence lock_time sig_hash_type,
    ps = version :: under "hash_prevouts" (pi_hash_prevouts p) ++ under "hash_sequence" (pi_hash_sequence p) ++ outpoint ++ script ++
         [value; sequence] ++ under "hash_outputs" (pi_hash_outputs p) ++ [lock_time; sig_hash_type] /\
    number_part "version" 4 (pi_version p) version /\ outpoint_parts (pi_outpoint p) outpoint /\ script_parts (pi_script_code p) script /\
    number_part "value" 8 (pi_value p) value /\ number_part "sequence" 4 (pi_sequence p) sequence /\
    number_part "lock_time" 4 (pi_lock_time p) lock_time /\ number_part "sig_hash_type" 4 (pi_sig_hash_type p) sig_hash_type.

(** [h] is called [name] and records that it is the double SHA-256 of an array called [of] with the given parts. *)
Definition hash_of (sha256d : list Z -> list Z) (name of : option string) (R : list barray -> Prop) (h : barray) : Prop :=
  exists m, h = BA (sha256d (ba_data m)) name FHash256 (Some [m]) /\ ba_name m = of /\ R (parts m).
(** Parts of the three lists hashed: an empty part, then the elements (if there are any); the sequence numbers are counted. *)
Definition prevouts_parts (t : sig_tx) (ps : list barray) : Prop :=
  exists pss, ps = bare [] :: concat pss /\ Forall2 (fun i => outpoint_parts (si_outpoint i)) (st_inputs t) pss.
Definition outputs_parts (t : sig_tx) (ps : list barray) : Prop :=
  (st_outputs t = [] /\ ps = [labelled "outputs" []]) \/
  (st_outputs t <> [] /\ exists pss, ps = bare [] :: concat pss /\ Forall2 output_parts (st_outputs t) pss).
Definition sequences_parts (t : sig_tx) (ps : list barray) : Prop :=
  exists qs, ps = bare [] :: qs /\ length qs = length (st_inputs t) /\
    forall k i q, nth_error (st_inputs t) k = Some i -> nth_error qs k = Some q ->
      exists name digits, text name = text "sequence_" ++ digits /\ decimal (Z.of_nat k) digits /\ number_part name 4 (si_sequence i) q.
