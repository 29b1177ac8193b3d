(** What a user of [#[derive(BitcoinCode)]] relies on. *)
From Verif Require Import Base Model_ByteArray Model_Code Spec_Code Model_Derive.
Local Open Scope string_scope.
Local Open Scope list_scope.

(** A field is on the wire unless it carries an attribute (the only attribute accepted is [..(skip)]). *)
Definition on_wire {ty} (f : field ty) : Prop := f_attrs f = [].
(** [#[bitcoin_code(skip)]] on the field. *)
Definition marked_skip {ty} (f : field ty) : Prop := In (FList "bitcoin_code" ["skip"]) (f_attrs f).
Definition names {ty} (fs : list (field ty)) : list string := map f_name fs.
(** What rustc requires of the declaration for the generated code to compile. *)
Definition compiles {ty} (fs : list (field ty)) : Prop := NoDup (names fs) /\ ~ In "data" (names fs).

Section S.
Context {ty V : Type} (codec_of : ty -> codec V) (default_of : ty -> V).
Context (value : ty -> V -> Prop) (same : ty -> V -> V -> Prop).
(** A value of the struct: the declared fields in order, those on the wire with a value of their type. *)
Definition struct_value (fs : list (field ty)) (v : list (string * V)) : Prop :=
  Forall2 (fun f nx => fst nx = f_name f /\ (on_wire f -> value (f_ty f) (snd nx))) fs v.
(** [b] is [a] read back: equal fields on the wire, defaults elsewhere. *)
Inductive read_back : list (field ty) -> list (string * V) -> list (string * V) -> Prop :=
| rb_nil : read_back [] [] []
| rb_wire f fs n x y a b : on_wire f -> n = f_name f -> same (f_ty f) x y -> read_back fs a b ->
    read_back (f :: fs) ((n, x) :: a) ((n, y) :: b)
| rb_skip f fs n x a b : ~ on_wire f -> n = f_name f -> read_back fs a b ->
    read_back (f :: fs) ((n, x) :: a) ((n, default_of (f_ty f)) :: b).
(** The encodings of the fields on the wire, in declaration order, each with the field's name. *)
Inductive wire_parts : list (field ty) -> list (string * V) -> list (string * barray) -> Prop :=
| wp_nil : wire_parts [] [] []
| wp_wire f fs n x v s ps : on_wire f -> n = f_name f -> c_ser (codec_of (f_ty f)) x = Ok s -> wire_parts fs v ps ->
    wire_parts (f :: fs) ((n, x) :: v) ((n, s) :: ps)
| wp_skip f fs n x v ps : ~ on_wire f -> n = f_name f -> wire_parts fs v ps -> wire_parts (f :: fs) ((n, x) :: v) ps.
(** Two struct values that differ in skipped fields only. *)
Inductive agree_on_wire : list (field ty) -> list (string * V) -> list (string * V) -> Prop :=
| aw_nil : agree_on_wire [] [] []
| aw_wire f fs x a b : agree_on_wire fs a b -> agree_on_wire (f :: fs) ((f_name f, x) :: a) ((f_name f, x) :: b)
| aw_skip f fs x y a b : ~ on_wire f -> agree_on_wire fs a b -> agree_on_wire (f :: fs) ((f_name f, x) :: a) ((f_name f, y) :: b).
End S.

(** The crate's records as struct values. *)
Definition outpoint_struct (o : tx_outpoint) : list (string * rval) :=
  [("tx_hash", VBytes (op_tx_hash o)); ("vout", VInt (op_vout o))].
Definition output_struct (o : tx_output) : list (string * rval) :=
  [("value", VInt (out_value o)); ("script", VScript (out_script o))].
Definition input_struct (i : tx_input) : list (string * rval) :=
  [("prev_out", VOutpoint (in_prev_out i)); ("script", VScript (in_script i)); ("sequence", VInt (in_sequence i));
   ("lock_script", VOptScript (in_lock_script i)); ("value", VOptInt (in_value i)); ("is_p2sh", VOptBool (in_is_p2sh i));
   ("sig_hash_flags", VOptFlags (in_sig_hash_flags i))].
Definition unhashed_struct (t : unhashed_tx) : list (string * rval) :=
  [("version", VInt (tx_version t)); ("inputs", VInputs (tx_inputs t)); ("outputs", VOutputs (tx_outputs t)); ("lock_time", VInt (tx_lock_time t))].
Definition tx_struct (t : tx) : list (string * rval) :=
  [("unhashed_tx", VUnhashed (tx_unhashed t)); ("hash", VBytes (tx_hash t)); ("raw", VBytes (tx_raw t))].
Definition preimage_struct (p : tx_preimage) : list (string * rval) :=
  [("version", VInt (pi_version p)); ("hash_prevouts", VBytes (pi_hash_prevouts p)); ("hash_sequence", VBytes (pi_hash_sequence p));
   ("outpoint", VOutpoint (pi_outpoint p)); ("script_code", VScript (pi_script_code p)); ("value", VInt (pi_value p));
   ("sequence", VInt (pi_sequence p)); ("hash_outputs", VBytes (pi_hash_outputs p)); ("lock_time", VInt (pi_lock_time p));
   ("sig_hash_type", VInt (pi_sig_hash_type p))].

(** Struct-level attributes that are accepted, and the crate names they give. *)
Definition struct_attr_ok (is_ident : string -> bool) (a : sattr) : Prop :=
  match a with
  | SBad => False
  | SList p items => p = "bitcoin_code" -> Forall (fun i => exists s, i = NNameValue ["crate"] (LStr s) /\ is_ident s = true) items
  | SOther => True
  end.
Definition crate_names (attrs : list sattr) : list string :=
  flat_map (fun a => match a with
    | SList p items => if (p =? "bitcoin_code")%string then
        flat_map (fun i => match i with NNameValue _ (LStr s) => [s] | _ => [] end) items else []
    | _ => [] end) attrs.
