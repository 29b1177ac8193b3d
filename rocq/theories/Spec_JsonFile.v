(** The file format, stated without the reader: which JSON values describe which tables (serialize_json.rs:11-85 read
    with serde's conventions). *)
From Verif Require Import Base Model_ByteArray Model_Opcode Model_Script Spec_Integer Model_Code Model_Json Spec_Json.
Local Open Scope string_scope.
Local Open Scope list_scope.
Local Open Scope Z_scope.

(** Key [k] occurs exactly once, with value [w] / not at all. *)
Definition once (k : string) (l : list (string * json)) (w : json) : Prop :=
  exists l1 l2, l = l1 ++ (k, w) :: l2 /\ ~ In k (map fst l1) /\ ~ In k (map fst l2).
Definition absent (k : string) (l : list (string * json)) : Prop := ~ In k (map fst l).
(** A struct is an object with its fields (others are ignored), or an array of its fields in order. *)
Definition members (names : list string) (v : json) (l : list (string * json)) : Prop :=
  v = JObj l \/ exists vs, v = JArr vs /\ length vs = length names /\ l = combine names vs.
Definition field {A} (k : string) (R : json -> A -> Prop) (l : list (string * json)) (x : A) : Prop := exists w, once k l w /\ R w x.
(** An optional field may be missing or null. *)
Definition nullable {A} (R : json -> A -> Prop) (w : json) (x : option A) : Prop :=
  match x with None => w = JNull | Some a => w <> JNull /\ R w a end.
Definition opt_field {A} (k : string) (R : json -> A -> Prop) (l : list (string * json)) (x : option A) : Prop :=
  field k (nullable R) l x \/ (absent k l /\ x = None).

Definition number (lo hi : Z) (w : json) (n : Z) : Prop := w = JNum n /\ lo <= n <= hi.
Definition f_u8 := number 0 255.
Definition f_u32 := number 0 4294967295.
Definition f_u64 := number 0 18446744073709551615.
Definition f_i32 := number (-2147483648) 2147483647.
Definition f_index (w : json) (i : nat) : Prop := f_u64 w (Z.of_nat i).
Definition f_bool (w : json) (b : bool) : Prop := w = JBool b.
Definition f_string (w : json) (s : string) : Prop := w = JStr s.
Definition f_list {A} (R : json -> A -> Prop) (w : json) (xs : list A) : Prop := exists l, w = JArr l /\ Forall2 R l xs.

Definition func_name (f : func) : string :=
  match f with
  | FPlain => "Plain" | FSha1 => "Sha1" | FRipemd160 => "Ripemd160" | FSha256 => "Sha256" | FHash256 => "Hash256" | FHash160 => "Hash160" | FNum2Bin => "Num2Bin"
  | FEcdsaSign => "EcdsaSign" | FSchnorrSign => "SchnorrSign" | FToDataSig => "ToDataSig" | FUnexpectedSplit => "UnexpectedSplit" | FReverse => "Reverse"
  end.
Definition f_func (w : json) (f : func) : Prop := w = JStr (func_name f) \/ w = JObj [(func_name f, JNull)].
(** An array entry: its data index alone, or a tuple of two to four members. *)
Definition f_entry (w : json) (e : json_byte_array) : Prop :=
  (f_index w (jb_data e) /\ jb_function e = FPlain /\ jb_name e = None /\ jb_preimages e = None) \/
  (exists a b, w = JArr [a; b] /\ f_index a (jb_data e) /\ f_func b (jb_function e) /\ jb_name e = None /\ jb_preimages e = None) \/
  (exists a b c, w = JArr [a; b; c] /\ f_index a (jb_data e) /\ f_func b (jb_function e) /\ nullable f_index c (jb_name e) /\ jb_preimages e = None) \/
  (exists a b c d, w = JArr [a; b; c; d] /\ f_index a (jb_data e) /\ f_func b (jb_function e) /\ nullable f_index c (jb_name e) /\ nullable (f_list f_index) d (jb_preimages e)).
(** An operation: an object with one member, named after the kind of operation. *)
Definition f_op (w : json) (o : json_op) : Prop :=
  match o with
  | JCode c => exists v, w = JObj [("Code", v)] /\ f_u8 v c
  | JInvalid c => exists v, w = JObj [("Invalid", v)] /\ f_u8 v c
  | JPushByteArray i m => exists v l, w = JObj [("PushByteArray", v)] /\ members ["array_idx"; "is_minimal"] v l /\ field "array_idx" f_index l i /\ field "is_minimal" f_bool l m
  | JPushBoolean b => exists v, w = JObj [("PushBoolean", v)] /\ f_bool v b
  | JPushInteger i => exists v, w = JObj [("PushInteger", v)] /\ f_i32 v i
  end.
Definition f_pair (w : json) (p : Z * nat) : Prop := exists a b, w = JArr [a; b] /\ f_u32 a (fst p) /\ f_index b (snd p).
Definition f_tagged_op (w : json) (t : json_tagged_op) : Prop :=
  exists l, members ["op"; "src_file"; "src_line"; "src_column"; "src_code"; "pushed_names"; "alt_pushed_names"] w l /\
    field "op" f_op l (jt_op t) /\ field "src_file" f_index l (jt_src_file t) /\ field "src_line" f_u32 l (jt_src_line t) /\ field "src_column" f_u32 l (jt_src_column t) /\
    field "src_code" (f_list f_pair) l (jt_src_code t) /\ opt_field "pushed_names" (f_list (nullable f_index)) l (jt_pushed_names t) /\
    opt_field "alt_pushed_names" (f_list (nullable f_index)) l (jt_alt_pushed_names t).
Definition f_flags (w : json) (f : Z) : Prop := exists l, members ["bits"] w l /\ field "bits" f_u32 l f.
Definition f_input (w : json) (i : json_input) : Prop :=
  exists l, members ["prev_out_hash"; "prev_out_vout"; "script"; "sequence"; "lock_script"; "value"; "is_p2sh"; "sig_hash_flags"] w l /\
    field "prev_out_hash" f_index l (ji_prev_out_hash i) /\ field "prev_out_vout" f_u32 l (ji_prev_out_vout i) /\ field "script" (f_list f_tagged_op) l (ji_script i) /\
    field "sequence" f_u32 l (ji_sequence i) /\ opt_field "lock_script" (f_list f_tagged_op) l (ji_lock_script i) /\ opt_field "value" f_u64 l (ji_value i) /\
    opt_field "is_p2sh" f_bool l (ji_is_p2sh i) /\ opt_field "sig_hash_flags" (f_list f_flags) l (ji_sig_hash_flags i).
Definition f_output (w : json) (o : json_output) : Prop :=
  exists l, members ["value"; "script"] w l /\ field "value" f_u64 l (jo_value o) /\ field "script" (f_list f_tagged_op) l (jo_script o).
(** The caches are not part of a file. *)
Definition f_data (w : json) (d : json_data) : Prop :=
  exists l, members ["data_b64"; "byte_arrays"; "strings"] w l /\ field "data_b64" (f_list f_string) l (jd_data_b64 d) /\ field "byte_arrays" (f_list f_entry) l (jd_byte_arrays d) /\
    field "strings" (f_list f_string) l (jd_strings d) /\ jd_string_indices d = [] /\ jd_data_indices d = [].
Definition file_of (w : json) (t : json_tx) : Prop :=
  exists l, members ["data"; "version"; "inputs"; "outputs"; "lock_time"] w l /\ field "data" f_data l (jx_data t) /\ field "version" f_i32 l (jx_version t) /\
    field "inputs" (f_list f_input) l (jx_inputs t) /\ field "outputs" (f_list f_output) l (jx_outputs t) /\ field "lock_time" f_u32 l (jx_lock_time t).

(** A decoder that only returns bytes. *)
Definition decodes_bytes (dec : string -> option (list Z)) : Prop := forall s b, dec s = Some b -> bytes_ok b.
