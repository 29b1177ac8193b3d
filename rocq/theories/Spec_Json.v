(** Specification vocabulary for the JSON form: which transactions a Rust program can hold, what it means for
    the reader to terminate, and which tables are well formed. *)
From Verif Require Import Base Model_ByteArray Model_Opcode Model_Script Spec_Integer Model_Code Model_Json.
Local Open Scope Z_scope.

(** Every array in the provenance tree consists of bytes. *)
Fixpoint deep_ok (a : barray) : Prop :=
  match a with
  | BA d _ _ p => bytes_ok d /\
    match p with
    | None => True
    | Some ps => (fix go (l : list barray) : Prop := match l with [] => True | x :: r => deep_ok x /\ go r end) ps
    end
  end.
(** All fields in the range of their Rust types. *)
Definition op_in_range (o : op) : Prop :=
  match o with
  | OCode _ | OPushBool _ => True
  | OInvalid c => byte_ok c
  | OPushArray a _ => deep_ok a
  | OPushInt i => script_int i
  end.
Definition tagged_in_range (t : tagged_op) : Prop :=
  op_in_range (t_op t) /\ u32_ok (t_src_line t) /\ u32_ok (t_src_column t) /\ Forall (fun p => u32_ok (fst p)) (t_src_code t).
Definition opt_all {A} (P : A -> Prop) (o : option A) : Prop := match o with None => True | Some a => P a end.
Definition input_in_range (i : tx_input) : Prop :=
  deep_ok (op_tx_hash (in_prev_out i)) /\ ba_len (op_tx_hash (in_prev_out i)) = 32 /\ u32_ok (op_vout (in_prev_out i)) /\
  Forall tagged_in_range (in_script i) /\ u32_ok (in_sequence i) /\ opt_all (Forall tagged_in_range) (in_lock_script i) /\
  opt_all u64_ok (in_value i) /\ opt_all (Forall u32_ok) (in_sig_hash_flags i).
Definition output_in_range (o : tx_output) : Prop := u64_ok (out_value o) /\ Forall tagged_in_range (out_script o).
Definition tx_in_range (t : unhashed_tx) : Prop :=
  i32_ok (tx_version t) /\ Forall input_in_range (tx_inputs t) /\ Forall output_in_range (tx_outputs t) /\ u32_ok (tx_lock_time t).

(** The base64 crate decodes what it encoded. *)
Definition base64_ok (enc : list Z -> string) (dec : string -> option (list Z)) : Prop := forall b, bytes_ok b -> dec (enc b) = Some b.

(** The tables have fewer than 2^64 entries (they are Rust vectors). *)
Definition tables_fit (j : json_tx) : Prop :=
  Z.of_nat (length (jd_data_b64 (jx_data j)) + length (jd_byte_arrays (jx_data j)) + length (jd_strings (jx_data j))) < 2 ^ 64.

(** The reader stops with a given result / never stops. *)
Definition reads_to (dec : string -> option (list Z)) (j : json) (r : outcome unhashed_tx) : Prop :=
  exists n, forall fuel, (n <= fuel)%nat -> json_to_tx dec fuel j = Some r.
Definition never_stops (dec : string -> option (list Z)) (j : json) : Prop := forall fuel, json_to_tx dec fuel j = None.

(** Array entry [idx] lists [p] among its preimages. *)
Definition refers (d : json_data) (idx p : nat) : Prop :=
  exists j ps, nth_error (jd_byte_arrays d) idx = Some j /\ jb_preimages j = Some ps /\ In p ps.
(** No references to missing entries, and none in circles. *)
Definition no_cycles (d : json_data) : Prop :=
  exists rank : nat -> nat, forall idx p, refers d idx p -> (p < length (jd_byte_arrays d))%nat /\ (rank p < rank idx)%nat.
(** Following references from [idx], one gets to [p]. *)
Inductive reaches (d : json_data) : nat -> nat -> Prop :=
| reaches_one idx p : refers d idx p -> reaches d idx p
| reaches_more idx p q : refers d idx p -> reaches d p q -> reaches d idx q.
(** The arrays a transaction's inputs and scripts use directly. *)
Definition op_arrays (t : json_tagged_op) : list nat := match jt_op t with JPushByteArray i _ => [i] | _ => [] end.
Definition input_arrays (i : json_input) : list nat :=
  ji_prev_out_hash i :: flat_map op_arrays (ji_script i) ++ match ji_lock_script i with Some l => flat_map op_arrays l | None => [] end.
Definition tx_arrays (j : json_tx) : list nat := flat_map input_arrays (jx_inputs j) ++ flat_map (fun o => flat_map op_arrays (jo_script o)) (jx_outputs j).

(** Number of arrays in a provenance tree. *)
Fixpoint tree_size (a : barray) : nat :=
  match a with
  | BA _ _ _ p => S (match p with None => O | Some ps => (fix go (l : list barray) : nat := match l with [] => O | x :: r => (tree_size x + go r)%nat end) ps end)
  end.

(** * What tables mean, independently of the reader (no caches, no recursion limit). *)
Definition opt_rel {A B} (R : A -> B -> Prop) (x : option A) (y : option B) : Prop :=
  match x, y with None, None => True | Some a, Some b => R a b | _, _ => False end.
Definition string_means (d : json_data) (i : nat) (s : string) : Prop := nth_error (jd_strings d) i = Some s.
(** Entry [idx] of the array table describes the array [a]. *)
Fixpoint array_means (dec : string -> option (list Z)) (d : json_data) (a : barray) (idx : nat) {struct a} : Prop :=
  match a with
  | BA data name f preimage =>
    exists j s, nth_error (jd_byte_arrays d) idx = Some j /\ nth_error (jd_data_b64 d) (jb_data j) = Some s /\ dec s = Some data /\
      opt_rel (string_means d) (jb_name j) name /\ jb_function j = f /\
      match jb_preimages j, preimage with
      | None, None => True
      | Some is, Some ps =>
        (fix go (is : list nat) (ps : list barray) {struct ps} : Prop :=
          match is, ps with
          | [], [] => True
          | i :: is, p :: ps => array_means dec d p i /\ go is ps
          | _, _ => False
          end) is ps
      | _, _ => False
      end
  end.
Definition op_means (dec : string -> option (list Z)) (d : json_data) (j : json_op) (o : op) : Prop :=
  match j, o with
  | JCode c, OCode oc => opcode_from_u8 c = Some oc
  | JCode c, OInvalid c' => opcode_from_u8 c = None /\ c = c'
  | JInvalid c, OInvalid c' => c = c'
  | JPushBoolean b, OPushBool b' => b = b'
  | JPushInteger i, OPushInt i' => script_int i /\ i = i'
  | JPushByteArray i m, OPushArray a m' => array_means dec d a i /\ m = m'
  | _, _ => False
  end.
Definition names_mean (d : json_data) : option (list (option nat)) -> option (list (option string)) -> Prop := opt_rel (Forall2 (opt_rel (string_means d))).
Definition tagged_means (dec : string -> option (list Z)) (d : json_data) (j : json_tagged_op) (t : tagged_op) : Prop :=
  op_means dec d (jt_op j) (t_op t) /\ string_means d (jt_src_file j) (t_src_file t) /\ jt_src_line j = t_src_line t /\ jt_src_column j = t_src_column t /\
  Forall2 (fun x y => fst x = fst y /\ string_means d (snd x) (snd y)) (jt_src_code j) (t_src_code t) /\
  names_mean d (jt_pushed_names j) (t_pushed_names t) /\ names_mean d (jt_alt_pushed_names j) (t_alt_pushed_names t).
Definition script_means (dec : string -> option (list Z)) (d : json_data) : list json_tagged_op -> script -> Prop := Forall2 (tagged_means dec d).
Definition input_means (dec : string -> option (list Z)) (d : json_data) (j : json_input) (i : tx_input) : Prop :=
  array_means dec d (op_tx_hash (in_prev_out i)) (ji_prev_out_hash j) /\ ba_len (op_tx_hash (in_prev_out i)) = 32 /\ ji_prev_out_vout j = op_vout (in_prev_out i) /\
  script_means dec d (ji_script j) (in_script i) /\ ji_sequence j = in_sequence i /\ opt_rel (script_means dec d) (ji_lock_script j) (in_lock_script i) /\
  ji_value j = in_value i /\ ji_is_p2sh j = in_is_p2sh i /\ ji_sig_hash_flags j = in_sig_hash_flags i.
Definition output_means (dec : string -> option (list Z)) (d : json_data) (j : json_output) (o : tx_output) : Prop :=
  jo_value j = out_value o /\ script_means dec d (jo_script j) (out_script o).
Definition tx_means (dec : string -> option (list Z)) (j : json_tx) (t : unhashed_tx) : Prop :=
  jx_version j = tx_version t /\ Forall2 (input_means dec (jx_data j)) (jx_inputs j) (tx_inputs t) /\
  Forall2 (output_means dec (jx_data j)) (jx_outputs j) (tx_outputs t) /\ jx_lock_time j = tx_lock_time t.

(** Entry [idx] refers to [p], directly or through other entries, or is [p]. *)
Definition uses (d : json_data) (idx p : nat) : Prop := idx = p \/ reaches d idx p.

(** * Hostile files *)
Local Open Scope string_scope.
Local Open Scope Z_scope.
(** A file with one output whose script pushes array [i]. *)
Definition push_file (data : list string) (arrays : list json) (i : nat) : json :=
  JObj [("data", JObj [("data_b64", j_vec JStr data); ("byte_arrays", JArr arrays); ("strings", j_vec JStr ["f"])]); ("version", JNum 2); ("inputs", JArr []);
        ("outputs", JArr [JObj [("value", JNum 0); ("script", JArr [JObj [("op", JObj [("PushByteArray", JObj [("array_idx", j_nat i); ("is_minimal", JBool true)])]);
          ("src_file", JNum 0); ("src_line", JNum 0); ("src_column", JNum 0); ("src_code", JArr [])]])]]); ("lock_time", JNum 0)].
(** Entry [k] has entry [k - 1] as its preimage, twice. *)
Definition doubling (k : nat) : json := match k with O => JNum 0 | S k => JArr [JNum 0; JStr "Plain"; JNull; JArr [j_nat k; j_nat k]] end.
