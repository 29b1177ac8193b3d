(** The serde (JSON) form of transactions, stated without the reader and the writer: which JSON documents describe
    which transactions ([once], [members], [field], [opt_field], [f_*]: see Spec_JsonFile), and when two transactions
    are the same including the data that is not on the wire. *)
From Verif Require Import Base Spec_Encoding Model_ByteArray Model_Opcode Model_Script Spec_Script Model_Code Spec_Code Spec_Wire Model_Json Spec_Json Spec_JsonFile
  Model_Hash Spec_Hash Model_TxBuilder Model_Slp Model_Serde.
Local Open Scope string_scope.
Local Open Scope list_scope.
Local Open Scope Z_scope.

(** * Occurrence in a document *)
Inductive inside (w : json) : json -> Prop :=
| InsideHere : inside w w
| InsideArr l v : In v l -> inside w v -> inside w (JArr l)
| InsideObj l k v : In (k, v) l -> inside w v -> inside w (JObj l).
(** The texts of a document fit in memory. *)
Definition doc_fits (j : json) : Prop := forall s, inside (JStr s) j -> in_memory (zlen (text_bytes s)).
(** Somewhere in the document there is a hexadecimal text that does not have 64 digits. *)
Definition odd_sized_hash (j : json) : Prop := exists s d, inside (JStr s) j /\ hex_text (text_bytes s) d /\ zlen d <> 32.

(** * Documents *)
(** A hash is the hexadecimal text of its bytes in reverse; a byte array that of its bytes. *)
Definition doc_hash (n : Z) (w : json) (h : barray) : Prop :=
  exists s d, w = JStr s /\ hex_text (text_bytes s) d /\ ba_data h = rev d /\ zlen d = n.
Definition doc_bytes (w : json) (a : barray) : Prop := exists s, w = JStr s /\ hex_text (text_bytes s) (ba_data a).
Definition variant {A} (name : A -> string) (w : json) (a : A) : Prop := w = JStr (name a) \/ w = JObj [(name a, JNull)].

(** Which bytes stand for a script: [written] is what [Script::ser] returns, [wire_script false] everything that
    is a length-prefixed script. *)
Definition written (s : script) (d : list Z) : Prop := exists a, c_ser script_codec s = Ok a /\ ba_data a = d.

Section Documents.
Variable code : script -> list Z -> Prop.
Definition doc_script (w : json) (s : script) : Prop := exists t d, w = JStr t /\ hex_text (text_bytes t) d /\ code s d.
Definition doc_outpoint (w : json) (o : tx_outpoint) : Prop :=
  exists l, members ["txHash"; "vout"] w l /\ field "txHash" (doc_hash 32) l (op_tx_hash o) /\ field "vout" f_u32 l (op_vout o).
Definition doc_input (w : json) (i : tx_input) : Prop :=
  exists l, members ["prevOut"; "script"; "sequence"; "lockScript"; "value"; "isP2sh"; "sigHashFlags"] w l /\
    field "prevOut" doc_outpoint l (in_prev_out i) /\ field "script" doc_script l (in_script i) /\ field "sequence" f_u32 l (in_sequence i) /\
    opt_field "lockScript" doc_script l (in_lock_script i) /\ opt_field "value" f_u64 l (in_value i) /\ opt_field "isP2sh" f_bool l (in_is_p2sh i) /\
    opt_field "sigHashFlags" (f_list f_flags) l (in_sig_hash_flags i).
Definition doc_output (w : json) (o : tx_output) : Prop :=
  exists l, members ["value"; "script"] w l /\ field "value" f_u64 l (out_value o) /\ field "script" doc_script l (out_script o).
Definition doc_unhashed_tx (w : json) (t : unhashed_tx) : Prop :=
  exists l, members ["version"; "inputs"; "outputs"; "lockTime"] w l /\ field "version" f_i32 l (tx_version t) /\
    field "inputs" (f_list doc_input) l (tx_inputs t) /\ field "outputs" (f_list doc_output) l (tx_outputs t) /\ field "lockTime" f_u32 l (tx_lock_time t).
Definition doc_tx (w : json) (t : tx) : Prop :=
  exists l, members ["unhashedTx"; "hash"; "raw"] w l /\ field "unhashedTx" doc_unhashed_tx l (tx_unhashed t) /\
    field "hash" (doc_hash 32) l (tx_hash t) /\ field "raw" doc_bytes l (tx_raw t).
Definition doc_unsigned_input (w : json) (i : unsigned_tx_input) : Prop :=
  exists l, members ["prevOut"; "sequence"; "value"] w l /\ field "prevOut" doc_outpoint l (ui_prev_out i) /\
    field "sequence" f_u32 l (ui_sequence i) /\ field "value" f_u64 l (ui_value i).
Definition doc_token (w : json) (t : slp_token) : Prop :=
  exists l, members ["amount"; "is_mint_baton"; "action"] w l /\ field "amount" f_u64 l (k_amount t) /\
    field "is_mint_baton" f_bool l (k_is_mint_baton t) /\ field "action" (variant action_name) l (k_action t).
Definition doc_slp_data (w : json) (d : slp_data) : Prop :=
  exists l, members ["token_id"] w l /\ field "token_id" (doc_hash 32) l (sd_token_id d).
Definition doc_slp_input (w : json) (i : full_slp_input) : Prop :=
  exists l, members ["index"; "token"; "input"; "prev_script"] w l /\ field "index" f_u64 l (fi_index i) /\ field "token" doc_token l (fi_token i) /\
    field "input" doc_input l (fi_input i) /\ field "prev_script" doc_script l (fi_prev_script i).
Definition doc_slp_output (w : json) (o : full_slp_output) : Prop :=
  exists l, members ["token"; "output"] w l /\ field "token" doc_token l (fo_token o) /\ field "output" doc_output l (fo_output o).
Definition doc_slp_tx (w : json) (t : full_slp_tx) : Prop :=
  exists l, members ["version"; "inputs"; "outputs"; "lock_time"; "slp_data"; "tx_hash"] w l /\ field "version" f_i32 l (ft_version t) /\
    field "inputs" (f_list doc_slp_input) l (ft_inputs t) /\ field "outputs" (f_list doc_slp_output) l (ft_outputs t) /\ field "lock_time" f_u32 l (ft_lock_time t) /\
    opt_field "slp_data" doc_slp_data l (ft_slp_data t) /\ field "tx_hash" (doc_hash 32) l (ft_tx_hash t).
Definition doc_slp_utxo (w : json) (u : slp_utxo) : Prop :=
  exists l, members ["input"; "slp_token"; "slp_data"] w l /\ field "input" doc_unsigned_input l (su_input u) /\ field "slp_token" doc_token l (su_token u) /\
    opt_field "slp_data" doc_slp_data l (su_data u).
Definition doc_token_meta (w : json) (m : token_meta) : Prop :=
  exists l, members ["ticker"; "name"; "document_url"; "document_hash"; "decimals"; "slp_token_type"] w l /\
    field "ticker" f_string l (tm_ticker m) /\ field "name" f_string l (tm_name m) /\ field "document_url" f_string l (tm_document_url m) /\
    field "document_hash" (f_list f_u8) l (tm_document_hash m) /\ field "decimals" f_u8 l (tm_decimals m) /\
    field "slp_token_type" (variant token_type_name) l (tm_token_type m).
End Documents.

(** * Values: what the Rust types guarantee, including the fields that are not on the wire *)
Definition full_input_value (i : tx_input) : Prop :=
  input_value i /\ opt_all script_value (in_lock_script i) /\ opt_all u64_ok (in_value i) /\ opt_all (Forall u32_ok) (in_sig_hash_flags i).
Definition full_tx_value (t : unhashed_tx) : Prop :=
  i32_ok (tx_version t) /\ Forall full_input_value (tx_inputs t) /\ Forall output_value (tx_outputs t) /\ u32_ok (tx_lock_time t).
Definition hashed_tx_value (t : tx) : Prop := full_tx_value (tx_unhashed t) /\ fixed_value 32 (tx_hash t) /\ bytes_ok (ba_data (tx_raw t)).
Definition unsigned_value (i : unsigned_tx_input) : Prop := outpoint_value (ui_prev_out i) /\ u32_ok (ui_sequence i) /\ u64_ok (ui_value i).
Definition token_value (t : slp_token) : Prop := u64_ok (k_amount t).
Definition data_value (d : slp_data) : Prop := fixed_value 32 (sd_token_id d).
Definition slp_input_value (i : full_slp_input) : Prop :=
  u64_ok (fi_index i) /\ token_value (fi_token i) /\ full_input_value (fi_input i) /\ script_value (fi_prev_script i).
Definition slp_output_value (o : full_slp_output) : Prop := token_value (fo_token o) /\ output_value (fo_output o).
Definition slp_tx_value (t : full_slp_tx) : Prop :=
  i32_ok (ft_version t) /\ Forall slp_input_value (ft_inputs t) /\ Forall slp_output_value (ft_outputs t) /\ u32_ok (ft_lock_time t) /\
  opt_all data_value (ft_slp_data t) /\ fixed_value 32 (ft_tx_hash t).
Definition utxo_value (u : slp_utxo) : Prop := unsigned_value (su_input u) /\ token_value (su_token u) /\ opt_all data_value (su_data u).
Definition meta_value (m : token_meta) : Prop := bytes_ok (tm_document_hash m) /\ byte_ok (tm_decimals m).

(** * Sameness *)
(** The same instructions, each written with the same bytes. *)
Definition same_op_code (t t' : tagged_op) : Prop :=
  exists i x y, means (t_op t) i /\ means (t_op t') i /\ serialize_op (t_op t) = Ok x /\ serialize_op (t_op t') = Ok y /\ ba_data x = ba_data y.
Definition same_code (s s' : script) : Prop := Forall2 same_op_code s s'.
Definition same_option {A} (R : A -> A -> Prop) (a b : option A) : Prop :=
  match a, b with None, None => True | Some x, Some y => R x y | _, _ => False end.
Section Same.
Variable same : script -> script -> Prop.
Definition full_same_input (a b : tx_input) : Prop :=
  same_outpoint (in_prev_out a) (in_prev_out b) /\ same (in_script a) (in_script b) /\ in_sequence a = in_sequence b /\
  same_option same (in_lock_script a) (in_lock_script b) /\ in_value a = in_value b /\ in_is_p2sh a = in_is_p2sh b /\ in_sig_hash_flags a = in_sig_hash_flags b.
Definition full_same_output (a b : tx_output) : Prop := out_value a = out_value b /\ same (out_script a) (out_script b).
Definition full_same_tx (a b : unhashed_tx) : Prop :=
  tx_version a = tx_version b /\ Forall2 full_same_input (tx_inputs a) (tx_inputs b) /\ Forall2 full_same_output (tx_outputs a) (tx_outputs b) /\
  tx_lock_time a = tx_lock_time b.
Definition same_hashed_tx (a b : tx) : Prop :=
  full_same_tx (tx_unhashed a) (tx_unhashed b) /\ same_bytes (tx_hash a) (tx_hash b) /\ same_bytes (tx_raw a) (tx_raw b).
Definition same_unsigned (a b : unsigned_tx_input) : Prop :=
  same_outpoint (ui_prev_out a) (ui_prev_out b) /\ ui_sequence a = ui_sequence b /\ ui_value a = ui_value b.
Definition same_data (a b : slp_data) : Prop := same_bytes (sd_token_id a) (sd_token_id b).
Definition same_slp_input (a b : full_slp_input) : Prop :=
  fi_index a = fi_index b /\ fi_token a = fi_token b /\ full_same_input (fi_input a) (fi_input b) /\ same (fi_prev_script a) (fi_prev_script b).
Definition same_slp_output (a b : full_slp_output) : Prop := fo_token a = fo_token b /\ full_same_output (fo_output a) (fo_output b).
Definition same_slp_tx (a b : full_slp_tx) : Prop :=
  ft_version a = ft_version b /\ Forall2 same_slp_input (ft_inputs a) (ft_inputs b) /\ Forall2 same_slp_output (ft_outputs a) (ft_outputs b) /\
  ft_lock_time a = ft_lock_time b /\ same_option same_data (ft_slp_data a) (ft_slp_data b) /\ same_bytes (ft_tx_hash a) (ft_tx_hash b).
Definition same_utxo (a b : slp_utxo) : Prop :=
  same_unsigned (su_input a) (su_input b) /\ su_token a = su_token b /\ same_option same_data (su_data a) (su_data b).
End Same.
