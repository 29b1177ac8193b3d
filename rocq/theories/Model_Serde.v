(** Model of the serde forms of transactions (human-readable formats; JSON as in Model_Json): the derived
    implementations in bitcoin-cash/src/tx.rs, tx_builder.rs, tx_preimage.rs, bitcoin-cash-slp/src/lib.rs and the
    hand-written ones in script.rs.  serde's derive and serde_json are modelled after their documented conventions:
    a struct is written as an object with its fields in order and read from an object (fields in any order, others
    ignored, a repeated field is an error, a missing [Option] is [None]) or from an array of its fields; fields are
    read in the order of the document, the first error or panic decides; newtypes are transparent.  JSON numbers with a
    fraction or an exponent are not represented.  Which error is reported is not modelled, only that there is one. *)
From Verif Require Import Base Model_Integer Model_ByteArray Model_Opcode Model_Script Model_Code Model_Json Model_Hash Model_TxBuilder Model_Slp.
Local Open Scope string_scope.
Local Open Scope list_scope.
Local Open Scope Z_scope.

(** A JSON string as the list of its UTF-8 bytes, and back. *)
Definition text_bytes (s : string) : list Z := map (fun a => Z.of_nat (Ascii.nat_of_ascii a)) (list_ascii_of_string s).
Definition bytes_text (l : list Z) : string := string_of_list_ascii (map (fun b => Ascii.ascii_of_nat (Z.to_nat b)) l).

(** * Conventions *)
Definition shape : err := EJson JShape.
Definition jreader (A : Type) : Type := json -> outcome A.
Definition r_of {A} (f : json -> option A) : jreader A := fun j => match f j with Some a => Ok a | None => Err shape end.
Definition r_u8 := r_of d_u8.
Definition r_u32 := r_of d_u32.
Definition r_u64 := r_of d_u64.
Definition r_i32 := r_of d_i32.
Definition r_bool := r_of d_bool.
Definition r_str := r_of d_str.
Definition r_vec {A} (f : jreader A) : jreader (list A) := fun j => match j with JArr l => omap f l | _ => Err shape end.
Definition r_opt {A} (f : jreader A) : jreader (option A) := fun j => match j with JNull => Ok None | _ => do a <- f j; Ok (Some a) end.
(** Running a field's reader for its outcome only. *)
Definition checks {A} (f : jreader A) : jreader unit := fun j => do _ <- f j; Ok tt.
Fixpoint find_field (k : string) (fields : list (string * jreader unit)) : option (jreader unit) :=
  match fields with [] => None | (k', f) :: r => if String.eqb k' k then Some f else find_field k r end.
(** The derived [visit_map] and [visit_seq]. *)
Fixpoint visit_map (fields : list (string * jreader unit)) (seen : list string) (l : list (string * json)) : outcome unit :=
  match l with
  | [] => Ok tt
  | (k, v) :: r =>
    match find_field k fields with
    | None => visit_map fields seen r
    | Some f => if existsb (String.eqb k) seen then Err shape else do _ <- f v; visit_map fields (k :: seen) r
    end
  end.
Fixpoint visit_seq (fields : list (string * jreader unit)) (l : list json) : outcome unit :=
  match fields, l with
  | [], [] => Ok tt
  | (_, f) :: fs, v :: vs => do _ <- f v; visit_seq fs vs
  | _, _ => Err shape
  end.
Definition r_struct (fields : list (string * jreader unit)) (j : json) : outcome (list (string * json)) :=
  match j with
  | JObj l => do _ <- visit_map fields [] l; Ok l
  | JArr vs => do _ <- visit_seq fields vs; Ok (combine (map fst fields) vs)
  | _ => Err shape
  end.
Definition r_field {A} (k : string) (f : jreader A) (l : list (string * json)) : outcome A :=
  match keys_named k l with [v] => f v | _ => Err shape end.
Definition r_opt_field {A} (k : string) (f : jreader A) (l : list (string * json)) : outcome (option A) :=
  match keys_named k l with [v] => r_opt f v | [] => Ok None | _ => Err shape end.
Definition w_vec {A} (f : A -> outcome json) (l : list A) : outcome json := do js <- omap f l; Ok (JArr js).
Definition w_opt {A} (f : A -> outcome json) (o : option A) : outcome json := match o with None => Ok JNull | Some a => f a end.
(** A unit variant: its name, or (read only) an object that maps the name to null. *)
Definition r_enum {A} (names : list (A * string)) : jreader A := fun j =>
  match j with
  | JStr s | JObj [(s, JNull)] => match find (fun p => String.eqb (snd p) s) names with Some p => Ok (fst p) | None => Err shape end
  | _ => Err shape
  end.

(** * Hashes, byte arrays, scripts *)
(** hash.rs:51-60: newtypes of FixedByteArrayLE *)
Definition w_hash (n : Z) (h : barray) : outcome json := do s <- fixed_to_text n false h; Ok (JStr (bytes_text s)).
Definition r_hash (n : Z) : jreader barray := fun j => do s <- r_str j; fixed_from_text n false (text_bytes s).
(** byte_array.rs:638-666 *)
Definition w_bytes (a : barray) : outcome json := Ok (JStr (bytes_text (array_to_text a))).
Definition r_bytes : jreader barray := fun j => do s <- r_str j; array_from_text (text_bytes s).
(** script.rs:310-322 [Serialize for Script] *)
Definition w_script (s : script) : outcome json := do a <- c_ser script_codec s; Ok (JStr (bytes_text (array_to_text a))).
(** script.rs:324-338 [Deserialize for Script] *)
Definition r_script : jreader script := fun j =>
  do s <- r_str j; do d <- hex_decode (text_bytes s); c_deser script_codec (ba_unnamed d).
(** tx_preimage.rs:8-19 *)
Definition r_flags : jreader Z := fun j => do l <- r_struct [("bits", checks r_u32)] j; r_field "bits" r_u32 l.

(** * Transactions *)
(** tx.rs:11-17 *)
Definition w_outpoint (o : tx_outpoint) : outcome json :=
  do h <- w_hash 32 (op_tx_hash o); Ok (JObj [("txHash", h); ("vout", JNum (op_vout o))]).
Definition r_outpoint : jreader tx_outpoint := fun j =>
  do l <- r_struct [("txHash", checks (r_hash 32)); ("vout", checks r_u32)] j;
  do h <- r_field "txHash" (r_hash 32) l; do v <- r_field "vout" r_u32 l; Ok (TxOutpoint h v).
(** tx.rs:19-38 *)
Definition w_input (i : tx_input) : outcome json :=
  do p <- w_outpoint (in_prev_out i); do s <- w_script (in_script i); do k <- w_opt w_script (in_lock_script i);
  Ok (JObj [("prevOut", p); ("script", s); ("sequence", JNum (in_sequence i)); ("lockScript", k); ("value", j_opt JNum (in_value i));
            ("isP2sh", j_opt JBool (in_is_p2sh i)); ("sigHashFlags", j_opt (j_vec j_flags) (in_sig_hash_flags i))]).
Definition r_input : jreader tx_input := fun j =>
  do l <- r_struct [("prevOut", checks r_outpoint); ("script", checks r_script); ("sequence", checks r_u32); ("lockScript", checks (r_opt r_script));
                    ("value", checks (r_opt r_u64)); ("isP2sh", checks (r_opt r_bool)); ("sigHashFlags", checks (r_opt (r_vec r_flags)))] j;
  do p <- r_field "prevOut" r_outpoint l; do s <- r_field "script" r_script l; do q <- r_field "sequence" r_u32 l;
  do k <- r_opt_field "lockScript" r_script l; do v <- r_opt_field "value" r_u64 l; do b <- r_opt_field "isP2sh" r_bool l;
  do f <- r_opt_field "sigHashFlags" (r_vec r_flags) l;
  Ok (TxInput p s q k v b f).
(** tx.rs:40-45 *)
Definition w_output (o : tx_output) : outcome json :=
  do s <- w_script (out_script o); Ok (JObj [("value", JNum (out_value o)); ("script", s)]).
Definition r_output : jreader tx_output := fun j =>
  do l <- r_struct [("value", checks r_u64); ("script", checks r_script)] j;
  do v <- r_field "value" r_u64 l; do s <- r_field "script" r_script l; Ok (TxOutput v s).
(** tx.rs:47-55 *)
Definition w_unhashed_tx (t : unhashed_tx) : outcome json :=
  do i <- w_vec w_input (tx_inputs t); do o <- w_vec w_output (tx_outputs t);
  Ok (JObj [("version", JNum (tx_version t)); ("inputs", i); ("outputs", o); ("lockTime", JNum (tx_lock_time t))]).
Definition r_unhashed_tx : jreader unhashed_tx := fun j =>
  do l <- r_struct [("version", checks r_i32); ("inputs", checks (r_vec r_input)); ("outputs", checks (r_vec r_output)); ("lockTime", checks r_u32)] j;
  do v <- r_field "version" r_i32 l; do i <- r_field "inputs" (r_vec r_input) l; do o <- r_field "outputs" (r_vec r_output) l;
  do k <- r_field "lockTime" r_u32 l; Ok (UnhashedTx v i o k).
(** tx.rs:57-68 *)
Definition w_tx (t : tx) : outcome json :=
  do u <- w_unhashed_tx (tx_unhashed t); do h <- w_hash 32 (tx_hash t); do r <- w_bytes (tx_raw t);
  Ok (JObj [("unhashedTx", u); ("hash", h); ("raw", r)]).
Definition r_tx : jreader tx := fun j =>
  do l <- r_struct [("unhashedTx", checks r_unhashed_tx); ("hash", checks (r_hash 32)); ("raw", checks r_bytes)] j;
  do u <- r_field "unhashedTx" r_unhashed_tx l; do h <- r_field "hash" (r_hash 32) l; do r <- r_field "raw" r_bytes l; Ok (Tx u h r).
(** tx_builder.rs:14-20 *)
Definition w_unsigned_input (i : unsigned_tx_input) : outcome json :=
  do p <- w_outpoint (ui_prev_out i); Ok (JObj [("prevOut", p); ("sequence", JNum (ui_sequence i)); ("value", JNum (ui_value i))]).
Definition r_unsigned_input : jreader unsigned_tx_input := fun j =>
  do l <- r_struct [("prevOut", checks r_outpoint); ("sequence", checks r_u32); ("value", checks r_u64)] j;
  do p <- r_field "prevOut" r_outpoint l; do q <- r_field "sequence" r_u32 l; do v <- r_field "value" r_u64 l; Ok (UnsignedTxInput p q v).

(** * SLP *)
(** lib.rs:58-72 *)
Inductive slp_action : Type :=
| NonSlp | NonSlpBurn | SlpParseError | SlpUnsupportedVersion | SlpV1Genesis | SlpV1Mint | SlpV1Send | SlpNft1GroupGenesis | SlpNft1GroupMint
| SlpNft1GroupSend | SlpNft1UniqueChildGenesis | SlpNft1UniqueChildSend.
Definition action_names : list (slp_action * string) :=
  [(NonSlp, "NonSlp"); (NonSlpBurn, "NonSlpBurn"); (SlpParseError, "SlpParseError"); (SlpUnsupportedVersion, "SlpUnsupportedVersion");
   (SlpV1Genesis, "SlpV1Genesis"); (SlpV1Mint, "SlpV1Mint"); (SlpV1Send, "SlpV1Send"); (SlpNft1GroupGenesis, "SlpNft1GroupGenesis");
   (SlpNft1GroupMint, "SlpNft1GroupMint"); (SlpNft1GroupSend, "SlpNft1GroupSend"); (SlpNft1UniqueChildGenesis, "SlpNft1UniqueChildGenesis");
   (SlpNft1UniqueChildSend, "SlpNft1UniqueChildSend")].
Definition action_name (a : slp_action) : string :=
  match a with
  | NonSlp => "NonSlp" | NonSlpBurn => "NonSlpBurn" | SlpParseError => "SlpParseError" | SlpUnsupportedVersion => "SlpUnsupportedVersion"
  | SlpV1Genesis => "SlpV1Genesis" | SlpV1Mint => "SlpV1Mint" | SlpV1Send => "SlpV1Send" | SlpNft1GroupGenesis => "SlpNft1GroupGenesis"
  | SlpNft1GroupMint => "SlpNft1GroupMint" | SlpNft1GroupSend => "SlpNft1GroupSend"
  | SlpNft1UniqueChildGenesis => "SlpNft1UniqueChildGenesis" | SlpNft1UniqueChildSend => "SlpNft1UniqueChildSend"
  end.
(** lib.rs:7-12 *)
Definition token_type_names : list (slp_token_type * string) := [(Fungible, "Fungible"); (Nft1Child, "Nft1Child"); (Nft1Group, "Nft1Group")].
Definition token_type_name (t : slp_token_type) : string := match t with Fungible => "Fungible" | Nft1Child => "Nft1Child" | Nft1Group => "Nft1Group" end.
(** lib.rs:51-56 *)
Record slp_token : Type := SlpToken { k_amount : Z; k_is_mint_baton : bool; k_action : slp_action }.
(** lib.rs:32-35: the token id is a newtype of Sha256d (lib.rs:4-5) *)
Record slp_data : Type := SlpData { sd_token_id : barray }.
(** lib.rs:37-43, 45-49, 22-30: all fields (Model_Slp keeps only those [into_unhashed_tx] reads) *)
Record full_slp_input : Type := FullSlpInput { fi_index : Z; fi_token : slp_token; fi_input : tx_input; fi_prev_script : script }.
Record full_slp_output : Type := FullSlpOutput { fo_token : slp_token; fo_output : tx_output }.
Record full_slp_tx : Type := FullSlpTx {
  ft_version : Z; ft_inputs : list full_slp_input; ft_outputs : list full_slp_output; ft_lock_time : Z; ft_slp_data : option slp_data; ft_tx_hash : barray
}.
(** lib.rs:74-79 *)
Record slp_utxo : Type := SlpUtxo { su_input : unsigned_tx_input; su_token : slp_token; su_data : option slp_data }.
(** lib.rs:81-89; texts as JSON strings *)
Record token_meta : Type := TokenMeta {
  tm_ticker : string; tm_name : string; tm_document_url : string; tm_document_hash : list Z; tm_decimals : Z; tm_token_type : slp_token_type
}.
Definition w_token (t : slp_token) : outcome json :=
  Ok (JObj [("amount", JNum (k_amount t)); ("is_mint_baton", JBool (k_is_mint_baton t)); ("action", JStr (action_name (k_action t)))]).
Definition r_token : jreader slp_token := fun j =>
  do l <- r_struct [("amount", checks r_u64); ("is_mint_baton", checks r_bool); ("action", checks (r_enum action_names))] j;
  do a <- r_field "amount" r_u64 l; do b <- r_field "is_mint_baton" r_bool l; do c <- r_field "action" (r_enum action_names) l; Ok (SlpToken a b c).
Definition w_slp_data (d : slp_data) : outcome json := do h <- w_hash 32 (sd_token_id d); Ok (JObj [("token_id", h)]).
Definition r_slp_data : jreader slp_data := fun j =>
  do l <- r_struct [("token_id", checks (r_hash 32))] j; do h <- r_field "token_id" (r_hash 32) l; Ok (SlpData h).
Definition w_slp_input (i : full_slp_input) : outcome json :=
  do k <- w_token (fi_token i); do t <- w_input (fi_input i); do p <- w_script (fi_prev_script i);
  Ok (JObj [("index", JNum (fi_index i)); ("token", k); ("input", t); ("prev_script", p)]).
Definition r_slp_input : jreader full_slp_input := fun j =>
  do l <- r_struct [("index", checks r_u64); ("token", checks r_token); ("input", checks r_input); ("prev_script", checks r_script)] j;
  do i <- r_field "index" r_u64 l; do k <- r_field "token" r_token l; do t <- r_field "input" r_input l; do p <- r_field "prev_script" r_script l;
  Ok (FullSlpInput i k t p).
Definition w_slp_output (o : full_slp_output) : outcome json :=
  do k <- w_token (fo_token o); do t <- w_output (fo_output o); Ok (JObj [("token", k); ("output", t)]).
Definition r_slp_output : jreader full_slp_output := fun j =>
  do l <- r_struct [("token", checks r_token); ("output", checks r_output)] j;
  do k <- r_field "token" r_token l; do t <- r_field "output" r_output l; Ok (FullSlpOutput k t).
Definition w_slp_tx (t : full_slp_tx) : outcome json :=
  do i <- w_vec w_slp_input (ft_inputs t); do o <- w_vec w_slp_output (ft_outputs t); do d <- w_opt w_slp_data (ft_slp_data t); do h <- w_hash 32 (ft_tx_hash t);
  Ok (JObj [("version", JNum (ft_version t)); ("inputs", i); ("outputs", o); ("lock_time", JNum (ft_lock_time t)); ("slp_data", d); ("tx_hash", h)]).
Definition r_slp_tx : jreader full_slp_tx := fun j =>
  do l <- r_struct [("version", checks r_i32); ("inputs", checks (r_vec r_slp_input)); ("outputs", checks (r_vec r_slp_output)); ("lock_time", checks r_u32);
                    ("slp_data", checks (r_opt r_slp_data)); ("tx_hash", checks (r_hash 32))] j;
  do v <- r_field "version" r_i32 l; do i <- r_field "inputs" (r_vec r_slp_input) l; do o <- r_field "outputs" (r_vec r_slp_output) l;
  do k <- r_field "lock_time" r_u32 l; do d <- r_opt_field "slp_data" r_slp_data l; do h <- r_field "tx_hash" (r_hash 32) l;
  Ok (FullSlpTx v i o k d h).
Definition w_slp_utxo (u : slp_utxo) : outcome json :=
  do i <- w_unsigned_input (su_input u); do k <- w_token (su_token u); do d <- w_opt w_slp_data (su_data u);
  Ok (JObj [("input", i); ("slp_token", k); ("slp_data", d)]).
Definition r_slp_utxo : jreader slp_utxo := fun j =>
  do l <- r_struct [("input", checks r_unsigned_input); ("slp_token", checks r_token); ("slp_data", checks (r_opt r_slp_data))] j;
  do i <- r_field "input" r_unsigned_input l; do k <- r_field "slp_token" r_token l; do d <- r_opt_field "slp_data" r_slp_data l; Ok (SlpUtxo i k d).
Definition w_token_meta (m : token_meta) : outcome json :=
  Ok (JObj [("ticker", JStr (tm_ticker m)); ("name", JStr (tm_name m)); ("document_url", JStr (tm_document_url m));
            ("document_hash", j_vec JNum (tm_document_hash m)); ("decimals", JNum (tm_decimals m)); ("slp_token_type", JStr (token_type_name (tm_token_type m)))]).
Definition r_token_meta : jreader token_meta := fun j =>
  do l <- r_struct [("ticker", checks r_str); ("name", checks r_str); ("document_url", checks r_str); ("document_hash", checks (r_vec r_u8));
                    ("decimals", checks r_u8); ("slp_token_type", checks (r_enum token_type_names))] j;
  do a <- r_field "ticker" r_str l; do b <- r_field "name" r_str l; do c <- r_field "document_url" r_str l; do d <- r_field "document_hash" (r_vec r_u8) l;
  do e <- r_field "decimals" r_u8 l; do f <- r_field "slp_token_type" (r_enum token_type_names) l; Ok (TokenMeta a b c d e f).
