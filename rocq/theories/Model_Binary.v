(** Model of the serde forms in binary (not human-readable, not self-describing) formats such as bincode and postcard: the derived
    implementations in tx.rs, tx_builder.rs, tx_preimage.rs, address.rs, slp lib.rs and the hand-written ones in byte_array.rs,
    hash.rs, pubkey.rs, script.rs, address.rs.  A format says how integers, booleans, tags, lengths, variant numbers and texts are written
    and read; structs and tuples are their fields in order, a sequence is its length and its elements, an option its tag and its value.
    Which error is reported is not modelled. *)
From Verif Require Import Base Model_Integer Model_ByteArray Model_Opcode Model_Script Model_Code Model_Hash Model_Address Model_AddressApi Model_TxBuilder Model_Slp Model_Serde.
Local Open Scope string_scope.
Local Open Scope list_scope.
Local Open Scope Z_scope.

Inductive int_type : Type := U8 | U32 | U64 | I32.
Record format : Type := Format {
  put_int : int_type -> Z -> list Z; get_int : int_type -> list Z -> option (Z * list Z);
  put_bool : bool -> list Z; get_bool : list Z -> option (bool * list Z);
  put_tag : bool -> list Z; get_tag : list Z -> option (bool * list Z);              (* an option's: is there a value? *)
  put_len : Z -> list Z; get_len : list Z -> option (Z * list Z);
  put_variant : Z -> list Z; get_variant : list Z -> option (Z * list Z);
  put_str : list Z -> list Z; get_str : list Z -> option (list Z * list Z);          (* texts as UTF-8 bytes *)
  (* [deserialize_bytes]/[deserialize_str] for borrowed data: [None] if the reader cannot lend its input *)
  get_bytes_ref : list Z -> option (list Z * list Z); get_str_ref : list Z -> option (list Z * list Z)
}.
Definition reader (A : Type) : Type := list Z -> outcome (A * list Z).
Definition writer (A : Type) : Type := A -> outcome (list Z).
Definition bad : err := EMsg 80.
Definition of_opt {A} (f : list Z -> option (A * list Z)) : reader A := fun bs => match f bs with Some r => Ok r | None => Err bad end.
Fixpoint get_n {A} (f : reader A) (n : nat) : reader (list A) := fun bs =>
  match n with O => Ok ([], bs) | S n => do (a, bs) <- f bs; do (l, bs) <- get_n f n bs; Ok (a :: l, bs) end.

Section Format.
Context (F : format).
Definition bw_int (t : int_type) : writer Z := fun v => Ok (put_int F t v).
Definition br_int (t : int_type) : reader Z := of_opt (get_int F t).
Definition bw_bool : writer bool := fun b => Ok (put_bool F b).
Definition br_bool : reader bool := of_opt (get_bool F).
Definition bw_opt {A} (w : writer A) : writer (option A) := fun o =>
  match o with None => Ok (put_tag F false) | Some a => do x <- w a; Ok (put_tag F true ++ x) end.
Definition br_opt {A} (r : reader A) : reader (option A) := fun bs =>
  do (b, bs) <- of_opt (get_tag F) bs; if b : bool then do (a, bs) <- r bs; Ok (Some a, bs) else Ok (None, bs).
Definition bw_vec {A} (w : writer A) : writer (list A) := fun l => do xs <- omap w l; Ok (put_len F (zlen l) ++ concat xs).
Definition br_vec {A} (r : reader A) : reader (list A) := fun bs => do (n, bs) <- of_opt (get_len F) bs; get_n r (Z.to_nat n) bs.
(** Unit variants, numbered in the order of declaration *)
Definition br_enum {A} (variants : list A) : reader A := fun bs =>
  do (n, bs) <- of_opt (get_variant F) bs; if n <? 0 then Err bad else match nth_error variants (Z.to_nat n) with Some a => Ok (a, bs) | None => Err bad end.
(** [u8; n] is a tuple of n bytes *)
Definition bw_array (n : Z) : writer (list Z) := fun d => do a <- copy_from_slice n d; Ok (concat (map (put_int F U8) a)).
Definition br_array (n : Z) : reader (list Z) := get_n (br_int U8) (Z.to_nat n).

(** byte_array.rs:737-758, 711-735: hashes *)
Definition bw_hash (n : Z) : writer barray := fun h => bw_array n (ba_data h).
Definition br_hash (n : Z) : reader barray := fun bs => do (a, bs) <- br_array n bs; Ok (ba_unnamed a, bs).
(** byte_array.rs:655-666 writes the vector of bytes (a sequence); 638-653 reads a borrowed byte string *)
Definition bw_bytes : writer barray := fun a => bw_vec (bw_int U8) (ba_data a).
Definition br_bytes : reader barray := fun bs => do (d, bs) <- of_opt (get_bytes_ref F) bs; Ok (ba_unnamed d, bs).
(** script.rs:310-338 *)
Definition bw_script : writer script := fun s => do a <- c_ser script_codec s; bw_vec (bw_int U8) (ba_data a).
Definition br_script : reader script := fun bs => do (d, bs) <- br_vec (br_int U8) bs; do s <- c_deser script_codec (ba_unnamed d); Ok (s, bs).
(** pubkey.rs:67-103 *)
Definition bw_pubkey : writer (list Z) := fun d => bw_vec (bw_int U8) d.
Definition br_pubkey : reader (list Z) := fun bs => do (d, bs) <- br_vec (br_int U8) bs; if zlen d =? 33 then Ok (d, bs) else Err bad.
(** address.rs:209-247: the type's variant (19-23), the hash, the prefix; the prefix is read as a borrowed text *)
Definition address_type_index (t : address_type) : Z := match t with P2PKH => 0 | P2SH => 1 end.
Definition bw_address : writer address := fun a =>
  do s <- address_to_binary a; do h <- bw_array 20 (sa_hash s); Ok (put_variant F (address_type_index (sa_type s)) ++ h ++ put_str F (sa_prefix s)).
Definition br_address : reader address := fun bs =>
  do (t, bs) <- br_enum [P2PKH; P2SH] bs; do (h, bs) <- br_array 20 bs; do (p, bs) <- of_opt (get_str_ref F) bs;
  do a <- address_from_binary (SerAddress t h p); Ok (a, bs).
(** tx_preimage.rs:8-19: a struct with the field [bits] *)
Definition bw_flags : writer Z := bw_int U32.
Definition br_flags : reader Z := br_int U32.

(** tx.rs:11-17 *)
Definition bw_outpoint : writer tx_outpoint := fun o => do h <- bw_hash 32 (op_tx_hash o); Ok (h ++ put_int F U32 (op_vout o)).
Definition br_outpoint : reader tx_outpoint := fun bs => do (h, bs) <- br_hash 32 bs; do (v, bs) <- br_int U32 bs; Ok (TxOutpoint h v, bs).
(** tx.rs:19-38 *)
Definition bw_input : writer tx_input := fun i =>
  do p <- bw_outpoint (in_prev_out i); do s <- bw_script (in_script i); do q <- bw_int U32 (in_sequence i); do k <- bw_opt bw_script (in_lock_script i);
  do v <- bw_opt (bw_int U64) (in_value i); do b <- bw_opt bw_bool (in_is_p2sh i); do f <- bw_opt (bw_vec bw_flags) (in_sig_hash_flags i);
  Ok (p ++ s ++ q ++ k ++ v ++ b ++ f).
Definition br_input : reader tx_input := fun bs =>
  do (p, bs) <- br_outpoint bs; do (s, bs) <- br_script bs; do (q, bs) <- br_int U32 bs; do (k, bs) <- br_opt br_script bs;
  do (v, bs) <- br_opt (br_int U64) bs; do (b, bs) <- br_opt br_bool bs; do (f, bs) <- br_opt (br_vec br_flags) bs;
  Ok (TxInput p s q k v b f, bs).
(** tx.rs:40-45 *)
Definition bw_output : writer tx_output := fun o => do v <- bw_int U64 (out_value o); do s <- bw_script (out_script o); Ok (v ++ s).
Definition br_output : reader tx_output := fun bs => do (v, bs) <- br_int U64 bs; do (s, bs) <- br_script bs; Ok (TxOutput v s, bs).
(** tx.rs:47-55 *)
Definition bw_unhashed_tx : writer unhashed_tx := fun t =>
  do v <- bw_int I32 (tx_version t); do i <- bw_vec bw_input (tx_inputs t); do o <- bw_vec bw_output (tx_outputs t); do k <- bw_int U32 (tx_lock_time t); Ok (v ++ i ++ o ++ k).
Definition br_unhashed_tx : reader unhashed_tx := fun bs =>
  do (v, bs) <- br_int I32 bs; do (i, bs) <- br_vec br_input bs; do (o, bs) <- br_vec br_output bs; do (k, bs) <- br_int U32 bs; Ok (UnhashedTx v i o k, bs).
(** tx.rs:57-68 *)
Definition bw_tx : writer tx := fun t => do u <- bw_unhashed_tx (tx_unhashed t); do h <- bw_hash 32 (tx_hash t); do r <- bw_bytes (tx_raw t); Ok (u ++ h ++ r).
Definition br_tx : reader tx := fun bs => do (u, bs) <- br_unhashed_tx bs; do (h, bs) <- br_hash 32 bs; do (r, bs) <- br_bytes bs; Ok (Tx u h r, bs).
(** tx_builder.rs:14-20 *)
Definition bw_unsigned_input : writer unsigned_tx_input := fun i =>
  do p <- bw_outpoint (ui_prev_out i); do q <- bw_int U32 (ui_sequence i); do v <- bw_int U64 (ui_value i); Ok (p ++ q ++ v).
Definition br_unsigned_input : reader unsigned_tx_input := fun bs =>
  do (p, bs) <- br_outpoint bs; do (q, bs) <- br_int U32 bs; do (v, bs) <- br_int U64 bs; Ok (UnsignedTxInput p q v, bs).

(** lib.rs:58-72, 7-12: the variants' numbers *)
Definition actions : list slp_action :=
  [NonSlp; NonSlpBurn; SlpParseError; SlpUnsupportedVersion; SlpV1Genesis; SlpV1Mint; SlpV1Send; SlpNft1GroupGenesis; SlpNft1GroupMint; SlpNft1GroupSend;
   SlpNft1UniqueChildGenesis; SlpNft1UniqueChildSend].
Definition action_index (a : slp_action) : Z :=
  match a with
  | NonSlp => 0 | NonSlpBurn => 1 | SlpParseError => 2 | SlpUnsupportedVersion => 3 | SlpV1Genesis => 4 | SlpV1Mint => 5 | SlpV1Send => 6 | SlpNft1GroupGenesis => 7
  | SlpNft1GroupMint => 8 | SlpNft1GroupSend => 9 | SlpNft1UniqueChildGenesis => 10 | SlpNft1UniqueChildSend => 11
  end.
Definition bw_action : writer slp_action := fun a => Ok (put_variant F (action_index a)).
Definition token_type_index (t : slp_token_type) : Z := match t with Fungible => 0 | Nft1Child => 1 | Nft1Group => 2 end.
Definition bw_token_type : writer slp_token_type := fun t => Ok (put_variant F (token_type_index t)).
Definition br_token_type : reader slp_token_type := br_enum [Fungible; Nft1Child; Nft1Group].
(** lib.rs:51-56, 32-35, 37-43, 45-49, 22-30, 74-79, 81-89 *)
Definition bw_token : writer slp_token := fun t => do a <- bw_int U64 (k_amount t); do b <- bw_bool (k_is_mint_baton t); do c <- bw_action (k_action t); Ok (a ++ b ++ c).
Definition br_token : reader slp_token := fun bs => do (a, bs) <- br_int U64 bs; do (b, bs) <- br_bool bs; do (c, bs) <- br_enum actions bs; Ok (SlpToken a b c, bs).
Definition bw_slp_data : writer slp_data := fun d => bw_hash 32 (sd_token_id d).
Definition br_slp_data : reader slp_data := fun bs => do (h, bs) <- br_hash 32 bs; Ok (SlpData h, bs).
Definition bw_slp_input : writer full_slp_input := fun i =>
  do n <- bw_int U64 (fi_index i); do k <- bw_token (fi_token i); do t <- bw_input (fi_input i); do p <- bw_script (fi_prev_script i); Ok (n ++ k ++ t ++ p).
Definition br_slp_input : reader full_slp_input := fun bs =>
  do (n, bs) <- br_int U64 bs; do (k, bs) <- br_token bs; do (t, bs) <- br_input bs; do (p, bs) <- br_script bs; Ok (FullSlpInput n k t p, bs).
Definition bw_slp_output : writer full_slp_output := fun o => do k <- bw_token (fo_token o); do t <- bw_output (fo_output o); Ok (k ++ t).
Definition br_slp_output : reader full_slp_output := fun bs => do (k, bs) <- br_token bs; do (t, bs) <- br_output bs; Ok (FullSlpOutput k t, bs).
Definition bw_slp_tx : writer full_slp_tx := fun t =>
  do v <- bw_int I32 (ft_version t); do i <- bw_vec bw_slp_input (ft_inputs t); do o <- bw_vec bw_slp_output (ft_outputs t); do k <- bw_int U32 (ft_lock_time t);
  do d <- bw_opt bw_slp_data (ft_slp_data t); do h <- bw_hash 32 (ft_tx_hash t); Ok (v ++ i ++ o ++ k ++ d ++ h).
Definition br_slp_tx : reader full_slp_tx := fun bs =>
  do (v, bs) <- br_int I32 bs; do (i, bs) <- br_vec br_slp_input bs; do (o, bs) <- br_vec br_slp_output bs; do (k, bs) <- br_int U32 bs;
  do (d, bs) <- br_opt br_slp_data bs; do (h, bs) <- br_hash 32 bs; Ok (FullSlpTx v i o k d h, bs).
Definition bw_slp_utxo : writer slp_utxo := fun u => do i <- bw_unsigned_input (su_input u); do k <- bw_token (su_token u); do d <- bw_opt bw_slp_data (su_data u); Ok (i ++ k ++ d).
Definition br_slp_utxo : reader slp_utxo := fun bs => do (i, bs) <- br_unsigned_input bs; do (k, bs) <- br_token bs; do (d, bs) <- br_opt br_slp_data bs; Ok (SlpUtxo i k d, bs).
Definition bw_text : writer string := fun s => Ok (put_str F (text_bytes s)).
Definition br_text : reader string := fun bs => do (s, bs) <- of_opt (get_str F) bs; Ok (bytes_text s, bs).
Definition bw_token_meta : writer token_meta := fun m =>
  do a <- bw_text (tm_ticker m); do b <- bw_text (tm_name m); do c <- bw_text (tm_document_url m); do d <- bw_vec (bw_int U8) (tm_document_hash m);
  do e <- bw_int U8 (tm_decimals m); do f <- bw_token_type (tm_token_type m); Ok (a ++ b ++ c ++ d ++ e ++ f).
Definition br_token_meta : reader token_meta := fun bs =>
  do (a, bs) <- br_text bs; do (b, bs) <- br_text bs; do (c, bs) <- br_text bs; do (d, bs) <- br_vec (br_int U8) bs; do (e, bs) <- br_int U8 bs; do (f, bs) <- br_token_type bs;
  Ok (TokenMeta a b c d e f, bs).
End Format.

(** bincode 1.x (default options): little-endian integers of fixed size, lengths as u64, variant numbers as u32, tags and booleans as one byte 0 or 1,
    texts as length and bytes (UTF-8 validation left out; list elements that are not bytes are refused, an input of bytes has none).  [lends]: the input is a slice, which can be borrowed, not a stream. *)
Definition take_int (n : nat) (bs : list Z) : option (Z * list Z) :=
  if (zlen bs <? Z.of_nat n) || negb (forallb (fun b => (0 <=? b) && (b <? 256)) (firstn n bs)) then None else Some (le_value (firstn n bs), skipn n bs).
Definition int_size (t : int_type) : nat := match t with U8 => 1 | U32 | I32 => 4 | U64 => 8 end.
Definition take_bool (bs : list Z) : option (bool * list Z) := match bs with 0 :: r => Some (false, r) | 1 :: r => Some (true, r) | _ => None end.
Definition take_bytes (bs : list Z) : option (list Z * list Z) :=
  match take_int 8 bs with Some (n, r) => if zlen r <? n then None else Some (firstn (Z.to_nat n) r, skipn (Z.to_nat n) r) | None => None end.
Definition bincode (lends : bool) : format := {|
  put_int := fun t v => le_bytes (int_size t) (v mod 2 ^ (8 * Z.of_nat (int_size t)));
  get_int := fun t bs => match take_int (int_size t) bs with Some (v, r) => Some (match t with I32 => wrap32 v | _ => v end, r) | None => None end;
  put_bool := fun b => [if b then 1 else 0]; get_bool := take_bool; put_tag := fun b => [if b then 1 else 0]; get_tag := take_bool;
  put_len := fun n => le_bytes 8 n; get_len := take_int 8; put_variant := fun n => le_bytes 4 n; get_variant := take_int 4;
  put_str := fun s => le_bytes 8 (zlen s) ++ s; get_str := take_bytes;
  get_bytes_ref := if lends then take_bytes else fun _ => None; get_str_ref := if lends then take_bytes else fun _ => None |}.
