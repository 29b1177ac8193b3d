(** Model of the equalities, orders and [Hash] implementations of the data types: derived [PartialEq] of the transaction
    types (bitcoin-cash/src/tx.rs, tx_builder.rs), [Hash] of byte arrays (bitcoin-cash-base/src/byte_array.rs), hashes (hash.rs),
    public keys (pubkey.rs) and addresses (address.rs), derived [Ord] of public keys, relative locks (sequence.rs) and SLP tokens. *)
From Verif Require Import Base Model_ByteArray Model_Opcode Model_Script Model_Code Model_Address Model_AddressApi Model_Hash Model_TxBuilder Model_Serde.
Local Open Scope Z_scope.
Local Open Scope list_scope.

(** [PartialEq for Option<T>] and [for Vec<T>] of the standard library *)
Definition option_eqb {A} (eqb : A -> A -> bool) (a b : option A) : bool :=
  match a, b with None, None => true | Some x, Some y => eqb x y | _, _ => false end.
Fixpoint vec_eqb {A} (eqb : A -> A -> bool) (a b : list A) : bool :=
  match a, b with
  | [], [] => true
  | x :: a, y :: b => eqb x y && vec_eqb eqb a b
  | _, _ => false
  end.

(** tx.rs:12 *)
Definition outpoint_eqb (a b : tx_outpoint) : bool := ba_eqb (op_tx_hash a) (op_tx_hash b) && (op_vout a =? op_vout b).
(** tx.rs:20: every field, including those that are not serialised *)
Definition input_eqb (a b : tx_input) : bool :=
  outpoint_eqb (in_prev_out a) (in_prev_out b) && script_eqb (in_script a) (in_script b) && (in_sequence a =? in_sequence b) &&
  option_eqb script_eqb (in_lock_script a) (in_lock_script b) && option_eqb Z.eqb (in_value a) (in_value b) &&
  option_eqb Bool.eqb (in_is_p2sh a) (in_is_p2sh b) && option_eqb (vec_eqb Z.eqb) (in_sig_hash_flags a) (in_sig_hash_flags b).
(** tx.rs:41 *)
Definition output_eqb (a b : tx_output) : bool := (out_value a =? out_value b) && script_eqb (out_script a) (out_script b).
(** tx.rs:48 *)
Definition unhashed_tx_eqb (a b : unhashed_tx) : bool :=
  (tx_version a =? tx_version b) && vec_eqb input_eqb (tx_inputs a) (tx_inputs b) &&
  vec_eqb output_eqb (tx_outputs a) (tx_outputs b) && (tx_lock_time a =? tx_lock_time b).
(** tx.rs:58 *)
Definition tx_eqb (a b : tx) : bool :=
  unhashed_tx_eqb (tx_unhashed a) (tx_unhashed b) && ba_eqb (tx_hash a) (tx_hash b) && ba_eqb (tx_raw a) (tx_raw b).
(** tx_builder.rs:14 *)
Definition unsigned_input_eqb (a b : unsigned_tx_input) : bool :=
  outpoint_eqb (ui_prev_out a) (ui_prev_out b) && (ui_sequence a =? ui_sequence b) && (ui_value a =? ui_value b).

(** What a value feeds to a [std::hash::Hasher], call by call. *)
Inductive hasher_call : Type :=
| HUsize (n : Z)         (* write_usize / write_length_prefix *)
| HBytes (l : list Z)    (* write *)
| HU8 (b : Z)            (* write_u8 *)
| HIsize (d : Z).        (* write_isize: an enum's discriminant *)
(** standard library: [Hash for [u8]] (also of [[u8; N]]) and [for str] *)
Definition hash_slice (l : list Z) : list hasher_call := [HUsize (zlen l); HBytes l].
Definition hash_str (s : list Z) : list hasher_call := [HBytes s; HU8 255].
(** byte_array.rs:598-602; 677-681 for [FixedByteArray]; hash.rs:51-60 derived for the hash newtypes; slp lib.rs:4 [TokenId] *)
Definition hash_byte_array (a : barray) : list hasher_call := hash_slice (ba_data a).
(** pubkey.rs:4 derived *)
Definition hash_pubkey (pk : list Z) : list hasher_call := hash_slice pk.
(** address.rs:19, 25, 31: derived; discriminants as declared (P2PKH = 0, P2SH = 8) *)
Definition hash_kind (k : option prefix_kind) : list hasher_call :=
  match k with
  | None => [HIsize 0]
  | Some BitcoinCash => [HIsize 1; HIsize 0]
  | Some SimpleLedger => [HIsize 1; HIsize 1]
  end.
Definition hash_address_type (t : address_type) : list hasher_call := [HIsize (match t with P2PKH => 0 | P2SH => 8 end)].
(** address.rs:11: derived, field by field *)
Definition hash_address (a : address) : list hasher_call :=
  hash_address_type (ad_type a) ++ hash_byte_array (ad_hash a) ++ hash_str (ad_text a) ++ hash_str (ad_prefix a) ++ hash_kind (ad_kind a).

(** [Ordering::then] *)
Definition then_cmp (a b : comparison) : comparison := match a with Eq => b | _ => a end.
(** [Ord for [u8]]: lexicographic *)
Fixpoint slice_cmp (a b : list Z) : comparison :=
  match a, b with
  | [], [] => Eq
  | [], _ :: _ => Lt
  | _ :: _, [] => Gt
  | x :: a, y :: b => then_cmp (x ?= y) (slice_cmp a b)
  end.
(** pubkey.rs:4 *)
Definition pubkey_cmp (a b : list Z) : comparison := slice_cmp a b.
(** sequence.rs:3: variants in declaration order, then the number *)
Definition csv_cmp (a b : csv_timedelta) : comparison :=
  match a, b with
  | Blockheight x, Blockheight y => x ?= y
  | Blockheight _, Seconds512 _ => Lt
  | Seconds512 _, Blockheight _ => Gt
  | Seconds512 x, Seconds512 y => x ?= y
  end.
(** slp lib.rs:58-72: variants in declaration order *)
Definition action_index (a : slp_action) : Z :=
  match a with
  | NonSlp => 0 | NonSlpBurn => 1 | SlpParseError => 2 | SlpUnsupportedVersion => 3 | SlpV1Genesis => 4 | SlpV1Mint => 5 | SlpV1Send => 6
  | SlpNft1GroupGenesis => 7 | SlpNft1GroupMint => 8 | SlpNft1GroupSend => 9 | SlpNft1UniqueChildGenesis => 10 | SlpNft1UniqueChildSend => 11
  end.
Definition bool_cmp (a b : bool) : comparison :=
  match a, b with false, true => Lt | true, false => Gt | _, _ => Eq end.
(** slp lib.rs:51-56: amount, then baton, then action *)
Definition token_cmp (a b : slp_token) : comparison :=
  then_cmp (k_amount a ?= k_amount b) (then_cmp (bool_cmp (k_is_mint_baton a) (k_is_mint_baton b)) (action_index (k_action a) ?= action_index (k_action b))).
