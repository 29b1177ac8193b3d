(** Model of the address constructors, equality and serde forms of bitcoin-cash/src/address.rs. *)
From Verif Require Import Base Model_ByteArray Model_Script Model_Address Model_Hash.
Local Open Scope Z_scope.
Local Open Scope list_scope.

(** address.rs:31-35 [AddressPrefix], 79-93 [new] and its accessors *)
Record address_prefix : Type := AddressPrefix { px_str : list Z; px_kind : option prefix_kind }.
(** address.rs:70-77 [Into<AddressPrefix> for Prefix] *)
Definition prefix_of_kind (k : prefix_kind) : address_prefix := AddressPrefix (prefix_kind_str k) (Some k).
(** address.rs:96-103 [for &str] and 105-112 [for String] *)
Definition prefix_of_str (s : list Z) : address_prefix := AddressPrefix s (from_prefix_str s).

(** address.rs:115-127 [from_hash], for any prefix argument *)
Definition from_hash_px (p : address_prefix) (t : address_type) (hash : barray) : outcome address :=
  do txt <- to_cash_addr (px_str p) t (ba_data hash);
  Ok (Address t hash txt (px_str p) (px_kind p)).
(** address.rs:142-151 [from_redeem_script]; [hash160] is the hash function *)
Definition from_redeem_script (hash160 : list Z -> list Z) (p : address_prefix) (redeem : script) : outcome address :=
  do bytes <- script_ser_ops redeem;
  do h <- hash_digest hash160 20 FHash160 bytes;
  from_hash_px p P2SH h.
(** address.rs:153-159 [from_pk]; pubkey.rs:31-33 [as_byte_array]: an unnamed array *)
Definition from_pk (hash160 : list Z -> list Z) (p : address_prefix) (pk : list Z) : outcome address :=
  do h <- hash_digest hash160 20 FHash160 (ba_unnamed pk);
  from_hash_px p P2PKH h.

(** address.rs:11 [derive(PartialEq)]: field by field; hashes compare their bytes (byte_array.rs:690-694) *)
Definition address_type_eqb (a b : address_type) : bool :=
  match a, b with P2PKH, P2PKH | P2SH, P2SH => true | _, _ => false end.
Definition kind_eqb (a b : option prefix_kind) : bool :=
  match a, b with
  | None, None | Some BitcoinCash, Some BitcoinCash | Some SimpleLedger, Some SimpleLedger => true
  | _, _ => false
  end.
Definition address_eqb (a b : address) : bool :=
  address_type_eqb (ad_type a) (ad_type b) && ba_eqb (ad_hash a) (ad_hash b) && bytes_eqb (ad_text a) (ad_text b)
  && bytes_eqb (ad_prefix a) (ad_prefix b) && kind_eqb (ad_kind a) (ad_kind b).

(** address.rs:185-207 [to_owned_address], [into_owned_address]: a field by field copy *)
Definition to_owned_address (a : address) : address :=
  Address (ad_type a) (ad_hash a) (ad_text a) (ad_prefix a) (ad_kind a).

(** address.rs:209-214 [SerAddress]: what binary formats carry *)
Record ser_address : Type := SerAddress { sa_type : address_type; sa_hash : list Z; sa_prefix : list Z }.
(** address.rs:216-231 [Serialize for Address]: human-readable formats get the text, others the structure;
    [expect] panics unless the hash has 20 bytes *)
Definition address_to_text (a : address) : list Z := ad_text a.
Definition address_to_binary (a : address) : outcome ser_address :=
  do h <- copy_from_slice 20 (ba_data (ad_hash a));
  Ok (SerAddress (ad_type a) h (ad_prefix a)).
(** address.rs:233-247 [Deserialize for Address] *)
Definition address_from_text (s : list Z) : outcome address := from_cash_addr s.
Definition address_from_binary (s : ser_address) : outcome address :=
  do a <- from_hash_px (prefix_of_str (sa_prefix s)) (sa_type s) (ba_unnamed (sa_hash s));
  Ok (to_owned_address a).
