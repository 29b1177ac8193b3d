(** Model of bitcoin-cash/src/ecc.rs (the trait [ECC]) and of its two implementations, bitcoin-cash-ecc/src/c_ecc.rs and
    rust_ecc.rs.  The curve operations of the crates [secp256k1] (C) and [libsecp256k1] (Rust), which are not part of the
    repository, are the fields of the records [c_crate] and [rust_crate]: arbitrary functions.  Opaque values of these
    crates are represented by what they stand for: a secret key by its scalar, a message by its bytes, a signature by the pair
    (r, s), a public key by its 33-byte compressed form. *)
From Verif Require Import Base Model_ByteArray.
Local Open Scope Z_scope.
Local Open Scope list_scope.

(** ecc.rs:3-11 [ECC]; [msg_array: impl Into<ByteArray>] is the converted array; a [Pubkey] is its 33 bytes. *)
Record ecc : Type := Ecc {
  ecc_sign : list Z -> barray -> outcome barray;
  ecc_verify : list Z -> list Z -> list Z -> outcome bool;
  ecc_derive_pubkey : list Z -> outcome (list Z);
  ecc_normalize_sig : list Z -> outcome (list Z)
}.

(** secp256k1::Error, as far as c_ecc.rs:44-48 tells errors apart *)
Inductive c_error : Type := IncorrectSignature | OtherError.
(** The functions of crate secp256k1 0.19 used by c_ecc.rs *)
Record c_crate : Type := CCrate {
  c_sk_from_slice : list Z -> option Z;
  c_msg_from_slice : list Z -> option (list Z);
  c_sign : list Z -> Z -> Z * Z;
  c_serialize_der : Z * Z -> list Z;
  c_from_der : list Z -> option (Z * Z);
  c_from_der_lax : list Z -> option (Z * Z);
  c_normalize_s : Z * Z -> Z * Z;
  c_pk_from_slice : list Z -> option (list Z);
  c_verify : list Z -> Z * Z -> list Z -> option c_error;     (* None: Ok(()) *)
  c_pk_from_sk : Z -> list Z
}.
(** [Result::map_err(..)?] *)
Definition or_err {A} (o : option A) (e : err) : outcome A := match o with Some a => Ok a | None => Err e end.

(** c_ecc.rs:21-33 [sign] *)
Definition c_ecc_sign (L : c_crate) (secret_key : list Z) (msg_array : barray) : outcome barray :=
  do sk <- or_err (c_sk_from_slice L secret_key) (EInvalidSize 32 (zlen secret_key));
  do msg <- or_err (c_msg_from_slice L (ba_data msg_array)) (EInvalidSize 32 (ba_len msg_array));
  let sig := c_serialize_der L (c_sign L msg sk) in
  Ok (ba_apply_function msg_array sig FEcdsaSign).
(** c_ecc.rs:35-50 [verify]; the last arm returns an error for every error and panics on [Ok], which is handled above *)
Definition c_ecc_verify (L : c_crate) (pubkey msg_array sig_ser : list Z) : outcome bool :=
  do msg <- or_err (c_msg_from_slice L msg_array) (EInvalidSize 32 (zlen msg_array));
  do sig <- or_err (c_from_der L sig_ser) EInvalidSignatureFormat;
  do pk <- or_err (c_pk_from_slice L pubkey) EInvalidPubkey;
  match c_verify L msg sig pk with
  | None => Ok true
  | Some IncorrectSignature => Ok false
  | Some OtherError => Err EInvalidSignatureFormat
  end.
(** c_ecc.rs:52-60 [derive_pubkey] *)
Definition c_ecc_derive_pubkey (L : c_crate) (secret_key : list Z) : outcome (list Z) :=
  do sk <- or_err (c_sk_from_slice L secret_key) (EInvalidSize 32 (zlen secret_key));
  Ok (c_pk_from_sk L sk).
(** c_ecc.rs:62-67 [normalize_sig] *)
Definition c_ecc_normalize_sig (L : c_crate) (sig_ser : list Z) : outcome (list Z) :=
  do sig <- or_err (c_from_der_lax L sig_ser) EInvalidSignatureFormat;
  let sig := c_normalize_s L sig in
  Ok (c_serialize_der L sig).
(** c_ecc.rs:20 [impl ECC for CECC]; the context [curve] (8-18) carries no state visible to the functions *)
Definition c_ecc (L : c_crate) : ecc := Ecc (c_ecc_sign L) (c_ecc_verify L) (c_ecc_derive_pubkey L) (c_ecc_normalize_sig L).

(** The functions of crate libsecp256k1 0.3 used by rust_ecc.rs *)
Record rust_crate : Type := RustCrate {
  r_sk_parse_slice : list Z -> option Z;
  r_msg_parse_slice : list Z -> option (list Z);
  r_sign : list Z -> Z -> Z * Z;                              (* first component of the pair with the recovery id *)
  r_serialize_der : Z * Z -> list Z;
  r_parse_der : list Z -> option (Z * Z);
  r_parse_der_lax : list Z -> option (Z * Z);
  r_normalize_s : Z * Z -> Z * Z;
  r_pk_parse_compressed : list Z -> option (list Z);          (* parse_slice(_, Some(PublicKeyFormat::Compressed)) *)
  r_verify : list Z -> Z * Z -> list Z -> bool;
  r_pk_from_sk : Z -> list Z
}.
(** rust_ecc.rs:16-30 [sign] *)
Definition rust_ecc_sign (L : rust_crate) (secret_key : list Z) (msg_array : barray) : outcome barray :=
  do sk <- or_err (r_sk_parse_slice L secret_key) (EInvalidSize 32 (zlen secret_key));
  do msg <- or_err (r_msg_parse_slice L (ba_data msg_array)) (EInvalidSize 32 (ba_len msg_array));
  let sig := r_normalize_s L (r_sign L msg sk) in
  let sig := r_serialize_der L sig in
  Ok (ba_apply_function msg_array sig FEcdsaSign).
(** rust_ecc.rs:32-41 [verify] *)
Definition rust_ecc_verify (L : rust_crate) (pubkey msg_array sig_ser : list Z) : outcome bool :=
  do msg <- or_err (r_msg_parse_slice L msg_array) (EInvalidSize 32 (zlen msg_array));
  do sig <- or_err (r_parse_der L sig_ser) EInvalidSignatureFormat;
  do pk <- or_err (r_pk_parse_compressed L pubkey) EInvalidPubkey;
  Ok (r_verify L msg sig pk).
(** rust_ecc.rs:43-51 [derive_pubkey] *)
Definition rust_ecc_derive_pubkey (L : rust_crate) (secret_key : list Z) : outcome (list Z) :=
  do sk <- or_err (r_sk_parse_slice L secret_key) (EInvalidSize 32 (zlen secret_key));
  Ok (r_pk_from_sk L sk).
(** rust_ecc.rs:53-58 [normalize_sig] *)
Definition rust_ecc_normalize_sig (L : rust_crate) (sig_ser : list Z) : outcome (list Z) :=
  do sig <- or_err (r_parse_der_lax L sig_ser) EInvalidSignatureFormat;
  let sig := r_normalize_s L sig in
  Ok (r_serialize_der L sig).
(** rust_ecc.rs:15 [impl ECC for RustECC] *)
Definition rust_ecc (L : rust_crate) : ecc :=
  Ecc (rust_ecc_sign L) (rust_ecc_verify L) (rust_ecc_derive_pubkey L) (rust_ecc_normalize_sig L).
