(** Model of the hexadecimal and serde forms of hashes and public keys: bitcoin-cash/src/hash.rs,
    bitcoin-cash/src/pubkey.rs, bitcoin-cash-base/src/byte_array.rs; and of bitcoin-cash/src/sequence.rs.
    Texts are lists of their (UTF-8) bytes.  The hex crate is modelled after its documentation:
    [encode] writes lower case, [decode] takes both cases and fails on odd length and other characters. *)
From Verif Require Import Base Model_ByteArray.
Local Open Scope Z_scope.
Local Open Scope list_scope.

(** hex::encode *)
Definition hex_digit (v : Z) : Z := if v <? 10 then 48 + v else 87 + v.
Fixpoint hex_encode (d : list Z) : list Z :=
  match d with [] => [] | b :: r => hex_digit (b / 16) :: hex_digit (b mod 16) :: hex_encode r end.
(** hex::decode *)
Definition hex_val (c : Z) : option Z :=
  if (65 <=? c) && (c <=? 70) then Some (c - 65 + 10)
  else if (97 <=? c) && (c <=? 102) then Some (c - 97 + 10)
  else if (48 <=? c) && (c <=? 57) then Some (c - 48) else None.
Fixpoint hex_pairs (s : list Z) : outcome (list Z) :=
  match s with
  | [] => Ok []
  | [_] => Err EFromHex
  | a :: b :: r =>
    match hex_val a, hex_val b with
    | Some h, Some l => do d <- hex_pairs r; Ok (h * 16 + l :: d)
    | _, _ => Err EFromHex
    end
  end.
Definition hex_decode (s : list Z) : outcome (list Z) := if Z.odd (zlen s) then Err EFromHex else hex_pairs s.

(** hash.rs:13-49 [Hashed], for the hash types with [n] bytes (20: Sha1, Ripemd160, Hash160; 32: Sha256, Sha256d;
    hash.rs:51-60).  [as_slice] is the data of the array. *)
Definition hash_from_slice (n : Z) (s : list Z) : outcome barray := fixed_from_slice n s.
Definition hash_from_hex_le (n : Z) (s : list Z) : outcome barray := do d <- hex_decode s; hash_from_slice n (rev d).
Definition hash_from_hex_be (n : Z) (s : list Z) : outcome barray := do d <- hex_decode s; hash_from_slice n d.
Definition hash_from_slice_le (n : Z) (s : list Z) : outcome barray := hash_from_slice n (rev s).
Definition hash_to_vec_le (h : barray) : list Z := rev (ba_data h).
Definition hash_to_hex_le (h : barray) : list Z := hex_encode (hash_to_vec_le h).
Definition hash_to_hex_be (h : barray) : list Z := hex_encode (ba_data h).
(** hash.rs:112-135 [Display] *)
Definition hash_display (h : barray) : list Z := hash_to_hex_le h.
(** hash.rs:19-24 [digest]; the hash function itself is a parameter *)
Definition hash_digest (digest_slice : list Z -> list Z) (n : Z) (f : func) (msg : barray) : outcome barray :=
  match fixed_from_byte_array n (ba_apply_function msg (digest_slice (ba_data msg)) f) with Ok h => Ok h | _ => Panic end.

(** [array.as_mut().copy_from_slice(&data)] for an array of [n] bytes *)
Definition copy_from_slice (n : Z) (d : list Z) : outcome (list Z) := if zlen d =? n then Ok d else Panic.
(** byte_array.rs:711-735 [Deserialize for FixedByteArray], human-readable formats *)
Definition fixed_from_text (n : Z) (big_endian : bool) (s : list Z) : outcome barray :=
  do d <- hex_decode s;
  do a <- copy_from_slice n (if big_endian then d else rev d);
  Ok (ba_unnamed a).
(** byte_array.rs:737-758 [Serialize for FixedByteArray], human-readable formats *)
Definition fixed_to_text (n : Z) (big_endian : bool) (h : barray) : outcome (list Z) :=
  do a <- copy_from_slice n (ba_data h);
  Ok (hex_encode (if big_endian then a else rev a)).
(** byte_array.rs:638-666 serde of ByteArray, human-readable formats *)
Definition array_from_text (s : list Z) : outcome barray := do d <- hex_decode s; Ok (ba_unnamed d).
Definition array_to_text (a : barray) : list Z := hex_encode (ba_data a).

(** pubkey.rs:8-12 [from_slice], 14-21 [from_slice_checked] *)
Definition pubkey_from_slice (s : list Z) : outcome (list Z) := copy_from_slice 33 s.
Definition pubkey_from_slice_checked (s : list Z) : option (list Z) := if zlen s =? 33 then Some s else None.
(** pubkey.rs:42-46 [Display] and 67-79 [Serialize]; 81-99 [Deserialize], human-readable formats *)
Definition pubkey_to_text (pk : list Z) : list Z := hex_encode pk.
Definition pubkey_from_text (s : list Z) : outcome (list Z) :=
  do d <- hex_decode s;
  if zlen d =? 33 then Ok d else Err EInvalidPubkey.

(** sequence.rs:1-20 *)
Definition CSV_TYPE_FLAG : Z := Z.shiftl 1 22.
Inductive csv_timedelta : Type := Blockheight (h : Z) | Seconds512 (s : Z).
Definition csv_sequence (c : csv_timedelta) : Z :=
  match c with Blockheight h => h | Seconds512 s => Z.lor s CSV_TYPE_FLAG end.
