(** What ECDSA over secp256k1 signatures are, and what the two curve crates are trusted to do. *)
From Verif Require Import Base Model_ByteArray Model_Ecc.
Local Open Scope Z_scope.
Local Open Scope list_scope.

(** The order of the group. *)
Definition N : Z := 0xFFFFFFFFFFFFFFFFFFFFFFFFFFFFFFFEBAAEDCE6AF48A03BBFD25E8CD0364141.
Definition scalar (d : Z) : Prop := 0 < d < N.
(** A 32-byte secret key of a valid scalar. *)
Definition secret_key (b : list Z) : Prop := zlen b = 32 /\ scalar (be_value b).
(** Low-S: the network accepts only the smaller of s and N-s. *)
Definition low_s (s : Z) : Prop := 0 < s <= N / 2.

(** DER integers: big-endian, sign bit clear, no superfluous leading zero. *)
Definition der_integer (n : Z) (b : list Z) : Prop :=
  bytes_ok b /\ be_value b = n /\
  match b with
  | [] => False
  | [x] => x < 128
  | x :: y :: _ => x < 128 /\ (x = 0 -> 128 <= y)
  end.
(** The strict DER encoding of a signature (BIP66). *)
Definition strict_der (r s : Z) (sig : list Z) : Prop :=
  exists br bs, der_integer r br /\ der_integer s bs /\
    sig = 0x30 :: (4 + zlen br + zlen bs) :: 0x02 :: zlen br :: br ++ 0x02 :: zlen bs :: bs.

(** A signature scheme: the (compressed) public key of a scalar and the verification equation.  ECDSA's symmetry is the only
    thing asked of the equation: (r, s) and (r, N - s) are both valid or both invalid. *)
Record scheme : Type := Scheme { key_of : Z -> list Z; valid : list Z -> list Z -> Z -> Z -> bool }.
Definition scheme_ok (S : scheme) : Prop :=
  (forall d, scalar d -> bytes_ok (key_of S d) /\ zlen (key_of S d) = 33) /\
  forall pk m r s, valid S pk m r (N - s) = valid S pk m r s.

(** The crates are trusted to parse keys, messages and signatures, to produce valid signatures, and to check them.  Nothing is
    asked about byte strings that are not the strict DER encoding of a signature, about public keys in other formats, and, for the Rust
    crate, about checking high-S signatures. *)
Definition parses_keys (of_slice : list Z -> option Z) : Prop :=
  forall b, bytes_ok b -> (forall d, of_slice b = Some d <-> secret_key b /\ d = be_value b).
Definition parses_messages (of_slice : list Z -> option (list Z)) : Prop :=
  forall b, bytes_ok b -> (forall m, of_slice b = Some m <-> zlen b = 32 /\ m = b).
Definition writes_der (ser : Z * Z -> list Z) : Prop := forall r s, scalar r -> scalar s -> strict_der r s (ser (r, s)).
Definition reads_der (parse : list Z -> option (Z * Z)) : Prop :=
  forall r s sig, scalar r -> scalar s -> strict_der r s sig -> parse sig = Some (r, s).
Definition lowers (norm : Z * Z -> Z * Z) : Prop :=
  forall r s, scalar s -> norm (r, s) = (r, if s <=? N / 2 then s else N - s).
Definition parses_pubkeys (S : scheme) (of_slice : list Z -> option (list Z)) : Prop :=
  forall d, scalar d -> of_slice (key_of S d) = Some (key_of S d).
Definition signs_valid (S : scheme) (sign : list Z -> Z -> Z * Z) : Prop :=
  forall m d, bytes_ok m -> zlen m = 32 -> scalar d ->
    let (r, s) := sign m d in scalar r /\ scalar s /\ valid S (key_of S d) m r s = true.

Definition c_crate_ok (S : scheme) (L : c_crate) : Prop :=
  parses_keys (c_sk_from_slice L) /\ parses_messages (c_msg_from_slice L) /\ writes_der (c_serialize_der L) /\
  reads_der (c_from_der L) /\ reads_der (c_from_der_lax L) /\ lowers (c_normalize_s L) /\ parses_pubkeys S (c_pk_from_slice L) /\
  signs_valid S (c_sign L) /\ (forall d, scalar d -> c_pk_from_sk L d = key_of S d) /\
  (** the C library only ever produces, and only ever accepts, low-S signatures *)
  (forall m d, bytes_ok m -> zlen m = 32 -> scalar d -> low_s (snd (c_sign L m d))) /\
  (forall m r s pk, scalar s -> c_verify L m (r, s) pk = if (s <=? N / 2) && valid S pk m r s then None else Some IncorrectSignature).
Definition rust_crate_ok (S : scheme) (L : rust_crate) : Prop :=
  parses_keys (r_sk_parse_slice L) /\ parses_messages (r_msg_parse_slice L) /\ writes_der (r_serialize_der L) /\
  reads_der (r_parse_der L) /\ reads_der (r_parse_der_lax L) /\ lowers (r_normalize_s L) /\ parses_pubkeys S (r_pk_parse_compressed L) /\
  signs_valid S (r_sign L) /\ (forall d, scalar d -> r_pk_from_sk L d = key_of S d) /\
  (forall m r s pk, low_s s -> r_verify L m (r, s) pk = valid S pk m r s).

(** [E] is one of the two back-ends. *)
Definition backend (S : scheme) (E : ecc) : Prop :=
  (exists L, c_crate_ok S L /\ E = c_ecc L) \/ (exists L, rust_crate_ok S L /\ E = rust_ecc L).

(** The network's signature check (the part after the hash type is split off): a 64-byte signature is a Schnorr
    signature; any other must be the strict DER encoding of a low-S signature satisfying the equation. *)
Definition network_verify (S : scheme) (verify : list Z -> list Z -> list Z -> bool) : Prop :=
  forall pk m sig, zlen sig <> 64 ->
    (verify pk m sig = true <-> exists r s, scalar r /\ low_s s /\ strict_der r s sig /\ valid S pk m r s = true).
