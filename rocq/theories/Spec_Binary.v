(** Independent specification for binary formats: what a format has to guarantee, and what round trips mean. *)
From Verif Require Import Base Model_ByteArray Model_Script Model_Code Spec_Code Spec_Json Model_Address Model_AddressApi Spec_Address Spec_AddressApi Model_TxBuilder Model_Slp Model_Serde Spec_Serde Model_Binary.
Local Open Scope Z_scope.

Definition in_range (t : int_type) (v : Z) : Prop := match t with U8 => byte_ok v | U32 => u32_ok v | U64 => u64_ok v | I32 => i32_ok v end.
(** What is written is read back, whatever follows. *)
Definition reads_back {A} (put : A -> list Z) (get : list Z -> option (A * list Z)) (P : A -> Prop) : Prop :=
  forall v rest, P v -> get (put v ++ rest) = Some (v, rest).
Record sound_format (F : format) : Prop := {
  sf_int : forall t, reads_back (put_int F t) (get_int F t) (in_range t);
  sf_int_range : forall t bs v rest, get_int F t bs = Some (v, rest) -> in_range t v;
  sf_bool : reads_back (put_bool F) (get_bool F) (fun _ => True);
  sf_tag : reads_back (put_tag F) (get_tag F) (fun _ => True);
  sf_len : reads_back (put_len F) (get_len F) u64_ok;
  sf_variant : reads_back (put_variant F) (get_variant F) u32_ok;
  sf_str : reads_back (put_str F) (get_str F) (fun s => bytes_ok s /\ u64_ok (zlen s))
}.
(** The reader can lend byte strings, which look like sequences of bytes, and texts. *)
Definition lending (F : format) : Prop :=
  reads_back (fun d => put_len F (zlen d) ++ concat (map (put_int F U8) d)) (get_bytes_ref F) (fun d => bytes_ok d /\ u64_ok (zlen d)) /\
  reads_back (put_str F) (get_str_ref F) (fun s => bytes_ok s /\ u64_ok (zlen s)).
(** Values are written as some bytes, which are read back, whatever follows, as a value that is the same. *)
Definition round_trips {A} (w : writer A) (r : reader A) (P : A -> Prop) (same : A -> A -> Prop) : Prop :=
  forall v, P v -> exists bs, w v = Ok bs /\ forall rest, exists v', r (bs ++ rest) = Ok (v', rest) /\ same v v'.

(** Lists fit into memory. *)
Definition small {A} (l : list A) : Prop := zlen l < 2 ^ 64.
Definition small_input (i : tx_input) : Prop := opt_all small (in_sig_hash_flags i).
Definition bin_input (i : tx_input) : Prop := full_input_value i /\ small_input i.
Definition bin_tx (t : unhashed_tx) : Prop := full_tx_value t /\ small (tx_inputs t) /\ small (tx_outputs t) /\ Forall small_input (tx_inputs t).
Definition bin_hashed_tx (t : tx) : Prop := hashed_tx_value t /\ bin_tx (tx_unhashed t) /\ small (ba_data (tx_raw t)).
Definition bin_slp_tx (t : full_slp_tx) : Prop :=
  slp_tx_value t /\ small (ft_inputs t) /\ small (ft_outputs t) /\ Forall (fun i => small_input (fi_input i)) (ft_inputs t).
Definition bin_meta (m : token_meta) : Prop :=
  meta_value m /\ small (tm_document_hash m) /\ small (text_bytes (tm_ticker m)) /\ small (text_bytes (tm_name m)) /\ small (text_bytes (tm_document_url m)).
(** Addresses: a hash of 20 bytes and a prefix; what comes back is the address of that hash with its canonical text. *)
Definition bin_address (a : address) : Prop := bytes_ok (ba_data (ad_hash a)) /\ zlen (ba_data (ad_hash a)) = 20 /\ bytes_ok (ad_prefix a) /\ small (ad_prefix a).
Definition canonical_of (a b : address) : Prop :=
  is_address b (ad_prefix a) (ad_type a) (ba_data (ad_hash a)) /\ (address_eqb b a = true <-> is_address a (ad_prefix a) (ad_type a) (ba_data (ad_hash a))).

(** * The bytes of bincode *)
(** Little-endian integers, lengths in 8 bytes, one byte to tell whether an optional value is there. *)
Definition counted {A} (one : A -> list Z -> Prop) (l : list A) (bs : list Z) : Prop :=
  exists parts, Forall2 one l parts /\ bs = le_bytes 8 (zlen l) ++ concat parts.
Definition optional {A} (one : A -> list Z -> Prop) (o : option A) (bs : list Z) : Prop :=
  match o with None => bs = [0] | Some a => exists x, one a x /\ bs = 1 :: x end.
(** A script: its serialisation, which starts with its own length, as a counted list of bytes. *)
Definition laid_script (s : script) (bs : list Z) : Prop := exists d, written s d /\ bs = le_bytes 8 (zlen d) ++ d.
Definition laid_outpoint (o : tx_outpoint) : list Z := ba_data (op_tx_hash o) ++ le_bytes 4 (op_vout o).
Definition laid_input (i : tx_input) (bs : list Z) : Prop :=
  exists s k v b f, laid_script (in_script i) s /\ optional laid_script (in_lock_script i) k /\ optional (fun v x => x = le_bytes 8 v) (in_value i) v /\
    optional (fun (b : bool) x => x = [if b then 1 else 0]) (in_is_p2sh i) b /\ optional (counted (fun f x => x = le_bytes 4 f)) (in_sig_hash_flags i) f /\
    bs = laid_outpoint (in_prev_out i) ++ s ++ le_bytes 4 (in_sequence i) ++ k ++ v ++ b ++ f.
Definition laid_output (o : tx_output) (bs : list Z) : Prop := exists s, laid_script (out_script o) s /\ bs = le_bytes 8 (out_value o) ++ s.
(** The version is signed: two's complement. *)
Definition laid_tx (t : unhashed_tx) (bs : list Z) : Prop :=
  exists i o, counted laid_input (tx_inputs t) i /\ counted laid_output (tx_outputs t) o /\
    bs = le_bytes 4 (if tx_version t <? 0 then tx_version t + 2 ^ 32 else tx_version t) ++ i ++ o ++ le_bytes 4 (tx_lock_time t).
