(** Model of bitcoin-cash/src/address.rs.  Text ([&str], [String]) is its list of UTF-8 bytes. *)
From Verif Require Import Base Model_ByteArray.
From Coq Require Import Ascii.
Local Open Scope Z_scope.
Local Open Scope list_scope.

(** Bytes of an ASCII literal. *)
Fixpoint text (s : string) : list Z :=
  match s with
  | EmptyString => []
  | String c r => Z.of_N (N_of_ascii c) :: text r
  end.

(** address.rs:9 *)
Definition CHARSET : list Z := text "qpzry9x8gf2tvdw0s3jn54khce6mua7l".

(** address.rs:19-23 and the discriminants *)
Inductive address_type : Type := P2PKH | P2SH.
Definition address_type_u8 (t : address_type) : Z := match t with P2PKH => 0 | P2SH => 8 end.

(** address.rs:25-62, 64-68 *)
Inductive prefix_kind : Type := BitcoinCash | SimpleLedger.
Definition prefix_kind_str (p : prefix_kind) : list Z :=
  match p with BitcoinCash => text "bitcoincash" | SimpleLedger => text "simpleledger" end.
Definition from_prefix_str (s : list Z) : option prefix_kind :=
  if bytes_eqb s (text "bitcoincash") then Some BitcoinCash
  else if bytes_eqb s (text "simpleledger") then Some SimpleLedger else None.
Definition prefix_default : prefix_kind := BitcoinCash.

(** address.rs:11-17, 31-35 (the [AddressPrefix] fields inlined) *)
Record address : Type := Address {
  ad_type : address_type; ad_hash : barray; ad_text : list Z; ad_prefix : list Z; ad_kind : option prefix_kind
}.

(** address.rs:249-251; indexing CHARSET out of range panics *)
Fixpoint map_to_b32 (data : list Z) : outcome (list Z) :=
  match data with
  | [] => Ok []
  | x :: r => match nth_error CHARSET (Z.to_nat x) with
              | None => Panic
              | Some c => do t <- map_to_b32 r; Ok (c :: t)
              end
  end.

(** address.rs:253-266.  The iterator is enumerated from 0. *)
Fixpoint charset_position (cs : list Z) (x : Z) : option nat :=
  match cs with
  | [] => None
  | c :: r => if x =? c then Some O else match charset_position r x with Some k => Some (S k) | None => None end
  end.
Fixpoint map_from_b32_at (i : Z) (s : list Z) : outcome (list Z) :=
  match s with
  | [] => Ok []
  | x :: r => match charset_position CHARSET x with
              | None => Err (EInvalidCashAddr (AInvalidBase32Letter i x))
              | Some p => do t <- map_from_b32_at (i + 1) r; Ok (Z.of_nat p :: t)
              end
  end.
Definition map_from_b32 (s : list Z) : outcome (list Z) := map_from_b32_at 0 s.

(** address.rs:286-289: the inner [while bits >= to_bits] loop ([fuel] >= [bits] always suffices).
    The [u32] accumulator never loses bits that survive the masks ([maxv], [max_acc] are below 2^32). *)
Fixpoint cb_emit (fuel : nat) (acc bits to_bits : Z) (ret : list Z) : Z * list Z :=
  match fuel with
  | O => (bits, ret)
  | S k => if to_bits <=? bits
           then let bits := bits - to_bits in
                cb_emit k acc bits to_bits (ret ++ [Z.land (Z.shiftr acc bits) (2 ^ to_bits - 1)])
           else (bits, ret)
  end.
(** address.rs:279-290: the outer loop; state (acc, bits, ret) *)
Fixpoint cb_loop (data : list Z) (from_bits to_bits acc bits : Z) (ret : list Z) : option (Z * Z * list Z) :=
  match data with
  | [] => Some (acc, bits, ret)
  | value :: rest =>
    if negb (Z.shiftr value from_bits =? 0) then None
    else
      let max_acc := 2 ^ (from_bits + to_bits - 1) - 1 in
      let acc := Z.land (Z.lor (Z.shiftl acc from_bits) value) max_acc in
      let bits := bits + from_bits in
      let '(bits, ret) := cb_emit (Z.to_nat bits) acc bits to_bits ret in
      cb_loop rest from_bits to_bits acc bits ret
  end.
(** address.rs:268-299 *)
Definition convert_bits (data : list Z) (from_bits to_bits : Z) (pad : bool) : option (list Z) :=
  match cb_loop data from_bits to_bits 0 0 [] with
  | None => None
  | Some (acc, bits, ret) =>
    let maxv := 2 ^ to_bits - 1 in
    let last := Z.land (Z.shiftl acc (to_bits - bits)) maxv in
    if pad then Some (if bits =? 0 then ret else ret ++ [last])
    else if (from_bits <=? bits) || negb (last =? 0) then None
    else Some ret
  end.

(** address.rs:304-320: one round of the checksum register *)
Definition poly_step (c value : Z) : Z :=
  let c0 := Z.shiftr c 35 mod 256 in
  let c := Z.lxor (Z.shiftl (Z.land c 0x07ffffffff) 5) value in
  let c := if Z.land c0 0x01 =? 0 then c else Z.lxor c 0x98f2bc8e61 in
  let c := if Z.land c0 0x02 =? 0 then c else Z.lxor c 0x79b76d99e2 in
  let c := if Z.land c0 0x04 =? 0 then c else Z.lxor c 0xf33e5fb3c4 in
  let c := if Z.land c0 0x08 =? 0 then c else Z.lxor c 0xae2eabe2a8 in
  if Z.land c0 0x10 =? 0 then c else Z.lxor c 0x1e4f43e470.
(** address.rs:301-323 *)
Definition poly_mod (values : list Z) : Z := Z.lxor (fold_left poly_step values 1) 1.

Definition prefix_symbols (prefix : list Z) : list Z := map (fun x => Z.land x 0x1f) prefix ++ [0].
(** address.rs:325-338 *)
Definition calculate_checksum (prefix payload : list Z) : list Z :=
  let poly := poly_mod (prefix_symbols prefix ++ payload ++ [0;0;0;0;0;0;0;0]) in
  map (fun i => Z.land (Z.shiftr poly (5 * (7 - i))) 0x1f) [0;1;2;3;4;5;6;7].
(** address.rs:340-350 *)
Definition verify_checksum (prefix payload : list Z) : bool :=
  poly_mod (prefix_symbols prefix ++ payload) =? 0.

(** address.rs:352-365 *)
Definition to_cash_addr (prefix : list Z) (t : address_type) (addr_bytes : list Z) : outcome (list Z) :=
  match convert_bits (address_type_u8 t :: addr_bytes) 8 5 true with
  | None => Panic
  | Some payload =>
    do b32 <- map_to_b32 (payload ++ calculate_checksum prefix payload);
    Ok (prefix ++ [58] ++ b32)
  end.

(** [str::to_ascii_lowercase] *)
Definition lower (b : Z) : Z := if (65 <=? b) && (b <=? 90) then b + 32 else b.
(** [find(':')] and [split_at] (address.rs:372-380) *)
Fixpoint split_colon (s : list Z) : option (list Z * list Z) :=
  match s with
  | [] => None
  | x :: r => if x =? 58 then Some ([], r)
              else match split_colon r with Some (a, b) => Some (x :: a, b) | None => None end
  end.

(** address.rs:367-397.  [converted[1..converted.len()-6]] panics when the length is below 7,
    [copy_from_slice] when the slice does not have 20 bytes; [converted[0]] is read afterwards. *)
Definition from_cash_addr_parts (addr_string default_prefix : list Z) : outcome (list Z * address_type * list Z) :=
  let s := map lower addr_string in
  let '(prefix, payload_base32) := match split_colon s with Some pb => pb | None => (default_prefix, s) end in
  do decoded <- map_from_b32 payload_base32;
  if negb (verify_checksum prefix decoded) then Err (EInvalidCashAddr AInvalidChecksum)
  else match convert_bits decoded 5 8 true with
  | None => Panic
  | Some converted =>
    if zlen converted <? 7 then Panic
    else
      let addr := firstn (length converted - 7) (skipn 1 converted) in
      if negb (zlen addr =? 20) then Panic
      else match nth_error converted 0 with
           | None => Panic
           | Some x => if x =? 0 then Ok (addr, P2PKH, prefix)
                       else if x =? 8 then Ok (addr, P2SH, prefix)
                       else Err (EInvalidCashAddr (AInvalidAddressType x))
           end
  end.

(** address.rs:115-127; the prefix argument as [&str] (96-103) *)
Definition from_hash (prefix : list Z) (t : address_type) (hash : barray) : outcome address :=
  do txt <- to_cash_addr prefix t (ba_data hash);
  Ok (Address t hash txt prefix (from_prefix_str prefix)).
(** address.rs:129-140 *)
Definition from_cash_addr (cash_addr : list Z) : outcome address :=
  do (ht, prefix) <- from_cash_addr_parts cash_addr (prefix_kind_str prefix_default);
  let '(hash, t) := ht in
  do h <- fixed_from_byte_array 20 (ba_unnamed hash);
  Ok (Address t h cash_addr prefix (from_prefix_str prefix)).
(** address.rs:181-183 *)
Definition with_prefix (a : address) (prefix : list Z) : outcome address := from_hash prefix (ad_type a) (ad_hash a).
