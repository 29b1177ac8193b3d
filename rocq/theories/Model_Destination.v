(** Model of bitcoin-cash/src/destination.rs and bitcoin-cash/src/scripts.rs, pubkey.rs. *)
From Verif Require Import Base Model_ByteArray Model_Opcode Model_Script Model_Address.
Local Open Scope Z_scope.

(** op.rs:12-18, 110-120 [PatternOp] *)
Inductive pattern_op : Type :=
| PCode (c : opcode)
| PInvalid (b : Z)
| PArray (d : list Z)
| PBool (b : bool)
| PInt (i : Z).
Definition to_pattern (o : op) : pattern_op :=
  match o with
  | OCode c => PCode c
  | OInvalid b => PInvalid b
  | OPushArray a _ => PArray (ba_data a)
  | OPushBool b => PBool b
  | OPushInt i => PInt i
  end.

(** destination.rs:5-11 *)
Inductive destination : Type :=
| Nulldata (ops : list op)
| DAddress (a : address)
| P2PK (pk : list Z)
| Unknown (s : script).

(** [Hash160::from_slice(hash).expect(..)]: hash.rs:146-152, byte_array.rs FixedByteArray *)
Definition expect_hash160 (h : list Z) : outcome barray :=
  match fixed_from_slice 20 h with Ok x => Ok x | _ => Panic end.

(** destination.rs:13-49 [script_destination] *)
Definition script_destination (addr_prefix : list Z) (s : script) : outcome destination :=
  match map (fun t => to_pattern (t_op t)) s with
  | [PCode OP_DUP; PCode OP_HASH160; PArray hash; PCode OP_EQUALVERIFY; PCode OP_CHECKSIG] =>
    do h <- expect_hash160 hash;
    do a <- from_hash addr_prefix P2PKH h;
    Ok (DAddress a)
  | [PCode OP_HASH160; PArray hash; PCode OP_EQUAL] =>
    do h <- expect_hash160 hash;
    do a <- from_hash addr_prefix P2SH h;
    Ok (DAddress a)
  | [PArray pk; PCode OP_CHECKSIG] => Ok (P2PK pk)
  | PCode OP_RETURN :: _ => Ok (Nulldata (map t_op (skipn 1 s)))
  | _ => Ok (Unknown s)
  end.

(** destination.rs:51-58 [Destination::address] *)
Definition destination_address (d : destination) : option address :=
  match d with DAddress a => Some a | _ => None end.

(** scripts.rs:15-31: the expansion of [#[script]] on [p2pkh_script] and [p2sh_script]: every opcode
    statement emits its opcode, the [let] of an expression emits its [to_pushop()]
    (hash.rs:336-400: [Op::from_array(self.as_byte_array().clone())]).  The provenance tags
    (source file, line, names) are simplified to [tagged_from_op]. *)
Definition p2pkh_script (a : address) : script :=
  map tagged_from_op [OCode OP_DUP; OCode OP_HASH160; op_from_array (ad_hash a); OCode OP_EQUALVERIFY; OCode OP_CHECKSIG].
Definition p2sh_script (a : address) : script :=
  map tagged_from_op [OCode OP_HASH160; op_from_array (ad_hash a); OCode OP_EQUAL].
(** scripts.rs:33-49 [Into<Script> for Address] *)
Definition address_script (a : address) : script :=
  match ad_type a with P2SH => p2sh_script a | P2PKH => p2pkh_script a end.
(** scripts.rs:51-58 [Address::p2pkh_script] *)
Definition address_p2pkh_script (a : address) : outcome script :=
  match ad_type a with P2PKH => Ok (p2pkh_script a) | P2SH => Err EInvalidAddressType end.

(** tx_preimage.rs:8-19: the bits of [SigHashFlags] *)
Definition SIGHASH_ALL : Z := 0x01.
Definition SIGHASH_NONE : Z := 0x02.
Definition SIGHASH_SINGLE : Z := 0x03.
Definition SIGHASH_FORKID : Z := 0x40.
Definition SIGHASH_ANYONECANPAY : Z := 0x80.
Definition SIGHASH_MASK : Z := 0x1f.
Definition SIGHASH_DEFAULT : Z := Z.lor SIGHASH_ALL SIGHASH_FORKID.
(** tx_preimage.rs:9 [#[derive(Default)]]: [SigHashFlags::default()] is the empty set of bits, not [DEFAULT] *)
Definition sighash_derived_default : Z := 0.
Definition sighash_all_bits : Z := 0xdf.
(** bitflags [from_bits]: rejects unknown bits *)
Definition sighash_from_bits (b : Z) : option Z :=
  if Z.ldiff b sighash_all_bits =? 0 then Some b else None.
(** tx_preimage.rs:37-41 [from_u8]: unchecked *)
Definition sighash_from_u8 (b : Z) : Z := b.

(** pubkey.rs:8-21: a [Pubkey] is modelled by its 33 bytes *)
Definition pubkey_from_slice_checked (s : list Z) : option (list Z) := if zlen s =? 33 then Some s else None.

Record p2pkh_spend : Type := P2PKHSpend { sp_pubkey : list Z; sp_flags : Z }.
(** [slice::last] *)
Definition last_byte (l : list Z) : option Z := match rev l with [] => None | x :: _ => Some x end.
(** destination.rs:60-79 [script_p2pkh_spend] *)
Definition script_p2pkh_spend (s : script) : option p2pkh_spend :=
  match map (fun t => to_pattern (t_op t)) s with
  | [PArray sg; PArray pubkey] =>
    if zlen pubkey =? 33 then
      match last_byte sg with
      | None => None
      | Some b =>
        match sighash_from_bits b with
        | None => None
        | Some f => match pubkey_from_slice_checked pubkey with Some p => Some (P2PKHSpend p f) | None => None end
        end
      end
    else None
  | _ => None
  end.

(** tx_builder.rs / lib.rs [MAX_SIGNATURE_SIZE] *)
Definition MAX_SIGNATURE_SIZE : Z := 72.
(** scripts.rs:9-13 *)
Record p2pkh_signatory : Type := P2PKHSignatory { sg_pubkey : list Z; sg_flags : Z }.
(** scripts.rs:67-69 [placeholder_signatures] *)
Definition p2pkh_placeholder : barray := ba_unnamed (repeat 0 (Z.to_nat MAX_SIGNATURE_SIZE)).
(** scripts.rs:70-86 [build_script] and the generated [P2PKHInputs::ops] (generate.rs:69-106: the fields
    in order, each pushed under its field name; source tags simplified as above) *)
Definition p2pkh_build_script (g : p2pkh_signatory) (sigs : barray) : script :=
  [ tagged_named (tagged_from_op (op_from_array (ba_concat sigs (ba_new "sig_hash" [sg_flags g mod 256])))) "sig";
    tagged_named (tagged_from_op (op_from_array (ba_unnamed (sg_pubkey g)))) "pubkey" ].
