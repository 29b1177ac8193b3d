(* Published test vectors run on the model with the real digests: the CashAddr specification's examples and the native
   P2WPKH example of BIP143 (the algorithm the fork-id signature hash reuses).  They check that the specifications, which were
   written from memory, and the model speak about the real formats; they are not proofs of any property. *)
From Coq Require Import ZArith List Bool String.
From Verif Require Import Base Model_ByteArray Model_Hash Model_Address Model_AddressApi Model_Script Model_Code Model_Preimage Digest Conform_Data.
Import ListNotations.
Open Scope string_scope.
Open Scope list_scope.
Open Scope Z_scope.

Definition addr_case (t : address_type) (hash s : string) : bool :=
  match from_hash_px (prefix_of_kind BitcoinCash) t (ba_unnamed (hexd hash)), from_cash_addr (text s) with
  | Ok a, Ok b => bytes_eqb (ad_text a) (text s) && address_eqb a b
  | _, _ => false
  end.
Example cashaddr_vectors : all_true [
  addr_case P2PKH "76a04053bda0a88bda5177b86a15c3b29f559873" "bitcoincash:qpm2qsznhks23z7629mms6s4cwef74vcwvy22gdx6a";
  addr_case P2PKH "cb481232299cd5743151ac4b2d63ae198e7bb0a9" "bitcoincash:qr95sy3j9xwd2ap32xkykttr4cvcu7as4y0qverfuy";
  addr_case P2PKH "011f28e473c95f4013d7d53ec5fbc3b42df8ed10" "bitcoincash:qqq3728yw0y47sqn6l2na30mcw6zm78dzqre909m2r";
  addr_case P2SH "76a04053bda0a88bda5177b86a15c3b29f559873" "bitcoincash:ppm2qsznhks23z7629mms6s4cwef74vcwvn0h829pq";
  addr_case P2SH "cb481232299cd5743151ac4b2d63ae198e7bb0a9" "bitcoincash:pr95sy3j9xwd2ap32xkykttr4cvcu7as4yc93ky28e";
  addr_case P2SH "011f28e473c95f4013d7d53ec5fbc3b42df8ed10" "bitcoincash:pqq3728yw0y47sqn6l2na30mcw6zm78dzq5ucqzc37"] = true.
Proof. vm_compute. reflexivity. Qed.

(* BIP143, "Native P2WPKH": the second input, SIGHASH_ALL *)
Definition bip143_tx : string := "0100000002fff7f7881a8099afa6940d42d1e7f6362bec38171ea3edf433541db4e4ad969f0000000000eeffffffef51e1b804cc89d182d279655c3aa89e815b1b309fe287d9b2b55d57b90ec68a0100000000ffffffff02202cb206000000001976a9148280b37df378db99f66f85c95a783a76ac7a6d5988ac9093510d000000001976a9143bde42dbee7e4dbe6a21b2d50ce2f0167faa815988ac11000000".
Definition bip143_preimage : string := "0100000096b827c8483d4e9b96712b6713a7b68d6e8003a781feba36c31143470b4efd3752b0a642eea2fb7ae638c36f6252b6750293dbe574a806984b8e4d8548339a3bef51e1b804cc89d182d279655c3aa89e815b1b309fe287d9b2b55d57b90ec68a010000001976a9141d0f172a0ecb48aee1be1f2687d2963ae33f71a188ac0046c32300000000ffffffff863ef3e1a92afbfdb97f31ad0fc7683ee943e9abcf2501590ff8f6551f47e5e51100000001000000".
Definition spend (lock : script) (i : tx_input) : tx_input :=
  TxInput (in_prev_out i) (in_script i) (in_sequence i) (Some lock) (Some 600000000) (Some false) None.
Example bip143_vector :
  match c_deser (unhashed_tx_codec 1 1) (ba_unnamed (hexd bip143_tx)), deserialize_ops_ba (ba_unnamed (hexd "76a9141d0f172a0ecb48aee1be1f2687d2963ae33f71a188ac")) with
  | Ok t, Ok lock =>
      let t' := UnhashedTx (tx_version t) (map (spend (script_from_ops lock)) (tx_inputs t)) (tx_outputs t) (tx_lock_time t) in
      match tx_preimages sha256d t' [1] with
      | Ok [_; [p]] =>
          match c_ser preimage_codec p with
          | Ok m => bytes_eqb (ba_data m) (hexd bip143_preimage)
                    && bytes_eqb (hex_encode (sha256d (ba_data m))) (text "c37af31116d1b27caf68aae9e3ac82f1477929014d5b917657d0eb49478cb670")
          | _ => false
          end
      | _ => false
      end
  | _, _ => false
  end = true.
Proof. vm_compute. reflexivity. Qed.
