(** Specification for address constructors and serde forms. *)
From Verif Require Import Base Model_ByteArray Model_Address Spec_Address.
Local Open Scope Z_scope.

(** The prefixes that have a kind. *)
Inductive kind_of_text : list Z -> option prefix_kind -> Prop :=
| KtCash : kind_of_text (text "bitcoincash") (Some BitcoinCash)
| KtSlp : kind_of_text (text "simpleledger") (Some SimpleLedger)
| KtNone s : s <> text "bitcoincash" -> s <> text "simpleledger" -> kind_of_text s None.

(** [is_address a prefix t hash]: [a] shows type [t], hash bytes [hash] and prefix [prefix] of the right kind,
    and its text is the CashAddr text of these. *)
Definition is_address (a : address) (prefix : list Z) (t : address_type) (hash : list Z) : Prop :=
  ad_type a = t /\ ba_data (ad_hash a) = hash /\ ad_prefix a = prefix /\ kind_of_text prefix (ad_kind a) /\
  cash_addr_text prefix t hash (ad_text a).

(** Everything the accessors of an address show. *)
Definition same_address (a b : address) : Prop :=
  ad_type a = ad_type b /\ ba_data (ad_hash a) = ba_data (ad_hash b) /\ ad_text a = ad_text b /\
  ad_prefix a = ad_prefix b /\ ad_kind a = ad_kind b.
