(** Property C47: address constructors, equality and serde forms. *)
From Verif Require Import Base BaseLemmas Model_Encoding Model_ByteArray Proofs_ByteArray Model_Opcode Model_Script Spec_Script Proofs_Script Model_Address Spec_Address Proofs_Address Proofs_Address2 Prop_Address
  Model_Hash Prop_Hash Model_Destination Spec_Destination Prop_Destination Model_AddressApi Spec_AddressApi.
Local Open Scope Z_scope.

Lemma kind_text s : kind_of_text s (from_prefix_str s).
Proof.
  unfold from_prefix_str. destruct (bytes_eqb s (text "bitcoincash")) eqn:E1; [apply bytes_eqb_spec in E1; subst; constructor|].
  destruct (bytes_eqb s (text "simpleledger")) eqn:E2; [apply bytes_eqb_spec in E2; subst; constructor|].
  constructor; intros ->; rewrite (proj2 (bytes_eqb_spec _ _) eq_refl) in *; discriminate.
Qed.
Lemma kind_fun s k k' : kind_of_text s k -> kind_of_text s k' -> k = k'.
Proof. intros H1 H2. inversion H1; subst; inversion H2; subst; congruence. Qed.
Lemma from_hash_str p t h : from_hash_px (prefix_of_str p) t h = from_hash p t h.
Proof. reflexivity. Qed.
Lemma px_ok p t h : bytes_ok (ba_data h) -> kind_of_text (px_str p) (px_kind p) -> exists a, from_hash_px p t h = Ok a /\ is_address a (px_str p) t (ba_data h) /\ ad_hash a = h.
Proof.
  intros Hb Hk. destruct (to_cash_addr_ok (px_str p) t (ba_data h) Hb) as (x & E & S). unfold from_hash_px. rewrite E. cbn [obind].
  eexists. split; [reflexivity|]. split; [|reflexivity]. unfold is_address. cbn [ad_type ad_hash ad_prefix ad_kind ad_text]. auto.
Qed.
Lemma type_eqb_iff a b : address_type_eqb a b = true <-> a = b. Proof. destruct a, b; cbn; split; congruence. Qed.
Lemma kind_eqb_iff a b : kind_eqb a b = true <-> a = b. Proof. destruct a as [[]|], b as [[]|]; cbn; split; congruence. Qed.

(** C47: a prefix, given by kind or by text, has the text and the kind it should have. *)
Theorem C47_prefix_arguments : forall k s,
  kind_of_text (px_str (prefix_of_kind k)) (px_kind (prefix_of_kind k)) /\ px_kind (prefix_of_kind k) = Some k /\
  px_str (prefix_of_str s) = s /\ kind_of_text s (px_kind (prefix_of_str s)).
Proof. intros k s. split; [destruct k; constructor|]. split; [reflexivity|]. split; [reflexivity|]. apply kind_text. Qed.
Print Assumptions C47_prefix_arguments.

(** C47: the address of a public key: P2PKH, the hash of the key's 33 bytes, and its locking script asks for that hash. *)
Theorem C47_from_pk : forall hash160 p pk, (forall m, bytes_ok m -> bytes_ok (hash160 m) /\ zlen (hash160 m) = 20) ->
  bytes_ok pk -> kind_of_text (px_str p) (px_kind p) ->
  exists a x, from_pk hash160 p pk = Ok a /\ is_address a (px_str p) P2PKH (hash160 pk) /\
    script_ser_ops (address_script a) = Ok x /\ ba_data x = [0x76; 0xa9; 0x14] ++ hash160 pk ++ [0x88; 0xac].
Proof.
  intros H p pk HH Hpk Hk. destruct (HH pk Hpk) as [B L]. unfold from_pk. rewrite C34_digest by exact L. cbn [obind ba_data ba_unnamed].
  match goal with |- context[from_hash_px p P2PKH ?h] => destruct (px_ok p P2PKH h B Hk) as (a & E & I & Eh) end. rewrite E.
  destruct (C22_locking_script_bytes a) as (x & Ex & Dx); [rewrite Eh; exact B|rewrite Eh; exact L|].
  exists a, x. split; [reflexivity|]. split; [exact I|]. split; [exact Ex|]. rewrite Dx, Eh. destruct I as (-> & _). reflexivity.
Qed.
Print Assumptions C47_from_pk.

(** C47: the address of a redeem script: P2SH, the hash of the script's bytes, and its locking script asks for that hash. *)
Theorem C47_from_redeem_script : forall hash160 p redeem, (forall m, bytes_ok m -> bytes_ok (hash160 m) /\ zlen (hash160 m) = 20) ->
  Forall op_ok (map t_op redeem) -> kind_of_text (px_str p) (px_kind p) ->
  exists r a x, script_ser_ops redeem = Ok r /\ from_redeem_script hash160 p redeem = Ok a /\ is_address a (px_str p) P2SH (hash160 (ba_data r)) /\
    script_ser_ops (address_script a) = Ok x /\ ba_data x = [0xa9; 0x14] ++ hash160 (ba_data r) ++ [0x87].
Proof.
  intros H p redeem HH Hs Hk. destruct (ser_ops_ok _ Hs) as (r & chunks & is & Er & _ & _ & _ & _ & Hok).
  pose proof (ser_of_ops redeem r Er) as Er'. destruct (HH (ba_data r) Hok) as [B L]. unfold from_redeem_script. rewrite Er'. cbn [obind].
  rewrite C34_digest by exact L. cbn [obind].
  match goal with |- context[from_hash_px p P2SH ?h] => destruct (px_ok p P2SH h B Hk) as (a & E & I & Eh) end.
  destruct (C22_locking_script_bytes a) as (x & Ex & Dx); [rewrite Eh; exact B|rewrite Eh; exact L|].
  exists r, a, x. split; [reflexivity|]. split; [exact E|]. split; [exact I|]. split; [exact Ex|]. rewrite Dx, Eh. destruct I as (-> & _). reflexivity.
Qed.
Print Assumptions C47_from_redeem_script.

(** C47: two addresses are equal exactly when everything they show is equal, the text included; owned copies are equal. *)
Theorem C47_equality : forall a b, (address_eqb a b = true <-> same_address a b) /\ address_eqb (to_owned_address a) a = true.
Proof.
  assert (forall a b, address_eqb a b = true <-> same_address a b) as K.
  { intros a b. unfold address_eqb, same_address. rewrite !andb_true_iff, type_eqb_iff, ba_eqb_spec, !bytes_eqb_spec, kind_eqb_iff. tauto. }
  intros a b. split; [apply K|]. apply K. unfold same_address. destruct a; cbn. auto.
Qed.
Print Assumptions C47_equality.

(** C47: human-readable formats: an address read from any text is written as that same text and read back equal. *)
Theorem C47_text_form : forall s a, from_cash_addr s = Ok a ->
  address_to_text a = s /\ address_from_text (address_to_text a) = Ok a.
Proof.
  intros s a H. assert (ad_text a = s) as E.
  { apply from_cash_addr_ok_iff in H. destruct H as (q & sy & t & h & r & _ & _ & _ & _ & _ & ->). reflexivity. }
  unfold address_to_text, address_from_text. rewrite E. auto.
Qed.
Print Assumptions C47_text_form.
Theorem C47_text_form_built : forall prefix t hash a,
  Forall (fun x => ~ 65 <= x <= 90 /\ x <> 58) prefix -> bytes_ok (ba_data hash) -> length (ba_data hash) = 20%nat ->
  from_hash_px (prefix_of_str prefix) t hash = Ok a ->
  exists b, address_from_text (address_to_text a) = Ok b /\ address_eqb b a = true.
Proof.
  intros p t h a Hp Hb Hl Ha. rewrite from_hash_str in Ha. destruct (C19_text_is_cash_addr p t h Hb) as (a' & E & _ & T1 & T2 & T3). rewrite Ha in E. injection E as <-.
  destruct (C19_round_trip p t h a (ad_text a) Hp Hb Hl Ha) as (b & E & B1 & B2 & B3 & B4 & B5).
  { apply same_letters_lower. reflexivity. }
  exists b. split; [exact E|]. apply C47_equality. unfold same_address. rewrite T1, T2, T3. auto.
Qed.
Print Assumptions C47_text_form_built.

(** C47: binary formats carry type, hash and prefix; reading them back gives the address with its canonical text, which
    is the same address exactly if it had that text (and the kind of its prefix) before. *)
Theorem C47_binary_form : forall a, bytes_ok (ba_data (ad_hash a)) -> zlen (ba_data (ad_hash a)) = 20 ->
  exists s b, address_to_binary a = Ok s /\ sa_type s = ad_type a /\ sa_hash s = ba_data (ad_hash a) /\ sa_prefix s = ad_prefix a /\
    address_from_binary s = Ok b /\ is_address b (ad_prefix a) (ad_type a) (ba_data (ad_hash a)) /\
    (address_eqb b a = true <-> is_address a (ad_prefix a) (ad_type a) (ba_data (ad_hash a))).
Proof.
  intros a Hb Hl. unfold address_to_binary, copy_from_slice. rewrite Hl, Z.eqb_refl. cbn [obind]. eexists.
  destruct (px_ok (prefix_of_str (ad_prefix a)) (ad_type a) (ba_unnamed (ba_data (ad_hash a))) Hb (kind_text _)) as (b & E & I & _).
  exists (to_owned_address b). split; [reflexivity|]. cbn [sa_type sa_hash sa_prefix]. split; [reflexivity|]. split; [reflexivity|]. split; [reflexivity|].
  split; [unfold address_from_binary; cbn [sa_type sa_hash sa_prefix]; rewrite E; reflexivity|].
  assert (to_owned_address b = b) as -> by (destruct b; reflexivity). split; [exact I|]. cbn [px_str prefix_of_str ba_data ba_unnamed] in I.
  destruct I as (I1 & I2 & I3 & I4 & I5). rewrite (proj1 (C47_equality b a)). unfold same_address, is_address. split.
  - intros (_ & _ & E3 & _ & E5). rewrite <- E3, <- E5. auto.
  - intros (_ & _ & _ & J4 & J5). split; [exact I1|]. split; [exact I2|]. split; [eapply cash_addr_text_unique; eauto|]. split; [exact I3|]. eapply kind_fun; eauto.
Qed.
Print Assumptions C47_binary_form.
(** C47: every binary form of a 20-byte hash is readable: no error, no panic. *)
Theorem C47_binary_total : forall s, bytes_ok (sa_hash s) -> zlen (sa_hash s) = 20 ->
  exists a, address_from_binary s = Ok a /\ is_address a (sa_prefix s) (sa_type s) (sa_hash s) /\ address_to_binary a = Ok s.
Proof.
  intros s Hb Hl. destruct (px_ok (prefix_of_str (sa_prefix s)) (sa_type s) (ba_unnamed (sa_hash s)) Hb (kind_text _)) as (b & E & I & _).
  exists b. assert (to_owned_address b = b) as Eo by (destruct b; reflexivity). split; [unfold address_from_binary; rewrite E; cbn [obind]; now rewrite Eo|].
  split; [exact I|]. destruct I as (I1 & I2 & I3 & _). unfold address_to_binary, copy_from_slice. rewrite I2. cbn [ba_data ba_unnamed]. rewrite Hl, Z.eqb_refl. cbn [obind].
  rewrite I1, I3. now destruct s.
Qed.
Print Assumptions C47_binary_total.

Definition ex_h160 (m : list Z) : list Z := map (fun k => (fold_left Z.add m 0 + Z.of_nat k) mod 256) (seq 0 20).
Lemma ex_h160_ok m : bytes_ok m -> bytes_ok (ex_h160 m) /\ zlen (ex_h160 m) = 20.
Proof.
  intros _. split; [|unfold ex_h160, zlen; rewrite map_length, seq_length; reflexivity]. unfold ex_h160. apply Forall_forall. intros x Hx. apply in_map_iff in Hx. destruct Hx as (k & <- & _).
  unfold byte_ok. pose proof (Z.mod_pos_bound (fold_left Z.add m 0 + Z.of_nat k) 256). lia.
Qed.
Definition ex_redeem : script := map tagged_from_op [OCode OP_DUP; OPushInt 1000; OCode OP_EQUAL].
Example C47_nonvacuous : (forall m, bytes_ok m -> bytes_ok (ex_h160 m) /\ zlen (ex_h160 m) = 20) /\
  Forall op_ok (map t_op ex_redeem) /\ bytes_ok (repeat 2 33) /\
  (exists a, from_pk ex_h160 (prefix_of_kind SimpleLedger) (repeat 2 33) = Ok a /\ ad_kind a = Some SimpleLedger /\ ad_hash a = BA (map (fun k => 66 + Z.of_nat k) (seq 0 20)) None FHash160 (Some [ba_unnamed (repeat 2 33)])) /\
  (exists a, from_redeem_script ex_h160 (prefix_of_str (text "bchtest")) ex_redeem = Ok a /\ ad_kind a = None /\ ad_type a = P2SH /\
     firstn 8 (ad_text a) = text "bchtest:" /\ address_from_text (ad_text a) = Ok (Address P2SH (ba_unnamed (ba_data (ad_hash a))) (ad_text a) (text "bchtest") None)).
Proof.
  split; [exact ex_h160_ok|]. split; [cbn [map t_op ex_redeem tagged_from_op]; constructor; [cbn; repeat split; discriminate|constructor; [cbn; unfold Spec_Integer.script_int; lia|constructor; [cbn; repeat split; discriminate|constructor]]]|]. split; [cbn; repeat constructor; lia|].
  split; [eexists; split; [vm_compute; reflexivity|split; vm_compute; reflexivity]|].
  eexists. split; [vm_compute; reflexivity|]. repeat split; vm_compute; reflexivity.
Qed.

(** C47, false beyond that: an address read from an upper-case text is not equal to itself after a binary round trip;
    nor are two addresses equal that were read from texts differing in case only. *)
Theorem C47_binary_keeps_equality_refuted : exists s a b x, from_cash_addr s = Ok a /\ address_to_binary a = Ok b /\ address_from_binary b = Ok x /\
  address_eqb x a = false.
Proof.
  exists (map upper_case ex_text). eexists. eexists. eexists. split; [vm_compute; reflexivity|]. split; [vm_compute; reflexivity|]. split; [vm_compute; reflexivity|]. vm_compute. reflexivity.
Qed.
Print Assumptions C47_binary_keeps_equality_refuted.
Theorem C47_same_destination_equal_refuted : exists s s' a a', same_letters s s' /\ from_cash_addr s = Ok a /\ from_cash_addr s' = Ok a' /\
  address_script a = address_script a' /\ address_eqb a a' = false.
Proof.
  exists (map upper_case ex_text), ex_text. eexists. eexists. split; [apply same_letters_lower; vm_compute; reflexivity|]. split; [vm_compute; reflexivity|]. split; [vm_compute; reflexivity|]. split; vm_compute; reflexivity.
Qed.
Print Assumptions C47_same_destination_equal_refuted.
