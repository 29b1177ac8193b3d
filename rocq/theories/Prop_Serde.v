(** C58: the serde (JSON) form of transactions, unsigned inputs and SLP data. *)
From Verif Require Import Base BaseLemmas Model_Encoding Spec_Encoding Spec_Integer Model_ByteArray Proofs_ByteArray Model_Opcode Model_Script Spec_Script Proofs_Script
  Model_Code Spec_Code Spec_Wire Proofs_Codec Model_Destination Spec_Preimage Model_Json Spec_Json Spec_JsonFile Prop_JsonFile
  Model_Hash Spec_Hash Model_TxBuilder Model_Slp Model_Serde Spec_Serde Proofs_Serde Proofs_Serde2 Proofs_Serde3 Proofs_Serde4 Model_Preimage Proofs_Preimage Proofs_Serde5 Prop_Code Prop_Preimage.
From Coq Require Import Permutation.
Local Open Scope string_scope.
Local Open Scope list_scope.
Local Open Scope Z_scope.

(** Every transaction can be written, as the document with its fields, every script as the hexadecimal text of the
    bytes [Script::ser] returns. *)
Theorem C58_writes : forall t, full_tx_value t -> exists j, w_unhashed_tx t = Ok j /\ doc_unhashed_tx written j t.
Proof. exact unhashed_w. Qed.
Print Assumptions C58_writes.

(** The reader takes every document of a transaction -- fields in any order, unknown fields, missing or null optional
    fields, structs as arrays, hexadecimal digits of either case, any encoding of the length prefixes and pushes --
    and returns that transaction with all its fields, also those that are not on the wire. *)
Theorem C58_reads_every_document : forall j t, full_tx_value t -> doc_unhashed_tx (wire_script false) j t ->
  exists t', r_unhashed_tx j = Ok t' /\ full_same_tx same_script t t'.
Proof. intros j t V D. exact (unhashed_c _ _ readable_lenient j t V D). Qed.
Print Assumptions C58_reads_every_document.

(** It takes nothing else, and what it returns is a transaction the API can handle. *)
Theorem C58_reads_only_documents : forall j t, doc_fits j -> r_unhashed_tx j = Ok t -> full_tx_value t /\ doc_unhashed_tx (wire_script false) j t.
Proof. exact unhashed_s. Qed.
Print Assumptions C58_reads_only_documents.

(** A document describes one transaction only. *)
Lemma same_option_per {A} (R : A -> A -> Prop) : per R -> per (same_option R).
Proof.
  intros [S T]. split; [intros [a|] [b|]; cbn; auto|]. intros [a|] [b|] [c|]; cbn; try contradiction; eauto.
Qed.
Lemma F2_per {A} (R : A -> A -> Prop) : per R -> per (Forall2 R).
Proof.
  intros [S T]. split; [induction 1; constructor; auto|]. intros a b c H. revert c. induction H; intros c H'; inversion H'; subst; constructor; eauto.
Qed.
Lemma full_input_per : per (full_same_input same_script).
Proof.
  destruct per_outpoint as [S1 T1], per_script as [S2 T2]. destruct (same_option_per _ per_script) as [S3 T3]. split; unfold full_same_input.
  - intros a b (A & B & C & D & E & F & G). repeat split; auto; apply S1; exact A.
  - intros a b c (A & B & C & D & E & F & G) (A' & B' & C' & D' & E' & F' & G').
    split; [eapply T1; eassumption|]. split; [eapply T2; eassumption|]. split; [congruence|]. split; [eapply T3; eassumption|]. repeat split; congruence.
Qed.
Lemma full_output_per : per (full_same_output same_script).
Proof.
  destruct per_script as [S2 T2]. split; unfold full_same_output; [intros a b [A B]; split; [congruence|auto]|]. intros a b c [A B] [A' B']. split; [congruence|eapply T2; eassumption].
Qed.
Lemma full_tx_per : per (full_same_tx same_script).
Proof.
  destruct (F2_per _ full_input_per) as [S1 T1], (F2_per _ full_output_per) as [S2 T2]. split; unfold full_same_tx.
  - intros a b (A & B & C & D). auto.
  - intros a b c (A & B & C & D) (A' & B' & C' & D'). split; [congruence|]. split; [eapply T1; eassumption|]. split; [eapply T2; eassumption|congruence].
Qed.
Theorem C58_unambiguous : forall j t t', full_tx_value t -> full_tx_value t' -> doc_unhashed_tx (wire_script false) j t -> doc_unhashed_tx (wire_script false) j t' ->
  full_same_tx same_script t t'.
Proof.
  intros j t t' V V' D D'. destruct (C58_reads_every_document j t V D) as (u & E & S). destruct (C58_reads_every_document j t' V' D') as (u' & E' & S').
  assert (u' = u) as -> by congruence. destruct full_tx_per as [Sy Tr]. eapply Tr; [exact S|]. now apply Sy.
Qed.
Print Assumptions C58_unambiguous.

(** * Round trips *)
(** Writing and reading back: the same transaction with the same metadata, every script with the same instructions and
    the same bytes; hence the same serialisation, the same transaction id, and -- since the values and lock scripts
    are kept -- the same messages to sign, for every hash function and all flags. *)
Theorem C58_roundtrip : forall t, full_tx_value t ->
  exists j t', w_unhashed_tx t = Ok j /\ r_unhashed_tx j = Ok t' /\ full_same_tx same_code t t'.
Proof.
  intros t V. destruct (unhashed_w t V) as (j & E & D). destruct (unhashed_c _ _ readable_written j t V D) as (t' & E' & S). exists j, t'. auto.
Qed.
Print Assumptions C58_roundtrip.
Theorem C58_roundtrip_bytes : forall t t' si so a, full_same_tx same_code t t' -> c_ser (unhashed_tx_codec si so) t = Ok a ->
  exists a', c_ser (unhashed_tx_codec si so) t' = Ok a' /\ ba_data a' = ba_data a.
Proof. intros t t' si so a H E. exact (tx_sim si so t t' H a E). Qed.
Print Assumptions C58_roundtrip_bytes.
Theorem C58_roundtrip_txid : forall sha256d t t' si so h, hash32 sha256d -> full_same_tx same_code t t' -> tx_hashed sha256d si so t = Ok h ->
  exists h', tx_hashed sha256d si so t' = Ok h' /\ ba_data (tx_hash h') = ba_data (tx_hash h) /\ ba_data (tx_raw h') = ba_data (tx_raw h).
Proof. intros sha t t' si so h Hs H E. exact (hashed_sim sha Hs si so t t' H h E). Qed.
Print Assumptions C58_roundtrip_txid.
Theorem C58_roundtrip_signing : forall sha256d t t' flags pss, hash32 sha256d -> full_same_tx same_code t t' -> tx_preimages sha256d t flags = Ok pss ->
  exists pss', tx_preimages sha256d t' flags = Ok pss' /\
    Forall2 (Forall2 (fun p p' => forall m, c_ser preimage_codec p = Ok m -> exists m', c_ser preimage_codec p' = Ok m' /\ ba_data m' = ba_data m)) pss pss'.
Proof. intros sha t t' flags pss Hs H E. exact (preimages_sim sha Hs t t' flags H pss E). Qed.
Print Assumptions C58_roundtrip_signing.

(** A hashed transaction keeps its id and its raw bytes. *)
Theorem C58_hashed_roundtrip : forall t, hashed_tx_value t -> exists j t', w_tx t = Ok j /\ r_tx j = Ok t' /\ same_hashed_tx same_code t t'.
Proof. intros t V. destruct (tx_w t V) as (j & E & D). destruct (tx_c _ _ readable_written j t V D) as (t' & E' & S). exists j, t'. auto. Qed.
Print Assumptions C58_hashed_roundtrip.
Theorem C58_unsigned_input_roundtrip : forall i, unsigned_value i -> exists j i', w_unsigned_input i = Ok j /\ r_unsigned_input j = Ok i' /\ same_unsigned i i'.
Proof. intros t V. destruct (unsigned_w t V) as (j & E & D). destruct (unsigned_c j t V D) as (t' & E' & S). exists j, t'. auto. Qed.
Print Assumptions C58_unsigned_input_roundtrip.
Theorem C58_slp_roundtrip : forall t, slp_tx_value t -> exists j t', w_slp_tx t = Ok j /\ r_slp_tx j = Ok t' /\ same_slp_tx same_code t t'.
Proof. intros t V. destruct (slp_tx_w t V) as (j & E & D). destruct (slp_tx_c _ _ readable_written j t V D) as (t' & E' & S). exists j, t'. auto. Qed.
Print Assumptions C58_slp_roundtrip.
Theorem C58_slp_utxo_roundtrip : forall u, utxo_value u -> exists j u', w_slp_utxo u = Ok j /\ r_slp_utxo j = Ok u' /\ same_utxo u u'.
Proof. intros t V. destruct (utxo_w t V) as (j & E & D). destruct (utxo_c j t V D) as (t' & E' & S). exists j, t'. auto. Qed.
Print Assumptions C58_slp_utxo_roundtrip.
Theorem C58_token_meta_roundtrip : forall m, meta_value m -> exists j, w_token_meta m = Ok j /\ r_token_meta j = Ok m.
Proof. intros t V. destruct (meta_w t V) as (j & E & D). destruct (meta_c j t V D) as (t' & E' & S). exists j. split; [exact E|]. congruence. Qed.
Print Assumptions C58_token_meta_roundtrip.

(** Documents of the other types: all accepted, nothing else. *)
Theorem C58_other_documents :
  (forall j t, hashed_tx_value t -> doc_tx (wire_script false) j t -> exists t', r_tx j = Ok t' /\ same_hashed_tx same_script t t') /\
  (forall j t, doc_fits j -> r_tx j = Ok t -> hashed_tx_value t /\ doc_tx (wire_script false) j t) /\
  (forall j i, unsigned_value i -> doc_unsigned_input j i -> exists i', r_unsigned_input j = Ok i' /\ same_unsigned i i') /\
  (forall j i, doc_fits j -> r_unsigned_input j = Ok i -> unsigned_value i /\ doc_unsigned_input j i) /\
  (forall j t, slp_tx_value t -> doc_slp_tx (wire_script false) j t -> exists t', r_slp_tx j = Ok t' /\ same_slp_tx same_script t t') /\
  (forall j t, doc_fits j -> r_slp_tx j = Ok t -> slp_tx_value t /\ doc_slp_tx (wire_script false) j t) /\
  (forall j u, utxo_value u -> doc_slp_utxo j u -> exists u', r_slp_utxo j = Ok u' /\ same_utxo u u') /\
  (forall j u, doc_fits j -> r_slp_utxo j = Ok u -> utxo_value u /\ doc_slp_utxo j u) /\
  (forall j m, meta_value m -> doc_token_meta j m -> r_token_meta j = Ok m) /\
  (forall j m, doc_fits j -> r_token_meta j = Ok m -> meta_value m /\ doc_token_meta j m).
Proof.
  split; [intros j t V D; exact (tx_c _ _ readable_lenient j t V D)|]. split; [exact tx_s|]. split; [exact (fun j i => unsigned_c j i)|]. split; [exact unsigned_s|].
  split; [intros j t V D; exact (slp_tx_c _ _ readable_lenient j t V D)|]. split; [exact slp_tx_s|]. split; [exact (fun j i => utxo_c j i)|]. split; [exact utxo_s|].
  split; [|exact meta_s]. intros j m V D. destruct (meta_c j m V D) as (t' & E & <-). exact E.
Qed.
Print Assumptions C58_other_documents.

(** * Order of fields *)
Lemma keys_perm k l l' : Permutation l l' -> Permutation (keys_named k l) (keys_named k l').
Proof.
  intros H. induction H as [|[x v] l l' H IH|[x v] [y w] l|l l' l'' H1 IH1 H2 IH2]; cbn [keys_named]; [constructor|destruct (String.eqb x k); [now constructor|exact IH]| |etransitivity; eassumption].
  destruct (String.eqb x k), (String.eqb y k); try reflexivity; try apply perm_swap.
Qed.
Lemma r_field_perm {A} k (f : jreader A) l l' a : Permutation l l' -> r_field k f l = Ok a -> r_field k f l' = Ok a /\ fieldok l' (k, checks f).
Proof.
  intros P E. unfold r_field in *. pose proof (keys_perm k l l' P) as Q. destruct (keys_named k l) as [|v [|? ?]]; try discriminate.
  apply Permutation_length_1_inv in Q. rewrite Q. split; [exact E|]. right. exists v. split; [exact Q|]. cbn. unfold checks. now rewrite E.
Qed.
Theorem C58_field_order : forall l l' t, Permutation l l' -> r_unhashed_tx (JObj l) = Ok t -> r_unhashed_tx (JObj l') = Ok t.
Proof.
  intros l l' t P E. unfold r_unhashed_tx in E. apply obind_ok in E. destruct E as (m & M & E). pose proof (struct_inv _ _ _ M) as I. destruct I as [I|(vs & I & _)]; [|discriminate I]. injection I as <-.
  ostep E v. ostep E i. ostep E o. ostep E k.
  destruct (r_field_perm _ _ _ _ _ P Es) as [F1 K1]. destruct (r_field_perm _ _ _ _ _ P Es0) as [F2 K2]. destruct (r_field_perm _ _ _ _ _ P Es1) as [F3 K3]. destruct (r_field_perm _ _ _ _ _ P Es2) as [F4 K4].
  unfold r_unhashed_tx. rewrite (struct_ok _ _ l'); [|nodups|left; reflexivity|repeat (apply Forall_cons; [assumption|]); apply Forall_nil]. cbn [obind].
  rewrite F1. cbn [obind]. rewrite F2. cbn [obind]. rewrite F3. cbn [obind]. rewrite F4. cbn [obind]. exact E.
Qed.
Print Assumptions C58_field_order.

(** * Panics *)
(** Reading panics only on a document that contains a hexadecimal text of a length other than 64 digits ... *)
Theorem C58_panics_only : forall j,
  (r_unhashed_tx j = Panic -> odd_sized_hash j) /\ (r_tx j = Panic -> odd_sized_hash j) /\ (r_unsigned_input j = Panic -> odd_sized_hash j) /\
  (r_slp_tx j = Panic -> odd_sized_hash j) /\ (r_slp_utxo j = Panic -> odd_sized_hash j) /\ r_token_meta j <> Panic.
Proof. intros j. repeat split; [apply unhashed_calm|apply tx_calm|apply unsigned_calm|apply slp_tx_calm|apply utxo_calm|apply meta_calm]. Qed.
Print Assumptions C58_panics_only.
Local Arguments checks : simpl never.
Local Arguments r_hash : simpl never.
Local Arguments r_outpoint : simpl never.
Local Arguments r_input : simpl never.
(** ... and does panic where such a text is given as a transaction id, whatever else is in the document: no error is
    reported to the caller. *)
Theorem C58_wrong_size_panics_refuted : forall s d r1 r2 r3 r4, hex_text (text_bytes s) d -> zlen d <> 32 ->
  r_outpoint (JObj (("txHash", JStr s) :: r1)) = Panic /\
  r_unsigned_input (JObj (("prevOut", JObj (("txHash", JStr s) :: r1)) :: r2)) = Panic /\
  r_unhashed_tx (JObj (("inputs", JArr (JObj (("prevOut", JObj (("txHash", JStr s) :: r1)) :: r2) :: r3)) :: r4)) = Panic /\
  r_tx (JObj (("hash", JStr s) :: r1)) = Panic /\
  r_slp_data (JObj (("token_id", JStr s) :: r1)) = Panic /\
  r_slp_tx (JObj (("tx_hash", JStr s) :: r1)) = Panic.
Proof.
  intros s d r1 r2 r3 r4 H N. assert (r_hash 32 (JStr s) = Panic) as E.
  { unfold r_hash, r_str, r_of. cbn [d_str obind]. apply Prop_Hash.C43_hash_text_panics_refuted. eauto. }
  assert (forall rest, r_outpoint (JObj (("txHash", JStr s) :: rest)) = Panic) as E1 by (intros rest; unfold r_outpoint, r_struct; cbn; unfold checks; rewrite E; reflexivity).
  split; [apply E1|]. split; [unfold r_unsigned_input, r_struct; cbn; unfold checks; rewrite E1; reflexivity|].
  split; [|split; [unfold r_tx, r_struct; cbn; unfold checks; rewrite E; reflexivity|split; [unfold r_slp_data, r_struct; cbn; unfold checks; rewrite E; reflexivity|unfold r_slp_tx, r_struct; cbn; unfold checks; rewrite E; reflexivity]]].
  assert (r_input (JObj (("prevOut", JObj (("txHash", JStr s) :: r1)) :: r2)) = Panic) as E2 by (unfold r_input, r_struct; cbn; unfold checks; rewrite E1; reflexivity).
  unfold r_unhashed_tx, r_struct. cbn. unfold checks. cbn. rewrite E2. reflexivity.
Qed.
Print Assumptions C58_wrong_size_panics_refuted.

(** * Not guaranteed *)
(** The transaction read back need not be equal as a value: pushed integers come back as opcodes or byte arrays. *)
Theorem C58_value_equality_refuted : exists t j t', full_tx_value t /\ w_unhashed_tx t = Ok j /\ r_unhashed_tx j = Ok t' /\
  map (fun o => map t_op (out_script o)) (tx_outputs t) = [[OPushInt 5]] /\ map (fun o => map t_op (out_script o)) (tx_outputs t') = [[OCode OP_5]].
Proof.
  exists (UnhashedTx 1 [] [TxOutput 0 (script_from_ops [OPushInt 5])] 0). eexists. eexists. split; [|split; [vm_compute; reflexivity|split; [vm_compute; reflexivity|split; vm_compute; reflexivity]]].
  unfold full_tx_value. cbn [tx_version tx_inputs tx_outputs tx_lock_time]. unfold i32_ok, u32_ok. split; [lia|]. split; [constructor|]. split; [|lia]. constructor; [|constructor].
  unfold output_value, script_value, u64_ok; cbn [out_value out_script]. split; [lia|]. split.
  - constructor; [|constructor]. cbn. unfold script_int. lia.
  - intros a H. vm_compute in H. injection H as <-. unfold in_memory. vm_compute. discriminate.
Qed.
Print Assumptions C58_value_equality_refuted.

(** The id and the raw bytes of a hashed transaction are taken from the document unchecked. *)
Theorem C58_hash_checked_refuted : forall sha256d si so, hash32 sha256d -> exists j t h, r_tx j = Ok t /\ tx_hashed sha256d si so (tx_unhashed t) = Ok h /\
  ba_data (tx_hash t) <> ba_data (tx_hash h) /\ ba_data (tx_raw t) <> ba_data (tx_raw h).
Proof.
  intros sha si so Hs. set (u := UnhashedTx 1 [] [] 0).
  assert (exists raw, c_ser (unhashed_tx_codec si so) u = Ok raw /\ ba_data raw = [1; 0; 0; 0; 0; 0; 0; 0; 0; 0]) as (raw & Er & Dr) by (eexists; split; [reflexivity|vm_compute; reflexivity]).
  destruct (digest_ok sha Hs raw) as (h & Eh & Dh). set (x := if list_eq_dec Z.eq_dec (sha (ba_data raw)) (repeat 0 32) then 1 else 0).
  assert (repeat x 32 <> sha (ba_data raw)) as N.
  { unfold x. destruct (list_eq_dec Z.eq_dec (sha (ba_data raw)) (repeat 0 32)) as [e|n]; [rewrite e; discriminate|congruence]. }
  assert (x = 0 \/ x = 1) as X by (unfold x; destruct (list_eq_dec Z.eq_dec (sha (ba_data raw)) (repeat 0 32)); auto).
  exists (JObj [("unhashedTx", JObj [("version", JNum 1); ("inputs", JArr []); ("outputs", JArr []); ("lockTime", JNum 0)]); ("hash", JStr (bytes_text (hex_encode (repeat x 32)))); ("raw", JStr "")]),
    (Tx u (ba_unnamed (repeat x 32)) (ba_unnamed [])), (Tx u h raw).
  split; [clearbody x; destruct X as [-> | ->]; vm_compute; reflexivity|]. split; [unfold tx_hashed; cbn [tx_unhashed]; rewrite Er; cbn [obind]; rewrite Eh; reflexivity|].
  cbn [tx_hash tx_raw ba_unnamed ba_data]. split; [rewrite Dh; exact N|]. rewrite Dr. discriminate.
Qed.
Print Assumptions C58_hash_checked_refuted.

(** The two JSON forms of a transaction are not interchangeable: neither reader takes what the other form's writer
    produces (and neither panics on it). *)
Theorem C58_formats_disjoint : forall enc t,
  (forall t', r_unhashed_tx (tx_to_json enc t) <> Ok t') /\ (forall j, w_unhashed_tx t = Ok j -> d_tx j = None).
Proof.
  intros enc t. split.
  - intros t' E. unfold r_unhashed_tx in E. apply obind_ok in E. destruct E as (m & M & E). pose proof (struct_inv _ _ _ M) as I. destruct I as [I|(vs & I & _)]; [|discriminate I].
    unfold tx_to_json, j_tx in I. injection I as <-. ostep E v. ostep E i. ostep E o. ostep E k. unfold r_field in Es2. cbn in Es2. discriminate Es2.
  - intros j E. unfold w_unhashed_tx in E. ostep E i. ostep E o. injection E as <-. reflexivity.
Qed.
Print Assumptions C58_formats_disjoint.

(** * Example *)
Definition ex_json_tx : unhashed_tx :=
  UnhashedTx 2 [TxInput (TxOutpoint (ba_unnamed (repeat 0xab 32)) 7) (script_from_ops [OPushArray (ba_unnamed [1; 2; 3]) true; OCode OP_CHECKSIG]) 0xffffffff
                  (Some ex_lock) (Some 1000) (Some true) (Some [0x41])]
    [TxOutput 900 (script_from_ops [OCode OP_DUP; OPushInt 1000])] 5.
Example C58_nonvacuous : full_tx_value ex_json_tx /\
  exists j t', w_unhashed_tx ex_json_tx = Ok j /\ r_unhashed_tx j = Ok t' /\ map in_value (tx_inputs t') = [Some 1000] /\ map in_sig_hash_flags (tx_inputs t') = [Some [0x41]] /\
    map (fun i => option_map (@length tagged_op) (in_lock_script i)) (tx_inputs t') = [Some 3%nat] /\ t' <> ex_json_tx /\
    exists pss ps p, tx_preimages ex_sha ex_json_tx [0x41; 0xc3] = Ok pss /\ nth_error pss 0 = Some ps /\ nth_error ps 1 = Some p.
Proof.
  split.
  - destruct ex_tx_value as (A & (B & _) & (C & _) & D). unfold full_tx_value, ex_json_tx. cbn [tx_version tx_inputs tx_outputs tx_lock_time]. cbn [tx_version tx_inputs tx_outputs tx_lock_time ex_tx] in *.
    split; [exact A|]. split; [|split; [exact C|exact D]]. constructor; [|constructor]. split; [exact ex_input_value|]. split; [exact ex_lock_value|]. split; [cbn; unfold u64_ok; lia|]. repeat constructor; vm_compute; congruence.
  - eexists. eexists. split; [vm_compute; reflexivity|]. split; [vm_compute; reflexivity|]. split; [reflexivity|]. split; [reflexivity|]. split; [reflexivity|]. split; [discriminate|].
    eexists. eexists. eexists. split; [vm_compute; reflexivity|]. split; reflexivity.
Qed.
