(** C62: an error says what is wrong with the input. *)
From Verif Require Import Base BaseLemmas Model_Encoding Model_Integer Spec_Integer Model_ByteArray Proofs_ByteArray Model_Opcode Model_Script Model_Hash Spec_Hash Prop_Hash Model_Code Spec_Code Proofs_Code Proofs_Codec Prop_Code
  Spec_Base64 Model_Address Spec_Address Proofs_Address Proofs_Address2 Model_Destination Model_Json Spec_Json Spec_JsonFile Proofs_Json Proofs_Json2 Proofs_Json3 Prop_Json Prop_JsonFile Spec_Errors Proofs_Errors Proofs_Errors2 Proofs_Errors3.
Local Open Scope string_scope.
Local Open Scope list_scope.
Local Open Scope Z_scope.

(** C62: a hash made from a slice of another length is refused with the expected and the actual length. *)
Theorem C62_hash_lengths : forall n s e,
  (hash_from_slice n s = Err e <-> zlen s <> n /\ e = EInvalidSlice n (zlen s)) /\
  (hash_from_slice_le n s = Err e <-> zlen s <> n /\ e = EInvalidSlice n (zlen s)) /\
  (forall a, fixed_from_byte_array n a = Err e <-> ba_len a <> n /\ e = EInvalidSlice n (ba_len a)).
Proof.
  assert (forall (n l : Z) (x : barray) (e : err), (if n =? l then Ok x else Err (EInvalidSlice n l)) = Err e <-> l <> n /\ e = EInvalidSlice n l) as K.
  { intros n l x e. destruct (Z.eqb_spec n l) as [->|N]; split; try discriminate; [intros [H _]; contradiction|intros H; injection H as <-; auto|intros [_ ->]; reflexivity]. }
  intros n s e. split; [apply K|]. split; [|intros a; apply K]. unfold hash_from_slice_le, hash_from_slice, fixed_from_slice.
  replace (zlen s) with (zlen (rev s)) by (unfold zlen; now rewrite rev_length). apply K.
Qed.
Print Assumptions C62_hash_lengths.

(** C62: a hash text is refused as text, or with the two lengths; nothing else. *)
Theorem C62_hash_texts : forall n s e,
  (hash_from_hex_be n s = Err e <-> ((forall d, ~ hex_text s d) /\ e = EFromHex) \/ exists d, hex_text s d /\ zlen d <> n /\ e = EInvalidSlice n (zlen d)) /\
  (hash_from_hex_le n s = Err e <-> ((forall d, ~ hex_text s d) /\ e = EFromHex) \/ exists d, hex_text s d /\ zlen d <> n /\ e = EInvalidSlice n (zlen d)).
Proof.
  intros n s e. unfold hash_from_hex_be, hash_from_hex_le.
  assert (forall f : list Z -> outcome barray, (forall d, f d = Err e <-> zlen d <> n /\ e = EInvalidSlice n (zlen d)) ->
    (do d <- hex_decode s; f d) = Err e <-> ((forall d, ~ hex_text s d) /\ e = EFromHex) \/ exists d, hex_text s d /\ zlen d <> n /\ e = EInvalidSlice n (zlen d)) as K.
  { intros f Hf. destruct (hex_decode s) as [d|x|] eqn:E; cbn [obind].
    - apply hex_decode_ok in E. rewrite Hf. split; [intros H; right; exists d; tauto|]. intros [[N _]|(d' & H1 & H2)]; [exfalso; exact (N d E)|]. rewrite (hex_text_fun _ _ _ E H1). exact H2.
    - assert (forall d, ~ hex_text s d) as N by (intros d H; apply hex_decode_ok in H; congruence). rewrite (hex_decode_err s N) in E. injection E as <-.
      split; [intros H; injection H as <-; auto|]. intros [[_ ->]|(d & H & _)]; [reflexivity|exfalso; exact (N d H)].
    - exfalso. unfold hex_decode in E. destruct (Z.odd (zlen s)); [discriminate|]. destruct (hex_pairs_total s). contradiction. }
  split; apply K; intros d; apply C62_hash_lengths.
Qed.
Print Assumptions C62_hash_texts.

(** C62: reading a consensus encoding fails only for lack of data or for bytes left over, and then the error holds exactly those bytes. *)
Theorem C62_encodings :
  (forall n s, (0 < n)%nat -> reports_truly (int_codec n s)) /\ reports_truly bool_codec /\ (forall n, 0 <= n -> reports_truly (fixed_codec n)) /\
  reports_truly bytearray_codec /\ reports_truly script_codec /\ reports_truly outpoint_codec /\ reports_truly input_codec /\ reports_truly output_codec /\
  (forall si so, reports_truly (unhashed_tx_codec si so)) /\ reports_truly preimage_codec /\ reports_truly tx_codec.
Proof.
  split; [intros n s H; exact (reports _ _ (proj2 (int_laws n s H)) (int_short n s))|]. split; [exact (reports _ _ (proj2 bool_laws) bool_short)|].
  split; [intros n H; exact (reports _ _ (proj2 (fixed_laws n H)) (fixed_short n H))|]. split; [exact (reports _ _ (proj2 bytearray_laws) bytearray_short)|].
  split; [exact (reports _ _ (proj2 script_laws) script_short)|]. split; [exact (reports _ _ (proj2 outpoint_laws) outpoint_short)|]. split; [exact (reports _ _ (proj2 input_laws) input_short)|].
  split; [exact (reports _ _ (proj2 output_laws) output_short)|]. split; [|split; [exact (reports _ _ (proj2 preimage_laws) preimage_short)|exact (reports _ _ (proj2 tx_laws) tx_short)]].
  intros si so. apply (reports _ _ (proj2 (unhashed_tx_laws si so))). intros t e Hok. cbn [unhashed_tx_codec c_deser_rest]. unfold i32_codec, u32_codec.
  eapply short_step; [apply (proj2 (int_laws 4 true ltac:(lia)))|apply int_short|exact Hok|]. intros v t1 H1.
  eapply short_step; [apply (proj2 (vec_laws si _ _ _ input_laws))|apply (vec_short si _ _ (proj2 input_laws) input_short)|exact H1|]. intros i t2 H2.
  eapply short_step; [apply (proj2 (vec_laws so _ _ _ output_laws))|apply (vec_short so _ _ (proj2 output_laws) output_short)|exact H2|]. intros o t3 H3.
  eapply short_step; [apply (proj2 (int_laws 4 false ltac:(lia)))|apply int_short|exact H3|]. discriminate.
Qed.
Print Assumptions C62_encodings.

(** C62: a CashAddr text is refused with its fault: the first foreign letter and its place after the colon, the checksum, or the version byte. *)
Theorem C62_addresses : forall txt e, from_cash_addr txt = Err e <-> exists c, e = EInvalidCashAddr c /\ address_cause txt c.
Proof. intros txt e. split; [apply from_parts_err|]. intros (c & -> & H). now apply address_cause_err. Qed.
Print Assumptions C62_addresses.
(** False for the whole text: the index does not count the prefix, and the letter is not the one in the text. *)
Theorem C62_address_index_refuted : exists txt i x, from_cash_addr txt = Err (EInvalidCashAddr (AInvalidBase32Letter i x)) /\
  nth_error txt (Z.to_nat i) <> Some x /\ ~ In x txt.
Proof. exists (text "bch:QRIQ"), 2, 105. split; [vm_compute; reflexivity|]. split; [vm_compute; discriminate|]. vm_compute. intuition discriminate. Qed.
Print Assumptions C62_address_index_refuted.

(** C62: a script of the wrong kind of address. *)
Theorem C62_p2pkh_script : forall a e, address_p2pkh_script a = Err e <-> ad_type a = P2SH /\ e = EInvalidAddressType.
Proof. intros a e. unfold address_p2pkh_script. destruct (ad_type a); split; try discriminate; [intros [H _]; discriminate|intros H; injection H as <-; auto|intros [_ ->]; reflexivity]. Qed.
Print Assumptions C62_p2pkh_script.

(** C62: pushing fails only for data of 2^32 bytes or more. *)
Theorem C62_push_too_large : forall b m e, serialize_push_prefix b m = Err e <-> 2 ^ 32 <= zlen b /\ e = EPushTooLarge.
Proof.
  intros b m e. change (2 ^ 32) with 4294967296. destruct (Z.le_gt_cases 4294967296 (zlen b)) as [L|L].
  - assert (serialize_push_prefix b m = Err EPushTooLarge) as ->; [|split; [intros H; injection H as <-; auto|intros [_ ->]; reflexivity]].
    unfold serialize_push_prefix. cbv zeta. destruct (Z.eqb_spec (zlen b) 0); [lia|]. destruct (Z.eqb_spec (zlen b) 1); [lia|]. cbn [andb].
    destruct (Z.leb_spec (zlen b) 75); [lia|]. destruct (Z.leb_spec (zlen b) 255); [lia|]. destruct (Z.leb_spec (zlen b) 65535); [lia|]. destruct (Z.leb_spec (zlen b) 4294967295); [lia|]. reflexivity.
  - split; [intros H; exfalso; apply prefix_short in H; [exact H|lia]|intros [H _]; lia].
Qed.
Print Assumptions C62_push_too_large.

Lemma tagged_i32 w t : f_tagged_op w t -> op_i32 t.
Proof.
  intros (l & _ & H & _). apply field_any in H. destruct H as (v & H). unfold op_i32. destruct (jt_op t) as [c|c|i m|b|i]; try exact I. cbn [f_op] in H. destruct H as (x & _ & H). now apply i32_any in H.
Qed.
Lemma tagged_list_i32 l : Forall (fun a => exists v, f_tagged_op v a) l -> Forall op_i32 l.
Proof. intros H. eapply Forall_impl; [|exact H]. intros t (w & Hw). eapply tagged_i32; eassumption. Qed.
Lemma file_i32 w j : file_of w j -> Forall input_i32 (jx_inputs j) /\ Forall (fun o => Forall op_i32 (jo_script o)) (jx_outputs j).
Proof.
  intros (l & _ & _ & _ & Hi & Ho & _). apply field_any in Hi, Ho. destruct Hi as (wi & Hi), Ho as (wo & Ho). apply list_any in Hi, Ho. split.
  - eapply Forall_impl; [|exact Hi]. intros i (v & m & _ & _ & _ & H1 & _ & H2 & _). split.
    + apply field_any in H1. destruct H1 as (v1 & H1). apply list_any in H1. now apply tagged_list_i32.
    + apply opt_field_any in H2. destruct (ji_lock_script i) as [s|]; [|exact I]. destruct H2 as (v2 & H2). apply list_any in H2. now apply tagged_list_i32.
  - eapply Forall_impl; [|exact Ho]. intros o (v & m & _ & _ & H1). apply field_any in H1. destruct H1 as (v1 & H1). apply list_any in H1. now apply tagged_list_i32.
Qed.
(** C62: an error of the JSON reader names a fault the file has. *)
Theorem C62_json_true : forall dec v e, reads_to dec v (Err e) ->
  ((forall j, ~ file_of v j) /\ e = EJson JShape) \/ exists j, file_of v j /\ tx_cause dec j e.
Proof.
  intros dec v e (n & Hn). specialize (Hn n (Nat.le_refl n)). unfold json_to_tx in Hn. destruct (d_tx v) as [j|] eqn:E.
  - right. exists j. pose proof (proj1 (tx_agrees v j) E) as F. split; [exact F|]. destruct (file_i32 _ _ F) as [V1 V2].
    exact (make_tx_honest dec n j e (d_tx_empty_cache dec _ _ E) V1 V2 Hn).
  - injection Hn as <-. left. split; [|reflexivity]. intros j F. apply tx_agrees in F. congruence.
Qed.
Print Assumptions C62_json_true.
(** C62: a file whose arrays refer neither in circles nor to missing entries, with a fault, is refused, and the error names one of its faults. *)
Theorem C62_json_faults_reported : forall dec v j e, file_of v j -> no_cycles (jx_data j) ->
  Forall (fun i => (i < length (jd_byte_arrays (jx_data j)))%nat) (tx_arrays j) -> tx_cause dec j e ->
  exists e', reads_to dec v (Err e') /\ tx_cause dec j e'.
Proof.
  intros dec v j e F NC HA Hc. destruct (no_cycles_calm dec j NC HA) as (n & Hn). destruct (Hn n (Nat.le_refl n)) as (r & Hr & NP).
  pose proof F as F'. apply tx_agrees in F'. assert (reads_to dec v r) as HR.
  { exists n. intros fuel Hf. unfold json_to_tx. rewrite F'. eapply make_tx_more; eassumption. }
  destruct r as [t|e'|]; [|exists e'; split; [exact HR|]|contradiction].
  - exfalso. apply C33_reads_files in HR. destruct HR as (j' & F2 & M). apply tx_agrees in F2. assert (j' = j) as -> by congruence. exact (faulty_tx dec _ _ _ Hc M).
  - destruct (file_i32 _ _ F) as [V1 V2]. exact (make_tx_honest dec n j e' (d_tx_empty_cache dec _ _ F') V1 V2 Hr).
Qed.
Print Assumptions C62_json_faults_reported.

Example C62_nonvacuous :
  hash_from_slice 32 [1; 2; 3] = Err (EInvalidSlice 32 3) /\ hash_from_hex_le 20 (text "0g") = Err EFromHex /\ hash_from_hex_be 20 (text "0a") = Err (EInvalidSlice 20 1) /\
  c_deser u32_codec (ba_unnamed [1; 2; 3; 4; 9; 8]) = Err (ELeftover [9; 8]) /\ c_deser u32_codec (ba_unnamed [1; 2; 3]) = Err (EInvalidSplit 4 3) /\
  from_cash_addr (text "bitcoincash:qrib") = Err (EInvalidCashAddr (AInvalidBase32Letter 2 105)) /\
  from_cash_addr (text "bitcoincash:qr6m7j9njldwwzlg9v7v53unlr4jkmx6eylep8ekg3") = Err (EInvalidCashAddr AInvalidChecksum) /\
  from_cash_addr (text "bitcoincash:zqqqzqsrqszsvpcgpy9qkrqdpc83qygjzvle083t53") = Err (EInvalidCashAddr (AInvalidAddressType 16)) /\
  json_to_tx rfc_decode 9 (push_file ["AQID"] [JNum 7] 0) = Some (Err (EJson (JInvalidDataIdx 7))) /\
  json_to_tx rfc_decode 9 (push_file ["AQID"] [JArr [JNum 0; JStr "Plain"; JNum 3]] 0) = Some (Err (EJson (JInvalidStringIdx 3))).
Proof. repeat (split; [vm_compute; reflexivity|]). vm_compute. reflexivity. Qed.
