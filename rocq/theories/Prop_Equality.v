(** Property C66: equality, order and hashing of values. *)
From Verif Require Import Base BaseLemmas Model_Encoding Spec_Encoding Spec_Integer
  Model_ByteArray Proofs_ByteArray Model_Opcode Model_Script Spec_Script Proofs_Script Model_Code Spec_Code Proofs_Code Proofs_Wire
  Model_Address Model_AddressApi Spec_AddressApi Prop_AddressApi Model_Hash Spec_Hash Prop_Hash Model_TxBuilder Model_Serde Spec_Serde
  Spec_Preimage Proofs_Ecc Model_Equality Spec_Equality Prop_DataType Proofs_Equality.
From Coq Require Import ZifyBool ZifyNat.
Local Open Scope Z_scope.
Local Open Scope list_scope.

(** C66: what [==] compares.  Two transactions are equal when every field is, the ones that are not serialised included
    (known values, lock scripts, flags); scripts are equal op by op, up to provenance and the minimality flag. *)
Theorem C66_what_equality_compares :
  (forall a b, outpoint_eqb a b = true <-> same_outpoint a b) /\
  (forall a b, input_eqb a b = true <-> full_same_input equal_script a b) /\
  (forall a b, output_eqb a b = true <-> full_same_output equal_script a b) /\
  (forall a b, unhashed_tx_eqb a b = true <-> full_same_tx equal_script a b) /\
  (forall a b, tx_eqb a b = true <-> same_hashed_tx equal_script a b) /\
  (forall a b, unsigned_input_eqb a b = true <-> same_unsigned a b).
Proof.
  exact (conj outpoint_eqb_iff (conj input_eqb_iff (conj output_eqb_iff (conj unhashed_eqb_iff (conj tx_eqb_iff unsigned_eqb_iff))))).
Qed.
Print Assumptions C66_what_equality_compares.

(** C66: it is an equivalence relation on each of the types. *)
Theorem C66_equality_is_equivalence :
  equivalence ba_eqb /\ equivalence outpoint_eqb /\ equivalence input_eqb /\ equivalence output_eqb /\ equivalence unhashed_tx_eqb /\
  equivalence tx_eqb /\ equivalence unsigned_input_eqb.
Proof.
  exact (conj ba_equiv (conj outpoint_equiv (conj input_equiv (conj output_equiv (conj unhashed_equiv (conj tx_equiv unsigned_equiv)))))).
Qed.
Print Assumptions C66_equality_is_equivalence.

Lemma equal_same_script s s' : script_value s -> equal_script s s' -> same_script s s'.
Proof. intros (H & _) E. apply C46_equal_means_same_instructions; [exact H|]. now apply equal_script_iff. Qed.

(** C66: equal transactions are the same transaction: same inputs, outputs and instructions. *)
Theorem C66_equal_transactions_same_effect : forall si so a b, tx_value si so a -> unhashed_tx_eqb a b = true -> same_tx a b.
Proof.
  intros si so a b (_ & (Hi & _) & (Ho & _) & _) H. apply unhashed_eqb_iff in H. destruct H as (Hv & HI & HO & Hl).
  split; [exact Hv|]. split; [|split; [|exact Hl]].
  - clear - Hi HI. induction HI as [|x y l l' H _ IH]; [constructor|]. inversion Hi as [|? ? V Vs]; subst. constructor; [|auto].
    destruct H as (H1 & H2 & H3 & _). destruct V as (_ & V & _). split; [exact H1|]. split; [now apply equal_same_script|exact H3].
  - clear - Ho HO. induction HO as [|x y l l' H _ IH]; [constructor|]. inversion Ho as [|? ? V Vs]; subst. constructor; [|auto].
    destruct H as (H1 & H2). destruct V as (_ & V). split; [exact H1|now apply equal_same_script].
Qed.
Print Assumptions C66_equal_transactions_same_effect.

(** C66: hashed transactions that compare equal have the same id and the same raw bytes... *)
Theorem C66_equal_hashed_same_id : forall a b, tx_eqb a b = true ->
  ba_data (tx_hash a) = ba_data (tx_hash b) /\ ba_data (tx_raw a) = ba_data (tx_raw b).
Proof. intros a b H. apply tx_eqb_iff in H. destruct H as (_ & H1 & H2). split; [exact H1|exact H2]. Qed.
Print Assumptions C66_equal_hashed_same_id.

(** ... and [hashed()] of two transactions compares equal exactly when the transactions do and they serialise to the same bytes. *)
Theorem C66_hashed_equality : forall sha256d si so a b x y,
  tx_hashed sha256d si so a = Ok x -> tx_hashed sha256d si so b = Ok y ->
  (tx_eqb x y = true <-> unhashed_tx_eqb a b = true /\ ba_data (tx_raw x) = ba_data (tx_raw y)).
Proof.
  assert (forall sha256d si so t x, tx_hashed sha256d si so t = Ok x -> tx_unhashed x = t /\ ba_data (tx_hash x) = sha256d (ba_data (tx_raw x))) as K.
  { intros sha si so t x H. unfold tx_hashed in H. apply obind_ok in H. destruct H as (raw & _ & H). apply obind_ok in H. destruct H as (h & Eh & H).
    injection H as <-. cbn [tx_unhashed tx_hash tx_raw]. split; [reflexivity|]. unfold digest_sha256d, fixed_from_byte_array in Eh.
    destruct (_ =? _) in Eh; [|discriminate]. injection Eh as <-. reflexivity. }
  intros sha si so a b x y Hx Hy. destruct (K _ _ _ _ _ Hx) as (<- & Ex). destruct (K _ _ _ _ _ Hy) as (<- & Ey). unfold tx_eqb. rewrite !andb_true_iff, !ba_eqb_spec, Ex, Ey.
  split; [tauto|]. intros (H1 & H2). rewrite H2. auto.
Qed.
Print Assumptions C66_hashed_equality.

(** C66: a script, input, output or transaction read from bytes, written and read again gives an equal value. *)
Theorem C66_reading_again_is_equal : forall si so,
  rereads_equal script_codec script_eqb /\ rereads_equal outpoint_codec outpoint_eqb /\ rereads_equal input_codec input_eqb /\
  rereads_equal output_codec output_eqb /\ rereads_equal (unhashed_tx_codec si so) unhashed_tx_eqb.
Proof. intros si so. exact (conj script_rereads (conj outpoint_rereads (conj input_rereads (conj output_rereads (tx_rereads si so))))). Qed.
Print Assumptions C66_reading_again_is_equal.

(** C66, exceptions: a built transaction need not compare equal to itself after being written and read: a number pushed by a
    literal comes back as an opcode or array, and fields that are not serialised are lost. *)
Definition pays (o : op) : unhashed_tx := UnhashedTx 1 [] [TxOutput 5 (script_from_ops [o])] 0.
Definition spends (v : option Z) : unhashed_tx := UnhashedTx 1 [TxInput (TxOutpoint (ba_unnamed (repeat 7 32)) 0) [] 9 None v None None] [] 0.
Theorem C66_roundtrip_equal_refuted : exists t u s s' t' u', tx_value 1 1 t /\ tx_value 1 1 u /\
  c_ser (unhashed_tx_codec 1 1) t = Ok s /\ c_deser (unhashed_tx_codec 1 1) s = Ok t' /\ unhashed_tx_eqb t t' = false /\
  c_ser (unhashed_tx_codec 1 1) u = Ok s' /\ c_deser (unhashed_tx_codec 1 1) s' = Ok u' /\ unhashed_tx_eqb u u' = false /\
  in_value (nth 0 (tx_inputs u) (tx_input_new (TxOutpoint s 0) [] 0)) = Some 70000.
Proof.
  exists (pays (OPushInt 3)), (spends (Some 70000)). do 4 eexists.
  split. { split; [unfold i32_ok; cbn; lia|]. split; [split; [constructor|split; cbn; lia]|]. split; [|unfold u32_ok; cbn; lia].
    split; [|split; cbn; lia]. constructor; [|constructor]. split; [unfold u64_ok; cbn; lia|]. split.
    - constructor; [cbn; unfold script_int; lia|constructor].
    - intros a Ha. vm_compute in Ha. injection Ha as <-. unfold in_memory. cbn. lia. }
  split. { split; [unfold i32_ok; cbn; lia|]. split; [|split; [split; [constructor|split; cbn; lia]|unfold u32_ok; cbn; lia]].
    split; [|split; cbn; lia]. constructor; [|constructor]. split; [split; [split; [|reflexivity]|unfold u32_ok; cbn; lia]|].
    - apply Forall_forall. intros x Hx. apply repeat_spec in Hx. subst. unfold byte_ok. lia.
    - split; [|unfold u32_ok; cbn; lia]. split; [constructor|]. intros a Ha. vm_compute in Ha. injection Ha as <-. unfold in_memory. cbn. lia. }
  split; [vm_compute; reflexivity|]. split; [vm_compute; reflexivity|]. split; [vm_compute; reflexivity|].
  split; [vm_compute; reflexivity|]. split; [vm_compute; reflexivity|]. split; vm_compute; reflexivity.
Qed.
Print Assumptions C66_roundtrip_equal_refuted.

(** C66, exception: equal (unhashed) transactions can serialise to different bytes, and so have different ids. *)
Theorem C66_equal_same_bytes_refuted : exists a b x y,
  unhashed_tx_eqb a b = true /\ c_ser (unhashed_tx_codec 1 1) a = Ok x /\ c_ser (unhashed_tx_codec 1 1) b = Ok y /\ ba_data x <> ba_data y.
Proof.
  exists (pays (OPushArray (ba_unnamed [3]) true)), (pays (OPushArray (ba_unnamed [3]) false)). do 2 eexists.
  split; [vm_compute; reflexivity|]. split; [vm_compute; reflexivity|]. split; [vm_compute; reflexivity|]. vm_compute. discriminate.
Qed.
Print Assumptions C66_equal_same_bytes_refuted.

(** C66: hashing agrees with equality: byte arrays, hashes, public keys and addresses feed a hasher the same calls exactly
    when they compare equal (so they can be keys of hash maps, whatever their provenance). *)
Theorem C66_hash_agrees_with_equality :
  (forall a b, hash_byte_array a = hash_byte_array b <-> ba_eqb a b = true) /\
  (forall p q, hash_pubkey p = hash_pubkey q <-> p = q) /\
  (forall a b, hash_address a = hash_address b <-> address_eqb a b = true).
Proof.
  split; [|split].
  - intros a b. unfold hash_byte_array, hash_slice. rewrite ba_eqb_spec. split; [intros H; now injection H|intros ->; reflexivity].
  - intros p q. unfold hash_pubkey, hash_slice. split; [intros H; now injection H|intros ->; reflexivity].
  - intros a b. rewrite (proj1 (C47_equality a b)). unfold same_address, hash_address, hash_address_type, hash_byte_array, hash_slice, hash_str.
    cbn [app]. split.
    + intros H. injection H as H1 H2 H3 H4 H5 H6.
      assert (ad_type a = ad_type b) as -> by (destruct (ad_type a), (ad_type b); congruence).
      assert (ad_kind a = ad_kind b) as -> by (destruct (ad_kind a) as [[]|], (ad_kind b) as [[]|]; cbn in H6; congruence). auto.
    + intros (-> & -> & -> & -> & ->). reflexivity.
Qed.
Print Assumptions C66_hash_agrees_with_equality.

Lemma then_lt a b : then_cmp a b = Lt <-> a = Lt \/ (a = Eq /\ b = Lt).
Proof. destruct a, b; cbn; intuition congruence. Qed.
Lemma slice_cmp_eq a : forall b, slice_cmp a b = Eq <-> a = b.
Proof.
  induction a as [|x a IH]; intros [|y b]; cbn [slice_cmp]; try (split; congruence). destruct (Z.compare_spec x y) as [->|H|H]; cbn [then_cmp].
  - rewrite IH. split; congruence.
  - split; [discriminate|]. intros E. injection E as E _. lia.
  - split; [discriminate|]. intros E. injection E as E _. lia.
Qed.
Lemma slice_cmp_number a : forall b, bytes_ok a -> bytes_ok b -> zlen a = zlen b -> slice_cmp a b = (be_value a ?= be_value b).
Proof.
  induction a as [|x a IH]; intros [|y b] Ha Hb Hl.
  - reflexivity.
  - rewrite zlen_cons, zlen_nil in Hl. pose proof (zlen_nonneg b). lia.
  - rewrite zlen_cons, zlen_nil in Hl. pose proof (zlen_nonneg a). lia.
  - apply bytes_ok_cons in Ha, Hb. destruct Ha as [Hx Ha], Hb as [Hy Hb]. rewrite !zlen_cons in Hl. assert (zlen a = zlen b) as Hl' by lia.
    cbn [slice_cmp]. rewrite (IH b Ha Hb Hl'), !be_cons, Hl'. pose proof (be_bound a Ha) as Ba. pose proof (be_bound b Hb) as Bb. rewrite Hl' in Ba.
    set (P := 2 ^ (8 * zlen b)) in *. destruct (Z.compare_spec x y) as [->|H|H]; cbn [then_cmp].
    + destruct (Z.compare_spec (be_value a) (be_value b)) as [->|K|K]; symmetry; [apply Z.compare_refl|apply Z.compare_lt_iff|apply Z.compare_gt_iff]; lia.
    + symmetry. apply Z.compare_lt_iff. assert (P * (x + 1) <= P * y) by (apply Z.mul_le_mono_nonneg_l; lia). lia.
    + symmetry. apply Z.compare_gt_iff. assert (P * (y + 1) <= P * x) by (apply Z.mul_le_mono_nonneg_l; lia). lia.
Qed.
Lemma slice_total : total_order slice_cmp eq.
Proof.
  split; [exact (fun a b => slice_cmp_eq a b)|]. split.
  - induction a as [|x a IH]; intros [|y b]; cbn [slice_cmp]; try reflexivity. rewrite (Z.compare_antisym x y), IH. destruct (x ?= y); reflexivity.
  - induction a as [|x a IH]; intros [|y b] [|z c]; cbn [slice_cmp]; try congruence. rewrite !then_lt, !Z.compare_lt_iff, !Z.compare_eq_iff.
    intros [H1|(-> & H1)] [H2|(-> & H2)]; try (left; lia). right. split; [reflexivity|eauto].
Qed.

(** C66: public keys are totally ordered, like the numbers their bytes spell (big-endian). *)
Theorem C66_pubkey_order :
  total_order pubkey_cmp eq /\
  forall p q, bytes_ok p -> bytes_ok q -> zlen p = 33 -> zlen q = 33 -> pubkey_cmp p q = (be_value p ?= be_value q).
Proof. split; [exact slice_total|]. intros p q Hp Hq Lp Lq. apply slice_cmp_number; congruence. Qed.
Print Assumptions C66_pubkey_order.

(** C66: relative locks are totally ordered, exactly as the sequence numbers they produce (so every height-based lock is below every
    time-based one, whatever the durations). *)
Theorem C66_relative_lock_order :
  total_order csv_cmp eq /\
  (forall a b, csv_ok a -> csv_ok b -> csv_cmp a b = (csv_sequence a ?= csv_sequence b)) /\
  (forall h s, csv_cmp (Blockheight h) (Seconds512 s) = Lt).
Proof.
  split; [|split].
  - split; [|split].
    + intros [x|x] [y|y]; cbn [csv_cmp]; rewrite ?Z.compare_eq_iff; split; try congruence.
    + intros [x|x] [y|y]; cbn [csv_cmp CompOpp]; try reflexivity; apply Z.compare_antisym.
    + intros [x|x] [y|y] [z|z]; cbn [csv_cmp]; rewrite ?Z.compare_lt_iff; try congruence; try lia.
  - intros [x|x] [y|y] Ha Hb; cbn [csv_ok] in *; unfold u16_ok in *; change (2 ^ 16) with 65536 in *; rewrite ?seconds_value by lia; cbn [csv_sequence csv_cmp]; change (2 ^ 22) with 4194304.
    + reflexivity.
    + symmetry. apply Z.compare_lt_iff. lia.
    + symmetry. apply Z.compare_gt_iff. lia.
    + destruct (Z.compare_spec x y) as [->|K|K]; symmetry; [apply Z.compare_refl|apply Z.compare_lt_iff|apply Z.compare_gt_iff]; lia.
  - reflexivity.
Qed.
Print Assumptions C66_relative_lock_order.

Lemma action_index_inj a b : action_index a = action_index b -> a = b.
Proof. destruct a, b; intros H; first [reflexivity|discriminate H]. Qed.
Lemma bool_lt a b : bool_cmp a b = Lt <-> a = false /\ b = true.
Proof. destruct a, b; cbn; intuition congruence. Qed.
Lemma bool_eq a b : bool_cmp a b = Eq <-> a = b.
Proof. destruct a, b; cbn; intuition congruence. Qed.
Lemma then_eq a b : then_cmp a b = Eq <-> a = Eq /\ b = Eq.
Proof. destruct a, b; cbn; intuition congruence. Qed.

(** C66: SLP tokens are totally ordered: by amount, then those without a mint baton first, then by the kind of action. *)
Theorem C66_token_order :
  total_order token_cmp eq /\
  map action_index [NonSlp; NonSlpBurn; SlpParseError; SlpUnsupportedVersion; SlpV1Genesis; SlpV1Mint; SlpV1Send; SlpNft1GroupGenesis; SlpNft1GroupMint;
    SlpNft1GroupSend; SlpNft1UniqueChildGenesis; SlpNft1UniqueChildSend] = [0; 1; 2; 3; 4; 5; 6; 7; 8; 9; 10; 11] /\
  forall a b, token_cmp a b = Lt <->
    k_amount a < k_amount b \/ k_amount a = k_amount b /\
      (k_is_mint_baton a = false /\ k_is_mint_baton b = true \/ k_is_mint_baton a = k_is_mint_baton b /\ action_index (k_action a) < action_index (k_action b)).
Proof.
  assert (forall a b, token_cmp a b = Lt <->
    k_amount a < k_amount b \/ k_amount a = k_amount b /\
      (k_is_mint_baton a = false /\ k_is_mint_baton b = true \/ k_is_mint_baton a = k_is_mint_baton b /\ action_index (k_action a) < action_index (k_action b))) as K.
  { intros a b. unfold token_cmp. rewrite !then_lt, !Z.compare_lt_iff, Z.compare_eq_iff, bool_lt, bool_eq. reflexivity. }
  split; [|split; [reflexivity|exact K]]. split; [|split].
  - intros [x y z] [x' y' z']. unfold token_cmp. cbn [k_amount k_is_mint_baton k_action]. rewrite !then_eq, !Z.compare_eq_iff, bool_eq. split.
    + intros (-> & -> & H). apply action_index_inj in H. now subst.
    + intros E. injection E as -> -> ->. auto.
  - intros a b. unfold token_cmp. rewrite (Z.compare_antisym (k_amount a) (k_amount b)), (Z.compare_antisym (action_index (k_action a)) (action_index (k_action b))).
    destruct (k_amount a ?= k_amount b), (k_is_mint_baton a), (k_is_mint_baton b), (action_index (k_action a) ?= action_index (k_action b)); reflexivity.
  - intros a b c. rewrite !K. destruct (k_is_mint_baton a), (k_is_mint_baton b), (k_is_mint_baton c); intuition (try congruence; try lia).
Qed.
Print Assumptions C66_token_order.

Example C66_nonvacuous :
  let h := ba_unnamed (repeat 7 32) in
  let t := UnhashedTx 2 [TxInput (TxOutpoint h 1) (script_from_ops [OPushArray (ba_unnamed [1; 2]) true]) 9 None (Some 5) None None] [TxOutput 5 []] 0 in
  let t' := UnhashedTx 2 [TxInput (TxOutpoint (ba_new "txid" (repeat 7 32)) 1) (script_from_ops [OPushArray (ba_new "x" [1; 2]) false]) 9 None (Some 5) None None] [TxOutput 5 []] 0 in
  t <> t' /\ unhashed_tx_eqb t t' = true /\
  unhashed_tx_eqb t (UnhashedTx 2 [TxInput (TxOutpoint h 1) (script_from_ops [OPushArray (ba_unnamed [1; 2]) true]) 9 None (Some 6) None None] [TxOutput 5 []] 0) = false /\
  (exists u r, c_deser_rest (unhashed_tx_codec 1 1) (ba_unnamed ([1; 0; 0; 0; 0; 1; 5; 0; 0; 0; 0; 0; 0; 0; 2; 0x4c; 0] ++ [0; 0; 0; 0])) = Ok (u, r) /\
     map t_op (out_script (nth 0 (tx_outputs u) (TxOutput 0 []))) = [OPushArray (ba_unnamed []) false]) /\
  csv_cmp (Blockheight 60000) (Seconds512 1) = Lt /\ csv_ok (Seconds512 1) /\
  pubkey_cmp (2 :: repeat 0 32) (3 :: repeat 0 32) = Lt /\
  token_cmp (SlpToken 5 false SlpV1Send) (SlpToken 5 true SlpV1Mint) = Lt.
Proof.
  cbv zeta. split; [discriminate|]. split; [vm_compute; reflexivity|]. split; [vm_compute; reflexivity|].
  split; [do 2 eexists; split; vm_compute; reflexivity|]. split; [reflexivity|]. split; [unfold csv_ok, u16_ok; lia|]. split; vm_compute; reflexivity.
Qed.
