(** Properties C15-C18 and C42: the BitcoinCode wire format. *)
From Verif Require Import Base BaseLemmas Model_Encoding Spec_Encoding Proofs_Encoding Spec_Integer
  Model_ByteArray Proofs_ByteArray Model_Opcode Model_Script Spec_Script Proofs_Script Model_Code Spec_Code Spec_Wire
  Proofs_Code Proofs_Wire Proofs_Codec Proofs_Reser.
Local Open Scope Z_scope.
Local Open Scope string_scope.
Local Open Scope list_scope.

(** C15: for each type, [ser] succeeds and reading [ser v ++ rest], for any [rest] and any provenance of the
    array read, gives [v] back and leaves [rest] ([roundtrips], Spec_Code). *)
Theorem C15_integers_roundtrip : forall n signed, (0 < n)%nat -> roundtrips (int_codec n signed) (int_value n signed) eq.
Proof. exact (fun n s H => proj1 (int_laws n s H)). Qed.
Print Assumptions C15_integers_roundtrip.
Theorem C15_bool_roundtrip : roundtrips bool_codec (fun _ => True) eq.
Proof. exact (proj1 bool_laws). Qed.
Print Assumptions C15_bool_roundtrip.
Theorem C15_fixed_array_roundtrip : forall n, 0 <= n -> roundtrips (fixed_codec n) (fixed_value n) same_bytes.
Proof. exact (fun n H => proj1 (fixed_laws n H)). Qed.
Print Assumptions C15_fixed_array_roundtrip.
Theorem C15_byte_array_roundtrip : roundtrips bytearray_codec bytes_value same_bytes.
Proof. exact (proj1 bytearray_laws). Qed.
Print Assumptions C15_byte_array_roundtrip.
Theorem C15_script_roundtrip : roundtrips script_codec script_value same_script.
Proof. exact (proj1 script_laws). Qed.
Print Assumptions C15_script_roundtrip.
Theorem C15_vec_roundtrip : forall A sz (c : codec A) value same,
  roundtrips c value same /\ self_delimiting c same ->
  roundtrips (vec_codec sz c) (vec_value sz value) (Forall2 same) /\ self_delimiting (vec_codec sz c) (Forall2 same).
Proof. exact (fun A sz c v s H => vec_laws sz c v s H). Qed.
Print Assumptions C15_vec_roundtrip.
Theorem C15_outpoint_roundtrip : roundtrips outpoint_codec outpoint_value same_outpoint.
Proof. exact (proj1 outpoint_laws). Qed.
Print Assumptions C15_outpoint_roundtrip.
Theorem C15_input_roundtrip : roundtrips input_codec input_value same_input.
Proof. exact (proj1 input_laws). Qed.
Print Assumptions C15_input_roundtrip.
Theorem C15_output_roundtrip : roundtrips output_codec output_value same_output.
Proof. exact (proj1 output_laws). Qed.
Print Assumptions C15_output_roundtrip.
Theorem C15_transaction_roundtrip : forall si so, roundtrips (unhashed_tx_codec si so) (tx_value si so) same_tx.
Proof. exact (fun si so => proj1 (unhashed_tx_laws si so)). Qed.
Print Assumptions C15_transaction_roundtrip.
Theorem C15_preimage_roundtrip : roundtrips preimage_codec preimage_value same_preimage.
Proof. exact (proj1 preimage_laws). Qed.
Print Assumptions C15_preimage_roundtrip.

(** C15: [deser (ser v)] is [v]. *)
Theorem C15_transaction_deser_ser : forall si so t, tx_value si so t ->
  exists s, c_ser (unhashed_tx_codec si so) t = Ok s /\
    forall a, ba_data a = ba_data s -> exists t', c_deser (unhashed_tx_codec si so) a = Ok t' /\ same_tx t t'.
Proof. exact (fun si so => deser_ser _ _ _ (proj1 (unhashed_tx_laws si so))). Qed.
Print Assumptions C15_transaction_deser_ser.

(** C15: injective and prefix-free. *)
Theorem C15_transaction_prefix_free : forall si so a b x y r s, tx_value si so a -> tx_value si so b ->
  c_ser (unhashed_tx_codec si so) a = Ok x -> c_ser (unhashed_tx_codec si so) b = Ok y -> bytes_ok r ->
  ba_data x ++ r = ba_data y ++ s -> same_tx a b /\ ba_data x = ba_data y /\ r = s.
Proof. exact (fun si so => codec_prefix_free _ _ _ per_tx (proj1 (unhashed_tx_laws si so))). Qed.
Print Assumptions C15_transaction_prefix_free.
Theorem C15_preimage_prefix_free : forall a b x y r s, preimage_value a -> preimage_value b ->
  c_ser preimage_codec a = Ok x -> c_ser preimage_codec b = Ok y -> bytes_ok r ->
  ba_data x ++ r = ba_data y ++ s -> same_preimage a b /\ ba_data x = ba_data y /\ r = s.
Proof. exact (codec_prefix_free _ _ _ per_preimage (proj1 preimage_laws)). Qed.
Print Assumptions C15_preimage_prefix_free.
Theorem C15_output_prefix_free : forall a b x y r s, output_value a -> output_value b ->
  c_ser output_codec a = Ok x -> c_ser output_codec b = Ok y -> bytes_ok r ->
  ba_data x ++ r = ba_data y ++ s -> same_output a b /\ ba_data x = ba_data y /\ r = s.
Proof. exact (codec_prefix_free _ _ _ per_output (proj1 output_laws)). Qed.
Print Assumptions C15_output_prefix_free.
Theorem C15_input_prefix_free : forall a b x y r s, input_value a -> input_value b ->
  c_ser input_codec a = Ok x -> c_ser input_codec b = Ok y -> bytes_ok r ->
  ba_data x ++ r = ba_data y ++ s -> same_input a b /\ ba_data x = ba_data y /\ r = s.
Proof. exact (codec_prefix_free _ _ _ per_input (proj1 input_laws)). Qed.
Print Assumptions C15_input_prefix_free.
Theorem C15_script_prefix_free : forall a b x y r s, script_value a -> script_value b ->
  c_ser script_codec a = Ok x -> c_ser script_codec b = Ok y -> bytes_ok r ->
  ba_data x ++ r = ba_data y ++ s -> same_script a b /\ ba_data x = ba_data y /\ r = s.
Proof. exact (codec_prefix_free _ _ _ per_script (proj1 script_laws)). Qed.
Print Assumptions C15_script_prefix_free.
Theorem C15_byte_array_prefix_free : forall a b x y r s, bytes_value a -> bytes_value b ->
  c_ser bytearray_codec a = Ok x -> c_ser bytearray_codec b = Ok y -> bytes_ok r ->
  ba_data x ++ r = ba_data y ++ s -> ba_data a = ba_data b /\ ba_data x = ba_data y /\ r = s.
Proof. exact (codec_prefix_free _ _ _ per_bytes (proj1 bytearray_laws)). Qed.
Print Assumptions C15_byte_array_prefix_free.

(** Example transaction used below: one input (script: push 3 bytes, OP_CHECKSIG), one output. *)
Definition ex_input : tx_input :=
  TxInput (TxOutpoint (ba_unnamed (repeat 0xab 32)) 7)
    (script_from_ops [OPushArray (ba_unnamed [1; 2; 3]) true; OCode OP_CHECKSIG]) 0xffffffff None (Some 1000) None None.
Definition ex_tx : unhashed_tx :=
  UnhashedTx 2 [ex_input] [TxOutput 900 (script_from_ops [OCode OP_DUP; OPushInt 1000])] 5.
Lemma ex_input_value : input_value ex_input.
Proof.
  unfold input_value, outpoint_value, fixed_value, script_value, u32_ok, ex_input; cbn [in_prev_out op_tx_hash op_vout in_script in_sequence].
  split; [split; [split; [repeat constructor; unfold byte_ok; lia|reflexivity]|lia]|]. split; [|lia]. split.
  - repeat constructor; cbn; try discriminate; repeat constructor; unfold byte_ok; lia.
  - intros a H. vm_compute in H. injection H as <-. unfold in_memory. vm_compute. discriminate.
Qed.
Lemma ex_tx_value : tx_value 200 100 ex_tx.
Proof.
  unfold tx_value, ex_tx; cbn [tx_version tx_inputs tx_outputs tx_lock_time]. unfold i32_ok, u32_ok, vec_value.
  split; [lia|]. split; [split; [constructor; [apply ex_input_value|constructor]|split; vm_compute; [discriminate|reflexivity]]|].
  split; [|lia]. split; [|split; vm_compute; [discriminate|reflexivity]].
  constructor; [|constructor]. unfold output_value, script_value, u64_ok; cbn [out_value out_script]. split; [lia|]. split.
  - repeat constructor; cbn; try discriminate; unfold script_int; lia.
  - intros a H. vm_compute in H. injection H as <-. unfold in_memory. vm_compute. discriminate.
Qed.
Example C15_nonvacuous : tx_value 200 100 ex_tx /\
  exists s, c_ser (unhashed_tx_codec 200 100) ex_tx = Ok s /\ zlen (ba_data s) = 69 /\
    exists t, c_deser (unhashed_tx_codec 200 100) s = Ok t /\ same_tx ex_tx t.
Proof.
  split; [exact ex_tx_value|]. destruct (C15_transaction_deser_ser 200 100 ex_tx ex_tx_value) as (s & E & P).
  exists s. split; [assumption|]. split; [|exact (P s eq_refl)]. vm_compute in E. injection E as <-. reflexivity.
Qed.

(** C16: an accepted encoding followed by anything is rejected, reporting exactly what follows. *)
Theorem C16_suffix_rejected : forall A (c : codec A) same, self_delimiting c same ->
  forall t a u suffix, bytes_ok (ba_data t) -> bytes_ok suffix -> c_deser c t = Ok a ->
  ba_data u = ba_data t ++ suffix -> suffix <> [] -> c_deser c u = Err (ELeftover suffix).
Proof. exact (fun A c s => deser_suffix c s). Qed.
Print Assumptions C16_suffix_rejected.
(** C16: the hypothesis of the previous theorem holds for every type. *)
Theorem C16_all_self_delimiting :
  (forall n s, (0 < n)%nat -> self_delimiting (int_codec n s) eq) /\ self_delimiting bool_codec eq /\
  (forall n, 0 <= n -> self_delimiting (fixed_codec n) same_bytes) /\
  self_delimiting bytearray_codec same_bytes /\ self_delimiting script_codec same_script /\
  self_delimiting outpoint_codec same_outpoint /\ self_delimiting input_codec same_input /\
  self_delimiting output_codec same_output /\ (forall si so, self_delimiting (unhashed_tx_codec si so) same_tx) /\
  self_delimiting preimage_codec same_preimage /\ self_delimiting tx_codec same_raw.
Proof.
  exact (conj (fun n s H => proj2 (int_laws n s H)) (conj (proj2 bool_laws) (conj (fun n H => proj2 (fixed_laws n H))
   (conj (proj2 bytearray_laws) (conj (proj2 script_laws) (conj (proj2 outpoint_laws) (conj (proj2 input_laws)
   (conj (proj2 output_laws) (conj (fun si so => proj2 (unhashed_tx_laws si so)) (conj (proj2 preimage_laws) (proj2 tx_laws))))))))))).
Qed.
Print Assumptions C16_all_self_delimiting.
Theorem C16_transaction_suffix_rejected : forall si so t a u suffix, bytes_ok (ba_data t) -> bytes_ok suffix ->
  c_deser (unhashed_tx_codec si so) t = Ok a ->
  ba_data u = ba_data t ++ suffix -> suffix <> [] -> c_deser (unhashed_tx_codec si so) u = Err (ELeftover suffix).
Proof. exact (fun si so => deser_suffix _ _ (proj2 (unhashed_tx_laws si so))). Qed.
Print Assumptions C16_transaction_suffix_rejected.
(** C16: every proper prefix of a serialised transaction is rejected with an error (no panic). *)
Theorem C16_transaction_prefix_rejected : forall si so a s p q, tx_value si so a ->
  c_ser (unhashed_tx_codec si so) a = Ok s -> ba_data s = p ++ q -> q <> [] ->
  forall t, ba_data t = p -> exists e, c_deser (unhashed_tx_codec si so) t = Err e.
Proof. exact (fun si so => deser_prefix _ _ _ _ (unhashed_tx_laws si so) (tx_wlaws si so)). Qed.
Print Assumptions C16_transaction_prefix_rejected.
Theorem C16_preimage_prefix_rejected : forall a s p q, preimage_value a ->
  c_ser preimage_codec a = Ok s -> ba_data s = p ++ q -> q <> [] ->
  forall t, ba_data t = p -> exists e, c_deser preimage_codec t = Err e.
Proof. exact (deser_prefix _ _ _ _ preimage_laws preimage_wlaws). Qed.
Print Assumptions C16_preimage_prefix_rejected.
(** C16: reading a transaction from untrusted bytes panics only if some announced number of inputs/outputs
    exceeds what [Vec::with_capacity] accepts; scripts, inputs and outputs never panic. *)
Theorem C16_deser_panics_only_on_capacity : forall si so t, bytes_ok (ba_data t) ->
  c_deser_rest (unhashed_tx_codec si so) t = Panic ->
  exists sz before n len after, (sz = si \/ sz = so) /\
    ba_data t = before ++ len ++ after /\ is_varint n len /\ 2 ^ 63 - 1 < n * sz.
Proof.
  exact (fun si so t Hok H => match no_panic_tx si so t Hok H with
    | or_introl (ex_intro _ b (ex_intro _ n (ex_intro _ l (ex_intro _ a X)))) =>
        ex_intro _ si (ex_intro _ b (ex_intro _ n (ex_intro _ l (ex_intro _ a (conj (or_introl eq_refl) X)))))
    | or_intror (ex_intro _ b (ex_intro _ n (ex_intro _ l (ex_intro _ a X)))) =>
        ex_intro _ so (ex_intro _ b (ex_intro _ n (ex_intro _ l (ex_intro _ a (conj (or_intror eq_refl) X)))))
    end).
Qed.
Print Assumptions C16_deser_panics_only_on_capacity.
Theorem C16_parts_never_panic : forall t, bytes_ok (ba_data t) ->
  c_deser_rest bytearray_codec t <> Panic /\ c_deser_rest script_codec t <> Panic /\
  c_deser_rest outpoint_codec t <> Panic /\ c_deser_rest input_codec t <> Panic /\ c_deser_rest output_codec t <> Panic.
Proof.
  exact (fun t H => conj (wl_no_panic_bytes t H) (conj (wl_no_panic_script t H)
    (conj (no_panic_outpoint t) (conj (no_panic_input t H) (no_panic_output t H))))).
Qed.
Print Assumptions C16_parts_never_panic.
(** C16: "deser of untrusted bytes never panics" is false: a 13-byte input announcing 2^64-1 inputs panics,
    whatever the size of [TxInput] (at least 2 bytes). *)
Theorem C16_deser_never_panics_refuted : forall si so, 2 <= si ->
  exists bs, bytes_ok bs /\ zlen bs = 13 /\ c_deser (unhashed_tx_codec si so) (ba_unnamed bs) = Panic.
Proof.
  intros si so Hsi. exists [1;0;0;0;255;255;255;255;255;255;255;255;255].
  split; [repeat constructor; unfold byte_ok; lia|]. split; [reflexivity|].
  unfold c_deser, unhashed_tx_codec. cbn [c_deser_rest].
  destruct (c_deser_rest i32_codec (ba_unnamed [1;0;0;0;255;255;255;255;255;255;255;255;255])) as [[v t1]|e|] eqn:E0; [|vm_compute in E0; discriminate|vm_compute in E0; discriminate].
  assert (read_size t1 = Ok (2 ^ 64 - 1, ba_unnamed [])) as E1 by (vm_compute in E0; injection E0 as <- <-; vm_compute; reflexivity).
  cbn [obind]. unfold vec_codec at 1. cbn [c_deser_rest]. rewrite E1. cbn [obind].
  destruct (Z.ltb_spec (2 ^ 63 - 1) ((2 ^ 64 - 1) * si)); [reflexivity|].
  change (2 ^ 63) with 9223372036854775808 in *. change (2 ^ 64) with 18446744073709551616 in *. lia.
Qed.
Print Assumptions C16_deser_never_panics_refuted.
Example C16_nonvacuous : exists s, c_ser (unhashed_tx_codec 200 100) ex_tx = Ok s /\
  (exists t, c_deser (unhashed_tx_codec 200 100) s = Ok t) /\
  c_deser (unhashed_tx_codec 200 100) (ba_unnamed (ba_data s ++ [9; 9])) = Err (ELeftover [9; 9]) /\
  c_deser (unhashed_tx_codec 200 100) (ba_unnamed (firstn 50 (ba_data s))) = Err (EInvalidSplit 4 3).
Proof. eexists. split; [vm_compute; reflexivity|]. split; [eexists; vm_compute; reflexivity|]. split; vm_compute; reflexivity. Qed.

(** C17: lists of values survive encode_all / decode_all ([fuel]: loop iterations; the number of values suffices). *)
Theorem C17_encode_decode_all : forall A (c : codec A) value same, roundtrips c value same ->
  (forall a s, value a -> c_ser c a = Ok s -> ba_data s <> []) ->
  forall vs, Forall value vs -> vs <> [] -> exists enc, encode_all c vs = Ok enc /\
  forall t fuel, ba_data t = ba_data enc -> (length vs <= fuel)%nat ->
    exists vs', decode_all_loop c fuel t [] = Some (Ok vs') /\ Forall2 same vs vs'.
Proof.
  exact (fun A c v s R N vs Hv Hn => match decode_all_encode c v s R N vs Hv Hn with
    ex_intro _ enc (conj E P) => ex_intro _ enc (conj E (fun t fuel Ht Hf => P t [] fuel Ht Hf)) end).
Qed.
Print Assumptions C17_encode_decode_all.
Lemma ser_nonempty {A} (c : codec A) value same W : wlaws c value same W -> roundtrips c value same ->
  forall a s, value a -> c_ser c a = Ok s -> in_memory (ba_len s) -> ba_data s <> [].
Proof.
  intros L R a s Ha E Hm Hs. destruct (R a Ha) as (s' & E' & Hok & P). rewrite E in E'. injection E' as <-.
  destruct (P s []) as (a' & t' & F & _ & D); [now rewrite app_nil_r|constructor|].
  destruct (w_sound _ _ _ _ L s a' t' Hok Hm F) as (_ & bs & _ & Hne & Db). rewrite Hs in Db. destruct bs; [congruence|discriminate].
Qed.
Theorem C17_transactions_encode_decode_all : forall si so vs, Forall (tx_value si so) vs -> vs <> [] ->
  exists enc, encode_all (unhashed_tx_codec si so) vs = Ok enc /\
  forall t fuel, ba_data t = ba_data enc -> (length vs <= fuel)%nat ->
    exists vs', decode_all_loop (unhashed_tx_codec si so) fuel t [] = Some (Ok vs') /\ Forall2 same_tx vs vs'.
Proof.
  intros si so. apply C17_encode_decode_all; [apply unhashed_tx_laws|].
  intros a s Ha E Hs. refine (ser_nonempty _ _ _ _ (tx_wlaws si so) (proj1 (unhashed_tx_laws si so)) a s Ha E _ Hs).
  unfold in_memory, ba_len. rewrite Hs. vm_compute. discriminate.
Qed.
Print Assumptions C17_transactions_encode_decode_all.
(** C17: whatever the bytes, decoding stops after at most one iteration per byte plus one, and when it succeeds the
    whole input is the concatenation of the wire forms of the values returned (nothing is skipped). *)
Theorem C17_decode_all_total : forall si so t, bytes_ok (ba_data t) -> in_memory (ba_len t) ->
  forall fuel, (length (ba_data t) < fuel)%nat ->
  decode_all_loop (unhashed_tx_codec si so) fuel t [] <> None /\
  forall vs, decode_all_loop (unhashed_tx_codec si so) fuel t [] = Some (Ok vs) ->
    vs <> [] /\ exists parts, Forall2 (wire_tx false) vs parts /\ ba_data t = concat parts.
Proof.
  intros si so t Hok Hm fuel Hf. split; [exact (decode_all_terminates _ _ _ _ (tx_wlaws si so) fuel t [] Hok Hm Hf)|].
  intros vs H. destruct (decode_all_sound _ _ _ _ (tx_wlaws si so) fuel t [] vs Hok Hm H) as (vs' & parts & -> & Hn & F & D). cbn. eauto.
Qed.
Print Assumptions C17_decode_all_total.
(** C17: the empty list does not round-trip. *)
Theorem C17_empty_list_refuted : forall si so, exists enc e, encode_all (unhashed_tx_codec si so) [] = Ok enc /\
  forall fuel, decode_all_loop (unhashed_tx_codec si so) (S fuel) enc [] = Some (Err e).
Proof. intros si so. eexists _, _. split; [reflexivity|]. intros fuel. cbn. reflexivity. Qed.
Print Assumptions C17_empty_list_refuted.
(** C17: termination needs items of at least one byte: decoding zero-length items from non-empty input never stops. *)
Theorem C17_zero_size_items_diverge_refuted : exists (c : codec barray) t, c = fixed_codec 0 /\
  forall fuel acc, decode_all_loop c fuel t acc = None.
Proof.
  exists (fixed_codec 0), (ba_unnamed [1]). split; [reflexivity|]. 
  assert (forall fuel t acc, ba_data t = [1] -> decode_all_loop (fixed_codec 0) fuel t acc = None) as G.
  { induction fuel as [|fuel IH]; intros t acc Ht; [reflexivity|]. cbn [decode_all_loop].
    destruct (proj1 (fixed_laws 0 ltac:(lia)) (ba_unnamed []) (conj (Forall_nil _) eq_refl)) as (s & E & _ & P). injection E as <-.
    destruct (P t [1] Ht) as (a' & t' & F & _ & D); [repeat constructor; unfold byte_ok; lia|]. rewrite F. unfold ba_len. rewrite D. cbn. now apply IH. }
  intros fuel acc. now apply G.
Qed.
Print Assumptions C17_zero_size_items_diverge_refuted.
Example C17_nonvacuous : exists enc, encode_all (unhashed_tx_codec 200 100) [ex_tx; ex_tx] = Ok enc /\ zlen (ba_data enc) = 138 /\
  exists vs, decode_all_loop (unhashed_tx_codec 200 100) 3 enc [] = Some (Ok vs) /\ length vs = 2%nat.
Proof. eexists. split; [vm_compute; reflexivity|]. split; [vm_compute; reflexivity|]. eexists. split; vm_compute; reflexivity. Qed.

(** C18: [hashed()] is coherent, for every 32-byte hash function. *)
Theorem C18_hashed_coherent : forall (sha256d : list Z -> list Z), (forall m, zlen (sha256d m) = 32) ->
  forall si so t, tx_value si so t ->
  exists raw, c_ser (unhashed_tx_codec si so) t = Ok raw /\
  exists tx', tx_hashed sha256d si so t = Ok tx' /\ tx_unhashed tx' = t /\
    ba_data (tx_raw tx') = ba_data raw /\ wire_tx true t (ba_data (tx_raw tx')) /\
    ba_data (tx_hash tx') = sha256d (ba_data (tx_raw tx')).
Proof.
  intros sha Hsha si so t Ht. destruct (w_write _ _ _ _ (tx_wlaws si so) t Ht) as (s & E & Hw). exists s. split; [assumption|].
  eexists. unfold tx_hashed. rewrite E. cbn [obind]. unfold digest_sha256d, fixed_from_byte_array, ba_len.
  assert (ba_data (ba_apply_function s (sha (ba_data s)) FHash256) = sha (ba_data s)) as D by reflexivity.
  rewrite D, Hsha, Z.eqb_refl. cbn [obind]. split; [reflexivity|]. cbn. auto.
Qed.
Print Assumptions C18_hashed_coherent.
(** C18: equal raw bytes / equal hashes identify the transaction (given no collision between the two serialisations). *)
Theorem C18_hash_identifies : forall (sha256d : list Z -> list Z), (forall m, zlen (sha256d m) = 32) ->
  forall si so t u t' u', tx_value si so t -> tx_value si so u ->
  tx_hashed sha256d si so t = Ok t' -> tx_hashed sha256d si so u = Ok u' ->
  (sha256d (ba_data (tx_raw t')) = sha256d (ba_data (tx_raw u')) -> ba_data (tx_raw t') = ba_data (tx_raw u')) ->
  ba_data (tx_hash t') = ba_data (tx_hash u') -> same_tx t u.
Proof.
  intros sha Hsha si so t u t' u' Ht Hu Et Eu Hc Hh.
  destruct (C18_hashed_coherent sha Hsha si so t Ht) as (x & Ex & t1 & Et1 & _ & Rx & _ & Hx). rewrite Et in Et1. injection Et1 as <-.
  destruct (C18_hashed_coherent sha Hsha si so u Hu) as (y & Ey & u1 & Eu1 & _ & Ry & _ & Hy). rewrite Eu in Eu1. injection Eu1 as <-.
  rewrite Hx, Hy in Hh. apply Hc in Hh. rewrite Rx, Ry in Hh.
  destruct (C15_transaction_prefix_free si so t u x y [] [] Ht Hu Ex Ey bytes_ok_nil) as (S & _); [now rewrite !app_nil_r|exact S].
Qed.
Print Assumptions C18_hash_identifies.
(** C18: a [Tx] read back keeps the raw bytes ... *)
Theorem C18_deser_keeps_raw : forall t, bytes_value (tx_raw t) -> exists s, c_ser tx_codec t = Ok s /\
  forall a, ba_data a = ba_data s -> exists t', c_deser tx_codec a = Ok t' /\ ba_data (tx_raw t') = ba_data (tx_raw t) /\
    tx_unhashed t' = UnhashedTx 1 [] [] 0 /\ ba_data (tx_hash t') = repeat 0 32.
Proof.
  intros t Ht. destruct (deser_ser _ _ _ (proj1 tx_laws) t Ht) as (s & E & P). exists s. split; [assumption|]. intros a Ha.
  destruct (P a Ha) as (t' & E' & S). exists t'. split; [assumption|]. split; [symmetry; exact S|].
  apply deser_ok_inv in E'. destruct E' as (r & E' & _). cbn [tx_codec c_deser_rest] in E'. apply obind_ok in E'. destruct E' as ((raw & d) & _ & E').
  injection E' as <- _. auto.
Qed.
Print Assumptions C18_deser_keeps_raw.
(** C18: ... but not its hash: no 32-byte hash function that is non-zero on the bytes of some transaction makes the
    deserialised [Tx]'s hash the hash of its raw bytes. *)
Theorem C18_deser_hash_refuted : forall (sha256d : list Z -> list Z), (forall m, zlen (sha256d m) = 32) ->
  forall si so t, tx_value si so t -> (forall raw, c_ser (unhashed_tx_codec si so) t = Ok raw ->
    in_memory (ba_len raw) /\ sha256d (ba_data raw) <> repeat 0 32) ->
  exists tx' s tx'', tx_hashed sha256d si so t = Ok tx' /\ c_ser tx_codec tx' = Ok s /\ c_deser tx_codec s = Ok tx'' /\
    ba_data (tx_raw tx'') = ba_data (tx_raw tx') /\ ba_data (tx_hash tx'') <> ba_data (tx_hash tx').
Proof.
  intros sha Hsha si so t Ht Hn. destruct (C18_hashed_coherent sha Hsha si so t Ht) as (raw & E & tx' & Eh & _ & Dr & _ & Dh).
  destruct (Hn raw E) as [Hm Hz]. exists tx'.
  assert (bytes_value (tx_raw tx')) as Hv.
  { split; [|unfold ba_len in *; rewrite Dr; exact Hm]. rewrite Dr. destruct (proj1 (unhashed_tx_laws si so) t Ht) as (s & E' & Hok & _). rewrite E in E'. injection E' as <-. exact Hok. }
  destruct (C18_deser_keeps_raw tx' Hv) as (s & Es & P). destruct (P s eq_refl) as (tx'' & Ed & Hr & _ & Hh).
  exists s, tx''. repeat split; auto. rewrite Hh, Dh, Dr. congruence.
Qed.
Print Assumptions C18_deser_hash_refuted.
Example C18_nonvacuous : exists tx', tx_hashed (fun m => repeat (zlen m) 32) 200 100 ex_tx = Ok tx' /\
  ba_data (tx_hash tx') = repeat 69 32.
Proof. eexists. split; vm_compute; reflexivity. Qed.

(** C42: what is written is the Bitcoin wire format with shortest length prefixes. *)
Theorem C42_transaction_wire_format : forall si so t, tx_value si so t ->
  exists s, c_ser (unhashed_tx_codec si so) t = Ok s /\ wire_tx true t (ba_data s).
Proof. exact (fun si so => w_write _ _ _ _ (tx_wlaws si so)). Qed.
Print Assumptions C42_transaction_wire_format.
Theorem C42_preimage_wire_format : forall p, preimage_value p ->
  exists s, c_ser preimage_codec p = Ok s /\ wire_preimage true p (ba_data s).
Proof. exact (w_write _ _ _ _ preimage_wlaws). Qed.
Print Assumptions C42_preimage_wire_format.
(** C42: the reader accepts every wire encoding of [t] (also with over-long prefixes) ... *)
Theorem C42_reader_complete : forall si so t bs, tx_value si so t -> wire_tx false t bs -> bytes_ok bs ->
  forall a, ba_data a = bs -> exists t', c_deser (unhashed_tx_codec si so) a = Ok t' /\ same_tx t t'.
Proof.
  intros si so t bs Ht Hw Hok a Ha.
  destruct (w_complete _ _ _ _ (tx_wlaws si so) false t bs Ht Hw Hok a []) as (t' & r & E & S & D); [now rewrite app_nil_r|constructor|].
  exists t'. split; [|assumption]. unfold c_deser. rewrite E. cbn [obind]. unfold ba_len. rewrite D. reflexivity.
Qed.
Print Assumptions C42_reader_complete.
(** C42: ... and only wire encodings of what it returns, which is always a value that can be written again. *)
Theorem C42_reader_sound : forall si so a t, bytes_ok (ba_data a) -> in_memory (ba_len a) ->
  c_deser (unhashed_tx_codec si so) a = Ok t -> tx_value si so t /\ wire_tx false t (ba_data a).
Proof.
  intros si so a t Hok Hm H. apply deser_ok_inv in H. destruct H as (t' & E & D).
  destruct (w_sound _ _ _ _ (tx_wlaws si so) a t t' Hok Hm E) as (V & bs & W & _ & Db). rewrite D, app_nil_r in Db. split; [assumption|]. now rewrite Db.
Qed.
Print Assumptions C42_reader_sound.
(** C42: re-serialising a transaction that was read gives the same bytes exactly when they were in writer's form
    (shortest var-ints and push prefixes); it never gets longer. *)
Theorem C42_reserialise : forall si so a t, bytes_ok (ba_data a) -> in_memory (ba_len a) ->
  c_deser (unhashed_tx_codec si so) a = Ok t ->
  exists s, c_ser (unhashed_tx_codec si so) t = Ok s /\ (ba_data s = ba_data a <-> wire_tx true t (ba_data a)) /\
    (length (ba_data s) <= length (ba_data a))%nat.
Proof.
  intros si so a t Hok Hm H. apply deser_ok_inv in H. destruct H as (t' & E & D).
  destruct (tx_reser si so a t t' Hok Hm E) as (bs & s & Db & Es & I & Ll). rewrite D, app_nil_r in Db. rewrite Db. exists s. auto.
Qed.
Print Assumptions C42_reserialise.
(** C42: hence reading and writing a transaction may change its bytes and so its txid. *)
Theorem C42_reserialise_identity_refuted : exists a t s, bytes_ok (ba_data a) /\
  c_deser (unhashed_tx_codec 200 100) a = Ok t /\ c_ser (unhashed_tx_codec 200 100) t = Ok s /\ ba_data s <> ba_data a.
Proof.
  (* one input whose script pushes one byte with OP_PUSHDATA2 *)
  exists (ba_unnamed ([1;0;0;0] ++ [1] ++ repeat 0 32 ++ [0;0;0;0] ++ [4; 0x4d;1;0;7] ++ [255;255;255;255] ++ [0] ++ [0;0;0;0])).
  eexists _, _. split; [cbn; repeat constructor; unfold byte_ok; lia|]. split; [vm_compute; reflexivity|].
  split; [vm_compute; reflexivity|]. vm_compute. discriminate.
Qed.
Print Assumptions C42_reserialise_identity_refuted.
Example C42_nonvacuous : tx_value 200 100 ex_tx /\ exists s, c_ser (unhashed_tx_codec 200 100) ex_tx = Ok s /\
  ba_data s = [2;0;0;0] ++ [1] ++ repeat 0xab 32 ++ [7;0;0;0] ++ [5; 3;1;2;3;0xac] ++ [255;255;255;255] ++ [1] ++
              [0x84;3;0;0;0;0;0;0] ++ [4; 0x76;2;0xe8;3] ++ [5;0;0;0].
Proof. split; [exact ex_tx_value|]. eexists. split; vm_compute; reflexivity. Qed.
