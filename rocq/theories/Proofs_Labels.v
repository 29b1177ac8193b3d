(** Proofs about the names of parts. *)
From Coq Require Import DecimalString DecimalNat DecimalFacts.
From Verif Require Import Base BaseLemmas Spec_Encoding Model_Encoding Proofs_Encoding Spec_Integer Model_ByteArray Proofs_ByteArray Model_Opcode Model_Script Spec_Script Proofs_Script
  Model_Code Spec_Code Spec_Wire Proofs_Wire Spec_ByteArray Spec_Parts Prop_Parts Model_Address Spec_Text Model_Preimage Spec_Preimage Proofs_Preimage Spec_Labels.
Local Open Scope string_scope.
Local Open Scope list_scope.
Local Open Scope Z_scope.

Lemma parts_named a n : parts (ba_named a n) = under n a.
Proof. destruct a as [d m f [p|]]; [|destruct f; reflexivity]. destruct f; reflexivity. Qed.
Lemma parts_concat a b : parts (ba_concat a b) = parts a ++ parts b.
Proof. apply C09_concat_keeps_parts. Qed.
Lemma parts_unnamed d : parts (ba_unnamed d) = [bare d]. Proof. reflexivity. Qed.
Lemma under_unnamed n d : under n (ba_unnamed d) = [labelled n d]. Proof. reflexivity. Qed.
Lemma under_concat n a b : under n (ba_concat a b) = parts a ++ parts b.
Proof. rewrite <- parts_concat, <- parts_named. unfold ba_concat, ba_concat_named. destruct (func_eqb (ba_function a) FPlain && func_eqb (ba_function b) FPlain); reflexivity. Qed.
Lemma concat_is_concat ps : forall a, match fold_left (fun acc part => match acc with Some b => Some (ba_concat b part) | None => Some part end) ps (Some a) with
  | Some b => b | None => ba_unnamed [] end = fold_left ba_concat ps a.
Proof. induction ps as [|q ps IH]; intros a; [reflexivity|]. cbn [fold_left]. apply IH. Qed.
Lemma under_fold n ps : forall a b, under n (fold_left ba_concat ps (ba_concat a b)) = parts a ++ parts b ++ concat (map parts ps).
Proof.
  induction ps as [|q ps IH]; intros a b; cbn [fold_left map concat].
  - now rewrite under_concat, app_nil_r.
  - rewrite IH, parts_concat. now rewrite <- !app_assoc.
Qed.
Lemma under_from_parts n a b ps : under n (ba_from_parts (a :: b :: ps)) = parts a ++ parts b ++ concat (map parts ps).
Proof. unfold ba_from_parts. cbn [fold_left]. rewrite concat_is_concat. apply under_fold. Qed.
Lemma parts_from_parts ps : ps <> [] -> parts (ba_from_parts ps) = concat (map parts ps).
Proof. apply C09_from_parts_keeps_parts. Qed.
Lemma from_parts_seq {A} (R : A -> list barray -> Prop) l ps : Forall2 (fun x p => R x (parts p)) l ps -> sequence_parts R l (parts (ba_from_parts ps)).
Proof.
  intros F. destruct ps as [|p ps].
  - inversion F; subst. left. split; reflexivity.
  - right. split; [inversion F; discriminate|]. rewrite parts_from_parts by discriminate. exists (map parts (p :: ps)). split; [reflexivity|].
    clear - F. induction F as [|x y l l' H F IH]; cbn [map]; constructor; assumption.
Qed.
(* ---------- ops ---------- *)
Lemma one_op_iff d : bytes_ok d -> one_op d = true <-> one_byte_push d.
Proof.
  intros _. unfold one_byte_push. destruct d as [|x [|y d]]; cbn [one_op].
  - split; auto.
  - split.
    + intros H. apply orb_prop in H. destruct H as [H|H].
      * apply andb_prop in H. destruct H as [H1 H2]. apply Z.leb_le in H1, H2. right; left. exists x. auto.
      * apply Z.eqb_eq in H. subst. auto.
    + intros [H|[(n & Hn & H)|H]]; [discriminate| |]; injection H as ->; [|reflexivity].
      apply orb_true_iff. left. apply andb_true_iff. split; apply Z.leb_le; lia.
  - split; [discriminate|]. intros [H|[(n & _ & H)|H]]; discriminate.
Qed.
Lemma push_parts a m : bytes_ok (ba_data a) -> zlen (ba_data a) < 2 ^ 32 ->
  exists r, serialize_push_bytes a m = Ok r /\
    ((m = true /\ one_byte_push (ba_data a) /\ parts r = [bare [push_head (ba_data a)]]) \/
     ((m = true -> ~ one_byte_push (ba_data a)) /\ parts r = bare (nonmin_prefix (ba_data a)) :: parts a)).
Proof.
  intros Hok Hl. unfold serialize_push_bytes. destruct m.
  - destruct (one_op (ba_data a)) eqn:E.
    + rewrite prefix_true_one by assumption. cbn [obind]. eexists. split; [reflexivity|]. left. apply one_op_iff in E; [|exact Hok]. auto.
    + rewrite prefix_true_long by assumption. cbn [obind]. eexists. split; [reflexivity|]. right. split.
      * intros _ H. apply one_op_iff in H; [congruence|exact Hok].
      * rewrite parts_concat. reflexivity.
  - rewrite prefix_false by assumption. cbn [obind]. eexists. split; [reflexivity|]. right. split; [discriminate|]. rewrite parts_concat. reflexivity.
Qed.
Lemma op_parts_ok o r : op_ok o -> serialize_op o = Ok r -> op_parts o (parts r).
Proof.
  intros H E. destruct o as [c|b|a m|b|i].
  - injection E as <-. apply OpCode.
  - injection E as <-. apply OpInvalid.
  - cbn [op_ok] in H. destruct H as [Hok Hl]. cbn [serialize_op] in E. destruct (push_parts a m Hok Hl) as (r' & E' & P). rewrite E in E'. injection E' as <-.
    destruct P as [(-> & P1 & ->)|(P1 & ->)].
    + apply OpShort; [exact P1|]. apply one_op_iff in P1; [|exact Hok]. apply one_op_chunk. exact P1.
    + apply OpPush; [exact P1|]. destruct (push_chunk (ba_data a) false Hl) as [C _]. exact C.
  - destruct b; injection E as <-; [apply OpTrue|apply OpFalse].
  - cbn [op_ok] in H. unfold script_int in H. change (2 ^ 31) with 2147483648 in H. cbn [serialize_op] in E.
    destruct (encode_int_correct i) as (Henc & Hmin & Hok & Hlen); [change (2 ^ 31) with 2147483648; lia|].
    destruct (Z.eqb_spec i (-1)) as [->|N1]. { injection E as <-. apply (OpSmall (-1) OP_1NEGATE); [lia|reflexivity]. }
    destruct (Z.eqb_spec i 0) as [->|N0]. { injection E as <-. apply (OpSmall 0 OP_0); [lia|reflexivity]. }
    destruct ((1 <=? i) && (i <=? 16)) eqn:E1.
    { apply andb_prop in E1. destruct E1 as [L1 L2]. apply Z.leb_le in L1, L2. change (opcode_u8 OP_1 + i - 1) with (0x51 + i - 1) in E.
      assert (byte_ok (0x51 + i - 1)) as Hb by (unfold byte_ok; lia). pose proof (opcode_from_spec _ Hb) as Hs.
      destruct (opcode_from_u8 (0x51 + i - 1)) as [c|]; [|discriminate]. injection E as <-. apply (OpSmall i c); [lia|].
      destruct (Z.eqb_spec i 0); [lia|]. lia. }
    assert (N : ~ -1 <= i <= 16). { apply andb_false_iff in E1. rewrite !Z.leb_gt in E1. lia. }
    destruct (Z.eqb_spec i (-0x80000000)); [discriminate|].
    assert (Hl : zlen (encode_int i) < 2 ^ 32) by (unfold zlen; change (2 ^ 32) with 4294967296; lia).
    destruct (push_parts (ba_unnamed (encode_int i)) true Hok Hl) as (r' & E' & P). rewrite E in E'. injection E' as <-. cbn [ba_data ba_unnamed] in P.
    destruct P as [(_ & P1 & _)|(_ & ->)].
    + exfalso. apply N. rewrite <- Henc. destruct P1 as [->|[(n0 & Hn & ->)| ->]]; [vm_compute; split; discriminate| |vm_compute; split; discriminate].
      unfold script_num. rewrite le_value1. change (2 ^ (8 * zlen [n0] - 1)) with 128. destruct (Z.ltb_spec n0 128); lia.
    + replace (nonmin_prefix (encode_int i)) with [zlen (encode_int i)]; [apply OpInt; assumption|].
      unfold nonmin_prefix. assert (zlen (encode_int i) <> 0). { intros Z0. apply zlen_0 in Z0. rewrite Z0 in Henc. apply N. rewrite <- Henc. vm_compute. split; discriminate. }
      assert (zlen (encode_int i) <= 4) by (unfold zlen; lia).
      destruct (Z.eqb_spec (zlen (encode_int i)) 0); [lia|]. destruct (Z.leb_spec (zlen (encode_int i)) 0x4b); [reflexivity|lia].
Qed.

Lemma okinj {A} (x y : A) : Ok x = Ok y -> x = y. Proof. congruence. Qed.
(* ---------- values ---------- *)
Lemma omap_F2 {A B} (f : A -> outcome B) l ys : omap f l = Ok ys -> Forall2 (fun x y => f x = Ok y) l ys.
Proof.
  revert ys. induction l as [|x l IH]; intros ys H; cbn [omap] in H; [injection H as <-; constructor|].
  apply obind_ok in H. destruct H as (y & Ey & H). apply obind_ok in H. destruct H as (r & Er & H). injection H as <-. constructor; auto.
Qed.
Lemma F2_with {A B} (P : A -> Prop) (Q R : A -> B -> Prop) l m : Forall P l -> Forall2 Q l m -> (forall x y, P x -> Q x y -> R x y) -> Forall2 R l m.
Proof. intros F G H. induction G as [|x y l m q G IH]; constructor; inversion F; subst; auto. Qed.
Lemma script_parts_ok s a n : script_value s -> c_ser script_codec s = Ok a -> script_parts s (under n a) /\ script_parts s (parts a).
Proof.
  intros Hv E. destruct (w_write _ _ _ _ script_wlaws s Hv) as (a' & E' & W). rewrite E in E'. injection E' as <-.
  cbn [c_ser script_codec bytearray_codec] in E. apply obind_ok in E. destruct E as (b & Eb & E). apply okinj in E; subst a.
  destruct Hv as [Hops Hmem]. specialize (Hmem b Eb).
  unfold script_ser_ops in Eb. destruct (serialize_ops (map t_op s)) as [b'|e|] eqn:Es; try discriminate. injection Eb as <-.
  unfold serialize_ops in Es. apply obind_ok in Es. destruct Es as (ps & Eps & Es). injection Es as <-.
  rewrite under_concat, parts_concat. cut (script_parts s (parts (ba_new "size" (encode_var_int (ba_len (ba_from_parts ps)))) ++ parts (ba_from_parts ps))); [auto|].
  exists (encode_var_int (ba_len (ba_from_parts ps))), (ba_data (ba_from_parts ps)), (parts (ba_from_parts ps)). split; [reflexivity|].
  rewrite concat_data in W. split; [exact W|]. split.
  - apply wire_size_encode. unfold u64_ok. unfold in_memory in Hmem. unfold ba_len in *. pose proof (zlen_nonneg (ba_data (ba_from_parts ps))). lia.
  - apply from_parts_seq. eapply F2_with; [exact Hops|exact (omap_F2 _ _ _ Eps)|]. intros o r Ho Er. now apply op_parts_ok.
Qed.
Lemma number_ok name n v : number_part name n v (labelled name (le_bytes n v)).
Proof. exists (le_bytes n v). split; [reflexivity|]. split; [apply le_bytes_length|]. split; [apply le_bytes_ok|apply le_value_bytes]. Qed.
Lemma outpoint_parts_ok o a n : c_ser outpoint_codec o = Ok a -> outpoint_parts o (under n a) /\ outpoint_parts o (parts a).
Proof.
  intros E. cbn [c_ser outpoint_codec sha256d_codec fixed_codec u32_codec int_codec obind] in E. apply okinj in E; subst a.
  rewrite under_from_parts, parts_from_parts by discriminate. cbn [map concat]. rewrite !parts_named, under_unnamed, !app_nil_r.
  split; exists (labelled "vout" (le_bytes 4 (op_vout o))); (split; [reflexivity|apply number_ok]).
Qed.
Lemma output_parts_ok o a n : output_value o -> c_ser output_codec o = Ok a -> output_parts o (under n a) /\ output_parts o (parts a).
Proof.
  intros [_ Hs] E. cbn [c_ser output_codec u64_codec int_codec obind] in E. apply obind_ok in E. destruct E as (s & Es & E). apply okinj in E; subst a.
  rewrite under_from_parts, parts_from_parts by discriminate. cbn [map concat]. rewrite !parts_named, under_unnamed, !app_nil_r.
  destruct (script_parts_ok _ _ "script" Hs Es) as [P _].
  split; (exists (labelled "value" (le_bytes 8 (out_value o))), (under "script" s); split; [reflexivity|]; split; [apply number_ok|exact P]).
Qed.
Lemma input_parts_ok i a n : input_value i -> c_ser input_codec i = Ok a -> input_parts i (under n a) /\ input_parts i (parts a).
Proof.
  intros (_ & Hs & _) E. cbn [c_ser input_codec] in E. apply obind_ok in E. destruct E as (o & Eo & E). apply obind_ok in E. destruct E as (s & Es & E).
  cbn [c_ser u32_codec int_codec obind] in E. apply okinj in E; subst a.
  rewrite under_from_parts, parts_from_parts by discriminate. cbn [map concat]. rewrite !parts_named, under_unnamed, !app_nil_r.
  destruct (script_parts_ok _ _ "script" Hs Es) as [P _]. destruct (outpoint_parts_ok _ _ "prev_out" Eo) as [Q _].
  split; (exists (under "prev_out" o), (under "script" s), (labelled "sequence" (le_bytes 4 (in_sequence i))); split; [reflexivity|]; split; [exact Q|]; split; [exact P|apply number_ok]).
Qed.
Lemma vec_parts_ok {A} sz (c : codec A) (value : A -> Prop) (R : A -> list barray -> Prop) v a n : (forall x p, value x -> c_ser c x = Ok p -> R x (parts p)) ->
  vec_value sz value v -> c_ser (vec_codec sz c) v = Ok a -> vec_parts R v (under n a) /\ vec_parts R v (parts a).
Proof.
  intros HR (Hv & _ & Hl) E. cbn [c_ser vec_codec] in E. apply obind_ok in E. destruct E as (ps & Eps & E). apply okinj in E; subst a.
  rewrite under_concat, parts_concat. cut (vec_parts R v (parts (ba_new "size" (encode_var_int (zlen v))) ++ parts (ba_from_parts ps))); [auto|].
  exists (labelled "size" (encode_var_int (zlen v))), (parts (ba_from_parts ps)). split; [reflexivity|]. split.
  - exists (encode_var_int (zlen v)). split; [reflexivity|]. apply wire_size_encode. unfold u64_ok. pose proof (zlen_nonneg v). lia.
  - apply from_parts_seq. eapply F2_with; [exact Hv|exact (omap_F2 _ _ _ Eps)|]. exact HR.
Qed.
Lemma tx_parts_ok si so t a : tx_value si so t -> c_ser (unhashed_tx_codec si so) t = Ok a -> tx_parts t (parts a).
Proof.
  intros (_ & Hi & Ho & _) E. cbn [c_ser unhashed_tx_codec i32_codec u32_codec int_codec obind] in E.
  apply obind_ok in E. destruct E as (i & Ei & E). apply obind_ok in E. destruct E as (o & Eo & E). apply okinj in E; subst a.
  rewrite parts_from_parts by discriminate. cbn [map concat]. rewrite !parts_named, !under_unnamed, !app_nil_r.
  destruct (vec_parts_ok si input_codec input_value input_parts _ _ "inputs" (fun x p H E => proj2 (input_parts_ok x p "" H E)) Hi Ei) as [P _].
  destruct (vec_parts_ok so output_codec output_value output_parts _ _ "outputs" (fun x p H E => proj2 (output_parts_ok x p "" H E)) Ho Eo) as [Q _].
  exists (labelled "version" (le_bytes 4 (tx_version t))), (under "inputs" i), (under "outputs" o), (labelled "lock_time" (le_bytes 4 (tx_lock_time t))).
  split; [reflexivity|]. split; [apply number_ok|]. split; [exact P|]. split; [exact Q|apply number_ok].
Qed.
Lemma preimage_parts_ok p a : preimage_value p -> c_ser preimage_codec p = Ok a -> preimage_parts p (parts a).
Proof.
  intros (_ & _ & _ & _ & Hs & _) E. cbn [c_ser preimage_codec i32_codec u32_codec u64_codec int_codec sha256d_codec fixed_codec obind] in E.
  apply obind_ok in E. destruct E as (o & Eo & E). apply obind_ok in E. destruct E as (s & Es & E). apply okinj in E; subst a.
  rewrite parts_from_parts by discriminate. cbn [map concat]. rewrite !parts_named, !under_unnamed, !app_nil_r.
  destruct (script_parts_ok _ _ "script_code" Hs Es) as [P _]. destruct (outpoint_parts_ok _ _ "outpoint" Eo) as [Q _].
  exists (labelled "version" (le_bytes 4 (pi_version p))), (under "outpoint" o), (under "script_code" s), (labelled "value" (le_bytes 8 (pi_value p))),
    (labelled "sequence" (le_bytes 4 (pi_sequence p))), (labelled "lock_time" (le_bytes 4 (pi_lock_time p))), (labelled "sig_hash_type" (le_bytes 4 (pi_sig_hash_type p))).
  split; [reflexivity|]. split; [apply number_ok|]. split; [exact Q|]. split; [exact P|]. repeat (split; [apply number_ok|]). apply number_ok.
Qed.

Lemma concat_unnamed a b : ba_name (ba_concat a b) = None.
Proof. unfold ba_concat, ba_concat_named. destruct (func_eqb (ba_function a) FPlain && func_eqb (ba_function b) FPlain); reflexivity. Qed.
Lemma from_parts_unnamed a b ps : ba_name (ba_from_parts (a :: b :: ps)) = None.
Proof.
  unfold ba_from_parts. cbn [fold_left]. rewrite concat_is_concat. revert a b. induction ps as [|q ps IH]; intros a b; cbn [fold_left]; [apply concat_unnamed|apply IH].
Qed.
Lemma output_unnamed o a : c_ser output_codec o = Ok a -> ba_name a = None.
Proof. intros E. cbn [c_ser output_codec u64_codec int_codec obind] in E. apply obind_ok in E. destruct E as (s & Es & E). apply okinj in E. subst a. apply from_parts_unnamed. Qed.
Lemma tx_unnamed si so t a : c_ser (unhashed_tx_codec si so) t = Ok a -> ba_name a = None.
Proof.
  intros E. cbn [c_ser unhashed_tx_codec i32_codec u32_codec int_codec obind] in E.
  apply obind_ok in E. destruct E as (i & Ei & E). apply obind_ok in E. destruct E as (o & Eo & E). apply okinj in E. subst a. apply from_parts_unnamed.
Qed.

(* ---------- counting ---------- *)
Fixpoint uint_value (u : Decimal.uint) (acc : nat) : nat :=
  match u with
  | Decimal.Nil => acc
  | Decimal.D0 u => uint_value u (10 * acc) | Decimal.D1 u => uint_value u (10 * acc + 1) | Decimal.D2 u => uint_value u (10 * acc + 2)
  | Decimal.D3 u => uint_value u (10 * acc + 3) | Decimal.D4 u => uint_value u (10 * acc + 4) | Decimal.D5 u => uint_value u (10 * acc + 5)
  | Decimal.D6 u => uint_value u (10 * acc + 6) | Decimal.D7 u => uint_value u (10 * acc + 7) | Decimal.D8 u => uint_value u (10 * acc + 8)
  | Decimal.D9 u => uint_value u (10 * acc + 9)
  end.
Lemma uint_value_of u : forall acc, uint_value u acc = Nat.of_uint_acc u acc.
Proof. induction u; intros acc; cbn [uint_value Nat.of_uint_acc]; [reflexivity|..]; rewrite IHu; f_equal; rewrite Nat.tail_mul_spec; lia. Qed.
Lemma numeral_uint u : forall acc s, (0 < acc)%nat -> numeral (Z.of_nat acc) s -> numeral (Z.of_nat (uint_value u acc)) (s ++ text (NilEmpty.string_of_uint u)).
Proof.
  assert (step : forall (acc d : nat) s, (0 < acc)%nat -> (d <= 9)%nat -> numeral (Z.of_nat acc) s -> numeral (Z.of_nat (10 * acc + d)) (s ++ [48 + Z.of_nat d])).
  { intros acc d s Ha Hd H. replace (Z.of_nat (10 * acc + d)) with (10 * Z.of_nat acc + Z.of_nat d) by lia. apply NumMore; [lia|lia|exact H]. }
  induction u; intros acc s Ha H; cbn [uint_value NilEmpty.string_of_uint text]; [now rewrite app_nil_r|..];
    match goal with |- numeral _ (s ++ ?c :: ?r) => change (c :: r) with ([c] ++ r); rewrite app_assoc; apply IHu; [lia|] end.
  - replace (10 * acc)%nat with (10 * acc + 0)%nat by lia. exact (step acc 0%nat s Ha ltac:(lia) H).
  - exact (step acc 1%nat s Ha ltac:(lia) H).
  - exact (step acc 2%nat s Ha ltac:(lia) H).
  - exact (step acc 3%nat s Ha ltac:(lia) H).
  - exact (step acc 4%nat s Ha ltac:(lia) H).
  - exact (step acc 5%nat s Ha ltac:(lia) H).
  - exact (step acc 6%nat s Ha ltac:(lia) H).
  - exact (step acc 7%nat s Ha ltac:(lia) H).
  - exact (step acc 8%nat s Ha ltac:(lia) H).
  - exact (step acc 9%nat s Ha ltac:(lia) H).
Qed.
Lemma numeral_nat k : numeral (Z.of_nat k) (text (NilEmpty.string_of_uint (Nat.to_uint k))).
Proof.
  pose proof (Unsigned.of_to k) as V. unfold Nat.of_uint in V. rewrite <- uint_value_of in V.
  assert (N : Decimal.unorm (Nat.to_uint k) = Nat.to_uint k). { rewrite <- (Unsigned.to_of (Nat.to_uint k)). now rewrite Unsigned.of_to. }
  destruct (Nat.to_uint k) as [|u|u|u|u|u|u|u|u|u|u] eqn:U.
  - discriminate N.
  - assert (u = Decimal.Nil) as ->.
    { unfold Decimal.unorm in N. cbn [Decimal.nzhead] in N. destruct (Decimal.nzhead u) eqn:Z0; try discriminate N; [now injection N|]. exfalso. exact (nzhead_nonzero u _ Z0). }
    cbn in V. subst k. apply (NumDigit 0). lia.
  - rewrite <- V. apply (numeral_uint u 1 [48 + 1]); [lia|]. apply (NumDigit 1). lia.
  - rewrite <- V. apply (numeral_uint u 2 [48 + 2]); [lia|]. apply (NumDigit 2). lia.
  - rewrite <- V. apply (numeral_uint u 3 [48 + 3]); [lia|]. apply (NumDigit 3). lia.
  - rewrite <- V. apply (numeral_uint u 4 [48 + 4]); [lia|]. apply (NumDigit 4). lia.
  - rewrite <- V. apply (numeral_uint u 5 [48 + 5]); [lia|]. apply (NumDigit 5). lia.
  - rewrite <- V. apply (numeral_uint u 6 [48 + 6]); [lia|]. apply (NumDigit 6). lia.
  - rewrite <- V. apply (numeral_uint u 7 [48 + 7]); [lia|]. apply (NumDigit 7). lia.
  - rewrite <- V. apply (numeral_uint u 8 [48 + 8]); [lia|]. apply (NumDigit 8). lia.
  - rewrite <- V. apply (numeral_uint u 9 [48 + 9]); [lia|]. apply (NumDigit 9). lia.
Qed.
Lemma text_app a b : text (a ++ b)%string = text a ++ text b.
Proof. induction a as [|c a IH]; [reflexivity|]. cbn [text String.append]. rewrite IH. reflexivity. Qed.

(* ---------- the three hashes ---------- *)
Section Sha.
Variable sha : list Z -> list Z.
Lemma concat_loop_parts {A} (ser : A -> outcome barray) label l : forall idx acc r, concat_loop ser label idx l acc = Ok r ->
  exists bs, Forall2 (fun x b => ser x = Ok b) l bs /\
    parts r = parts acc ++ concat (map (fun kb => under (label_idx label (idx + fst kb)) (snd kb)) (combine (seq 0 (length bs)) bs)).
Proof.
  induction l as [|x l IH]; intros idx acc r H; cbn [concat_loop] in H.
  - apply okinj in H. subst r. exists []. split; [constructor|]. cbn. now rewrite app_nil_r.
  - apply obind_ok in H. destruct H as (b & Eb & H). destruct (IH _ _ _ H) as (bs & F & P). exists (b :: bs). split; [now constructor|].
    rewrite P, parts_concat, parts_named. cbn [length seq combine map concat fst snd]. rewrite Nat.add_0_r, <- app_assoc. do 3 f_equal.
    rewrite <- seq_shift. clear. generalize (seq 0 (length bs)). intros q. revert q. induction bs as [|b bs IH]; intros [|k q]; cbn [map combine]; try reflexivity.
    cbn [fst snd]. rewrite IH. do 3 f_equal. lia.
Qed.
Lemma digest_is msg h : digest_sha256d sha msg = Ok h -> h = BA (sha (ba_data msg)) None FHash256 (Some [msg]).
Proof. unfold digest_sha256d, fixed_from_byte_array. destruct (32 =? _); [|discriminate]. intros E. apply okinj in E. now subst h. Qed.
Lemma hash_all_parts {A} (ser : A -> outcome barray) label all name l h : hash_all sha ser label all name l = Ok h ->
  exists m bs, h = BA (sha (ba_data m)) (Some name) FHash256 (Some [m]) /\ ba_name m = Some all /\ Forall2 (fun x b => ser x = Ok b) l bs /\
    ((l = [] /\ parts m = [labelled all []]) \/
     (l <> [] /\ parts m = bare [] :: concat (map (fun kb => under (label_idx label (fst kb)) (snd kb)) (combine (seq 0 (length bs)) bs)))).
Proof.
  unfold hash_all. intros H. apply obind_ok in H. destruct H as (acc & Ea & H). apply obind_ok in H. destruct H as (d & Ed & H). apply okinj in H. subst h.
  apply digest_is in Ed. subst d. destruct (concat_loop_parts _ _ _ _ _ _ Ea) as (bs & F & P). exists (ba_named acc all), bs.
  split; [reflexivity|]. split; [destruct acc; reflexivity|]. split; [exact F|].
  destruct l as [|x l].
  - left. split; [reflexivity|]. cbn [concat_loop] in Ea. apply okinj in Ea. subst acc. reflexivity.
  - right. split; [discriminate|]. rewrite parts_named.
    assert (G : forall l k acc r, (exists a b, acc = ba_concat a b) -> concat_loop ser label k l acc = Ok r -> exists a b, r = ba_concat a b).
    { clear. induction l as [|x l IH]; intros k acc r Hacc H; cbn [concat_loop] in H; [apply okinj in H; subst acc; exact Hacc|].
      apply obind_ok in H. destruct H as (b & Eb & H). eapply IH; [|exact H]. eauto. }
    cbn [concat_loop] in Ea. apply obind_ok in Ea. destruct Ea as (b0 & Eb & Ea). destruct (G _ _ _ _ (ex_intro _ _ (ex_intro _ _ eq_refl)) Ea) as (a & b & ->).
    rewrite under_concat, <- parts_concat. exact P.
Qed.
Lemma under_F2 {A} (Q : A -> barray -> Prop) (R : A -> list barray -> Prop) label l bs : Forall2 Q l bs -> (forall x b n, In x l -> Q x b -> R x (under n b)) ->
  forall k, Forall2 R l (map (fun kb => under (label_idx label (fst kb)) (snd kb)) (combine (seq k (length bs)) bs)).
Proof.
  intros F H. induction F as [|x b l bs q F IH]; intros k; cbn [length seq combine map]; constructor.
  - cbn [fst snd]. apply H; [now left|exact q].
  - apply IH. intros y c n Hy. apply H. now right.
Qed.
Lemma prevouts_ok t h : st_inputs t <> [] -> hash_all sha (c_ser outpoint_codec) "outpoint_" "prevouts" "hashPrevouts" (map si_outpoint (st_inputs t)) = Ok h ->
  hash_of sha (Some "hashPrevouts") (Some "prevouts") (prevouts_parts t) h.
Proof.
  intros Hne E. destruct (hash_all_parts _ _ _ _ _ _ E) as (m & bs & -> & Hm & F & P). exists m. split; [reflexivity|]. split; [exact Hm|].
  destruct P as [[P _]|[_ P]]; [destruct (st_inputs t); [congruence|discriminate]|]. rewrite P. eexists. split; [reflexivity|].
  apply Forall2_map_l in F. apply (under_F2 _ (fun i => outpoint_parts (si_outpoint i)) "outpoint_" _ _ F). intros i b n _ Eb. exact (proj1 (outpoint_parts_ok _ _ n Eb)).
Qed.
Lemma outputs_ok t h : Forall output_value (st_outputs t) -> hash_all sha (c_ser output_codec) "output_" "outputs" "hashOutputs" (st_outputs t) = Ok h ->
  hash_of sha (Some "hashOutputs") (Some "outputs") (outputs_parts t) h.
Proof.
  intros Hv E. destruct (hash_all_parts _ _ _ _ _ _ E) as (m & bs & -> & Hm & F & P). exists m. split; [reflexivity|]. split; [exact Hm|].
  destruct P as [[P ->]|[Hne P]]; [left; auto|]. right. split; [exact Hne|]. rewrite P. eexists. split; [reflexivity|].
  apply (under_F2 _ output_parts "output_" _ _ F). intros o b n Ho Eb. exact (proj1 (output_parts_ok _ _ n (proj1 (Forall_forall _ _) Hv o Ho) Eb)).
Qed.
Lemma sequences_ok t h : st_inputs t <> [] -> hash_all sha (c_ser u32_codec) "sequence_" "sequences" "hashSequence" (map si_sequence (st_inputs t)) = Ok h ->
  hash_of sha (Some "hashSequence") (Some "sequences") (sequences_parts t) h.
Proof.
  intros Hne E. destruct (hash_all_parts _ _ _ _ _ _ E) as (m & bs & -> & Hm & F & P). exists m. split; [reflexivity|]. split; [exact Hm|].
  destruct P as [[P _]|[_ P]]; [destruct (st_inputs t); [congruence|discriminate]|]. rewrite P. apply Forall2_map_l in F. cbn [c_ser u32_codec int_codec] in F.
  assert (X : forall k, exists qs, concat (map (fun kb => under (label_idx "sequence_" (fst kb)) (snd kb)) (combine (seq k (length bs)) bs)) = qs /\ length qs = length (st_inputs t) /\
    forall j i q, nth_error (st_inputs t) j = Some i -> nth_error qs j = Some q -> q = labelled (label_idx "sequence_" (k + j)) (le_bytes 4 (si_sequence i))).
  { clear - F. induction F as [|i b l bs q F IH]; intros k.
    - exists []. split; [reflexivity|]. split; [reflexivity|]. intros [|j] i q H; discriminate.
    - destruct (IH (S k)) as (qs & E & L & N). apply okinj in q. subst b. exists (labelled (label_idx "sequence_" k) (le_bytes 4 (si_sequence i)) :: qs).
      split; [|split; [cbn [length]; now rewrite L|]].
      + cbn [length seq combine map concat fst snd]. rewrite under_unnamed. cbn [app]. now rewrite E.
      + intros [|j] i' q' H H'; cbn [nth_error] in H, H'.
        * injection H as <-. injection H' as <-. now rewrite Nat.add_0_r.
        * rewrite Nat.add_succ_r. exact (N j i' q' H H'). }
  destruct (X 0%nat) as (qs & -> & L & N). exists qs. split; [reflexivity|]. split; [exact L|]. intros k i q Hi Hq. rewrite (N k i q Hi Hq). cbn [Nat.add].
  exists (label_idx "sequence_" k), (text (NilEmpty.string_of_uint (Nat.to_uint k))). split; [apply text_app|]. split; [left; split; [lia|apply numeral_nat]|apply number_ok].
Qed.
End Sha.
