(** Lemmas about the errors of the consensus decoders. *)
From Verif Require Import Base BaseLemmas Model_Encoding Spec_Encoding Proofs_Encoding Spec_Integer Model_ByteArray Proofs_ByteArray Model_Opcode Model_Script Spec_Script Proofs_Script Model_Code Spec_Code Proofs_Code Proofs_Codec Model_Json Spec_Json Spec_Errors.
Local Open Scope Z_scope.

Definition short_reader {A} (c : codec A) : Prop := forall t e, bytes_ok (ba_data t) -> c_deser_rest c t = Err e -> too_short e.
Lemma bind_short {A B} (o : outcome A) (f : A -> outcome B) e : (o = Err e -> too_short e) -> (forall a, o = Ok a -> f a = Err e -> too_short e) ->
  obind o f = Err e -> too_short e.
Proof. intros H1 H2. destruct o as [a|x|]; cbn [obind]; [apply H2; reflexivity|intros H; injection H as ->; auto|discriminate]. Qed.
Lemma short_step {A B} (c : codec A) same (f : A * barray -> outcome B) t e : self_delimiting c same -> short_reader c -> bytes_ok (ba_data t) ->
  (forall a t', bytes_ok (ba_data t') -> f (a, t') = Err e -> too_short e) -> obind (c_deser_rest c t) f = Err e -> too_short e.
Proof.
  intros D S Hok H. apply bind_short; [apply S; exact Hok|]. intros [a t'] E. apply H. destruct (D _ _ _ Hok E) as (p & Dp & _). rewrite Dp in Hok. apply bytes_ok_app in Hok. tauto.
Qed.
Lemma split_short t n e : 0 <= n -> ba_split t n = Err e -> too_short e.
Proof.
  intros Hn H. destruct (split_ok_iff t n Hn) as [H1 H2]. destruct (Z.le_gt_cases n (ba_len t)) as [L|L]; [destruct (H1 L) as (l & r & E & _); congruence|].
  rewrite (H2 L) in H. injection H as <-. right. eauto.
Qed.
Lemma split_ok_data t n l r : 0 <= n -> bytes_ok (ba_data t) -> ba_split t n = Ok (l, r) -> bytes_ok (ba_data l) /\ bytes_ok (ba_data r) /\ zlen (ba_data l) = n.
Proof. intros Hn Hok H. apply split_inv in H; [|exact Hn]. destruct H as [D L]. rewrite D in Hok. apply bytes_ok_app in Hok. tauto. Qed.
Lemma read_le_short n bs e : read_le n bs = Err e -> e = EEof.
Proof. unfold read_le. destruct (Nat.ltb _ _); [|discriminate]. congruence. Qed.
Lemma var_int_short bs e : read_var_int bs = Err e -> e = EEof.
Proof.
  unfold read_var_int. destruct (read_le 1 bs) as [[b r]|x|] eqn:E; cbn [obind]; [|intros H; injection H as <-; now apply read_le_short in E|discriminate].
  destruct (b <=? 252); [discriminate|]. destruct (b =? 253); [apply read_le_short|]. destruct (b =? 254); apply read_le_short.
Qed.
Lemma read_le_rest n bs v r : read_le n bs = Ok (v, r) -> zlen r <= zlen bs.
Proof. unfold read_le. destruct (Nat.ltb _ _); [discriminate|]. intros H. injection H as _ <-. unfold zlen. rewrite skipn_length. lia. Qed.
Lemma var_int_rest bs v r : read_var_int bs = Ok (v, r) -> zlen r <= zlen bs.
Proof.
  unfold read_var_int. destruct (read_le 1 bs) as [[b r0]|x|] eqn:E; cbn [obind]; try discriminate. apply read_le_rest in E.
  destruct (b <=? 252); [intros H; injection H as _ <-; exact E|]. destruct (b =? 253); [|destruct (b =? 254)]; intros H; apply read_le_rest in H; lia.
Qed.
Lemma size_short t e : read_size t = Err e -> too_short e.
Proof.
  unfold read_size. apply bind_short; [intros H; apply var_int_short in H; now left|]. intros [len unread] E. cbv zeta. apply var_int_rest in E.
  apply bind_short; [apply split_short; unfold ba_len; lia|]. intros [l r] _. discriminate.
Qed.
Lemma bytearray_short : short_reader bytearray_codec.
Proof.
  intros t e Hok. cbn [bytearray_codec c_deser_rest]. apply bind_short; [apply size_short|]. intros [len rest] E. apply read_size_inv in E; [|exact Hok]. destruct E as (p & _ & Hv).
  destruct (varint_ok len p Hv) as [_ Hn]. apply split_short. unfold u64_ok in Hn. lia.
Qed.
Lemma fixed_short n : 0 <= n -> short_reader (fixed_codec n).
Proof.
  intros Hn t e Hok. cbn [fixed_codec c_deser_rest]. apply bind_short; [now apply split_short|]. intros [l r] E. apply split_ok_data in E; [|exact Hn|exact Hok]. destruct E as (_ & _ & L).
  unfold fixed_from_byte_array, ba_len. rewrite L, Z.eqb_refl. discriminate.
Qed.
Lemma bool_short : short_reader bool_codec.
Proof. intros t e Hok. cbn [bool_codec c_deser_rest]. apply bind_short; [apply split_short; lia|]. intros [l r] _. discriminate. Qed.
Lemma int_short n s : short_reader (int_codec n s).
Proof. intros t e Hok. cbn [int_codec c_deser_rest]. apply bind_short; [apply split_short; lia|]. intros [l r] _. discriminate. Qed.
Lemma vec_short {A} sz (c : codec A) same : self_delimiting c same -> short_reader c -> short_reader (vec_codec sz c).
Proof.
  intros D S t e Hok. cbn [vec_codec c_deser_rest]. apply bind_short; [apply size_short|]. intros [len rest] E. apply read_size_inv in E; [|exact Hok]. destruct E as (p & Dt & _).
  rewrite Dt in Hok. apply bytes_ok_app in Hok. destruct Hok as [_ Hok]. destruct (_ <? _); [discriminate|]. generalize (Z.to_nat len). clear - D S Hok. intros n. revert rest Hok.
  assert (forall n t e, bytes_ok (ba_data t) -> vec_loop c n t = Err e -> too_short e) as L; [|intros rest Hok; now apply L].
  clear - D S. induction n as [|n IH]; intros t e Hok; cbn [vec_loop]; [discriminate|]. eapply short_step; [exact D|exact S|exact Hok|]. intros a t' Hok'. apply bind_short; [now apply IH|]. intros [l r] _. discriminate.
Qed.
Lemma prefix_short b m e : zlen b <= 4294967295 -> serialize_push_prefix b m = Err e -> False.
Proof.
  intros L. unfold serialize_push_prefix. cbv zeta. destruct (_ && m); [discriminate|]. destruct (_ && negb m); [discriminate|].
  destruct (_ && m). { destruct (_ && _); [discriminate|]. destruct (_ =? 129); discriminate. }
  destruct (_ <=? 75); [discriminate|]. destruct (_ <=? 255); [discriminate|]. destruct (_ <=? 65535); [discriminate|]. destruct (Z.leb_spec (zlen b) 4294967295); [discriminate|lia].
Qed.
Lemma le_value_range l n : bytes_ok l -> zlen l = Z.of_nat n -> 0 <= le_value l < 2 ^ (8 * Z.of_nat n).
Proof. intros H <-. apply le_value_bound in H. exact H. Qed.
Lemma op_short t e : bytes_ok (ba_data t) -> deser_op_ba t = Err e -> too_short e.
Proof.
  intros Hok. unfold deser_op_ba. apply bind_short; [apply split_short; lia|]. intros [h t1] E1. apply split_ok_data in E1; [|lia|exact Hok]. destruct E1 as (Hh & Ht & _). cbv zeta.
  destruct (nth 0 (ba_data h) 0 =? 0); [discriminate|].
  assert (forall (r : outcome (Z * barray)) (k : Z * barray -> outcome (op * barray)), (r = Err e -> too_short e) -> (forall n t2, r = Ok (n, t2) -> 0 <= n <= 4294967295 /\ bytes_ok (ba_data t2)) ->
     (forall n t2, 0 <= n <= 4294967295 -> bytes_ok (ba_data t2) -> k (n, t2) = Err e -> too_short e) -> obind r k = Err e -> too_short e) as K.
  { intros r k H1 H2 H3. apply bind_short; [exact H1|]. intros [n t2] E. destruct (H2 _ _ E). now apply H3. }
  assert (forall m, (m <= 4)%nat -> forall f : list Z -> Z, (forall l, bytes_ok l -> zlen l = Z.of_nat m -> 0 <= f l <= 4294967295) ->
     ((do (l, c) <- ba_split t1 (Z.of_nat m); Ok (f (ba_data l), c)) = Err e -> too_short e) /\
     (forall n t2, (do (l, c) <- ba_split t1 (Z.of_nat m); Ok (f (ba_data l), c)) = Ok (n, t2) -> 0 <= n <= 4294967295 /\ bytes_ok (ba_data t2))) as W.
  { intros m Hm f Hf. split; [apply bind_short; [apply split_short; lia|]; intros [l c] _; discriminate|].
    intros n t2 H. apply obind_ok in H. destruct H as ((l & c) & E & H). injection H as <- <-. apply split_ok_data in E; [|lia|exact Ht]. destruct E as (A & B & C). split; [now apply Hf|exact B]. }
  assert (forall r : outcome (Z * barray), (r = Err e -> too_short e) -> (forall n t2, r = Ok (n, t2) -> 0 <= n <= 4294967295 /\ bytes_ok (ba_data t2)) ->
     (do (push_len, cur2) <- r; do (pushed, cur3) <- ba_split cur2 push_len; do (prefix, _) <- serialize_push_prefix (ba_data pushed) true;
      Ok (OPushArray pushed (nth 0 prefix 0 =? nth 0 (ba_data h) 0), cur3)) = Err e -> too_short e) as F.
  { intros r H1 H2. apply K; [exact H1|exact H2|]. intros n t2 Hn Hok2. apply bind_short; [apply split_short; lia|]. intros [pu t3] E. apply split_ok_data in E; [|lia|exact Hok2]. destruct E as (_ & _ & L).
    apply bind_short; [intros X; exfalso; apply prefix_short in X; [exact X|lia]|]. intros [pr b] _. discriminate. }
  destruct (Z.leb_spec 1 (nth 0 (ba_data h) 0)) as [B1|B1]; destruct (Z.leb_spec (nth 0 (ba_data h) 0) 75) as [B2|B2]; cbn [andb].
  1: { apply F; [discriminate|]. intros n t2 H. injection H as <- <-. split; [lia|exact Ht]. }
  all: destruct (_ =? opcode_u8 OP_PUSHDATA1); [destruct (W 1%nat ltac:(lia) (fun l => nth 0 l 0)) as [W1 W2]; [|exact (F _ W1 W2)]|].
  1,3,5: intros [|x l] HB HL; cbn [nth]; [lia|]; inversion HB; unfold byte_ok in *; lia.
  all: destruct (_ =? opcode_u8 OP_PUSHDATA2); [destruct (W 2%nat ltac:(lia) le_value) as [W1 W2]; [|exact (F _ W1 W2)]|].
  1,3,5: intros l HB HL; pose proof (le_value_range l 2 HB HL); lia.
  all: destruct (_ =? opcode_u8 OP_PUSHDATA4); [destruct (W 4%nat ltac:(lia) le_value) as [W1 W2]; [|exact (F _ W1 W2)]|].
  1,3,5: intros l HB HL; pose proof (le_value_range l 4 HB HL); lia.
  all: discriminate.
Qed.
Lemma op_rest_ok t o t' : bytes_ok (ba_data t) -> deser_op_ba t = Ok (o, t') -> bytes_ok (ba_data t').
Proof.
  intros Hok. unfold deser_op_ba. intros H. apply obind_ok in H. destruct H as ((h & t1) & E1 & H). apply split_ok_data in E1; [|lia|exact Hok]. destruct E1 as (Hh & Ht & _). cbv zeta in H.
  destruct (nth 0 (ba_data h) 0 =? 0); [injection H as _ <-; exact Ht|].
  assert (forall (r : outcome (Z * barray)), (forall n t2, r = Ok (n, t2) -> 0 <= n /\ bytes_ok (ba_data t2)) ->
     (do (push_len, cur2) <- r; do (pushed, cur3) <- ba_split cur2 push_len; do (prefix, _) <- serialize_push_prefix (ba_data pushed) true;
      Ok (OPushArray pushed (nth 0 prefix 0 =? nth 0 (ba_data h) 0), cur3)) = Ok (o, t') -> bytes_ok (ba_data t')) as F.
  { intros r H2 X. apply obind_ok in X. destruct X as ((n & t2) & E & X). destruct (H2 _ _ E) as [Hn Hok2]. apply obind_ok in X. destruct X as ((pu & t3) & E3 & X). apply split_ok_data in E3; [|exact Hn|exact Hok2].
    apply obind_ok in X. destruct X as ((pr & b) & _ & X). injection X as _ <-. tauto. }
  assert (forall m (f : list Z -> Z), (forall l, bytes_ok l -> 0 <= f l) ->
     (forall n t2, (do (l, c) <- ba_split t1 (Z.of_nat m); Ok (f (ba_data l), c)) = Ok (n, t2) -> 0 <= n /\ bytes_ok (ba_data t2))) as W.
  { intros m f Hf n t2 X. apply obind_ok in X. destruct X as ((l & c) & E & X). injection X as <- <-. apply split_ok_data in E; [|lia|exact Ht]. destruct E as (A & B & C). split; [now apply Hf|exact B]. }
  assert (forall l, bytes_ok l -> 0 <= nth 0 l 0) as Hnth by (intros [|x l] HB; cbn [nth]; [lia|]; inversion HB; unfold byte_ok in *; lia).
  assert (forall l, bytes_ok l -> 0 <= le_value l) as Hle by (intros l HB; apply le_value_bound in HB; lia).
  destruct (Z.leb_spec 1 (nth 0 (ba_data h) 0)) as [B1|B1]; destruct (Z.leb_spec (nth 0 (ba_data h) 0) 75) as [B2|B2]; cbn [andb] in H.
  1: { revert H. apply F. intros n t2 X. injection X as <- <-. split; [lia|exact Ht]. }
  all: destruct (_ =? opcode_u8 OP_PUSHDATA1); [exact (F _ (W 1%nat _ Hnth) H)|].
  all: destruct (_ =? opcode_u8 OP_PUSHDATA2); [exact (F _ (W 2%nat _ Hle) H)|].
  all: destruct (_ =? opcode_u8 OP_PUSHDATA4); [exact (F _ (W 4%nat _ Hle) H)|].
  all: injection H as _ <-; exact Ht.
Qed.
Lemma ops_short t e : bytes_ok (ba_data t) -> deserialize_ops_ba t = Err e -> too_short e.
Proof.
  unfold deserialize_ops_ba. generalize (length (ba_data t)). intros n. revert t. induction n as [|n IH]; intros t Hok; cbn [deser_loop_ba]; (destruct (ba_len t =? 0); [discriminate|]); [discriminate|].
  apply bind_short; [now apply op_short|]. intros [o t'] E. apply op_rest_ok in E; [|exact Hok]. apply bind_short; [now apply IH|]. discriminate.
Qed.
Lemma script_short : short_reader script_codec.
Proof.
  intros t e Hok. cbn [script_codec c_deser_rest]. apply bind_short; [now apply bytearray_short|]. intros [a t'] E.
  assert (bytes_ok (ba_data a)) as Ha.
  { cbn [bytearray_codec c_deser_rest] in E. apply obind_ok in E. destruct E as ((len & rest) & E1 & E). apply read_size_inv in E1; [|exact Hok]. destruct E1 as (p & Dt & Hv).
    destruct (varint_ok len p Hv) as [_ Hn]. rewrite Dt in Hok. apply bytes_ok_app in Hok. apply split_ok_data in E; [tauto|unfold u64_ok in Hn; lia|tauto]. }
  apply bind_short; [now apply ops_short|]. discriminate.
Qed.
Ltac steps := repeat (eapply short_step; [first [apply (proj2 (fixed_laws 32 ltac:(lia)))|apply (proj2 (int_laws 4 _ ltac:(lia)))|apply (proj2 (int_laws 8 _ ltac:(lia)))|apply (proj2 script_laws)|apply (proj2 outpoint_laws)]|
  first [apply fixed_short; lia|apply int_short|apply script_short|assumption]|eassumption|]; intros ? ? ?).
Lemma outpoint_short : short_reader outpoint_codec.
Proof. intros t e Hok. cbn [outpoint_codec c_deser_rest]. unfold sha256d_codec, u32_codec. steps. discriminate. Qed.
Lemma input_short : short_reader input_codec.
Proof. pose proof outpoint_short. intros t e Hok. cbn [input_codec c_deser_rest]. unfold u32_codec. steps. discriminate. Qed.
Lemma output_short : short_reader output_codec.
Proof. intros t e Hok. cbn [output_codec c_deser_rest]. unfold u64_codec. steps. discriminate. Qed.
Lemma preimage_short : short_reader preimage_codec.
Proof. pose proof outpoint_short. intros t e Hok. cbn [preimage_codec c_deser_rest]. unfold sha256d_codec, i32_codec, u32_codec, u64_codec. steps. discriminate. Qed.
Lemma tx_short : short_reader tx_codec.
Proof. intros t e Hok. cbn [tx_codec c_deser_rest]. eapply short_step; [apply (proj2 bytearray_laws)|apply bytearray_short|exact Hok|]. discriminate. Qed.
Lemma reports {A} (c : codec A) same : self_delimiting c same -> short_reader c -> reports_truly c.
Proof.
  intros D S. split; [exact S|]. split.
  - intros t e Hok. unfold c_deser. destruct (c_deser_rest c t) as [[a r]|x|] eqn:E; cbn [obind]; [|intros H; injection H as ->; left; eapply S; eassumption|discriminate].
    destruct (_ =? 0); [discriminate|]. intros H. injection H as <-. eauto.
  - intros t r Hok. split.
    + unfold c_deser. destruct (c_deser_rest c t) as [[a t']|x|] eqn:E; cbn [obind]; [|intros H; injection H as ->; destruct (S _ _ Hok E) as [X|(i & n & _ & X)]; discriminate|discriminate].
      destruct (Z.eqb_spec (ba_len t') 0) as [|N]; [discriminate|]. intros H. injection H as <-. split; [intros X; apply N; unfold ba_len; now rewrite X|].
      destruct (D _ _ _ Hok E) as (p & Dp & P). destruct (P (ba_unnamed p) []) as (a' & u' & E' & _ & Eu); [cbn; now rewrite app_nil_r|constructor|].
      exists (ba_unnamed p), a'. split; [exact Dp|]. rewrite E'. cbn [obind]. unfold ba_len. rewrite Eu. reflexivity.
    + intros (N & u & a & Dt & E). pose proof Hok as Hok'. rewrite Dt in Hok'. apply bytes_ok_app in Hok'. destruct Hok'. eapply deser_suffix; eassumption.
Qed.
