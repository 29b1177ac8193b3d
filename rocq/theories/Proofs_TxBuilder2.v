(** Lemmas about the transaction builder: sizes, fees, signing histories, hand-over. *)
From Coq Require Import Sorted Permutation.
From Verif Require Import Base BaseLemmas Model_Encoding Model_ByteArray Proofs_ByteArray Model_Opcode Model_Script Model_Code Proofs_Code Model_Address Model_Destination Model_Preimage
  Proofs_Preimage Model_TxBuilder Spec_TxBuilder Proofs_TxBuilder.
Local Open Scope Z_scope.

(** ** sizes *)
Definition vl (n : Z) : Z := zlen (encode_var_int n).
Lemma vl_mono n m : n <= m -> vl n <= vl m.
Proof.
  intros H. unfold vl, encode_var_int.
  destruct (n <=? 0xfc) eqn:E1, (m <=? 0xfc) eqn:F1; destruct (n <=? 0xffff) eqn:E2, (m <=? 0xffff) eqn:F2; destruct (n <=? 0xffffffff) eqn:E3, (m <=? 0xffffffff) eqn:F3;
    rewrite ?Z.leb_le, ?Z.leb_gt in *; rewrite ?zlen_cons, ?le_bytes_zlen; lia.
Qed.
Definition lenO (o : outcome barray) : outcome Z := do a <- o; Ok (zlen (ba_data a)).
Definition script_len (s : script) : outcome Z := lenO (script_ser_ops s).
Definition var_len (n : Z) : Z := vl n + n.
Definition in_len (i : tx_input) : outcome Z :=
  do n <- script_len (in_script i); Ok (zlen (ba_data (op_tx_hash (in_prev_out i))) + 8 + var_len n).
Definition out_len (o : tx_output) : outcome Z := do n <- script_len (out_script o); Ok (8 + var_len n).
Definition tx_len (t : unhashed_tx) : outcome Z :=
  do is <- omap in_len (tx_inputs t); do os <- omap out_len (tx_outputs t);
  Ok (8 + vl (zlen (tx_inputs t)) + sum is + vl (zlen (tx_outputs t)) + sum os).

Lemma in_len_ser i : lenO (c_ser input_codec i) = in_len i.
Proof.
  unfold lenO, in_len, script_len, lenO. cbn [c_ser input_codec script_codec outpoint_codec sha256d_codec fixed_codec u32_codec int_codec bytearray_codec obind].
  destruct (script_ser_ops (in_script i)) as [a| |]; cbn [obind]; [|reflexivity|reflexivity]. f_equal. rewrite from_parts_data. cbn [map concat].
  rewrite !named_data, !from_parts_data. cbn [map concat]. rewrite !named_data, !concat_data. cbn [ba_data ba_new ba_unnamed]. rewrite !app_nil_r, !zlen_app, !le_bytes_zlen.
  unfold var_len, vl, ba_len. lia.
Qed.
Lemma out_len_ser o : lenO (c_ser output_codec o) = out_len o.
Proof.
  unfold lenO, out_len, script_len, lenO. cbn [c_ser output_codec script_codec u64_codec int_codec bytearray_codec obind].
  destruct (script_ser_ops (out_script o)) as [a| |]; cbn [obind]; [|reflexivity|reflexivity]. f_equal. rewrite from_parts_data. cbn [map concat].
  rewrite !named_data, !concat_data. cbn [ba_data ba_new ba_unnamed]. rewrite !app_nil_r, !zlen_app, !le_bytes_zlen. unfold var_len, vl, ba_len. lia.
Qed.
Lemma omap_len {A} (f : A -> outcome barray) (g : A -> outcome Z) l : (forall x, lenO (f x) = g x) ->
  (do ps <- omap f l; Ok (map (fun a => zlen (ba_data a)) ps)) = omap g l.
Proof.
  intros H. induction l as [|x l IH]; [reflexivity|]. cbn [omap]. rewrite <- H, <- IH. unfold lenO. destruct (f x); cbn [obind]; [|reflexivity|reflexivity].
  destruct (omap f l); reflexivity.
Qed.
Lemma concat_len (ps : list barray) : zlen (concat (map ba_data ps)) = sum (map (fun a => zlen (ba_data a)) ps).
Proof. induction ps as [|p ps IH]; [reflexivity|]. cbn [map concat sum fold_right]. fold (sum (map (fun a => zlen (ba_data a)) ps)). now rewrite zlen_app, IH. Qed.
Lemma tx_len_ser t : lenO (tx_ser t) = tx_len t.
Proof.
  unfold tx_len. rewrite <- (omap_len (c_ser input_codec) in_len _ in_len_ser), <- (omap_len (c_ser output_codec) out_len _ out_len_ser).
  unfold lenO, tx_ser. cbn [c_ser unhashed_tx_codec vec_codec i32_codec u32_codec int_codec obind].
  destruct (omap (c_ser input_codec) (tx_inputs t)) as [is| |]; cbn [obind]; [|reflexivity|reflexivity].
  destruct (omap (c_ser output_codec) (tx_outputs t)) as [os| |]; cbn [obind]; [|reflexivity|reflexivity].
  f_equal. rewrite from_parts_data. cbn [map concat]. rewrite !named_data, !concat_data, !from_parts_data. cbn [ba_data ba_new ba_unnamed].
  rewrite app_nil_r, !zlen_app, !le_bytes_zlen, !concat_len. unfold vl. lia.
Qed.
Lemma tx_ser_ok_len t raw : tx_ser t = Ok raw -> tx_len t = Ok (zlen (ba_data raw)).
Proof. intros E. rewrite <- tx_len_ser, E. reflexivity. Qed.
Lemma tx_len_ok_ser t n : tx_len t = Ok n -> exists raw, tx_ser t = Ok raw /\ zlen (ba_data raw) = n.
Proof. rewrite <- tx_len_ser. unfold lenO. intros E. apply obind_ok in E. destruct E as (raw & E & X). injection X as <-. eauto. Qed.
Lemma sum_app a b : sum (a ++ b) = sum a + sum b.
Proof. induction a as [|x a IH]; [reflexivity|]. cbn [app sum fold_right]. fold (sum (a ++ b)) (sum a). lia. Qed.

Lemma omap_Forall2 {A B} (f : A -> outcome B) l ys : omap f l = Ok ys <-> Forall2 (fun x y => f x = Ok y) l ys.
Proof.
  revert ys. induction l as [|x l IH]; intros ys; cbn [omap].
  - split; [intros E; injection E as <-; constructor|intros H; inversion H; reflexivity].
  - split.
    + intros E. apply obind_ok in E. destruct E as (y & Ey & E). apply obind_ok in E. destruct E as (r & Er & E). injection E as <-. constructor; [exact Ey|now apply IH].
    + intros H. inversion H as [|? y ? r Hx Hl]; subst. rewrite Hx. cbn [obind]. now rewrite (proj2 (IH r) Hl).
Qed.
Lemma omap_ext {A B} (f g : A -> outcome B) l : (forall x, In x l -> f x = g x) -> omap f l = omap g l.
Proof. intros H. induction l as [|x l IH]; [reflexivity|]. cbn [omap]. rewrite (H x (or_introl eq_refl)), IH by (intros y Hy; apply H; now right). reflexivity. Qed.
Lemma omap_map {A B C} (f : B -> outcome C) (g : A -> B) l : omap f (map g l) = omap (fun x => f (g x)) l.
Proof. induction l as [|x l IH]; [reflexivity|]. cbn [map omap]. now rewrite IH. Qed.

(** not longer, component by component *)
Lemma sums_le (l l' : list Z) : Forall2 Z.le l l' -> sum l <= sum l'.
Proof. intros H. induction H; cbn [sum fold_right]; [lia|]. fold (sum l) (sum l'). lia. Qed.
Lemma ins_le (is js : list tx_input) ns : Forall2 (fun i j => in_prev_out i = in_prev_out j /\ forall n, script_len (in_script j) = Ok n -> exists m, script_len (in_script i) = Ok m /\ m <= n) is js ->
  omap in_len js = Ok ns -> exists ms, omap in_len is = Ok ms /\ sum ms <= sum ns.
Proof.
  intros H. revert ns. induction H as [|i j is js (Hp & Hs) _ IH]; intros ns E; cbn [omap] in *; [injection E as <-; exists []; split; [reflexivity|lia]|].
  apply obind_ok in E. destruct E as (y & Ey & E). apply obind_ok in E. destruct E as (r & Er & E). injection E as <-.
  destruct (IH _ Er) as (ms & -> & Hle). unfold in_len in Ey at 1. apply obind_ok in Ey. destruct Ey as (n & En & Ey). injection Ey as <-.
  destruct (Hs _ En) as (m & Em & Hm). exists (zlen (ba_data (op_tx_hash (in_prev_out i))) + 8 + var_len m :: ms).
  unfold in_len at 1. rewrite Em. cbn [obind]. split; [reflexivity|]. cbn [sum fold_right]. fold (sum ms) (sum r). rewrite Hp. unfold var_len. pose proof (vl_mono m n Hm). lia.
Qed.

Lemma outs_len_same outs outs' : map out_script outs = map out_script outs' -> omap out_len outs = omap out_len outs' /\ zlen outs = zlen outs'.
Proof.
  intros H. split.
  - assert (forall l, omap out_len l = omap (fun s => do n <- script_len s; Ok (8 + var_len n)) (map out_script l)) as X by (intros l; now rewrite omap_map). now rewrite !X, H.
  - apply (f_equal (@length _)) in H. rewrite !map_length in H. unfold zlen. now rewrite H.
Qed.
Lemma out_len_nonneg o n : out_len o = Ok n -> 0 <= n.
Proof.
  intros Ey. unfold out_len, script_len, lenO in Ey. apply obind_ok in Ey. destruct Ey as (k & Ek & Ey).
  assert (n = 8 + var_len k) as -> by congruence. apply obind_ok in Ek. destruct Ek as (a & _ & Ek). assert (k = zlen (ba_data a)) as -> by congruence.
  unfold var_len, vl. pose proof (zlen_nonneg (ba_data a)). pose proof (zlen_nonneg (encode_var_int (zlen (ba_data a)))). lia.
Qed.
Lemma outs_grow outs vs os : filled outs vs os -> forall vs' os' ns ns', filled outs vs' os' -> Forall2 (fun a c : option Z => a <> None -> c <> None) vs vs' ->
  omap out_len os = Ok ns -> omap out_len os' = Ok ns' -> sum ns <= sum ns' /\ zlen os <= zlen os'.
Proof.
  assert (forall o l n, omap out_len (o :: l) = Ok n -> exists x r, out_len o = Ok x /\ omap out_len l = Ok r /\ n = x :: r) as X.
  { intros o l n E. cbn [omap] in E. apply obind_ok in E. destruct E as (x & E1 & E). apply obind_ok in E. destruct E as (r & E2 & E). exists x, r. repeat split; congruence. }
  assert (forall v v' s, out_len (TxOutput v s) = out_len (TxOutput v' s)) as Y by reflexivity.
  intros H. induction H as [|o outs vs os H IH|lo up p s v outs vs os H IH|lo up p s outs vs os H IH]; intros vs' os' ns ns' H' HV E E'; inversion H'; subst; inversion HV; subst.
  - cbn [omap] in *. injection E as <-. injection E' as <-. split; lia.
  - apply X in E. apply X in E'. destruct E as (x & r & E1 & E2 & ->). destruct E' as (x' & r' & E1' & E2' & ->). 
    match goal with A : filled outs _ _, B : Forall2 _ vs _ |- _ => destruct (IH _ _ _ _ A B E2 E2') as [C D] end.
    rewrite !zlen_cons. cbn [sum fold_right]. fold (sum r) (sum r'). assert (x = x') as -> by congruence. lia.
  - apply X in E. apply X in E'. destruct E as (x & r & E1 & E2 & ->). destruct E' as (x' & r' & E1' & E2' & ->). 
    match goal with A : filled outs _ _, B : Forall2 _ vs _ |- _ => destruct (IH _ _ _ _ A B E2 E2') as [C D] end.
    rewrite !zlen_cons. cbn [sum fold_right]. fold (sum r) (sum r'). match goal with Hv : out_len (TxOutput ?v' s) = Ok x' |- _ => rewrite (Y v' v s) in Hv end. assert (x = x') as -> by congruence. lia.
  - exfalso. match goal with Hn : Some v <> None -> None <> None |- _ => apply Hn; congruence end.
  - apply X in E'. destruct E' as (x' & r' & E1' & E2' & ->). apply out_len_nonneg in E1'.
    match goal with A : filled outs _ _, B : Forall2 _ vs _ |- _ => destruct (IH _ _ _ _ A B E E2') as [C D] end. 
    rewrite !zlen_cons. cbn [sum fold_right]. fold (sum r') (sum ns). lia.
  - match goal with A : filled outs _ _, B : Forall2 _ vs _ |- _ => exact (IH _ _ _ _ A B E E') end.
Qed.
Lemma filled_scripts outs vs vs' os os' : filled outs vs os -> filled outs vs' os' -> Forall2 (fun a b => (a = None) <-> (b = None)) vs vs' -> map out_script os = map out_script os'.
Proof.
  intros H. revert vs' os'. induction H; intros vs' os' H' HV; inversion H'; subst; inversion HV; subst; cbn [map out_script]; try (f_equal; eauto; fail); eauto;
    match goal with X : _ <-> _ |- _ => destruct X as [X Y]; exfalso; first [specialize (X eq_refl)|specialize (Y eq_refl)]; discriminate end.
Qed.

Lemma values_le (m m' : amounts) outs : (forall j w lo up p s, nth_error outs j = Some (Leftover lo up p s) -> m j = Some w -> m' j = Some w) ->
  (forall j w, m' j = Some w -> 0 <= w) ->
  amount_sum (values m 0 outs) <= amount_sum (values m' 0 outs) /\ Forall2 (fun a c : option Z => a <> None -> c <> None) (values m 0 outs) (values m' 0 outs).
Proof.
  assert (forall idx, (forall j w lo up p s, nth_error outs j = Some (Leftover lo up p s) -> m (idx + j)%nat = Some w -> m' (idx + j)%nat = Some w) -> (forall j w, m' j = Some w -> 0 <= w) ->
    amount_sum (values m idx outs) <= amount_sum (values m' idx outs) /\ Forall2 (fun a c : option Z => a <> None -> c <> None) (values m idx outs) (values m' idx outs)) as G; [|exact (G O)].
  induction outs as [|o outs IH]; intros idx H H0; [cbn; split; [lia|constructor]|].
  destruct (IH (S idx)) as [A B]; [|exact H0|].
  { intros j w lo up p s Hj. replace (S idx + j)%nat with (idx + S j)%nat by lia. eapply H. exact Hj. }
  destruct o as [o|lo up p s]; cbn [values]; [split; [exact A|constructor; [congruence|exact B]]|].
  specialize (fun w => H O w lo up p s eq_refl). rewrite Nat.add_0_r in H. split; [|constructor; [destruct (m idx) as [w|]; [rewrite (H w eq_refl); congruence|congruence]|exact B]].
  destruct (m idx) as [w|]; [rewrite (H w eq_refl); cbn [amount_sum]; lia|]. destruct (m' idx) as [w|] eqn:E; cbn [amount_sum]; [specialize (H0 _ _ E); lia|lia].
Qed.

Section B.
Context {sigs : Z -> Type}.
Notation tx_builder := (tx_builder sigs).
Notation builder_input := (builder_input sigs).
Notation unsigned_tx := (unsigned_tx sigs).

Lemma estimate_len (b : tx_builder) outs : estimate_size b outs =
  do inputs <- omap (estimate_input outs) (b_inputs b); tx_len (UnhashedTx (b_version b) inputs outs (b_lock_time b)).
Proof.
  unfold estimate_size. destruct (omap _ (b_inputs b)) as [is| |]; cbn [obind]; [|reflexivity|reflexivity]. rewrite <- tx_len_ser. reflexivity.
Qed.
Lemma estimate_input_ignores (bi : builder_input) outs outs' : ignores_outputs bi -> estimate_input outs bi = estimate_input outs' bi.
Proof. intros H. unfold estimate_input. destruct (bi_lock_script bi); now rewrite (H _ _ _ _ outs outs'). Qed.
(** If no input looks at the outputs, the estimate depends on the outputs' scripts only. *)
Lemma estimate_scripts (b : tx_builder) outs outs' : Forall ignores_outputs (b_inputs b) -> map out_script outs = map out_script outs' -> estimate_size b outs = estimate_size b outs'.
Proof.
  intros H E. rewrite !estimate_len. rewrite (omap_ext (estimate_input outs) (estimate_input outs')).
  2:{ intros x Hx. apply estimate_input_ignores. rewrite Forall_forall in H. now apply H. }
  destruct (omap _ (b_inputs b)) as [is| |]; cbn [obind]; [|reflexivity|reflexivity]. unfold tx_len. cbn [tx_inputs tx_outputs].
  destruct (outs_len_same _ _ E) as [-> ->]. reflexivity.
Qed.
(** ... and grows with the set of outputs. *)
Lemma estimate_grows (b : tx_builder) vs os vs' os' n m : Forall ignores_outputs (b_inputs b) ->
  filled (b_outputs b) vs os -> filled (b_outputs b) vs' os' -> Forall2 (fun a c : option Z => a <> None -> c <> None) vs vs' ->
  estimate_size b os = Ok n -> estimate_size b os' = Ok m -> n <= m.
Proof.
  intros H HF HF' HV. rewrite !estimate_len. rewrite (omap_ext (estimate_input os) (estimate_input os')).
  2:{ intros x Hx. apply estimate_input_ignores. rewrite Forall_forall in H. now apply H. }
  destruct (omap _ (b_inputs b)) as [is| |]; cbn [obind]; [|discriminate|discriminate]. unfold tx_len. cbn [tx_inputs tx_outputs].
  destruct (omap in_len is) as [ns| |]; cbn [obind]; [|discriminate|discriminate]. intros E1 E2.
  apply obind_ok in E1. destruct E1 as (l1 & O1 & E1). apply obind_ok in E2. destruct E2 as (l2 & O2 & E2).
  destruct (outs_grow _ _ _ HF _ _ _ _ HF' HV O1 O2) as [A B]. pose proof (vl_mono _ _ B).
  assert (n = 8 + vl (zlen is) + sum ns + vl (zlen os) + sum l1) as -> by congruence.
  assert (m = 8 + vl (zlen is) + sum ns + vl (zlen os') + sum l2) as -> by congruence. lia.
Qed.
(** ** fees: what [inv] says about a built transaction *)
Lemma fee_exact release (b : tx_builder) size fee : in_range b -> (release = false \/ size * b_fee_per_kb b < 2 ^ 64) -> fee_of release b size = Ok fee -> fee = size * b_fee_per_kb b / 1000.
Proof.
  intros HR H E. unfold fee_of in E. apply obind_ok in E. destruct E as (p & Ep & E). assert (fee = p / 1000) as -> by congruence.
  apply u64_of_inv in Ep. destruct Ep as [->|(A & -> & _)]; [reflexivity|]. destruct H; [discriminate|lia].
Qed.

Lemma earlier_mono (b : tx_builder) (m : amounts) k pk v l pl lo up s : nth_error (b_outputs b) k = Some (Leftover lo up pk s) -> m k = Some v ->
  lex (k, pk) (l, pl) -> (forall j w, m j = Some w -> 0 <= w) ->
  amount_sum (earlier pk k 0 (b_outputs b) (values m 0 (b_outputs b))) + v <= amount_sum (earlier pl l 0 (b_outputs b) (values m 0 (b_outputs b))) /\
  forall x y lo' up' s', nth_error (b_outputs b) l = Some (Leftover lo' up' pl s') ->
    Forall2 (fun a c : option Z => a <> None -> c <> None) (upd (earlier pk k 0 (b_outputs b) (values m 0 (b_outputs b))) k (Some x)) (upd (earlier pl l 0 (b_outputs b) (values m 0 (b_outputs b))) l (Some y)).
Proof.
  intros Hk Hv HL H0. rewrite !earlier_values. set (ek := fun j => match nth_error (b_outputs b) (j - 0) with Some (Leftover _ _ pj _) => if served_before pj j pk k then m j else None | _ => None end).
  set (el := fun j => match nth_error (b_outputs b) (j - 0) with Some (Leftover _ _ pj _) => if served_before pj j pl l then m j else None | _ => None end).
  assert (Ek : nth_error (values ek 0 (b_outputs b)) k = Some None).
  { rewrite values_nth, Hk. cbn [Nat.add]. f_equal. unfold ek. rewrite Nat.sub_0_r, Hk. destruct (served_before pk k pk k) eqn:E; [|reflexivity]. apply served_lex in E. unfold lex in E. cbn in E. lia. }
  assert (P : forall j w, set_amount ek k (Some v) j = Some w -> el j = Some w).
  { intros j w. unfold set_amount, el. destruct (Nat.eqb_spec j k) as [->|Hne].
    - rewrite Nat.sub_0_r, Hk. rewrite (proj2 (served_lex pk k pl l) HL). congruence.
    - unfold ek. destruct (nth_error (b_outputs b) (j - 0)) as [[o|lo1 up1 pj s1]|]; try discriminate. destruct (served_before pj j pk k) eqn:E; [|discriminate].
      apply served_lex in E. assert (served_before pj j pl l = true) as -> by (apply served_lex; unfold lex in *; cbn in *; lia). auto. }
  assert (Q : forall j w, el j = Some w -> 0 <= w).
  { intros j w. unfold el. destruct (nth_error (b_outputs b) (j - 0)) as [[o|lo1 up1 pj s1]|]; try discriminate. destruct (served_before pj j pl l); [apply H0|discriminate]. }
  destruct (values_le (set_amount ek k (Some v)) el (b_outputs b) (fun j w _ _ _ _ _ => P j w) Q) as [A B].
  rewrite (values_set _ _ _ _ _ _ _ _ Hk) in A, B. rewrite amount_sum_upd in A by exact Ek. split; [lia|].
  intros x y lo' up' s' Hl. rewrite <- (values_set ek _ _ (Some x) _ _ _ _ Hk), <- (values_set el _ _ (Some y) _ _ _ _ Hl).
  assert (forall m1 m2 : amounts, (forall j, m1 j <> None -> m2 j <> None) -> Forall2 (fun a c : option Z => a <> None -> c <> None) (values m1 0 (b_outputs b)) (values m2 0 (b_outputs b))) as Z0.
  { intros m1 m2 HM. generalize O. generalize (b_outputs b). induction l0 as [|[o|? ? ? ?] l0 IH]; intros idx; cbn [values]; constructor; auto. }
  apply Z0. intros j Hj. unfold set_amount. destruct (Nat.eqb_spec j l); [congruence|]. unfold set_amount in Hj. destruct (Nat.eqb_spec j k) as [Heq|Hne].
  - rewrite Heq, (P k v); [congruence|]. unfold set_amount. now rewrite Nat.eqb_refl.
  - destruct (ek j) as [w|] eqn:E; [|congruence]. rewrite (P j w); [congruence|]. unfold set_amount. destruct (Nat.eqb_spec j k); congruence.
Qed.
End B.
