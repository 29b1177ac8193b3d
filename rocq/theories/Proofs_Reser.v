(** Re-serialising what was read. *)
From Verif Require Import Base BaseLemmas Model_Encoding Spec_Encoding Proofs_Encoding Spec_Integer
  Model_ByteArray Proofs_ByteArray Model_Opcode Model_Script Spec_Script Proofs_Script Model_Code Spec_Code Spec_Wire Proofs_Code Proofs_Wire Proofs_Codec.
From Coq Require Import ZifyBool ZifyNat.
Local Open Scope Z_scope.

Lemma encode_var_int_mono n m : 0 <= n -> n <= m -> u64_ok m -> (length (encode_var_int n) <= length (encode_var_int m))%nat.
Proof.
  intros H1 H2 H3. unfold encode_var_int.
  destruct (Z.leb_spec n 0xfc); destruct (Z.leb_spec m 0xfc); try lia; destruct (Z.leb_spec n 0xffff); destruct (Z.leb_spec m 0xffff); try lia;
    destruct (Z.leb_spec n 0xffffffff); destruct (Z.leb_spec m 0xffffffff); try lia; cbn [length]; rewrite !le_bytes_length; lia.
Qed.
Definition reser {A} (c : codec A) (W : bool -> A -> list Z -> Prop) : Prop :=
  forall t a t', bytes_ok (ba_data t) -> in_memory (ba_len t) -> c_deser_rest c t = Ok (a, t') ->
    exists bs s, ba_data t = bs ++ ba_data t' /\ c_ser c a = Ok s /\ (ba_data s = bs <-> W true a bs) /\
      (length (ba_data s) <= length bs)%nat.

Lemma app_len_split {A} (x y x' y' : list A) : (length x <= length x')%nat -> (length y <= length y')%nat ->
  x ++ y = x' ++ y' -> x = x' /\ y = y'.
Proof.
  intros H1 H2 E. assert (length x = length x') as Hl by (apply (f_equal (@length A)) in E; rewrite !app_length in E; lia).
  now apply app_inj.
Qed.

Lemma pair_reser {A B} (ca : codec A) (cb : codec B) va vb sa sb Wa Wb :
  wlaws ca va sa Wa -> wlaws cb vb sb Wb -> reser ca Wa -> reser cb Wb -> reser (pair_codec ca cb) (wpair Wa Wb).
Proof.
  intros La Lb Ra Rb t [a b] t' Hok Hm H. cbn [pair_codec c_deser_rest] in H. apply obind_ok in H.
  destruct H as ((a0 & t1) & E1 & H). apply obind_ok in H. destruct H as ((b0 & t2) & E2 & H). injection H as -> -> ->.
  destruct (w_sound _ _ _ _ La t a t1 Hok Hm E1) as (Va & _).
  destruct (Ra t a t1 Hok Hm E1) as (x & sx & Dx & Ex & Ix & Lx). pose proof Hok as Hok0. rewrite Dx in Hok. apply bytes_ok_app in Hok. destruct Hok as [Okx Ok1].
  pose proof Hm as Hm0. unfold ba_len in Hm. rewrite Dx in Hm. apply mem_app in Hm.
  destruct (Rb t1 b t' Ok1 Hm E2) as (y & sy & Dy & Ey & Iy & Ly).
  exists (x ++ y), (ba_concat sx sy). split; [rewrite Dx, Dy; apply app_assoc|]. cbn [pair_codec c_ser fst snd]. rewrite Ex. cbn [obind]. rewrite Ey. cbn [obind].
  split; [reflexivity|]. rewrite concat_data, !app_length. split; [|lia]. split.
  - intros E. destruct (app_len_split _ _ _ _ Lx Ly E) as [E3 E4]. exists x, y. split; [reflexivity|]. cbn. split; [now apply Ix|now apply Iy].
  - intros (x' & y' & E & Wx & Wy). cbn [fst snd] in *.
    assert (x' = x /\ y' = y) as [-> ->].
    { rewrite Dy in Ok1. apply bytes_ok_app in Ok1. destruct Ok1 as [Oky Okt].
      assert (bytes_ok (x' ++ y')) as Ok' by (rewrite <- E; apply bytes_ok_app; auto). apply bytes_ok_app in Ok'. destruct Ok' as [Okx' Oky'].
      assert (ba_data t = x' ++ (y' ++ ba_data t')) as D' by (rewrite app_assoc, <- E, Dx, Dy; apply app_assoc).
      destruct (w_complete _ _ _ _ La true a x' Va Wx Okx' t _ D') as (a' & u & F & _ & Du); [apply bytes_ok_app; auto|].
      rewrite E1 in F. injection F as <- <-. rewrite Dy in Du. apply app_inv_tail in Du. subst y'. split; [|reflexivity]. now apply app_inv_tail in E. }
    f_equal; [now apply Ix|now apply Iy].
Qed.
Lemma iso_reser {A B} (c : codec A) (c' : codec B) (f : A -> B) (g : B -> A) W W' :
  reser c' W' -> (forall b, f (g b) = b) ->
  (forall strict a bs, W strict a bs <-> W' strict (f a) bs) ->
  (forall a y, c_ser c' (f a) = Ok y -> exists x, c_ser c a = Ok x /\ ba_data x = ba_data y) ->
  (forall t, c_deser_rest c t = do (b, t') <- c_deser_rest c' t; Ok (g b, t')) -> reser c W.
Proof.
  intros R Hfg HW Hser Hde t a t' Hok Hm H. rewrite Hde in H. apply obind_ok in H. destruct H as ((b & t1) & E & H). injection H as <- <-.
  destruct (R t b t1 Hok Hm E) as (bs & s & D & Es & I & L). destruct (Hser (g b) s) as (x & Ex & Dx); [now rewrite Hfg|].
  exists bs, x. rewrite Dx, HW, Hfg. auto.
Qed.
Lemma fixed_reser n : 0 < n -> reser (fixed_codec n) (fun _ => wire_fixed n).
Proof.
  intros Hn t a t' Hok Hm H. destruct (w_sound _ _ _ _ (fixed_wlaws n Hn) t a t' Hok Hm H) as (_ & bs & [-> Hl] & _ & D).
  exists (ba_data a), a. repeat split; auto.
Qed.
Lemma int_reser n s : (0 < n)%nat -> reser (int_codec n s) (fun _ => wire_int n).
Proof.
  intros Hn t a t' Hok Hm H. destruct (w_sound _ _ _ _ (int_wlaws n s Hn) t a t' Hok Hm H) as (Va & bs & (Hl & Hb & Hv) & _ & D).
  exists bs, (ba_unnamed (le_bytes n a)). split; [assumption|]. split; [reflexivity|]. cbn [ba_data ba_unnamed]. rewrite le_bytes_length.
  assert (le_bytes n a = bs) as E by (apply le_value_inj; auto; [apply le_bytes_ok|rewrite le_bytes_length; lia|rewrite le_value_bytes; lia]).
  split; [|lia]. split; [intros _; repeat split; auto|auto].
Qed.
Lemma shortest_varint_eq n p : is_varint n p -> u64_ok n -> (encode_var_int n = p <-> wire_size true n p) /\ (length (encode_var_int n) <= length p)%nat.
Proof.
  intros Hv Hu. split; [|now apply encode_var_int_shortest]. split.
  - intros <-. now apply wire_size_encode.
  - intros [_ Hs]. specialize (Hs eq_refl (encode_var_int n) (encode_var_int_form n Hu)).
    pose proof (encode_var_int_shortest n p Hu Hv) as Hs2.
    pose proof (encode_var_int_form n Hu) as Hf. inversion Hv as [Hn|l Hb Hl Hval|l Hb Hl Hval|l Hb Hl Hval];
      inversion Hf as [Hn' E|l' Hb' Hl' Hval' E|l' Hb' Hl' Hval' E|l' Hb' Hl' Hval' E]; subst; rewrite <- ?E in Hs, Hs2; cbn [length] in *; try lia; try reflexivity;
      f_equal; apply le_value_inj; auto; lia.
Qed.
Lemma bytes_reser : reser bytearray_codec wire_bytes.
Proof.
  intros t a t' Hok Hm H. destruct (w_sound _ _ _ _ bytes_wlaws t a t' Hok Hm H) as ([Hoka Hma] & bs & (len & -> & Hv & _) & _ & D).
  destruct (shortest_varint_eq _ _ Hv (mem_u64 _ Hma)) as [I L]. eexists _, _. split; [exact D|]. split; [reflexivity|].
  rewrite concat_data. cbn [ba_data ba_new]. rewrite !app_length. unfold ba_len. split; [|lia]. split.
  - intros E. apply app_inv_tail in E. exists len. split; [reflexivity|]. now apply I.
  - intros (len' & E & Hs). apply app_inv_tail in E. subst len'. f_equal. now apply I.
Qed.
Lemma script_reser : reser script_codec wire_script.
Proof.
  intros t s t' Hok Hm H. cbn [script_codec c_deser_rest] in H. apply obind_ok in H. destruct H as ((a & t1) & E1 & H).
  apply obind_ok in H. destruct H as (ops & E2 & H). injection H as <- <-.
  destruct (w_sound _ _ _ _ bytes_wlaws t a t1 Hok Hm E1) as ([Hoka Hma] & bs & (len & -> & [Hv _]) & Hne & Dt).
  pose proof (deserialize_agree a Hoka) as Ha.
  destruct (deserialize_ops_total (ba_data a) Hoka) as [(ch & is & ops0 & Hch & Hc & Hmean & Hp & E0)|[_ E0]]; rewrite E0 in Ha.
  2:{ destruct Ha as (e & Ha). congruence. }
  destruct Ha as (ops' & E' & So). rewrite E2 in E'. injection E' as <-.
  destruct (deser_ser_iff _ _ Hoka E0) as (x & Ex & I & Hlen).
  destruct (same_ops_ser ops0 ops x So Ex) as (y & Ey & Dy).
  exists (len ++ ba_data a). cbn [script_codec c_ser bytearray_codec]. unfold script_ser_ops. rewrite map_t_op_from, Ey. cbn [obind].
  eexists. split; [assumption|]. split; [reflexivity|]. rewrite concat_data. cbn [ba_data ba_new]. unfold ba_len. rewrite Dy.
  assert (u64_ok (zlen (ba_data x))) as Hux by (apply mem_u64; unfold in_memory, ba_len, zlen in *; lia).
  assert (length (encode_var_int (zlen (ba_data x))) <= length len)%nat as Hel.
  { destruct (shortest_varint_eq _ _ Hv (mem_u64 _ Hma)) as [_ L]. etransitivity; [|exact L].
    apply encode_var_int_mono; [unfold u64_ok in Hux; lia| |apply (mem_u64 _ Hma)]. unfold zlen; lia. }
  split; [|rewrite !app_length; lia]. split.
  - intros E. destruct (app_len_split _ _ _ _ Hel Hlen E) as [E3 E4]. exists len, (ba_data a), is. split; [reflexivity|].
    split; [rewrite <- E3, E4; now apply wire_size_encode, mem_u64|]. split; [exists ch; auto|]. split; [rewrite map_t_op_from; eapply Forall2_means_same; eauto|].
    intros _. now apply I.
  - intros (len' & body & is' & E & Hs & Hr & Hmm & Hsh).
    assert (len' = len /\ body = ba_data a) as [-> ->].
    { destruct Hs as [Hv' _].
      assert (ba_data t = len' ++ (body ++ ba_data t1)) as D' by (rewrite app_assoc, <- E; exact Dt).
      assert (ba_data t = len ++ (ba_data a ++ ba_data t1)) as D by (rewrite app_assoc; exact Dt).
      pose proof (varint_read _ _ (body ++ ba_data t1) Hv') as V1. rewrite <- D' in V1.
      pose proof (varint_read _ _ (ba_data a ++ ba_data t1) Hv) as V2. rewrite <- D in V2. rewrite V1 in V2. injection V2 as _ V2.
      apply app_inv_tail in V2. subst body. split; [|reflexivity]. now apply app_inv_tail in E. }
    assert (ba_data x = ba_data a) as -> by (apply I; auto). f_equal. apply (shortest_varint_eq _ _ Hv (mem_u64 _ Hma)). assumption.
Qed.
Section Vec.
Context {A : Type} (c : codec A) (value : A -> Prop) (same : A -> A -> Prop) (W : bool -> A -> list Z -> Prop).
Hypothesis L : wlaws c value same W.
Hypothesis R : reser c W.
Lemma vec_loop_reser n : forall t v t', bytes_ok (ba_data t) -> in_memory (ba_len t) -> vec_loop c n t = Ok (v, t') ->
  exists parts ss, ba_data t = concat parts ++ ba_data t' /\ omap (c_ser c) v = Ok ss /\
    (length (concat (map ba_data ss)) <= length (concat parts))%nat /\
    (concat (map ba_data ss) = concat parts -> Forall2 (W true) v parts) /\
    (forall parts', Forall2 (W true) v parts' -> concat parts' = concat parts -> concat (map ba_data ss) = concat parts).
Proof.
  induction n as [|n IH]; intros t v t' Hok Hm H.
  - injection H as <- <-. exists [], []. cbn. repeat split; auto.
  - cbn [vec_loop] in H. apply obind_ok in H. destruct H as ((a & t1) & E1 & H). apply obind_ok in H. destruct H as ((v1 & t2) & E2 & H).
    injection H as <- <-. destruct (w_sound _ _ _ _ L t a t1 Hok Hm E1) as (Va & _).
    destruct (R t a t1 Hok Hm E1) as (x & sx & Dx & Ex & Ix & Lx). pose proof Hok as Hok0. rewrite Dx in Hok. apply bytes_ok_app in Hok. destruct Hok as [Okx Ok1].
    pose proof Hm as Hm0. unfold ba_len in Hm. rewrite Dx in Hm. apply mem_app in Hm.
    destruct (IH t1 v1 t2 Ok1 Hm E2) as (parts & ss & Dp & Es & Ll & P1 & P2).
    exists (x :: parts), (sx :: ss). cbn [map concat]. rewrite !app_length. split; [rewrite Dx, Dp; apply app_assoc|].
    split; [now apply omap_app_cons|]. split; [lia|]. split.
    + intros E. destruct (app_len_split _ _ _ _ Lx Ll E) as [E3 E4]. constructor; [now apply Ix|auto].
    + intros parts' F E. inversion F as [|? x' ? ps' Wx Wps]; subst. cbn [concat] in E.
      assert (x' = x /\ concat ps' = concat parts) as [-> E'].
      { rewrite Dp in Ok1. apply bytes_ok_app in Ok1. destruct Ok1 as [Oky Okt].
        assert (bytes_ok (x' ++ concat ps')) as Ok' by (rewrite E; apply bytes_ok_app; auto). apply bytes_ok_app in Ok'. destruct Ok' as [Okx' Oky'].
        assert (ba_data t = x' ++ (concat ps' ++ ba_data t2)) as D' by (rewrite app_assoc, E, Dx, Dp; apply app_assoc).
        destruct (w_complete _ _ _ _ L true a x' Va Wx Okx' t _ D') as (a' & u & F' & _ & Du); [apply bytes_ok_app; auto|].
        rewrite E1 in F'. injection F' as <- <-. rewrite Dp in Du. apply app_inv_tail in Du. rewrite <- Du in E. apply app_inv_tail in E. auto. }
      f_equal; [now apply Ix|]. eapply P2; eauto.
Qed.
Lemma vec_reser sz : reser (vec_codec sz c) (fun strict => wire_vec (W strict) strict).
Proof.
  intros t v t' Hok Hm H. cbn [vec_codec c_deser_rest] in H. apply obind_ok in H. destruct H as ((n & r) & E1 & H).
  destruct (Z.ltb_spec (2 ^ 63 - 1) (n * sz)); [discriminate|].
  apply read_size_inv in E1; [|assumption]. destruct E1 as (p & Dt & Hv). pose proof Hok as Hok0. rewrite Dt in Hok. apply bytes_ok_app in Hok. destruct Hok as [Okp Okr].
  unfold ba_len in Hm. rewrite Dt in Hm. apply mem_app in Hm. destruct (varint_ok n p Hv) as [_ Hn].
  destruct (vec_loop_reser _ r v t' Okr Hm H) as (parts & ss & Dp & Es & Ll & P1 & P2).
  destruct (vec_loop_sound c value same W L _ r v t' Okr Hm H) as (_ & Hl & _).
  assert (zlen v = n) as Hz by (unfold zlen; rewrite Hl; unfold u64_ok in Hn; lia).
  destruct (shortest_varint_eq n p Hv Hn) as [I Lv].
  exists (p ++ concat parts). cbn [vec_codec c_ser]. rewrite Es. cbn [obind]. eexists. split; [rewrite Dt, Dp; apply app_assoc|]. split; [reflexivity|].
  rewrite concat_data, from_parts_data. cbn [ba_data ba_new]. rewrite Hz, !app_length. split; [|lia]. split.
  - intros E. destruct (app_len_split _ _ _ _ Lv Ll E) as [E3 E4]. exists p, parts. split; [reflexivity|]. rewrite Hz. split; [now apply I|auto].
  - intros (p' & parts' & E & Hs & F). rewrite Hz in Hs.
    assert (p' = p /\ concat parts' = concat parts) as [-> E'].
    { destruct Hs as [Hv' _]. pose proof (varint_read _ _ (concat parts' ++ ba_data t') Hv') as V1. rewrite app_assoc, <- E, <- app_assoc, <- Dp in V1.
      pose proof (varint_read _ _ (ba_data r) Hv) as V2. rewrite V1 in V2. injection V2 as V2. rewrite Dp in V2. apply app_inv_tail in V2.
      rewrite V2 in E. apply app_inv_tail in E. auto. }
    f_equal; [now apply I|]. eapply P2; eauto.
Qed.
End Vec.
Lemma outpoint_reser : reser outpoint_codec (fun _ => wire_outpoint).
Proof.
  eapply (iso_reser outpoint_codec (pair_codec sha256d_codec u32_codec)
    (fun o => (op_tx_hash o, op_vout o)) (fun ab => TxOutpoint (fst ab) (snd ab))).
  - eapply pair_reser; [apply fixed_wlaws; lia|apply u32_wlaws|apply fixed_reser; lia|exact (int_reser 4 false ltac:(lia))].
  - intros [a b]. reflexivity.
  - intros strict a bs. reflexivity.
  - intros a y H. cbn [pair_codec c_ser fst snd] in H. split_ser H. cbn [outpoint_codec c_ser]. rec_ser.
  - intros t. cbn [outpoint_codec pair_codec c_deser_rest]. rec_deser.
Qed.
Lemma output_reser : reser output_codec wire_output.
Proof.
  eapply (iso_reser output_codec (pair_codec u64_codec script_codec)
    (fun o => (out_value o, out_script o)) (fun ab => TxOutput (fst ab) (snd ab))).
  - eapply pair_reser; [apply u64_wlaws|apply script_wlaws|exact (int_reser 8 false ltac:(lia))|apply script_reser].
  - intros [a b]. reflexivity.
  - intros strict a bs. reflexivity.
  - intros a y H. cbn [pair_codec c_ser fst snd] in H. split_ser H. cbn [output_codec c_ser]. rec_ser.
  - intros t. cbn [output_codec pair_codec c_deser_rest]. rec_deser.
Qed.
Lemma input_reser : reser input_codec wire_input.
Proof.
  eapply (iso_reser input_codec (pair_codec outpoint_codec (pair_codec script_codec u32_codec))
    (fun o => (in_prev_out o, (in_script o, in_sequence o)))
    (fun ab => TxInput (fst ab) (fst (snd ab)) (snd (snd ab)) None None None None)).
  - eapply pair_reser; [apply outpoint_wlaws|eapply pair_wlaws; [apply script_laws|apply script_wlaws|apply u32_wlaws]|apply outpoint_reser|
      eapply pair_reser; [apply script_wlaws|apply u32_wlaws|apply script_reser|exact (int_reser 4 false ltac:(lia))]].
  - intros [a [b c]]. reflexivity.
  - intros strict a bs. unfold wire_input, wpair. cbn [fst snd]. split.
    + intros (o & s & q & -> & H1 & H2 & H3). exists o, (s ++ q). split; [reflexivity|]. split; [assumption|]. exists s, q. auto.
    + intros (o & y & -> & H1 & s & q & -> & H2 & H3). exists o, s, q. auto.
  - intros a y H. cbn [pair_codec c_ser fst snd] in H. do 2 split_ser H. cbn [input_codec c_ser]. rec_ser.
  - intros t. cbn [input_codec pair_codec c_deser_rest]. rec_deser.
Qed.
Lemma tx_reser si so : reser (unhashed_tx_codec si so) wire_tx.
Proof.
  eapply (iso_reser (unhashed_tx_codec si so)
    (pair_codec i32_codec (pair_codec (vec_codec si input_codec) (pair_codec (vec_codec so output_codec) u32_codec)))
    (fun o => (tx_version o, (tx_inputs o, (tx_outputs o, tx_lock_time o))))
    (fun ab => UnhashedTx (fst ab) (fst (snd ab)) (fst (snd (snd ab))) (snd (snd (snd ab))))).
  - assert (wlaws (vec_codec si input_codec) (vec_value si input_value) (Forall2 same_input) (fun strict => wire_vec (wire_input strict) strict)) as Li
      by (eapply vec_wlaws; [apply input_wlaws|apply input_laws]).
    assert (wlaws (vec_codec so output_codec) (vec_value so output_value) (Forall2 same_output) (fun strict => wire_vec (wire_output strict) strict)) as Lo
      by (eapply vec_wlaws; [apply output_wlaws|apply output_laws]).
    eapply pair_reser; [apply i32_wlaws|eapply pair_wlaws; [apply (vec_laws si _ _ _ input_laws)|exact Li|eapply pair_wlaws; [apply (vec_laws so _ _ _ output_laws)|exact Lo|apply u32_wlaws]]
      |exact (int_reser 4 true ltac:(lia))|].
    eapply pair_reser; [exact Li|eapply pair_wlaws; [apply (vec_laws so _ _ _ output_laws)|exact Lo|apply u32_wlaws]|eapply vec_reser; [apply input_wlaws|apply input_reser]|].
    eapply pair_reser; [exact Lo|apply u32_wlaws|eapply vec_reser; [apply output_wlaws|apply output_reser]|exact (int_reser 4 false ltac:(lia))].
  - intros [a [b [c d]]]. reflexivity.
  - intros strict a bs. unfold wire_tx, wpair. cbn [fst snd]. split.
    + intros (v & i & o & l & -> & H1 & H2 & H3 & H4). exists v, (i ++ o ++ l). split; [reflexivity|]. split; [assumption|].
      exists i, (o ++ l). split; [reflexivity|]. split; [assumption|]. exists o, l. auto.
    + intros (v & y & -> & H1 & i & z & -> & H2 & o & l & -> & H3 & H4). exists v, i, o, l. auto.
  - intros a y H. cbn [pair_codec c_ser fst snd] in H. do 3 split_ser H. cbn [unhashed_tx_codec c_ser] in *. rec_ser.
  - intros t. cbn [unhashed_tx_codec pair_codec c_deser_rest]. rec_deser.
Qed.
