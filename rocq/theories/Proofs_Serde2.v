From Verif Require Import Base BaseLemmas Spec_Encoding Model_ByteArray Model_Opcode Model_Script Spec_Script Model_Code Spec_Code Spec_Wire Model_Json Spec_Json Spec_JsonFile
  Prop_JsonFile Model_Hash Spec_Hash Prop_Hash Model_TxBuilder Model_Slp Model_Serde Spec_Serde Proofs_ByteArray Model_Encoding Proofs_Encoding Proofs_Network2 Proofs_Script Proofs_Code Proofs_Wire Proofs_Codec Proofs_Reser Proofs_Preimage Proofs_Serde.
Local Open Scope string_scope.
Local Open Scope list_scope.
Local Open Scope Z_scope.

Lemma rev_zlen {A} (l : list A) : zlen (rev l) = zlen l. Proof. unfold zlen. now rewrite rev_length. Qed.
(* ---------- leaves ---------- *)
Lemma str_inv j s : r_str j = Ok s -> j = JStr s.
Proof. unfold r_str, r_of. destruct j; cbn; congruence. Qed.
Lemma str_panic j : r_str j <> Panic. Proof. unfold r_str, r_of. destruct j; cbn; discriminate. Qed.
Lemma hash_compl n : compl (r_hash n) (fixed_value n) (doc_hash n) same_bytes.
Proof.
  intros j h _ (s & d & -> & Hx & Hd & L). unfold r_hash, r_str, r_of. cbn [d_str obind]. exists (ba_unnamed (rev d)). split; [|exact Hd].
  unfold fixed_from_text. rewrite (proj2 (hex_decode_ok _ _) Hx). cbn [obind]. unfold copy_from_slice. rewrite (rev_zlen d), L, Z.eqb_refl. reflexivity.
Qed.
Lemma hash_snds n : snds (r_hash n) (fixed_value n) (doc_hash n).
Proof.
  intros j h _ E. unfold r_hash in E. apply obind_ok in E. destruct E as (s & Es & E). apply str_inv in Es. subst j.
  unfold fixed_from_text in E. apply obind_ok in E. destruct E as (d & Ed & E). apply hex_decode_ok in Ed. apply obind_ok in E. destruct E as (x & Ex & E). injection E as <-.
  unfold copy_from_slice in Ex. destruct (Z.eqb_spec (zlen (rev d)) n) as [L|]; [|discriminate]. injection Ex as <-. pose proof (hex_text_bytes _ _ Ed).
  split; [split; [now apply bytes_ok_rev|exact L]|]. exists s, d. rewrite rev_zlen in L. auto.
Qed.
Lemma hash_calm : calm (r_hash 32).
Proof.
  intros j E. unfold r_hash in E. destruct (r_str j) as [s| |] eqn:Es; cbn [obind] in E; [|discriminate|now apply str_panic in Es]. apply str_inv in Es. subst j.
  apply C43_hash_text_panics_refuted in E. destruct E as (d & Hx & L). exists s, d. split; [constructor|auto].
Qed.
Lemma hash_nn n : nn (doc_hash n). Proof. intros h (s & d & E & _). discriminate. Qed.
Lemma hash_wrs n : wrs (w_hash n) (fixed_value n) (doc_hash n).
Proof.
  intros h [Hok L]. unfold w_hash, fixed_to_text, copy_from_slice. unfold ba_len in L. rewrite L, Z.eqb_refl. cbn [obind]. eexists. split; [reflexivity|].
  exists (bytes_text (hex_encode (rev (ba_data h)))), (rev (ba_data h)). split; [reflexivity|]. split; [apply hex_text_ascii; now apply bytes_ok_rev|]. rewrite rev_involutive, rev_zlen. auto.
Qed.
Lemma bytes_compl V : compl r_bytes V doc_bytes same_bytes.
Proof.
  intros j a _ (s & -> & Hx). unfold r_bytes, r_str, r_of. cbn [d_str obind]. unfold array_from_text. rewrite (proj2 (hex_decode_ok _ _) Hx). cbn [obind]. eexists. split; [reflexivity|]. reflexivity.
Qed.
Lemma bytes_snds : snds r_bytes (fun a => bytes_ok (ba_data a)) doc_bytes.
Proof.
  intros j a _ E. unfold r_bytes in E. apply obind_ok in E. destruct E as (s & Es & E). apply str_inv in Es. subst j.
  unfold array_from_text in E. apply obind_ok in E. destruct E as (d & Ed & E). apply hex_decode_ok in Ed. injection E as <-. split; [exact (hex_text_bytes _ _ Ed)|]. exists s. auto.
Qed.
Lemma hex_decode_calm s : hex_decode s <> Panic.
Proof. unfold hex_decode. destruct (Z.odd _); [discriminate|]. apply hex_pairs_total. Qed.
Lemma bytes_calm : calm r_bytes.
Proof.
  intros j E. exfalso. unfold r_bytes in E. destruct (r_str j) as [s| |] eqn:Es; cbn [obind] in E; [|discriminate|now apply str_panic in Es].
  unfold array_from_text in E. destruct (hex_decode (text_bytes s)) eqn:F; cbn [obind] in E; try discriminate. now apply hex_decode_calm in F.
Qed.
Lemma bytes_wrs : wrs w_bytes (fun a => bytes_ok (ba_data a)) doc_bytes.
Proof. intros a Hok. eexists. split; [reflexivity|]. exists (bytes_text (array_to_text a)). split; [reflexivity|]. now apply hex_text_ascii. Qed.

Lemma same_op_code_ser s s' a : same_code s s' -> script_ser_ops s = Ok a -> exists a', script_ser_ops s' = Ok a' /\ ba_data a' = ba_data a.
Proof.
  intros H E. unfold script_ser_ops in *. unfold serialize_ops in *.
  assert (forall ps, omap serialize_op (map t_op s) = Ok ps -> exists ps', omap serialize_op (map t_op s') = Ok ps' /\ map ba_data ps' = map ba_data ps) as X.
  { clear E. induction H as [|t t' l l' (i & x & y & _ & _ & Ex & Ey & D) _ IH]; intros ps E; [exists []; split; [reflexivity|]; injection E as <-; reflexivity|].
    cbn [map] in E. cbn in E. rewrite Ex in E. cbn [obind] in E. destruct (omap serialize_op (map t_op l)) as [q| |] eqn:Q; try discriminate. cbn [obind] in E. injection E as <-.
    destruct (IH q eq_refl) as (q' & Q' & Dq). exists (y :: q'). split; [cbn [map]; now apply omap_app_cons|]. cbn [map]. congruence. }
  destruct (omap serialize_op (map t_op s)) as [ps| |] eqn:P; cbn [obind] in E; try discriminate. destruct (X ps eq_refl) as (ps' & P' & D).
  rewrite P'. cbn [obind]. eexists. split; [reflexivity|]. injection E as <-. rewrite !from_parts_data. congruence.
Qed.

Lemma codes_of_parsed ops : forall ps is ops' ops2, Forall op_ok ops -> omap serialize_op ops = Ok ps -> Forall2 means ops is -> Forall2 parsed (map ba_data ps) ops' -> Forall2 means ops' is ->
  Forall2 same_op ops' ops2 ->
  Forall2 (fun o o' => exists i x y, means o i /\ means o' i /\ serialize_op o = Ok x /\ serialize_op o' = Ok y /\ ba_data x = ba_data y) ops ops2.
Proof.
  induction ops as [|o ops IH]; intros ps is ops' ops2 Hok E Hm HF Hm' Hs.
  - injection E as <-. inversion HF; subst. inversion Hs. constructor.
  - cbn in E. apply obind_ok in E. destruct E as (x & Ex & E). apply obind_ok in E. destruct E as (q & Eq & E). injection E as <-. cbn [map] in HF.
    inversion Hok as [|? ? Ho Hok']; subst. inversion HF as [|? o' ? ops'' Hp HF']; subst. inversion Hm as [|? i ? is' Hi Hm1]; subst. inversion Hm' as [|? ? ? ? Hi' Hm1']; subst.
    inversion Hs as [|? o2 ? ops2' Hs1 Hs2]; subst.
    constructor; [|eapply IH; eauto].
    destruct (ser_op_ok o Ho) as (x' & j & Ex' & Hj & Hc & Hsp). rewrite Ex in Ex'. injection Ex' as <-.
    assert (bytes_ok (ba_data x)) as Okx by (eapply chunk_ok; eauto; eapply means_ok; eauto).
    destruct (parsed_ser _ _ Okx Hp) as (_ & y & Ey & I & _). apply I in Hsp. destruct (same_op_ser o' o2 y Hs1 Ey) as (z & Ez & Dz).
    exists i, x, z. split; [exact Hi|]. split; [eapply same_op_means; eauto|]. split; [exact Ex|]. split; [exact Ez|congruence].
Qed.
Lemma Forall2_t_op (R : op -> op -> Prop) s ops : Forall2 R (map t_op s) ops -> Forall2 (fun t t' => R (t_op t) (t_op t')) s (script_from_ops ops).
Proof.
  intros H. rewrite <- (map_t_op_from ops) in H. revert H. generalize (script_from_ops ops). clear ops. induction s as [|t s IH]; intros [|t' s'] H; cbn [map] in H; inversion H; subst; constructor; auto.
Qed.
(** Reading what [Script::ser] wrote. *)
Lemma written_deser s d : script_value s -> written s d -> bytes_ok d /\ exists s', c_deser script_codec (ba_unnamed d) = Ok s' /\ same_code s s'.
Proof.
  intros [Hops Hm] (a & E & <-).
  assert (exists ps is, omap serialize_op (map t_op s) = Ok ps /\ Forall2 chunk (map ba_data ps) is /\ Forall2 means (map t_op s) is /\ bytes_ok (concat (map ba_data ps))) as (ps & is & Eps & H1 & H2 & H4).
  { clear - Hops. induction Hops as [|o ops Ho _ (ps & is & E & H1 & H2 & H4)].
    - exists [], []. repeat split; try constructor.
    - destruct (ser_op_ok o Ho) as (a & i & Ea & Hm & Hc & Hs). exists (a :: ps), (i :: is). split; [now apply omap_app_cons|]. cbn [map concat].
      split; [now constructor|]. split; [now constructor|]. apply bytes_ok_app. split; [|assumption]. eapply chunk_ok; eauto. eapply means_ok; eauto. }
  assert (script_ser_ops s = Ok (ba_from_parts ps)) as Es by (unfold script_ser_ops, serialize_ops; rewrite Eps; reflexivity).
  cbn [script_codec c_ser] in E. rewrite Es in E. cbn [obind bytearray_codec c_ser] in E. apply Ok_inj in E. subst a. rewrite concat_data. cbn [ba_data ba_new]. rewrite from_parts_data.
  set (body := concat (map ba_data ps)) in *. specialize (Hm _ Es). assert (ba_len (ba_from_parts ps) = zlen body) as HL by (unfold ba_len; now rewrite from_parts_data). rewrite HL in *.
  assert (is_varint (zlen body) (encode_var_int (zlen body))) as Hv by (apply (wire_size_encode _ false), mem_u64; exact Hm).
  assert (bytes_ok (encode_var_int (zlen body))) as Okv by (apply (varint_ok _ _ Hv)).
  split; [apply bytes_ok_app; auto|]. unfold c_deser. cbn [script_codec bytearray_codec c_deser_rest].
  destruct (read_size_data (ba_unnamed (encode_var_int (zlen body) ++ body)) _ _ _ eq_refl Hv) as (r & E & Dr). rewrite E. cbn [obind].
  destruct (split_data r body [] ltac:(now rewrite app_nil_r)) as (l & r' & E' & Dl & Dr'). rewrite E'. cbn [obind].
  destruct (deser_chunks _ _ H1 H4) as (ops0 & E0 & P0 & M0). pose proof (deserialize_agree l) as Ha. rewrite Dl in Ha. specialize (Ha H4). fold body in E0. rewrite E0 in Ha.
  destruct Ha as (ops2 & E2 & S2). rewrite E2. cbn [obind]. unfold ba_len. rewrite Dr'. cbn [zlen length Z.of_nat Z.eqb]. eexists. split; [reflexivity|].
  apply Forall2_t_op with (R := fun o o' => exists i x y, means o i /\ means o' i /\ serialize_op o = Ok x /\ serialize_op o' = Ok y /\ ba_data x = ba_data y).
  eapply codes_of_parsed; eauto.
Qed.
Lemma lenient_deser s d : script_value s -> wire_script false s d -> bytes_ok d -> exists s', c_deser script_codec (ba_unnamed d) = Ok s' /\ same_script s s'.
Proof.
  intros V W Hok. destruct (w_complete _ _ _ _ script_wlaws false s d V W Hok (ba_unnamed d) []) as (s' & r & E & S & D); [now rewrite app_nil_r|constructor|].
  exists s'. split; [|exact S]. unfold c_deser. rewrite E. cbn [obind]. unfold ba_len. rewrite D. reflexivity.
Qed.
Lemma script_snds : snds r_script script_value (doc_script (wire_script false)).
Proof.
  intros j s Hf E. unfold r_script in E. apply obind_ok in E. destruct E as (t & Et & E). apply str_inv in Et. subst j. apply obind_ok in E. destruct E as (d & Ed & E). apply hex_decode_ok in Ed.
  apply deser_ok_inv in E. destruct E as (r & E & D). pose proof (hex_text_bytes _ _ Ed) as Okd.
  assert (in_memory (ba_len (ba_unnamed d))) as Mem.
  { pose proof (Hf t (InsideHere _)) as M. unfold in_memory, ba_len in *. cbn [ba_data ba_unnamed]. rewrite (hex_text_len _ _ Ed) in M. pose proof (zlen_nonneg d). lia. }
  destruct (w_sound _ _ _ _ script_wlaws (ba_unnamed d) s r Okd Mem E) as (V & bs & W & _ & Db). rewrite D, app_nil_r in Db. cbn [ba_data ba_unnamed] in Db. subst bs.
  split; [exact V|]. exists t, d. auto.
Qed.
Lemma script_calm : calm r_script.
Proof.
  intros j E. exfalso. unfold r_script in E. destruct (r_str j) as [t| |] eqn:Es; cbn [obind] in E; [|discriminate|now apply str_panic in Es].
  destruct (hex_decode (text_bytes t)) as [d| |] eqn:F; cbn [obind] in E; [|discriminate|now apply hex_decode_calm in F]. apply hex_decode_ok in F.
  unfold c_deser in E. destruct (c_deser_rest script_codec (ba_unnamed d)) as [[s r]| |] eqn:G; cbn [obind] in E; [|discriminate|].
  - destruct (ba_len r =? 0); discriminate.
  - revert G. apply wl_no_panic_script. exact (hex_text_bytes _ _ F).
Qed.
Lemma script_wrs : wrs w_script script_value (doc_script written).
Proof.
  intros s V. destruct (w_write _ _ _ _ script_wlaws s V) as (a & E & _). destruct (written_deser s (ba_data a) V (ex_intro _ a (conj E eq_refl))) as [Hok _].
  unfold w_script. rewrite E. cbn [obind]. eexists. split; [reflexivity|]. exists (bytes_text (array_to_text a)), (ba_data a). split; [reflexivity|]. split; [now apply hex_text_ascii|]. exists a. auto.
Qed.
Definition readable (code : script -> list Z -> Prop) (ss : script -> script -> Prop) : Prop :=
  forall s d, script_value s -> code s d -> bytes_ok d -> exists s', c_deser script_codec (ba_unnamed d) = Ok s' /\ ss s s'.
Lemma readable_written : readable written same_code. Proof. intros s d V W _. apply (written_deser s d V W). Qed.
Lemma readable_lenient : readable (wire_script false) same_script. Proof. intros s d V W H. now apply lenient_deser. Qed.
Lemma script_compl code ss : readable code ss -> compl r_script script_value (doc_script code) ss.
Proof.
  intros H j s V (t & d & -> & Hx & C). unfold r_script, r_str, r_of. cbn [d_str obind]. rewrite (proj2 (hex_decode_ok _ _) Hx). cbn [obind]. apply H; auto. exact (hex_text_bytes _ _ Hx).
Qed.
Lemma script_nn code : nn (doc_script code). Proof. intros h (s & d & E & _). discriminate. Qed.
