(** Proofs for C66. *)
From Verif Require Import Base BaseLemmas Model_Encoding Spec_Encoding Proofs_Encoding Spec_Integer
  Model_ByteArray Proofs_ByteArray Model_Opcode Model_Script Spec_Script Proofs_Script Model_Code Spec_Code Spec_Wire Proofs_Code Proofs_Wire
  Model_TxBuilder Spec_Serde Model_Equality Spec_Equality Prop_DataType.
From Coq Require Import ZifyBool ZifyNat.
Local Open Scope Z_scope.
Local Open Scope list_scope.

(* ---------- ops and scripts ---------- *)
Lemma equal_op_iff o o' : op_eqb o o' = true <-> equal_op o o'.
Proof. exact (C46_op_equality o o'). Qed.
Lemma equal_script_iff s s' : script_eqb s s' = true <-> equal_script s s'.
Proof.
  rewrite script_eqb_iff. unfold equal_script. split; intros H; induction H; constructor; auto; now apply equal_op_iff.
Qed.
Lemma op_eqb_same a b c : same_op a b -> op_eqb b c = true -> op_eqb a c = true.
Proof. intros H. rewrite !op_eqb_iff. destruct H; auto. destruct c; auto. congruence. Qed.
Lemma op_eqb_same' a b c : op_eqb a b = true -> same_op b c -> op_eqb a c = true.
Proof. intros H1 H. revert H1. rewrite !op_eqb_iff. destruct H; auto. destruct a; auto. congruence. Qed.

(* ---------- reading what was written from a parsed script ---------- *)
Lemma op_of_byte_ser b x : byte_ok b -> b = 0 \/ 0x4f <= b -> serialize_op (op_of_byte b) = Ok x -> ba_data x = [b].
Proof.
  intros Hb Hr. unfold op_of_byte. pose proof (opcode_from_spec b Hb) as H. destruct (opcode_from_u8 b) as [c|].
  - cbn [serialize_op]. unfold serialize_opcode. intros E. injection E as <-. cbn [ba_data ba_new]. now rewrite H.
  - cbn [serialize_op]. intros E. injection E as <-. reflexivity.
Qed.
Lemma nonmin_head d : exists h t, nonmin_prefix d = h :: t /\ 1 <= h <= 0x4e.
Proof.
  pose proof (zlen_nonneg d). unfold nonmin_prefix. destruct (Z.eqb_spec (zlen d) 0); [do 2 eexists; split; [reflexivity|lia]|].
  destruct (Z.leb_spec (zlen d) 75); [do 2 eexists; split; [reflexivity|lia]|]. destruct (Z.leb_spec (zlen d) 255); [do 2 eexists; split; [reflexivity|lia]|].
  destruct (Z.leb_spec (zlen d) 65535); do 2 eexists; (split; [reflexivity|lia]).
Qed.
Lemma parsed_one b o : b = 0 \/ 0x4f <= b -> parsed [b] o -> o = op_of_byte b.
Proof.
  intros Hb H. remember [b] as c eqn:Ec. destruct H as [b' Hb'|b' l d H].
  - injection Ec as ->. reflexivity.
  - injection Ec as -> E. apply app_eq_nil in E. destruct E as [-> ->]. destruct H as [(_ & H1 & H2)|([H|[H|H]] & _)]; try discriminate. lia.
Qed.
Lemma parsed_long d o : parsed (nonmin_prefix d ++ d) o -> means o (Push d) -> exists a m, o = OPushArray a m /\ ba_data a = d.
Proof.
  intros H Hm. remember (nonmin_prefix d ++ d) as c eqn:Ec. destruct H as [b' Hb'|b' l d' H].
  - exfalso. destruct (nonmin_head d) as (h & t & En & Hh). rewrite En in Ec. injection Ec as -> _. lia.
  - inversion Hm; subst. do 2 eexists. split; reflexivity.
Qed.
Lemma reparse_op c o x o' i : bytes_ok c -> parsed c o -> serialize_op o = Ok x -> parsed (ba_data x) o' -> means o i -> means o' i -> op_eqb o o' = true.
Proof.
  intros Hok Hp Ex Hp' Hm Hm'. destruct Hp as [b Hb|b l d H].
  - assert (byte_ok b) as Hb0 by (apply bytes_ok_cons in Hok; tauto).
    rewrite (op_of_byte_ser b x Hb0 Hb Ex) in Hp'. rewrite (parsed_one b o' Hb Hp'). apply op_eqb_iff. destruct (op_of_byte b); reflexivity.
  - set (m := push_head d =? b) in *.
    destruct (parsed_ser _ _ Hok (PaPush b l d H)) as ((Hd & Hl) & _). cbn [ba_data ba_unnamed] in Hd, Hl.
    destruct (ser_push (ba_unnamed d) m Hd Hl) as (r & Er & Dr). cbn [ba_data ba_unnamed] in Dr.
    assert (x = r) as -> by (unfold m in *; congruence). rewrite Dr in Hp'.
    assert (push_bytes d m = nonmin_prefix d ++ d) as E.
    { unfold push_bytes. destruct m eqn:Em; cbn [andb]; [|reflexivity]. destruct (one_op d) eqn:Eo; [|reflexivity]. exfalso.
      apply (push_head_not d b Eo); [|now apply Z.eqb_eq]. destruct H as [(_ & H & _)|([H|[H|H]] & _)]; [auto|right; left|right; right; left|right; right; right]; congruence. }
    rewrite E in Hp'. inversion Hm; subst. cbn [ba_data ba_unnamed] in Hm'. destruct (parsed_long d o' Hp' Hm') as (a & m' & -> & Ha).
    apply op_eqb_iff. symmetry. exact Ha.
Qed.
Lemma script_reparse chunks ops : Forall2 parsed chunks ops -> bytes_ok (concat chunks) ->
  exists x ops', serialize_ops ops = Ok x /\ bytes_ok (ba_data x) /\ deserialize_ops (ba_data x) = Ok ops' /\ Forall2 (fun o o' => op_eqb o o' = true) ops ops'.
Proof.
  intros Hp Hok. assert (exists ps is, omap serialize_op ops = Ok ps /\ Forall2 chunk (map ba_data ps) is /\ Forall2 means ops is /\ bytes_ok (concat (map ba_data ps)))
    as (ps & is & E & Hc & Hm & Hb).
  { destruct (ser_parsed chunks ops Hp Hok) as (Hoo & _). clear - Hoo. induction Hoo as [|o ops Ho _ (ps & is & E & H1 & H2 & H4)].
    - exists [], []. repeat split; try constructor.
    - destruct (ser_op_ok o Ho) as (a & i & Ea & Hm & Hc & Hs). exists (a :: ps), (i :: is). split; [now apply omap_app_cons|].
      cbn [map concat]. repeat split; try (constructor; assumption). apply bytes_ok_app. split; [|assumption]. eapply chunk_ok; eauto. eapply means_ok; eauto. }
  destruct (deser_chunks _ _ Hc Hb) as (ops' & E' & Hp' & Hm'). exists (ba_from_parts ps), ops'.
  unfold serialize_ops. rewrite E. cbn [obind]. rewrite from_parts_data. split; [reflexivity|]. split; [exact Hb|]. split; [exact E'|].
  clear E' Hc Hb. revert ps is ops' E Hm Hp' Hm'. induction Hp as [|c o chunks ops Hc _ IH]; intros ps is ops' E Hm Hp' Hm'.
  - injection E as <-. inversion Hp'; subst. constructor.
  - cbn [concat] in Hok. apply bytes_ok_app in Hok. destruct Hok as [Hok1 Hok2]. cbn [omap] in E. apply obind_ok in E. destruct E as (x & Ex & E). apply obind_ok in E. destruct E as (xs & Exs & E). injection E as <-.
    inversion Hm as [|? i ? is' Hi His]; subst. cbn [map] in Hp'. inversion Hp' as [|? o' ? ops'' Po Pos]; subst. inversion Hm' as [|? ? ? ? Mo Mos]; subst.
    constructor; [exact (reparse_op c o x o' i Hok1 Hc Ex Po Hi Mo)|]. exact (IH Hok2 xs is' ops'' Exs His Pos Mos).
Qed.
Lemma F2_same_l l l1 l2 : Forall2 same_op l1 l -> Forall2 (fun o o' => op_eqb o o' = true) l1 l2 -> Forall2 (fun o o' => op_eqb o o' = true) l l2.
Proof.
  intros H. revert l2. induction H as [|o1 o l1 l Ho _ IH]; intros l2 H2; inversion H2; subst; constructor; auto.
  eapply op_eqb_same; [apply same_op_sym; eassumption|assumption].
Qed.
Lemma F2_same_r l l1 l2 : Forall2 (fun o o' => op_eqb o o' = true) l l1 -> Forall2 same_op l1 l2 -> Forall2 (fun o o' => op_eqb o o' = true) l l2.
Proof.
  intros H. revert l2. induction H as [|o1 o l1 l Ho _ IH]; intros l2 H2; inversion H2; subst; constructor; auto.
  eapply op_eqb_same'; eassumption.
Qed.
Lemma script_from_ops_eqb ops ops' : Forall2 (fun o o' => op_eqb o o' = true) ops ops' -> script_eqb (script_from_ops ops) (script_from_ops ops') = true.
Proof. intros H. apply script_eqb_iff. unfold script_from_ops. induction H; cbn [map]; constructor; auto. Qed.

Lemma script_rereads : rereads_equal script_codec script_eqb.
Proof.
  intros t s t' Hok Hmem H. destruct (w_sound _ _ _ _ script_wlaws t s t' Hok Hmem H) as (Vs & _).
  cbn [script_codec c_deser_rest] in H. apply obind_ok in H. destruct H as ((a & t1) & E1 & H).
  apply obind_ok in H. destruct H as (ops & E2 & H). injection H as <- <-.
  destruct (w_sound _ _ _ _ bytes_wlaws t a t1 Hok Hmem E1) as ([Hoka Hma] & _).
  pose proof (deserialize_agree a Hoka) as Ha.
  destruct (deserialize_ops_total (ba_data a) Hoka) as [(ch & is & ops0 & Hch & Hc & Hmean & Hp & E0)|[_ E0]]; rewrite E0 in Ha.
  2:{ destruct Ha as (e & Ha). congruence. }
  destruct Ha as (ops' & E' & So). rewrite E2 in E'. injection E' as <-.
  rewrite Hch in Hoka. destruct (script_reparse ch ops0 Hp Hoka) as (x & ops1 & Ex & Bx & Ed & Heq).
  destruct (same_ops_ser ops0 ops x So Ex) as (y & Ey & Dy). rewrite <- Dy in Ed, Bx.
  assert (script_ser_ops (script_from_ops ops) = Ok y) as Es by (unfold script_ser_ops; rewrite map_t_op_from, Ey; reflexivity).
  assert (in_memory (ba_len y)) as Hy by (apply Vs; exact Es).
  cbn [script_codec c_ser]. rewrite Es. cbn [obind bytearray_codec c_ser]. eexists. split; [reflexivity|].
  intros d rest Hd Hr. rewrite concat_data in Hd. cbn [ba_data ba_new] in Hd. rewrite <- app_assoc in Hd.
  cbn [script_codec bytearray_codec c_deser_rest].
  destruct (read_size_data d _ _ (ba_len y) Hd) as (r & E & Dr); [apply (wire_size_encode (ba_len y) true (mem_u64 _ Hy))|]. rewrite E. cbn [obind].
  destruct (split_data r _ _ Dr) as (l & r' & E'' & Dl & Dr'). unfold ba_len. rewrite E''. cbn [obind].
  pose proof (deserialize_agree l) as Hl. rewrite Dl, Ed in Hl. destruct (Hl Bx) as (ops2 & Eo2 & So2). rewrite Eo2. cbn [obind].
  eexists _, r'. split; [reflexivity|]. split; [|exact Dr']. apply script_from_ops_eqb. eapply F2_same_r; [|exact So2]. eapply F2_same_l; [|exact Heq]. exact So.
Qed.

(* ---------- characterisations ---------- *)
Lemma vec_eqb_iff {A} (eqb : A -> A -> bool) (R : A -> A -> Prop) : (forall a b, eqb a b = true <-> R a b) -> forall l l', vec_eqb eqb l l' = true <-> Forall2 R l l'.
Proof.
  intros H. induction l as [|x l IH]; intros [|y l']; cbn [vec_eqb]; split; intros E; try discriminate; try (inversion E; fail); try constructor.
  - apply andb_true_iff in E. apply H. apply E.
  - apply andb_true_iff in E. apply IH. apply E.
  - inversion E; subst. apply andb_true_iff. split; [now apply H|now apply IH].
Qed.
Lemma option_eqb_iff {A} (eqb : A -> A -> bool) (R : A -> A -> Prop) : (forall a b, eqb a b = true <-> R a b) -> forall l l', option_eqb eqb l l' = true <-> same_option R l l'.
Proof. intros H [x|] [y|]; cbn [option_eqb same_option]; try (apply H); split; try discriminate; tauto. Qed.
Lemma option_eqb_eq {A} (eqb : A -> A -> bool) : (forall a b, eqb a b = true <-> a = b) -> forall l l', option_eqb eqb l l' = true <-> l = l'.
Proof. intros H [x|] [y|]; cbn [option_eqb]; rewrite ?H; split; congruence. Qed.
Lemma vec_eqb_eq l l' : vec_eqb Z.eqb l l' = true <-> l = l'.
Proof.
  rewrite (vec_eqb_iff Z.eqb eq Z.eqb_eq). split; [intros H; induction H; congruence|intros ->; induction l'; constructor; auto].
Qed.
Lemma outpoint_eqb_iff a b : outpoint_eqb a b = true <-> same_outpoint a b.
Proof. unfold outpoint_eqb, same_outpoint. rewrite andb_true_iff, ba_eqb_spec, Z.eqb_eq. tauto. Qed.
Lemma input_eqb_iff a b : input_eqb a b = true <-> full_same_input equal_script a b.
Proof.
  unfold input_eqb, full_same_input. rewrite !andb_true_iff, outpoint_eqb_iff, equal_script_iff, Z.eqb_eq.
  rewrite (option_eqb_iff script_eqb equal_script equal_script_iff), (option_eqb_eq Z.eqb Z.eqb_eq), (option_eqb_eq Bool.eqb Bool.eqb_true_iff), (option_eqb_eq _ vec_eqb_eq). tauto.
Qed.
Lemma output_eqb_iff a b : output_eqb a b = true <-> full_same_output equal_script a b.
Proof. unfold output_eqb, full_same_output. rewrite andb_true_iff, Z.eqb_eq, equal_script_iff. tauto. Qed.
Lemma unhashed_eqb_iff a b : unhashed_tx_eqb a b = true <-> full_same_tx equal_script a b.
Proof.
  unfold unhashed_tx_eqb, full_same_tx. rewrite !andb_true_iff, !Z.eqb_eq, (vec_eqb_iff _ _ input_eqb_iff), (vec_eqb_iff _ _ output_eqb_iff). tauto.
Qed.
Lemma tx_eqb_iff a b : tx_eqb a b = true <-> same_hashed_tx equal_script a b.
Proof. unfold tx_eqb, same_hashed_tx, same_bytes. rewrite !andb_true_iff, unhashed_eqb_iff, !ba_eqb_spec. tauto. Qed.
Lemma unsigned_eqb_iff a b : unsigned_input_eqb a b = true <-> same_unsigned a b.
Proof. unfold unsigned_input_eqb, same_unsigned. rewrite !andb_true_iff, outpoint_eqb_iff, !Z.eqb_eq. tauto. Qed.

(* ---------- equivalences ---------- *)
Lemma vec_equivalence {A} (eqb : A -> A -> bool) : equivalence eqb -> equivalence (vec_eqb eqb).
Proof.
  intros (R & S & T). split; [|split].
  - induction a as [|x a IH]; [reflexivity|]. cbn [vec_eqb]. now rewrite R, IH.
  - induction a as [|x a IH]; intros [|y b]; try reflexivity. cbn [vec_eqb]. now rewrite S, IH.
  - induction a as [|x a IH]; intros [|y b] [|z c]; cbn [vec_eqb]; auto; try discriminate. rewrite !andb_true_iff. intros (H1 & H2) (H3 & H4).
    split; [eapply T; eauto|eapply IH; eauto].
Qed.
Lemma option_equivalence {A} (eqb : A -> A -> bool) : equivalence eqb -> equivalence (option_eqb eqb).
Proof.
  intros (R & S & T). split; [|split].
  - intros [a|]; cbn; auto.
  - intros [a|] [b|]; cbn; auto.
  - intros [a|] [b|] [c|]; cbn; auto; try discriminate. apply T.
Qed.
Lemma eqb_equivalence {A} (eqb : A -> A -> bool) : (forall a b, eqb a b = true <-> a = b) -> equivalence eqb.
Proof.
  intros H. split; [|split].
  - intros a. now apply H.
  - intros a b. apply eq_true_iff_eq. rewrite !H. split; congruence.
  - intros a b c. rewrite !H. congruence.
Qed.
Lemma on_equivalence {A B} (f : A -> B) (eqb : B -> B -> bool) : equivalence eqb -> equivalence (fun a b => eqb (f a) (f b)).
Proof. intros (R & S & T). split; [|split]; intros; eauto. Qed.
Lemma and_equivalence {A} (e1 e2 : A -> A -> bool) : equivalence e1 -> equivalence e2 -> equivalence (fun a b => e1 a b && e2 a b).
Proof.
  intros (R & S & T) (R2 & S2 & T2). split; [|split].
  - intros a. now rewrite R, R2.
  - intros a b. now rewrite S, S2.
  - intros a b c. rewrite !andb_true_iff. intros (H1 & H2) (H3 & H4). split; eauto.
Qed.
Ltac and_eq := repeat match goal with |- equivalence (fun a b => @?e1 a b && @?e2 a b) => apply (and_equivalence e1 e2) end.
Lemma Z_equiv : equivalence Z.eqb. Proof. exact (eqb_equivalence Z.eqb Z.eqb_eq). Qed.
Lemma bool_equiv : equivalence Bool.eqb. Proof. exact (eqb_equivalence Bool.eqb Bool.eqb_true_iff). Qed.
Lemma ba_equiv : equivalence ba_eqb.
Proof.
  split; [|split].
  - intros a. now apply ba_eqb_spec.
  - intros a b. apply eq_true_iff_eq. rewrite !ba_eqb_spec. split; congruence.
  - intros a b c. rewrite !ba_eqb_spec. congruence.
Qed.
Lemma script_equiv : equivalence script_eqb. Proof. exact C46_equality_is_equivalence. Qed.
Lemma outpoint_equiv : equivalence outpoint_eqb.
Proof. apply (and_equivalence (fun a b => ba_eqb (op_tx_hash a) (op_tx_hash b)) (fun a b => op_vout a =? op_vout b)); [apply (on_equivalence op_tx_hash), ba_equiv|apply (on_equivalence op_vout), Z_equiv]. Qed.
Lemma input_equiv : equivalence input_eqb.
Proof.
  unfold input_eqb. and_eq;
  [apply (on_equivalence in_prev_out), outpoint_equiv|apply (on_equivalence in_script), script_equiv|apply (on_equivalence in_sequence), Z_equiv
  |apply (on_equivalence in_lock_script), option_equivalence, script_equiv|apply (on_equivalence in_value), option_equivalence, Z_equiv
  |apply (on_equivalence in_is_p2sh), option_equivalence, bool_equiv|apply (on_equivalence in_sig_hash_flags), option_equivalence, vec_equivalence, Z_equiv].
Qed.
Lemma output_equiv : equivalence output_eqb.
Proof. apply (and_equivalence (fun a b => out_value a =? out_value b) (fun a b => script_eqb (out_script a) (out_script b))); [apply (on_equivalence out_value), Z_equiv|apply (on_equivalence out_script), script_equiv]. Qed.
Lemma unhashed_equiv : equivalence unhashed_tx_eqb.
Proof.
  unfold unhashed_tx_eqb. and_eq;
  [apply (on_equivalence tx_version), Z_equiv|apply (on_equivalence tx_inputs), vec_equivalence, input_equiv|apply (on_equivalence tx_outputs), vec_equivalence, output_equiv|apply (on_equivalence tx_lock_time), Z_equiv].
Qed.
Lemma tx_equiv : equivalence tx_eqb.
Proof.
  unfold tx_eqb. and_eq;
  [apply (on_equivalence tx_unhashed), unhashed_equiv|apply (on_equivalence tx_hash), ba_equiv|apply (on_equivalence tx_raw), ba_equiv].
Qed.
Lemma unsigned_equiv : equivalence unsigned_input_eqb.
Proof.
  unfold unsigned_input_eqb. and_eq;
  [apply (on_equivalence ui_prev_out), outpoint_equiv|apply (on_equivalence ui_sequence), Z_equiv|apply (on_equivalence ui_value), Z_equiv].
Qed.

(* ---------- reading again ---------- *)
Lemma simple_rereads {A} (c : codec A) (value : A -> Prop) same W eqb : wlaws c value same W -> roundtrips c value same ->
  (forall a b, same a b -> eqb a b = true) -> rereads_equal c eqb.
Proof.
  intros L R H d a rest Hok Hm E. destruct (w_sound _ _ _ _ L d a rest Hok Hm E) as (Va & _).
  destruct (R a Va) as (s & Es & _ & K). exists s. split; [exact Es|]. intros d' rest' Hd Hr. destruct (K d' rest' Hd Hr) as (a' & u & E' & S & Du).
  exists a', u. auto.
Qed.
Lemma ser_bytes_ok {A} (c : codec A) (value : A -> Prop) same a s : roundtrips c value same -> value a -> c_ser c a = Ok s -> bytes_ok (ba_data s).
Proof. intros R V E. destruct (R a V) as (s' & E' & B & _). congruence. Qed.
Lemma pair_rereads {A B} (ca : codec A) (cb : codec B) va sa Wa vb sb Wb ea eb : wlaws ca va sa Wa -> wlaws cb vb sb Wb -> laws cb vb sb ->
  rereads_equal ca ea -> rereads_equal cb eb ->
  rereads_equal (pair_codec ca cb) (fun x y => ea (fst x) (fst y) && eb (snd x) (snd y)).
Proof.
  intros La Lb (Rtb & _) Ra Rb d [a b] rest Hok Hm H. cbn [pair_codec c_deser_rest] in H. apply obind_ok in H.
  destruct H as ((a0 & t1) & E1 & H). apply obind_ok in H. destruct H as ((b0 & t2) & E2 & H). injection H as -> -> ->.
  destruct (w_sound _ _ _ _ La d a t1 Hok Hm E1) as (_ & x & _ & _ & Dx).
  assert (bytes_ok (ba_data t1)) as Hok1 by (rewrite Dx in Hok; apply bytes_ok_app in Hok; tauto).
  assert (in_memory (ba_len t1)) as Hm1 by (unfold ba_len in *; rewrite Dx in Hm; now apply mem_app in Hm).
  destruct (w_sound _ _ _ _ Lb t1 b rest Hok1 Hm1 E2) as (Vb & _).
  destruct (Ra d a t1 Hok Hm E1) as (sa' & Esa & Ka). destruct (Rb t1 b rest Hok1 Hm1 E2) as (sb' & Esb & Kb).
  exists (ba_concat sa' sb'). cbn [pair_codec c_ser fst snd]. rewrite Esa. cbn [obind]. rewrite Esb. cbn [obind]. split; [reflexivity|].
  intros d' rest' Hd Hr. rewrite concat_data, <- app_assoc in Hd.
  destruct (Ka d' _ Hd) as (a' & u & F1 & S1 & D1); [apply bytes_ok_app; split; [exact (ser_bytes_ok cb vb sb b sb' Rtb Vb Esb)|exact Hr]|].
  destruct (Kb u rest' D1 Hr) as (b' & u' & F2 & S2 & D2). exists (a', b'), u'. cbn [pair_codec c_deser_rest]. rewrite F1. cbn [obind]. rewrite F2. cbn [obind fst snd].
  rewrite S1, S2. auto.
Qed.
Lemma iso_rereads {A B} (c : codec A) (c' : codec B) (f : A -> B) (g : B -> A) ea eb :
  rereads_equal c' eb -> (forall b b', eb b b' = true -> ea (g b) (g b') = true) -> (forall b, f (g b) = b) ->
  (forall a y, c_ser c' (f a) = Ok y -> exists x, c_ser c a = Ok x /\ ba_data x = ba_data y) ->
  (forall t, c_deser_rest c t = do (b, t') <- c_deser_rest c' t; Ok (g b, t')) ->
  rereads_equal c ea.
Proof.
  intros R He Hfg Hser Hde d a rest Hok Hm H. rewrite Hde in H. apply obind_ok in H. destruct H as ((b & t1) & E & H). injection H as <- <-.
  destruct (R d b t1 Hok Hm E) as (y & Ey & K). rewrite <- (Hfg b) in Ey. destruct (Hser (g b) y Ey) as (x & Ex & Dx). exists x. split; [exact Ex|].
  intros d' rest' Hd Hr. rewrite Dx in Hd. destruct (K d' rest' Hd Hr) as (b' & u & E' & S & Du). exists (g b'), u. rewrite Hde, E'. cbn [obind]. auto.
Qed.
Section VecRereads.
Context {A : Type} (c : codec A) (value : A -> Prop) (same : A -> A -> Prop) (W : bool -> A -> list Z -> Prop) (eqb : A -> A -> bool).
Hypothesis L : wlaws c value same W.
Hypothesis Rt : roundtrips c value same.
Hypothesis R : rereads_equal c eqb.
Lemma vec_loop_rereads n : forall d v rest, bytes_ok (ba_data d) -> in_memory (ba_len d) -> vec_loop c n d = Ok (v, rest) ->
  length v = n /\ exists parts, omap (c_ser c) v = Ok parts /\ bytes_ok (concat (map ba_data parts)) /\
    forall d' rest', ba_data d' = concat (map ba_data parts) ++ rest' -> bytes_ok rest' ->
      exists v' u, vec_loop c n d' = Ok (v', u) /\ vec_eqb eqb v v' = true /\ ba_data u = rest'.
Proof.
  induction n as [|n IH]; intros d v rest Hok Hm H.
  - injection H as <- <-. split; [reflexivity|]. exists []. split; [reflexivity|]. split; [constructor|]. intros d' rest' Hd _. exists [], d'. auto.
  - cbn [vec_loop] in H. apply obind_ok in H. destruct H as ((a & t1) & E1 & H). apply obind_ok in H. destruct H as ((v1 & t2) & E2 & H).
    injection H as <- <-. destruct (w_sound _ _ _ _ L d a t1 Hok Hm E1) as (Va & x & _ & _ & Dx).
    assert (bytes_ok (ba_data t1)) as Hok1 by (rewrite Dx in Hok; apply bytes_ok_app in Hok; tauto).
    assert (in_memory (ba_len t1)) as Hm1 by (unfold ba_len in *; rewrite Dx in Hm; now apply mem_app in Hm).
    destruct (IH t1 v1 t2 Hok1 Hm1 E2) as (Hl & parts & Ep & Bp & K). destruct (R d a t1 Hok Hm E1) as (s & Es & Ks).
    split; [cbn; lia|]. exists (s :: parts). split; [now apply omap_app_cons|]. cbn [map concat].
    split; [apply bytes_ok_app; split; [exact (ser_bytes_ok c value same a s Rt Va Es)|exact Bp]|].
    intros d' rest' Hd Hr. rewrite <- app_assoc in Hd. destruct (Ks d' _ Hd) as (a' & u & F1 & S1 & D1); [apply bytes_ok_app; auto|].
    destruct (K u rest' D1 Hr) as (v' & u' & F2 & S2 & D2). exists (a' :: v'), u'. cbn [vec_loop vec_eqb]. rewrite F1. cbn [obind]. rewrite F2. cbn [obind].
    rewrite S1, S2. auto.
Qed.
Lemma vec_rereads sz : rereads_equal (vec_codec sz c) (vec_eqb eqb).
Proof.
  intros d v rest Hok Hm H. cbn [vec_codec c_deser_rest] in H. apply obind_ok in H. destruct H as ((n & r) & E1 & H).
  destruct (Z.ltb_spec (2 ^ 63 - 1) (n * sz)) as [|Hsz]; [discriminate|].
  apply read_size_inv in E1; [|assumption]. destruct E1 as (p & Dt & Hv). destruct (varint_ok n p Hv) as [_ Hn].
  assert (bytes_ok (ba_data r)) as Hok1 by (rewrite Dt in Hok; apply bytes_ok_app in Hok; tauto).
  assert (in_memory (ba_len r)) as Hm1 by (unfold ba_len in *; rewrite Dt in Hm; now apply mem_app in Hm).
  destruct (vec_loop_rereads _ r v rest Hok1 Hm1 H) as (Hl & parts & Ep & Bp & K).
  assert (zlen v = n) as Hz by (unfold u64_ok in Hn; unfold zlen; rewrite Hl; lia).
  cbn [vec_codec c_ser]. rewrite Ep. cbn [obind]. eexists. split; [reflexivity|]. intros d' rest' Hd Hr.
  rewrite concat_data, from_parts_data in Hd. cbn [ba_data ba_new] in Hd. rewrite <- app_assoc in Hd.
  destruct (read_size_data d' _ _ n Hd) as (r' & E2 & Dr); [rewrite Hz; apply (wire_size_encode n true Hn)|].
  destruct (K r' rest' Dr Hr) as (v' & u & F & S & Du). exists v', u. cbn [vec_codec c_deser_rest]. rewrite E2. cbn [obind].
  destruct (Z.ltb_spec (2 ^ 63 - 1) (n * sz)); [lia|]. auto.
Qed.
End VecRereads.

Lemma int_rereads n signed : (0 < n)%nat -> rereads_equal (int_codec n signed) Z.eqb.
Proof. intros H. eapply simple_rereads; [exact (int_wlaws n signed H)|exact (proj1 (int_laws n signed H))|]. intros a b ->. apply Z.eqb_refl. Qed.
Lemma outpoint_rereads : rereads_equal outpoint_codec outpoint_eqb.
Proof. eapply simple_rereads; [exact outpoint_wlaws|exact (proj1 outpoint_laws)|]. intros a b H. now apply outpoint_eqb_iff. Qed.
Lemma output_rereads : rereads_equal output_codec output_eqb.
Proof.
  eapply (iso_rereads output_codec (pair_codec u64_codec script_codec)
    (fun o => (out_value o, out_script o)) (fun ab => TxOutput (fst ab) (snd ab))).
  - eapply pair_rereads; [apply u64_wlaws|apply script_wlaws|apply script_laws|apply (int_rereads 8 false); lia|apply script_rereads].
  - intros b b' H. exact H.
  - intros [a b]. reflexivity.
  - intros a y H. cbn [pair_codec c_ser fst snd] in H. split_ser H. cbn [output_codec c_ser]. rec_ser.
  - intros t. cbn [output_codec pair_codec c_deser_rest]. rec_deser.
Qed.
Lemma input_rereads : rereads_equal input_codec input_eqb.
Proof.
  eapply (iso_rereads input_codec (pair_codec outpoint_codec (pair_codec script_codec u32_codec))
    (fun o => (in_prev_out o, (in_script o, in_sequence o)))
    (fun ab => TxInput (fst ab) (fst (snd ab)) (snd (snd ab)) None None None None)).
  - eapply pair_rereads; [apply outpoint_wlaws|eapply pair_wlaws; [apply script_laws|apply script_wlaws|apply u32_wlaws]|apply pair_laws; [apply script_laws|apply u32_laws]|apply outpoint_rereads|].
    eapply pair_rereads; [apply script_wlaws|apply u32_wlaws|apply u32_laws|apply script_rereads|apply (int_rereads 4 false); lia].
  - intros [a [b c]] [a' [b' c']] H. cbn [fst snd] in H. unfold input_eqb. cbn [in_prev_out in_script in_sequence in_lock_script in_value in_is_p2sh in_sig_hash_flags option_eqb fst snd].
    rewrite !andb_true_r. rewrite andb_assoc in H. exact H.
  - intros [a [b c]]. reflexivity.
  - intros a y H. cbn [pair_codec c_ser fst snd] in H. do 2 split_ser H. cbn [input_codec c_ser]. rec_ser.
  - intros t. cbn [input_codec pair_codec c_deser_rest]. rec_deser.
Qed.
Lemma tx_rereads si so : rereads_equal (unhashed_tx_codec si so) unhashed_tx_eqb.
Proof.
  pose proof (vec_laws si _ _ _ input_laws) as LI. pose proof (vec_laws so _ _ _ output_laws) as LO.
  pose proof (vec_wlaws input_codec _ _ _ input_wlaws (proj2 input_laws) si) as WI. pose proof (vec_wlaws output_codec _ _ _ output_wlaws (proj2 output_laws) so) as WO.
  eapply (iso_rereads (unhashed_tx_codec si so)
    (pair_codec i32_codec (pair_codec (vec_codec si input_codec) (pair_codec (vec_codec so output_codec) u32_codec)))
    (fun o => (tx_version o, (tx_inputs o, (tx_outputs o, tx_lock_time o))))
    (fun ab => UnhashedTx (fst ab) (fst (snd ab)) (fst (snd (snd ab))) (snd (snd (snd ab))))).
  - eapply pair_rereads; [apply i32_wlaws|eapply pair_wlaws; [apply LI|apply WI|eapply pair_wlaws; [apply LO|apply WO|apply u32_wlaws]]|
      apply pair_laws; [apply LI|apply pair_laws; [apply LO|apply u32_laws]]|apply (int_rereads 4 true); lia|].
    eapply pair_rereads; [apply WI|eapply pair_wlaws; [apply LO|apply WO|apply u32_wlaws]|apply pair_laws; [apply LO|apply u32_laws]|
      eapply vec_rereads; [apply input_wlaws|apply input_laws|apply input_rereads]|].
    eapply pair_rereads; [apply WO|apply u32_wlaws|apply u32_laws|eapply vec_rereads; [apply output_wlaws|apply output_laws|apply output_rereads]|apply (int_rereads 4 false); lia].
  - intros [a [b [c e]]] [a' [b' [c' e']]] H. cbn [fst snd] in H. unfold unhashed_tx_eqb. cbn [tx_version tx_inputs tx_outputs tx_lock_time fst snd].
    rewrite !andb_assoc in H. exact H.
  - intros [a [b [c e]]]. reflexivity.
  - intros a y H. cbn [pair_codec c_ser fst snd] in H. do 3 split_ser H. cbn [unhashed_tx_codec c_ser] in *. rec_ser.
  - intros t. cbn [unhashed_tx_codec pair_codec c_deser_rest]. rec_deser.
Qed.
