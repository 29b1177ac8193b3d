From Verif Require Import Base BaseLemmas Model_Encoding Spec_Encoding Proofs_Encoding Spec_Integer
  Model_ByteArray Proofs_ByteArray Model_Opcode Model_Script Spec_Script Proofs_Script Model_Code Spec_Code Spec_Wire Proofs_Code Proofs_Wire.
From Coq Require Import ZifyBool ZifyNat.
Local Open Scope Z_scope.

(* ---------- "same" relations are partial equivalences ---------- *)
Definition per {A} (R : A -> A -> Prop) : Prop := (forall a b, R a b -> R b a) /\ (forall a b c, R a b -> R b c -> R a c).
Lemma per_eq {A} : per (@eq A). Proof. split; congruence. Qed.
Lemma per_bytes : per same_bytes. Proof. split; unfold same_bytes; congruence. Qed.
Lemma per_Forall2 {A} (R : A -> A -> Prop) : per R -> per (Forall2 R).
Proof.
  intros [S T]. split.
  - induction 1; constructor; auto.
  - intros a b c H. revert c. induction H as [|x y l m Hxy _ IH]; intros c Hc; inversion Hc; subst; constructor; eauto.
Qed.
Lemma per_script : per same_script.
Proof.
  unfold same_script. apply per_Forall2. split.
  - intros a b (i & H1 & H2). eauto.
  - intros a b c (i & H1 & H2) (j & H3 & H4). rewrite (means_fun _ _ _ H3 H2) in *. eauto.
Qed.
Lemma per_outpoint : per same_outpoint. Proof. split; unfold same_outpoint; intuition congruence. Qed.
Lemma per_input : per same_input.
Proof.
  destruct per_outpoint as [S1 T1], per_script as [S2 T2]. split; unfold same_input.
  - intros a b (H1 & H2 & H3). auto.
  - intros a b c (H1 & H2 & H3) (H4 & H5 & H6). split; [eauto|]. split; [eauto|congruence].
Qed.
Lemma per_output : per same_output.
Proof.
  destruct per_script as [S2 T2]. split; unfold same_output.
  - intros a b (H1 & H2). auto.
  - intros a b c (H1 & H2) (H4 & H5). split; [congruence|eauto].
Qed.
Lemma per_tx : per same_tx.
Proof.
  destruct (per_Forall2 _ per_input) as [S1 T1], (per_Forall2 _ per_output) as [S2 T2]. split; unfold same_tx.
  - intros a b (H1 & H2 & H3 & H4). auto.
  - intros a b c (H1 & H2 & H3 & H4) (G1 & G2 & G3 & G4). split; [congruence|]. split; [eauto|]. split; [eauto|congruence].
Qed.
Lemma per_preimage : per same_preimage.
Proof.
  destruct per_outpoint as [S1 T1], per_script as [S2 T2]. split; unfold same_preimage.
  - intros a b H. decompose [and] H. repeat split; auto; apply S1; auto.
  - intros a b c H G. decompose [and] H. decompose [and] G. repeat split; try congruence; eauto; eapply T1; eauto.
Qed.
Lemma per_raw : per same_raw. Proof. split; unfold same_raw; congruence. Qed.

(* ---------- injective and prefix-free ---------- *)
Lemma codec_prefix_free {A} (c : codec A) value same : per same -> roundtrips c value same ->
  forall a b x y r s, value a -> value b -> c_ser c a = Ok x -> c_ser c b = Ok y -> bytes_ok r ->
  ba_data x ++ r = ba_data y ++ s -> same a b /\ ba_data x = ba_data y /\ r = s.
Proof.
  intros [S T] R a b x y r s Ha Hb Ex Ey Hr H.
  destruct (R a Ha) as (x' & Ex' & Ox & Px). rewrite Ex in Ex'. injection Ex' as <-.
  destruct (R b Hb) as (y' & Ey' & Oy & Py). rewrite Ey in Ey'. injection Ey' as <-.
  assert (bytes_ok (ba_data y ++ s)) as Hok by (rewrite <- H; apply bytes_ok_app; auto). apply bytes_ok_app in Hok.
  destruct (Px (ba_unnamed (ba_data x ++ r)) r eq_refl Hr) as (a' & t & E1 & S1 & D1).
  destruct (Py (ba_unnamed (ba_data x ++ r)) s H ltac:(tauto)) as (b' & u & E2 & S2 & D2).
  rewrite E1 in E2. injection E2 as <- <-. split; [eauto|]. rewrite D1 in D2. subst s. split; [|reflexivity].
  now apply app_inv_tail in H.
Qed.

(* ---------- deser ---------- *)
Lemma deser_ser {A} (c : codec A) value same : roundtrips c value same -> forall a, value a ->
  exists s, c_ser c a = Ok s /\ forall t, ba_data t = ba_data s -> exists a', c_deser c t = Ok a' /\ same a a'.
Proof.
  intros R a Ha. destruct (R a Ha) as (s & E & _ & P). exists s. split; [assumption|]. intros t Ht.
  destruct (P t []) as (a' & t' & E' & S & D); [now rewrite app_nil_r|constructor|]. exists a'.
  unfold c_deser. rewrite E'. cbn [obind]. unfold ba_len. rewrite D. cbn. auto.
Qed.
Lemma deser_ok_inv {A} (c : codec A) t a : c_deser c t = Ok a -> exists t', c_deser_rest c t = Ok (a, t') /\ ba_data t' = [].
Proof.
  unfold c_deser. intros H. apply obind_ok in H. destruct H as ((x & l) & E & H).
  destruct (Z.eqb_spec (ba_len l) 0) as [Hl|]; [|discriminate]. injection H as <-. exists l. split; [assumption|now apply zlen_0].
Qed.
Lemma deser_suffix {A} (c : codec A) same : self_delimiting c same -> forall t a u suffix, bytes_ok (ba_data t) -> bytes_ok suffix ->
  c_deser c t = Ok a -> ba_data u = ba_data t ++ suffix -> suffix <> [] -> c_deser c u = Err (ELeftover suffix).
Proof.
  intros D t a u suffix Hok Hs H Hu Hne. apply deser_ok_inv in H. destruct H as (t' & E & Dt').
  destruct (D t a t' Hok E) as (p & Dt & P). rewrite Dt', app_nil_r in Dt. rewrite Dt in Hu.
  destruct (P u suffix Hu Hs) as (a' & u' & F & _ & Du). unfold c_deser. rewrite F. cbn [obind]. unfold ba_len. rewrite Du.
  destruct (Z.eqb_spec (zlen suffix) 0) as [Hz|]; [|reflexivity]. apply zlen_0 in Hz. contradiction.
Qed.
Lemma deser_prefix {A} (c : codec A) value same W : laws c value same -> wlaws c value same W ->
  forall a s p q, value a -> c_ser c a = Ok s -> ba_data s = p ++ q -> q <> [] -> forall t, ba_data t = p -> exists e, c_deser c t = Err e.
Proof.
  intros [R D] L a s p q Ha E Hs Hq t Ht.
  destruct (R a Ha) as (s' & E' & Hok & P). rewrite E in E'. injection E' as <-. rewrite Hs in Hok. apply bytes_ok_app in Hok. destruct Hok as [Hp Hqk].
  destruct (P s []) as (a' & s' & F & _ & Ds'); [now rewrite app_nil_r|constructor|].
  unfold c_deser. destruct (c_deser_rest c t) as [[b t']|e|] eqn:Et; cbn [obind]; [|eauto|].
  - destruct (D t b t') as (p1 & Dt & P1); [now rewrite Ht|assumption|].
    destruct (Z.eqb_spec (ba_len t') 0) as [Hz|]; [|eauto]. exfalso. apply zlen_0 in Hz. rewrite Hz, app_nil_r in Dt.
    destruct (P1 s q) as (b' & u' & F' & _ & Du); [congruence|assumption|]. rewrite F in F'. injection F' as <- <-. congruence.
  - exfalso. assert (c_deser_rest c s = Panic) as C; [|congruence]. apply (w_panic _ _ _ _ L t s q); auto; congruence.
Qed.

(* ---------- decode_all ---------- *)
Lemma decode_all_encode {A} (c : codec A) value same : roundtrips c value same ->
  (forall a s, value a -> c_ser c a = Ok s -> ba_data s <> []) ->
  forall vs, Forall value vs -> vs <> [] -> exists enc, encode_all c vs = Ok enc /\
  forall t acc fuel, ba_data t = ba_data enc -> (length vs <= fuel)%nat ->
    exists vs', decode_all_loop c fuel t acc = Some (Ok (acc ++ vs')) /\ Forall2 same vs vs'.
Proof.
  intros R Hne vs Hv. induction Hv as [|a vs Ha Hv IH]; intros Hnil; [congruence|]. clear Hnil.
  destruct (R a Ha) as (x & Ex & Ox & Px). pose proof (Hne a x Ha Ex) as Hx. unfold encode_all.
  destruct vs as [|b vs].
  - exists (ba_from_parts [x]). split; [cbn; rewrite Ex; reflexivity|]. intros t acc fuel Ht Hf. destruct fuel as [|fuel]; [cbn in Hf; lia|].
    rewrite from_parts_data in Ht. cbn in Ht. rewrite app_nil_r in Ht.
    destruct (Px t []) as (a' & t' & E & S & D); [now rewrite app_nil_r|constructor|].
    cbn [decode_all_loop]. rewrite E. unfold ba_len. rewrite D. cbn. exists [a']. split; [reflexivity|]. constructor; [assumption|constructor].
  - destruct IH as (enc & Eenc & P); [discriminate|]. unfold encode_all in Eenc. apply obind_ok in Eenc. destruct Eenc as (ps & Eps & Eenc). injection Eenc as <-.
    exists (ba_from_parts (x :: ps)). rewrite (omap_app_cons (c_ser c) a (b :: vs) x ps Ex Eps). cbn [obind]. split; [reflexivity|].
    intros t acc fuel Ht Hf. destruct fuel as [|fuel]; [cbn in Hf; lia|]. rewrite from_parts_data in Ht. cbn [map concat] in Ht.
    assert (bytes_ok (concat (map ba_data ps)) /\ concat (map ba_data ps) <> []) as [Hok Hcne].
    { clear - Eps Hv R Hne. assert (forall l p, omap (c_ser c) l = Ok p -> Forall value l -> bytes_ok (concat (map ba_data p)) /\ (l <> [] -> concat (map ba_data p) <> [])) as G.
      { clear - R Hne. induction l as [|d l IH]; intros p E Hl; [injection E as <-; split; [constructor|congruence]|].
        cbn in E. apply obind_ok in E. destruct E as (y & Ey & E). apply obind_ok in E. destruct E as (ys & Eys & E). injection E as <-.
        inversion Hl as [|? ? Hd Hl']; subst. destruct (R d Hd) as (y' & Ey' & Oy & _). rewrite Ey in Ey'. injection Ey' as <-. cbn [map concat].
        split; [apply bytes_ok_app; split; [assumption|apply (IH ys Eys Hl')]|]. intros _. pose proof (Hne d y Hd Ey). destruct (ba_data y); [congruence|discriminate]. }
      destruct (G _ _ Eps Hv) as [G1 G2]. split; [assumption|apply G2; discriminate]. }
    destruct (Px t _ Ht Hok) as (a' & t' & E & S & D). cbn [decode_all_loop]. rewrite E.
    destruct (Z.eqb_spec (ba_len t') 0) as [Hz|]; [exfalso; apply zlen_0 in Hz; congruence|].
    destruct (P t' (acc ++ [a']) fuel) as (vs' & E2 & S2); [rewrite D, from_parts_data; reflexivity|cbn [length] in *; lia|].
    exists (a' :: vs'). rewrite E2. rewrite <- app_assoc. split; [reflexivity|now constructor].
Qed.

Lemma decode_all_sound {A} (c : codec A) value same W : wlaws c value same W ->
  forall fuel t acc vs, bytes_ok (ba_data t) -> in_memory (ba_len t) -> decode_all_loop c fuel t acc = Some (Ok vs) ->
  exists vs' parts, vs = acc ++ vs' /\ vs' <> [] /\ Forall2 (W false) vs' parts /\ ba_data t = concat parts.
Proof.
  intros L fuel. induction fuel as [|fuel IH]; intros t acc vs Hok Hm H; [discriminate|]. cbn [decode_all_loop] in H.
  destruct (c_deser_rest c t) as [[a t']|e|] eqn:E; try discriminate.
  destruct (w_sound _ _ _ _ L t a t' Hok Hm E) as (_ & bs & Wa & _ & Dt). rewrite Dt in Hok. apply bytes_ok_app in Hok.
  unfold ba_len in Hm. rewrite Dt in Hm. apply mem_app in Hm.
  destruct (Z.eqb_spec (ba_len t') 0) as [Hz|].
  - injection H as <-. apply zlen_0 in Hz. exists [a], [bs]. split; [reflexivity|]. split; [discriminate|]. split; [auto|].
    cbn. rewrite Dt, Hz. reflexivity.
  - destruct (IH t' _ _ ltac:(tauto) Hm H) as (vs' & parts & -> & _ & F & D). exists (a :: vs'), (bs :: parts).
    split; [now rewrite <- app_assoc|]. split; [discriminate|]. split; [auto|]. cbn. congruence.
Qed.
Lemma decode_all_terminates {A} (c : codec A) value same W : wlaws c value same W ->
  forall fuel t acc, bytes_ok (ba_data t) -> in_memory (ba_len t) -> (length (ba_data t) < fuel)%nat -> decode_all_loop c fuel t acc <> None.
Proof.
  intros L fuel. induction fuel as [|fuel IH]; intros t acc Hok Hm Hf; [lia|]. cbn [decode_all_loop].
  destruct (c_deser_rest c t) as [[a t']|e|] eqn:E; try discriminate.
  destruct (w_sound _ _ _ _ L t a t' Hok Hm E) as (_ & bs & Wa & Hne & Dt). rewrite Dt in Hok. apply bytes_ok_app in Hok.
  unfold ba_len in Hm. rewrite Dt in Hm. apply mem_app in Hm.
  destruct (ba_len t' =? 0); [discriminate|]. apply IH; [tauto|assumption|]. rewrite Dt, app_length in Hf. destruct bs; [congruence|cbn in Hf; lia].
Qed.

(* ---------- panics ---------- *)
Lemma wl_no_panic_fixed n t : 0 <= n -> c_deser_rest (fixed_codec n) t <> Panic.
Proof.
  intros Hn. cbn [fixed_codec c_deser_rest]. destruct (ba_split t n) as [[l r]|e|] eqn:E; cbn [obind]; [|discriminate|now apply split_no_panic in E].
  unfold fixed_from_byte_array. destruct (n =? ba_len l); discriminate.
Qed.
Lemma wl_no_panic_int n s t : c_deser_rest (int_codec n s) t <> Panic.
Proof.
  cbn [int_codec c_deser_rest]. destruct (ba_split t (Z.of_nat n)) as [[l r]|e|] eqn:E; cbn [obind]; [discriminate|discriminate|].
  apply split_no_panic in E; [contradiction|lia].
Qed.
Lemma wl_no_panic_bool t : c_deser_rest bool_codec t <> Panic.
Proof.
  cbn [bool_codec c_deser_rest]. destruct (ba_split t 1) as [[l r]|e|] eqn:E; cbn [obind]; [discriminate|discriminate|].
  apply split_no_panic in E; [contradiction|lia].
Qed.
Lemma wl_no_panic_bytes t : bytes_ok (ba_data t) -> c_deser_rest bytearray_codec t <> Panic.
Proof.
  intros Hok. cbn [bytearray_codec c_deser_rest]. pose proof (read_size_no_panic t Hok) as Hnp.
  destruct (read_size t) as [[n r]|e|] eqn:E; cbn [obind]; [|discriminate|congruence].
  apply read_size_inv in E; [|assumption]. destruct E as (p & Dt & Hv). destruct (varint_ok n p Hv) as [_ Hn]. apply split_no_panic. unfold u64_ok in Hn. lia.
Qed.
Lemma wl_no_panic_script t : bytes_ok (ba_data t) -> c_deser_rest script_codec t <> Panic.
Proof.
  intros Hok H. cbn [script_codec c_deser_rest] in H. pose proof (wl_no_panic_bytes t Hok). destruct (c_deser_rest bytearray_codec t) as [[a t1]|e|] eqn:E; cbn [obind] in H; [|discriminate|congruence].
  assert (bytes_ok (ba_data a)) as Hoka.
  { pose proof E as E1'. cbn [bytearray_codec c_deser_rest] in E1'. apply obind_ok in E1'. destruct E1' as ((n & r) & En & Hsp).
    apply read_size_inv in En; [|assumption]. destruct En as (q & Dq & Hv). destruct (varint_ok n q Hv) as [_ Hn]. unfold u64_ok in Hn.
    apply split_inv in Hsp; [|lia]. destruct Hsp as [Dr _]. rewrite Dq, Dr in Hok. apply bytes_ok_app in Hok. destruct Hok as [_ Hok]. apply bytes_ok_app in Hok. tauto. }
  pose proof (deserialize_agree a Hoka) as Ha. destruct (deserialize_ops (ba_data a)) as [o|e|]; [destruct Ha as (o' & Ha & _)|destruct Ha as (e' & Ha)|contradiction]; rewrite Ha in H; discriminate.
Qed.

(** Bytes left after an accepted item are bytes. *)
Lemma rest_ok {A} (c : codec A) same t a t' : self_delimiting c same -> bytes_ok (ba_data t) -> c_deser_rest c t = Ok (a, t') ->
  bytes_ok (ba_data t') /\ exists p, ba_data t = p ++ ba_data t'.
Proof. intros D Hok E. destruct (D t a t' Hok E) as (p & Dt & _). rewrite Dt in Hok. apply bytes_ok_app in Hok. split; [tauto|eauto]. Qed.

Lemma no_panic_outpoint t : c_deser_rest outpoint_codec t <> Panic.
Proof.
  cbn [outpoint_codec c_deser_rest]. pose proof (wl_no_panic_fixed 32 t ltac:(lia)) as P. fold sha256d_codec in P.
  destruct (c_deser_rest sha256d_codec t) as [[h t1]|e|]; cbn [obind]; [|discriminate|congruence].
  pose proof (wl_no_panic_int 4 false t1) as P2. fold u32_codec in P2. destruct (c_deser_rest u32_codec t1) as [[v t2]|e|]; cbn [obind]; try discriminate. congruence.
Qed.
Lemma no_panic_input t : bytes_ok (ba_data t) -> c_deser_rest input_codec t <> Panic.
Proof.
  intros Hok. cbn [input_codec c_deser_rest]. pose proof (no_panic_outpoint t) as P.
  destruct (c_deser_rest outpoint_codec t) as [[h t1]|e|] eqn:E; cbn [obind]; [|discriminate|congruence].
  destruct (rest_ok _ _ _ _ _ (proj2 outpoint_laws) Hok E) as [Hok1 _].
  pose proof (wl_no_panic_script t1 Hok1) as P1. destruct (c_deser_rest script_codec t1) as [[v t2]|e|]; cbn [obind]; [|discriminate|congruence].
  pose proof (wl_no_panic_int 4 false t2) as P2. fold u32_codec in P2. destruct (c_deser_rest u32_codec t2) as [[w t3]|e|]; cbn [obind]; try discriminate. congruence.
Qed.
Lemma no_panic_output t : bytes_ok (ba_data t) -> c_deser_rest output_codec t <> Panic.
Proof.
  intros Hok. cbn [output_codec c_deser_rest]. pose proof (wl_no_panic_int 8 false t) as P. fold u64_codec in P.
  destruct (c_deser_rest u64_codec t) as [[h t1]|e|] eqn:E; cbn [obind]; [|discriminate|congruence].
  destruct (rest_ok _ _ _ _ _ (proj2 u64_laws) Hok E) as [Hok1 _].
  pose proof (wl_no_panic_script t1 Hok1) as P1. destruct (c_deser_rest script_codec t1) as [[v t2]|e|]; cbn [obind]; try discriminate. congruence.
Qed.
Lemma no_panic_loop {A} (c : codec A) same n : self_delimiting c same -> (forall t, bytes_ok (ba_data t) -> c_deser_rest c t <> Panic) ->
  forall t, bytes_ok (ba_data t) -> vec_loop c n t <> Panic.
Proof.
  intros D P. induction n as [|n IH]; intros t Hok; [discriminate|]. cbn [vec_loop]. pose proof (P t Hok) as Pt.
  destruct (c_deser_rest c t) as [[a t1]|e|] eqn:E; cbn [obind]; [|discriminate|congruence].
  destruct (rest_ok _ _ _ _ _ D Hok E) as [Hok1 _]. pose proof (IH t1 Hok1). destruct (vec_loop c n t1) as [[v t2]|e|]; cbn [obind]; try discriminate. congruence.
Qed.
(** [announces sz bs]: somewhere in [bs] a var-int announces more than isize::MAX / [sz] items. *)
Definition announces (sz : Z) (bs : list Z) : Prop :=
  exists before n len after, bs = before ++ len ++ after /\ is_varint n len /\ 2 ^ 63 - 1 < n * sz.
Lemma announces_app p sz bs : announces sz bs -> announces sz (p ++ bs).
Proof. intros (b & n & l & a & -> & H). exists (p ++ b), n, l, a. rewrite <- !app_assoc. auto. Qed.
Lemma vec_panic {A} sz (c : codec A) same t : self_delimiting c same -> (forall t, bytes_ok (ba_data t) -> c_deser_rest c t <> Panic) ->
  bytes_ok (ba_data t) -> c_deser_rest (vec_codec sz c) t = Panic -> announces sz (ba_data t).
Proof.
  intros D P Hok H. cbn [vec_codec c_deser_rest] in H. pose proof (read_size_no_panic t Hok).
  destruct (read_size t) as [[n r]|e|] eqn:E; cbn [obind] in H; [|discriminate|congruence].
  apply read_size_inv in E; [|assumption]. destruct E as (p & Dt & Hv). rewrite Dt in Hok. apply bytes_ok_app in Hok.
  destruct (Z.ltb_spec (2 ^ 63 - 1) (n * sz)) as [Hb|].
  - exists [], n, p, (ba_data r). auto.
  - exfalso. revert H. apply (no_panic_loop c same); tauto.
Qed.
Lemma no_panic_tx si so t : bytes_ok (ba_data t) -> c_deser_rest (unhashed_tx_codec si so) t = Panic ->
  announces si (ba_data t) \/ announces so (ba_data t).
Proof.
  intros Hok H. unfold unhashed_tx_codec in H. cbn [c_deser_rest] in H.
  pose proof (wl_no_panic_int 4 true t) as P0. fold i32_codec in P0.
  destruct (c_deser_rest i32_codec t) as [[v t1]|e|] eqn:E0; cbn [obind] in H; [|discriminate|congruence].
  destruct (rest_ok _ _ _ _ _ (proj2 i32_laws) Hok E0) as (Hok1 & p0 & D0). rewrite D0.
  destruct (c_deser_rest (vec_codec si input_codec) t1) as [[i t2]|e|] eqn:E1; [|discriminate|].
  - cbn [obind] in H. destruct (rest_ok _ _ _ _ _ (proj2 (vec_laws si _ _ _ input_laws)) Hok1 E1) as (Hok2 & p1 & D1). rewrite D1.
    destruct (c_deser_rest (vec_codec so output_codec) t2) as [[o t3]|e|] eqn:E2; cbn [obind] in H; [|discriminate|].
    + pose proof (wl_no_panic_int 4 false t3) as P3. fold u32_codec in P3.
      destruct (c_deser_rest u32_codec t3) as [[l t4]|e|]; cbn [obind] in H; try discriminate. congruence.
    + right. do 2 apply announces_app. eapply vec_panic; eauto; [apply (proj2 output_laws)|apply no_panic_output].
  - left. apply announces_app. eapply vec_panic; eauto; [apply (proj2 input_laws)|apply no_panic_input].
Qed.
