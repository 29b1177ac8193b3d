From Verif Require Import Base BaseLemmas Model_Encoding Spec_Encoding Proofs_Encoding Spec_Integer
  Model_ByteArray Proofs_ByteArray Model_Opcode Model_Script Spec_Script Proofs_Script Model_Code Spec_Code Spec_Wire Proofs_Code.
From Coq Require Import ZifyBool ZifyNat.
Local Open Scope Z_scope.

Record wlaws {A} (c : codec A) (value : A -> Prop) (same : A -> A -> Prop) (W : bool -> A -> list Z -> Prop) : Prop := WLaws {
  w_write : forall a, value a -> exists s, c_ser c a = Ok s /\ W true a (ba_data s);
  w_complete : forall strict a bs, value a -> W strict a bs -> bytes_ok bs ->
    forall t rest, ba_data t = bs ++ rest -> bytes_ok rest ->
    exists a' t', c_deser_rest c t = Ok (a', t') /\ same a a' /\ ba_data t' = rest;
  w_sound : forall t a t', bytes_ok (ba_data t) -> in_memory (ba_len t) -> c_deser_rest c t = Ok (a, t') ->
    value a /\ exists bs, W false a bs /\ bs <> [] /\ ba_data t = bs ++ ba_data t';
  w_panic : forall t u s, bytes_ok (ba_data t) -> bytes_ok s -> c_deser_rest c t = Panic -> ba_data u = ba_data t ++ s -> c_deser_rest c u = Panic
}.

Definition wpair {A B} (Wa : bool -> A -> list Z -> Prop) (Wb : bool -> B -> list Z -> Prop) (strict : bool) (ab : A * B) (bs : list Z) : Prop :=
  exists x y, bs = x ++ y /\ Wa strict (fst ab) x /\ Wb strict (snd ab) y.

Lemma mem_app x y : in_memory (zlen (x ++ y)) -> in_memory (zlen (y : list Z)).
Proof. unfold in_memory. rewrite zlen_app. pose proof (zlen_nonneg x). lia. Qed.

Lemma pair_wlaws {A B} (ca : codec A) (cb : codec B) va vb sa sb Wa Wb :
  self_delimiting ca sa -> wlaws ca va sa Wa -> wlaws cb vb sb Wb ->
  wlaws (pair_codec ca cb) (fun ab => va (fst ab) /\ vb (snd ab)) (fun x y => sa (fst x) (fst y) /\ sb (snd x) (snd y)) (wpair Wa Wb).
Proof.
  intros Da La Lb. split.
  - intros [a b] [Ha Hb]. destruct (w_write _ _ _ _ La a Ha) as (x & Ex & Wx). destruct (w_write _ _ _ _ Lb b Hb) as (y & Ey & Wy).
    exists (ba_concat x y). cbn [pair_codec c_ser fst snd]. rewrite Ex. cbn [obind]. rewrite Ey. cbn [obind].
    split; [reflexivity|]. rewrite concat_data. exists (ba_data x), (ba_data y). auto.
  - intros strict [a b] bs [Ha Hb] (x & y & -> & Wx & Wy) Hok t rest Ht Hr. cbn [fst snd] in *. apply bytes_ok_app in Hok. destruct Hok as [Hx Hy].
    rewrite <- app_assoc in Ht.
    destruct (w_complete _ _ _ _ La strict a x Ha Wx Hx t _ Ht) as (a' & t1 & E1 & S1 & D1); [apply bytes_ok_app; auto|].
    destruct (w_complete _ _ _ _ Lb strict b y Hb Wy Hy t1 rest D1 Hr) as (b' & t2 & E2 & S2 & D2).
    exists (a', b'), t2. cbn [pair_codec c_deser_rest]. rewrite E1. cbn [obind]. rewrite E2. cbn. auto.
  - intros t [a b] t' Hok Hm H. cbn [pair_codec c_deser_rest] in H. apply obind_ok in H.
    destruct H as ((a0 & t1) & E1 & H). apply obind_ok in H. destruct H as ((b0 & t2) & E2 & H). injection H as -> -> ->.
    destruct (w_sound _ _ _ _ La t a t1 Hok Hm E1) as (Va & x & Wx & Nx & Dx). rewrite Dx in Hok. apply bytes_ok_app in Hok.
    unfold ba_len in Hm. rewrite Dx in Hm. apply mem_app in Hm.
    destruct (w_sound _ _ _ _ Lb t1 b t' ltac:(tauto) Hm E2) as (Vb & y & Wy & Ny & Dy).
    split; [auto|]. exists (x ++ y). split; [exists x, y; auto|]. split; [destruct x; [congruence|discriminate]|]. rewrite Dx, Dy. apply app_assoc.
  - intros t u s Hok Hs H Hu. cbn [pair_codec c_deser_rest] in *.
    destruct (c_deser_rest ca t) as [[a t1]|e|] eqn:E1; cbn [obind] in H; [|discriminate|].
    + destruct (Da t a t1 Hok E1) as (p & Dt & P). rewrite Dt, <- app_assoc in Hu. rewrite Dt in Hok. apply bytes_ok_app in Hok.
      destruct (P u _ Hu) as (a' & u1 & F1 & _ & Du); [apply bytes_ok_app; tauto|]. rewrite F1. cbn [obind].
      destruct (c_deser_rest cb t1) as [[b t2]|e|] eqn:E2; cbn [obind] in H; [discriminate|discriminate|].
      rewrite (w_panic _ _ _ _ Lb t1 u1 s ltac:(tauto) Hs E2 Du). reflexivity.
    + rewrite (w_panic _ _ _ _ La t u s Hok Hs E1 Hu). reflexivity.
Qed.

Lemma iso_wlaws {A B} (c : codec A) (c' : codec B) (f : A -> B) (g : B -> A) (va : A -> Prop) (sa : A -> A -> Prop) vb sb W W' :
  wlaws c' vb sb W' ->
  (forall a, va a -> vb (f a)) -> (forall b, vb b -> va (g b)) ->
  (forall a b, sb (f a) b -> sa a (g b)) ->
  (forall strict a bs, W strict a bs <-> W' strict (f a) bs) -> (forall strict b bs, W' strict b bs -> W strict (g b) bs) ->
  (forall a y, c_ser c' (f a) = Ok y -> exists x, c_ser c a = Ok x /\ ba_data x = ba_data y) ->
  (forall t, c_deser_rest c t = do (b, t') <- c_deser_rest c' t; Ok (g b, t')) ->
  wlaws c va sa W.
Proof.
  intros L Hv Hv' Hs HW HW' Hser Hde. split.
  - intros a Ha. destruct (w_write _ _ _ _ L (f a) (Hv a Ha)) as (y & Ey & Wy).
    destruct (Hser a y Ey) as (x & Ex & Dx). exists x. rewrite Dx. split; [assumption|]. now apply HW.
  - intros strict a bs Ha Wa Hok t rest Ht Hr. apply HW in Wa.
    destruct (w_complete _ _ _ _ L strict (f a) bs (Hv a Ha) Wa Hok t rest Ht Hr) as (b' & t' & E & S & D). exists (g b'), t'.
    rewrite Hde, E. cbn. auto.
  - intros t a t' Hok Hm H. rewrite Hde in H. apply obind_ok in H. destruct H as ((b & t1) & E & H). injection H as <- <-.
    destruct (w_sound _ _ _ _ L t b t1 Hok Hm E) as (Vb & bs & Wb & Hn & Dt). split; [auto|]. exists bs. auto.
  - intros t u s Hok Hs' H Hu. rewrite Hde in *. destruct (c_deser_rest c' t) as [[b t1]|e|] eqn:E; cbn in H; try discriminate.
    now rewrite (w_panic _ _ _ _ L t u s Hok Hs' E Hu).
Qed.

Ltac nopanic := let H := fresh in intros t u s Hok Hs H; exfalso; revert H.

Lemma fixed_wlaws n : 0 < n -> wlaws (fixed_codec n) (fixed_value n) same_bytes (fun _ => wire_fixed n).
Proof.
  intros Hn. split.
  - intros a [Hok Hl]. exists a. split; [reflexivity|]. split; [reflexivity|exact Hl].
  - intros strict a bs [Hok Hl] [-> _] _ t rest Ht Hr. destruct (fixed_laws n ltac:(lia)) as [R _].
    destruct (R a (conj Hok Hl)) as (s & E & _ & H). injection E as <-. exact (H t rest Ht Hr).
  - intros t a t' Hok Hm H. cbn [fixed_codec c_deser_rest] in H. apply obind_ok in H. destruct H as ((l & r) & E & H).
    apply split_inv in E; [|lia]. destruct E as [Dt Hl].
    unfold fixed_from_byte_array in H. destruct (n =? ba_len l) eqn:En; [|discriminate]. cbn in H. injection H as <- <-.
    rewrite Dt in Hok. apply bytes_ok_app in Hok. split; [split; [tauto|exact Hl]|].
    exists (ba_data l). split; [split; auto|]. split; [|assumption]. intros E. rewrite E in Hl. unfold zlen in Hl; cbn in Hl. lia.
  - nopanic. cbn [fixed_codec c_deser_rest]. destruct (ba_split t n) as [[l r]|e|] eqn:E; cbn [obind]; [|discriminate|].
    + unfold fixed_from_byte_array. destruct (n =? ba_len l); discriminate.
    + apply split_no_panic in E; [contradiction|lia].
Qed.

Lemma int_of_le_value n signed bs : (0 < n)%nat -> bytes_ok bs -> length bs = n -> int_value n signed (int_of_le n signed bs) /\
  le_value bs = int_of_le n signed bs mod 2 ^ (8 * Z.of_nat n).
Proof.
  intros Hn Hok Hl. pose proof (le_value_bound bs Hok) as B. unfold zlen in B. rewrite Hl in B. unfold int_of_le, int_value. cbv zeta.
  pose proof (pow_half n Hn) as P. set (m := 2 ^ (8 * Z.of_nat n)) in *. set (h := 2 ^ (8 * Z.of_nat n - 1)) in *.
  destruct signed; cbn [andb].
  - destruct (Z.leb_spec h (le_value bs)).
    + split; [lia|]. rewrite <- (Z.mod_add _ 1) by lia. rewrite Z.mod_small; lia.
    + split; [lia|]. rewrite Z.mod_small; lia.
  - split; [lia|]. rewrite Z.mod_small; lia.
Qed.

Lemma int_wlaws n signed : (0 < n)%nat -> wlaws (int_codec n signed) (int_value n signed) eq (fun _ => wire_int n).
Proof.
  intros Hn. split.
  - intros v Hv. exists (ba_unnamed (le_bytes n v)). split; [reflexivity|]. cbn [ba_data ba_unnamed].
    split; [apply le_bytes_length|]. split; [apply le_bytes_ok|apply le_value_bytes].
  - intros strict v bs Hv (Hl & Hok & Hval) _ t rest Ht Hr. destruct (int_laws n signed Hn) as [R _].
    destruct (R v Hv) as (s & E & _ & H). injection E as <-. apply (H t rest); [|assumption]. rewrite Ht. f_equal. cbn.
    apply le_value_inj; auto; [apply le_bytes_ok|rewrite le_bytes_length; lia|rewrite le_value_bytes; lia].
  - intros t a t' Hok Hm H. cbn [int_codec c_deser_rest] in H. apply obind_ok in H. destruct H as ((l & r) & E & H).
    apply split_inv in E; [|lia]. destruct E as [Dt Hl]. injection H as <- <-. rewrite Dt in Hok. apply bytes_ok_app in Hok.
    assert (length (ba_data l) = n) as Hl' by (apply zlen_nat; assumption).
    destruct (int_of_le_value n signed (ba_data l) Hn ltac:(tauto) Hl') as [V E]. split; [assumption|].
    exists (ba_data l). split; [repeat split; tauto|]. split; [|assumption]. intros E'. rewrite E' in Hl'. cbn in Hl'. lia.
  - nopanic. cbn [int_codec c_deser_rest]. destruct (ba_split t (Z.of_nat n)) as [[l r]|e|] eqn:E; cbn [obind]; [discriminate|discriminate|].
    apply split_no_panic in E; [contradiction|lia].
Qed.
Lemma u32_wlaws : wlaws u32_codec u32_ok eq (fun _ => wire_int 4). Proof. exact (int_wlaws 4 false ltac:(lia)). Qed.
Lemma u64_wlaws : wlaws u64_codec u64_ok eq (fun _ => wire_int 8). Proof. exact (int_wlaws 8 false ltac:(lia)). Qed.
Lemma i32_wlaws : wlaws i32_codec i32_ok eq (fun _ => wire_int 4). Proof. exact (int_wlaws 4 true ltac:(lia)). Qed.

Lemma wire_size_encode n strict : u64_ok n -> wire_size strict n (encode_var_int n).
Proof. intros H. split; [now apply encode_var_int_form|]. intros _ f. now apply encode_var_int_shortest. Qed.
Lemma varint_ne n l : is_varint n l -> l <> [].
Proof. intros H; destruct H; discriminate. Qed.

Lemma bytes_wlaws : wlaws bytearray_codec bytes_value same_bytes wire_bytes.
Proof.
  split.
  - intros a [Hok Hm]. eexists. split; [reflexivity|]. cbn [ba_data]. rewrite concat_data. cbn [ba_data ba_new].
    exists (encode_var_int (ba_len a)). split; [reflexivity|]. apply wire_size_encode. now apply mem_u64.
  - intros strict a bs [Hok Hm] (len & -> & Hv & _) _ t rest Ht Hr. rewrite <- app_assoc in Ht.
    destruct (read_size_data t _ _ _ Ht Hv) as (r & E & Dr). cbn [bytearray_codec c_deser_rest]. rewrite E. cbn [obind].
    destruct (split_data r _ _ Dr) as (l & r' & E' & Dl & Dr'). rewrite E'. exists l, r'. unfold same_bytes. auto.
  - intros t a t' Hok Hm H. cbn [bytearray_codec c_deser_rest] in H. apply obind_ok in H. destruct H as ((n & r) & E & H).
    apply read_size_inv in E; [|assumption]. destruct E as (p & Dt & Hv).
    destruct (varint_ok n p Hv) as [Hp Hn]. unfold u64_ok in Hn.
    apply split_inv in H; [|lia]. destruct H as [Dr Hl]. rewrite Dt, Dr in Hok. apply bytes_ok_app in Hok. destruct Hok as [_ Hok]. apply bytes_ok_app in Hok.
    split; [split; [tauto|]|].
    + unfold in_memory, ba_len in *. rewrite Dt, Dr, !zlen_app in Hm. pose proof (zlen_nonneg p). pose proof (zlen_nonneg (ba_data t')). lia.
    + exists (p ++ ba_data a). split; [exists p; split; [reflexivity|]; rewrite Hl; split; [assumption|discriminate]|].
      pose proof (varint_ne n p Hv). split; [destruct p; [congruence|discriminate]|]. rewrite Dt, Dr. apply app_assoc.
  - nopanic. cbn [bytearray_codec c_deser_rest]. pose proof (read_size_no_panic t Hok) as Hnp.
    destruct (read_size t) as [[n r]|e|] eqn:E; cbn [obind]; [|discriminate|congruence].
    apply read_size_inv in E; [|assumption]. destruct E as (p & Dt & Hv). destruct (varint_ok n p Hv) as [_ Hn]. apply split_no_panic. unfold u64_ok in Hn. lia.
Qed.

Lemma Forall2_means_same ops ops' is : Forall2 means ops is -> Forall2 same_op ops ops' -> Forall2 means ops' is.
Proof.
  intros H. revert ops'. induction H as [|o i l is Ho _ IH]; intros ops' HS; inversion HS; subst; constructor; auto. eapply same_op_means; eauto.
Qed.
Lemma same_op_ser o o' x : same_op o o' -> serialize_op o = Ok x -> exists y, serialize_op o' = Ok y /\ ba_data y = ba_data x.
Proof.
  intros H. destruct H as [| |a b m Hd| |]; try (intros E; exists x; auto; fail).
  cbn [serialize_op]. unfold serialize_push_bytes. rewrite Hd. intros Hr.
  apply obind_ok in Hr. destruct Hr as ((v & tl) & Hp & Hr). rewrite Hp. cbn [obind].
  eexists. split; [reflexivity|]. injection Hr as <-. destruct tl; [|reflexivity]. rewrite !concat_data. congruence.
Qed.
Lemma same_ops_ser ops ops' x : Forall2 same_op ops ops' -> serialize_ops ops = Ok x -> exists y, serialize_ops ops' = Ok y /\ ba_data y = ba_data x.
Proof.
  intros H E. unfold serialize_ops in *. apply obind_ok in E. destruct E as (ps & P & E). injection E as <-.
  assert (exists ps', omap serialize_op ops' = Ok ps' /\ map ba_data ps' = map ba_data ps) as (ps' & P' & D).
  { revert ps P. induction H as [|o o' l l' Ho _ IH]; intros ps P.
    - exists []. injection P as <-. auto.
    - cbn in P. apply obind_ok in P. destruct P as (y & Y & P). apply obind_ok in P. destruct P as (ys & Ys & P). injection P as <-.
      destruct (same_op_ser o o' y Ho Y) as (y' & Y' & Dy). destruct (IH ys Ys) as (ys' & Ys' & Dys). exists (y' :: ys').
      split; [now apply omap_app_cons|]. cbn. congruence. }
  rewrite P'. cbn [obind]. eexists. split; [reflexivity|]. rewrite !from_parts_data. congruence.
Qed.
Lemma op_ok_same o o' : same_op o o' -> op_ok o -> op_ok o'.
Proof. intros H. destruct H as [| |a b m Hd| |]; cbn; auto. now rewrite Hd. Qed.

Lemma script_wlaws : wlaws script_codec script_value same_script wire_script.
Proof.
  split.
  - intros s [Hops Hm]. destruct (ser_ops_ok (map t_op s) Hops) as (a & chunks & is & E & Hd & Hc & Hmean & Hs & Hok).
    assert (script_ser_ops s = Ok a) as Es by (unfold script_ser_ops; now rewrite E).
    cbn [script_codec c_ser bytearray_codec]. rewrite Es. cbn [obind]. eexists. split; [reflexivity|]. rewrite concat_data. cbn [ba_data ba_new].
    exists (encode_var_int (ba_len a)), (ba_data a), is. split; [reflexivity|]. split; [apply wire_size_encode, mem_u64, (Hm a Es)|].
    split; [exists chunks; auto|]. split; [assumption|]. intros _. exists chunks, is. auto.
  - intros strict s bs [Hops Hm] (len & body & is & -> & [Hv _] & Hr & Hmean & _) Hok t rest Ht Hrest.
    apply bytes_ok_app in Hok. destruct Hok as [_ Hok]. rewrite <- app_assoc in Ht.
    destruct (read_size_data t _ _ _ Ht Hv) as (r & E & Dr). cbn [script_codec bytearray_codec c_deser_rest]. rewrite E. cbn [obind].
    destruct (split_data r _ _ Dr) as (l & r' & E' & Dl & Dr'). rewrite E'. cbn [obind].
    destruct (reads_deserialize body is Hok Hr) as (ops & Eo & Mo).
    pose proof (deserialize_agree l) as Ha. rewrite Dl, Eo in Ha. destruct (Ha Hok) as (ops' & Eo' & So). rewrite Eo'. cbn [obind].
    exists (script_from_ops ops'), r'. split; [reflexivity|]. split; [|assumption]. apply same_script_ops.
    pose proof (Forall2_means_same _ _ _ Mo So) as Mo'. clear - Hmean Mo'. revert ops' Mo'. unfold same_instrs.
    induction Hmean as [|o i l is Ho _ IH]; intros ops' Mo'; inversion Mo'; subst; constructor; eauto.
  - intros t s t' Hok Hm H. cbn [script_codec c_deser_rest] in H. apply obind_ok in H. destruct H as ((a & t1) & E1 & H).
    apply obind_ok in H. destruct H as (ops & E2 & H). injection H as <- <-.
    destruct (w_sound _ _ _ _ bytes_wlaws t a t1 Hok Hm E1) as ([Hoka Hma] & bs & (len & -> & [Hv _]) & Hne & Dt).
    pose proof (deserialize_agree a Hoka) as Ha.
    destruct (deserialize_ops_total (ba_data a) Hoka) as [(ch & is & ops0 & Hch & Hc & Hmean & Hp & E0)|[_ E0]]; rewrite E0 in Ha.
    2:{ destruct Ha as (e & Ha). congruence. }
    destruct Ha as (ops' & E' & So). rewrite E2 in E'. injection E' as <-.
    rewrite Hch in Hoka. destruct (ser_parsed ch ops0 Hp Hoka) as (Hoo & x & Ex & _ & Hlen).
    split.
    + split.
      * rewrite map_t_op_from. clear - Hoo So. induction So as [|o o' l l' Ho _ IH]; inversion Hoo; subst; constructor; auto. eapply op_ok_same; eauto.
      * intros b Eb. unfold script_ser_ops in Eb. rewrite map_t_op_from in Eb.
        destruct (same_ops_ser ops0 ops x So Ex) as (y & Ey & Dy). rewrite Ey in Eb. injection Eb as <-.
        unfold in_memory, ba_len in *. rewrite Hch in Hma. rewrite Dy. unfold zlen in *. lia.
    + exists (len ++ ba_data a). split; [|auto]. exists len, (ba_data a), is. split; [reflexivity|]. split; [split; [assumption|discriminate]|].
      split; [exists ch; auto|]. split; [|discriminate]. rewrite map_t_op_from. eapply Forall2_means_same; eauto.
  - intros t u s Hok Hs H. exfalso. cbn [script_codec c_deser_rest] in H. destruct (c_deser_rest bytearray_codec t) as [[a t1]|e|] eqn:E; cbn [obind] in H; [|discriminate|].
    + assert (bytes_ok (ba_data a)) as Hoka.
      { pose proof E as E1'. cbn [bytearray_codec c_deser_rest] in E1'. apply obind_ok in E1'. destruct E1' as ((n & r) & En & Hsp).
        apply read_size_inv in En; [|assumption]. destruct En as (q & Dq & Hv). destruct (varint_ok n q Hv) as [_ Hn]. unfold u64_ok in Hn.
        apply split_inv in Hsp; [|lia]. destruct Hsp as [Dr _]. rewrite Dq, Dr in Hok. apply bytes_ok_app in Hok. destruct Hok as [_ Hok]. apply bytes_ok_app in Hok. tauto. }
      pose proof (deserialize_agree a Hoka) as Ha. destruct (deserialize_ops (ba_data a)) as [o|e|]; [destruct Ha as (o' & Ha & _)|destruct Ha as (e' & Ha)|contradiction]; rewrite Ha in H; discriminate.
    + pose proof (w_panic _ _ _ _ bytes_wlaws t t []) as P. clear P. cbn [bytearray_codec c_deser_rest] in E. pose proof (read_size_no_panic t Hok) as Hnp.
      destruct (read_size t) as [[n r]|e|] eqn:En; cbn [obind] in E; [|discriminate|congruence].
      apply read_size_inv in En; [|assumption]. destruct En as (p & Dt & Hv). destruct (varint_ok n p Hv) as [_ Hn]. apply split_no_panic in E; [contradiction|]. unfold u64_ok in Hn. lia.
Qed.

Section Vec.
Context {A : Type} (c : codec A) (value : A -> Prop) (same : A -> A -> Prop) (W : bool -> A -> list Z -> Prop).
Hypothesis L : wlaws c value same W.
Hypothesis Dc : self_delimiting c same.

Lemma vec_write v : Forall value v -> exists parts, omap (c_ser c) v = Ok parts /\ Forall2 (W true) v (map ba_data parts).
Proof.
  induction 1 as [|a v Ha _ (parts & E & F)]; [exists []; split; [reflexivity|constructor]|].
  destruct (w_write _ _ _ _ L a Ha) as (x & Ex & Wx). exists (x :: parts). split; [now apply omap_app_cons|]. cbn. now constructor.
Qed.
Lemma vec_loop_complete strict v parts : Forall value v -> Forall2 (W strict) v parts -> bytes_ok (concat parts) ->
  forall t rest, ba_data t = concat parts ++ rest -> bytes_ok rest ->
  exists v' t', vec_loop c (length v) t = Ok (v', t') /\ Forall2 same v v' /\ ba_data t' = rest.
Proof.
  intros Hv H. revert Hv. induction H as [|a p v parts Ha _ IH]; intros Hv Hok t rest Ht Hr.
  - exists [], t. cbn. auto.
  - inversion Hv as [|? ? Va Vv]; subst. cbn [concat] in *. apply bytes_ok_app in Hok. destruct Hok as [Hp Hok]. rewrite <- app_assoc in Ht.
    destruct (w_complete _ _ _ _ L strict a p Va Ha Hp t _ Ht) as (a' & t1 & E1 & S1 & D1); [apply bytes_ok_app; auto|].
    destruct (IH Vv Hok t1 rest D1 Hr) as (v' & t2 & E2 & S2 & D2). exists (a' :: v'), t2. cbn [length vec_loop].
    rewrite E1. cbn [obind]. rewrite E2. cbn. auto.
Qed.
Lemma vec_loop_sound n : forall t v t', bytes_ok (ba_data t) -> in_memory (ba_len t) -> vec_loop c n t = Ok (v, t') ->
  Forall value v /\ length v = n /\ exists parts, Forall2 (W false) v parts /\ ba_data t = concat parts ++ ba_data t'.
Proof.
  induction n as [|n IH]; intros t v t' Hok Hm H.
  - injection H as <- <-. split; [constructor|]. split; [reflexivity|]. exists []. split; [constructor|reflexivity].
  - cbn [vec_loop] in H. apply obind_ok in H. destruct H as ((a & t1) & E1 & H). apply obind_ok in H. destruct H as ((v1 & t2) & E2 & H).
    injection H as <- <-. destruct (w_sound _ _ _ _ L t a t1 Hok Hm E1) as (Va & bs & Wa & _ & Dt). rewrite Dt in Hok. apply bytes_ok_app in Hok.
    unfold ba_len in Hm. rewrite Dt in Hm. apply mem_app in Hm.
    destruct (IH t1 v1 t2 ltac:(tauto) Hm E2) as (Vv & Hl & parts & Wp & Dp). split; [now constructor|]. split; [cbn; lia|].
    exists (bs :: parts). split; [now constructor|]. cbn [concat]. rewrite Dt, Dp. apply app_assoc.
Qed.
Lemma vec_loop_panic n : forall t u s, bytes_ok (ba_data t) -> bytes_ok s -> vec_loop c n t = Panic -> ba_data u = ba_data t ++ s -> vec_loop c n u = Panic.
Proof.
  induction n as [|n IH]; intros t u s Hok Hs H Hu; [discriminate|]. cbn [vec_loop] in *.
  destruct (c_deser_rest c t) as [[a t1]|e|] eqn:E1; cbn [obind] in H; [|discriminate|].
  - destruct (Dc t a t1 Hok E1) as (p & Dt & P). rewrite Dt, <- app_assoc in Hu. rewrite Dt in Hok. apply bytes_ok_app in Hok.
    destruct (P u _ Hu) as (a' & u1 & F1 & _ & Du); [apply bytes_ok_app; tauto|]. rewrite F1. cbn [obind].
    destruct (vec_loop c n t1) as [[v t2]|e|] eqn:E2; cbn [obind] in H; try discriminate.
    rewrite (IH t1 u1 s ltac:(tauto) Hs E2 Du). reflexivity.
  - rewrite (w_panic _ _ _ _ L t u s Hok Hs E1 Hu). reflexivity.
Qed.

Lemma vec_wlaws sz : wlaws (vec_codec sz c) (vec_value sz value) (Forall2 same) (fun strict => wire_vec (W strict) strict).
Proof.
  split.
  - intros v (Hv & Hsz & Hlen). assert (u64_ok (zlen v)) as Hu by (unfold u64_ok; pose proof (zlen_nonneg v); lia).
    destruct (vec_write v Hv) as (parts & E & F). eexists. cbn [vec_codec c_ser]. rewrite E. cbn [obind]. split; [reflexivity|].
    rewrite concat_data, from_parts_data. cbn [ba_data ba_new]. exists (encode_var_int (zlen v)), (map ba_data parts).
    split; [reflexivity|]. split; [now apply wire_size_encode|assumption].
  - intros strict v bs (Hv & Hsz & Hlen) (len & parts & -> & [Hvi _] & F) Hok t rest Ht Hr.
    apply bytes_ok_app in Hok. destruct Hok as [_ Hok]. rewrite <- app_assoc in Ht.
    destruct (read_size_data t _ _ _ Ht Hvi) as (r & E1 & Dr).
    destruct (vec_loop_complete strict v parts Hv F Hok r rest Dr Hr) as (v' & t' & E2 & S & D2). exists v', t'.
    cbn [vec_codec c_deser_rest]. rewrite E1. cbn [obind].
    destruct (Z.ltb_spec (2 ^ 63 - 1) (zlen v * sz)); [lia|]. unfold zlen. rewrite Nat2Z.id. auto.
  - intros t v t' Hok Hm H. cbn [vec_codec c_deser_rest] in H. apply obind_ok in H. destruct H as ((n & r) & E1 & H).
    destruct (Z.ltb_spec (2 ^ 63 - 1) (n * sz)); [discriminate|].
    apply read_size_inv in E1; [|assumption]. destruct E1 as (p & Dt & Hv). rewrite Dt in Hok. apply bytes_ok_app in Hok.
    unfold ba_len in Hm. rewrite Dt in Hm. apply mem_app in Hm. destruct (varint_ok n p Hv) as [_ Hn]. unfold u64_ok in Hn.
    destruct (vec_loop_sound _ r v t' ltac:(tauto) Hm H) as (Vv & Hl & parts & F & Dq).
    assert (zlen v = n) as Hz by (unfold zlen; rewrite Hl; lia).
    split; [split; [assumption|lia]|]. exists (p ++ concat parts). split; [|split; [|rewrite Dt, Dq; apply app_assoc]].
    + exists p, parts. split; [reflexivity|]. rewrite Hz. split; [split; [assumption|discriminate]|assumption].
    + pose proof (varint_ne n p Hv). destruct p; [congruence|discriminate].
  - intros t u s Hok Hs H Hu. cbn [vec_codec c_deser_rest] in *. destruct (read_size t) as [[n r]|e|] eqn:E; cbn [obind] in H; [|discriminate|].
    + apply read_size_inv in E; [|assumption]. destruct E as (p & Dt & Hv). rewrite Dt, <- app_assoc in Hu. rewrite Dt in Hok. apply bytes_ok_app in Hok.
      destruct (read_size_data u _ _ _ Hu Hv) as (r' & E1 & Dr). rewrite E1. cbn [obind].
      destruct (2 ^ 63 - 1 <? n * sz); [reflexivity|]. exact (vec_loop_panic _ r r' s ltac:(tauto) Hs H Dr).
    + exfalso. now apply (read_size_no_panic t).
Qed.
End Vec.

Ltac split_ser H := apply obind_ok in H; let x := fresh "x" in let E := fresh "E" in let y' := fresh "y" in let H2 := fresh "H" in
          destruct H as (x & E & H); apply obind_ok in H; destruct H as (y' & H2 & H); injection H as <-; rename H2 into H.
Ltac rec_deser := repeat (rewrite ?obind_assoc; match goal with |- obind ?o _ = _ => destruct o as [[? ?]|?|]; cbn [obind]; auto end).
Ltac rec_ser := repeat match goal with E : _ = Ok _ |- _ => rewrite E; cbn [obind]; clear E end;
    eexists; split; [reflexivity|]; rewrite from_parts_data, !concat_data; cbn [map concat]; rewrite !named_data, app_nil_r; reflexivity.

Lemma outpoint_wlaws : wlaws outpoint_codec outpoint_value same_outpoint (fun _ => wire_outpoint).
Proof.
  eapply (iso_wlaws outpoint_codec (pair_codec sha256d_codec u32_codec)
    (fun o => (op_tx_hash o, op_vout o)) (fun ab => TxOutpoint (fst ab) (snd ab))).
  - eapply pair_wlaws; [apply fixed_laws; lia|apply fixed_wlaws; lia|apply u32_wlaws].
  - intros a H; exact H.
  - intros a H; exact H.
  - intros a [b1 b2]. cbn. unfold same_outpoint, same_bytes. auto.
  - intros strict a bs. reflexivity.
  - intros strict [a b] bs H. exact H.
  - intros a y H. cbn [pair_codec c_ser fst snd] in H. split_ser H. cbn [outpoint_codec c_ser]. rec_ser.
  - intros t. cbn [outpoint_codec pair_codec c_deser_rest]. rec_deser.
Qed.
Lemma output_wlaws : wlaws output_codec output_value same_output wire_output.
Proof.
  eapply (iso_wlaws output_codec (pair_codec u64_codec script_codec)
    (fun o => (out_value o, out_script o)) (fun ab => TxOutput (fst ab) (snd ab))).
  - eapply pair_wlaws; [apply u64_laws|apply u64_wlaws|apply script_wlaws].
  - intros a H; exact H.
  - intros a H; exact H.
  - intros a [b1 b2]. cbn. unfold same_output, same_bytes. auto.
  - intros strict a bs. reflexivity.
  - intros strict [a b] bs H. exact H.
  - intros a y H. cbn [pair_codec c_ser fst snd] in H. split_ser H. cbn [output_codec c_ser]. rec_ser.
  - intros t. cbn [output_codec pair_codec c_deser_rest]. rec_deser.
Qed.
Lemma input_wlaws : wlaws input_codec input_value same_input wire_input.
Proof.
  eapply (iso_wlaws input_codec (pair_codec outpoint_codec (pair_codec script_codec u32_codec))
    (fun o => (in_prev_out o, (in_script o, in_sequence o)))
    (fun ab => TxInput (fst ab) (fst (snd ab)) (snd (snd ab)) None None None None)).
  - eapply pair_wlaws; [apply outpoint_laws|apply outpoint_wlaws|eapply pair_wlaws; [apply script_laws|apply script_wlaws|apply u32_wlaws]].
  - intros a H; exact H.
  - intros a H; exact H.
  - intros a [b1 [b2 b3]]. cbn. unfold same_input. auto.
  - intros strict a bs. unfold wire_input, wpair. cbn [fst snd]. split.
    + intros (o & s & q & -> & H1 & H2 & H3). exists o, (s ++ q). split; [reflexivity|]. split; [assumption|]. exists s, q. auto.
    + intros (o & y & -> & H1 & s & q & -> & H2 & H3). exists o, s, q. auto.
  - intros strict [a [b c]] bs (o & y & -> & H1 & s & q & -> & H2 & H3). exists o, s, q. auto.
  - intros a y H. cbn [pair_codec c_ser fst snd] in H. do 2 split_ser H. cbn [input_codec c_ser]. rec_ser.
  - intros t. cbn [input_codec pair_codec c_deser_rest]. rec_deser.
Qed.
Lemma tx_wlaws si so : wlaws (unhashed_tx_codec si so) (tx_value si so) same_tx wire_tx.
Proof.
  eapply (iso_wlaws (unhashed_tx_codec si so)
    (pair_codec i32_codec (pair_codec (vec_codec si input_codec) (pair_codec (vec_codec so output_codec) u32_codec)))
    (fun o => (tx_version o, (tx_inputs o, (tx_outputs o, tx_lock_time o))))
    (fun ab => UnhashedTx (fst ab) (fst (snd ab)) (fst (snd (snd ab))) (snd (snd (snd ab))))).
  - eapply pair_wlaws; [apply i32_laws|apply i32_wlaws|eapply pair_wlaws; [apply (vec_laws si _ _ _ input_laws)|eapply vec_wlaws; [apply input_wlaws|apply input_laws]|
      eapply pair_wlaws; [apply (vec_laws so _ _ _ output_laws)|eapply vec_wlaws; [apply output_wlaws|apply output_laws]|apply u32_wlaws]]].
  - intros a H; exact H.
  - intros a H; exact H.
  - intros a [b1 [b2 [b3 b4]]]. cbn. unfold same_tx. auto.
  - intros strict a bs. unfold wire_tx, wpair. cbn [fst snd]. split.
    + intros (v & i & o & l & -> & H1 & H2 & H3 & H4). exists v, (i ++ o ++ l). split; [reflexivity|]. split; [assumption|].
      exists i, (o ++ l). split; [reflexivity|]. split; [assumption|]. exists o, l. auto.
    + intros (v & y & -> & H1 & i & z & -> & H2 & o & l & -> & H3 & H4). exists v, i, o, l. auto.
  - intros strict [a [b [c d]]] bs (v & y & -> & H1 & i & z & -> & H2 & o & l & -> & H3 & H4). exists v, i, o, l. auto.
  - intros a y H. cbn [pair_codec c_ser fst snd] in H. do 3 split_ser H. cbn [unhashed_tx_codec c_ser] in *. rec_ser.
  - intros t. cbn [unhashed_tx_codec pair_codec c_deser_rest]. rec_deser.
Qed.
Lemma preimage_wlaws : wlaws preimage_codec preimage_value same_preimage wire_preimage.
Proof.
  eapply (iso_wlaws preimage_codec
    (pair_codec i32_codec (pair_codec sha256d_codec (pair_codec sha256d_codec (pair_codec outpoint_codec (pair_codec script_codec
      (pair_codec u64_codec (pair_codec u32_codec (pair_codec sha256d_codec (pair_codec u32_codec u32_codec)))))))))
    (fun p => (pi_version p, (pi_hash_prevouts p, (pi_hash_sequence p, (pi_outpoint p, (pi_script_code p, (pi_value p,
       (pi_sequence p, (pi_hash_outputs p, (pi_lock_time p, pi_sig_hash_type p))))))))))
    (fun '(a, (b, (c, (d, (e, (f, (g, (h, (i, j))))))))) => TxPreimage a b c d e f g h i j)).
  - repeat (eapply pair_wlaws; [first [apply i32_laws|apply u32_laws|apply u64_laws|apply outpoint_laws|apply script_laws|apply fixed_laws; lia]
      |first [apply i32_wlaws|apply u32_wlaws|apply u64_wlaws|apply outpoint_wlaws|apply script_wlaws|apply fixed_wlaws; lia]|]). apply u32_wlaws.
  - intros a H; exact H.
  - intros (a1 & a2 & a3 & a4 & a5 & a6 & a7 & a8 & a9 & a10) H. exact H.
  - intros a (b1 & b2 & b3 & b4 & b5 & b6 & b7 & b8 & b9 & b10). cbn. unfold same_preimage, same_bytes. auto 12.
  - intros strict a bs. unfold wire_preimage, wpair. cbn [fst snd]. split.
    + intros (a1 & a2 & a3 & a4 & a5 & a6 & a7 & a8 & a9 & a10 & -> & H1 & H2 & H3 & H4 & H5 & H6 & H7 & H8 & H9 & H10).
      do 8 (eexists _, _; split; [reflexivity|split; [eassumption|]]). eexists _, _. split; [reflexivity|]. auto.
    + intros (a1 & y1 & -> & H1 & a2 & y2 & -> & H2 & a3 & y3 & -> & H3 & a4 & y4 & -> & H4 & a5 & y5 & -> & H5 & a6 & y6 & -> & H6 & a7 & y7 & -> & H7 & a8 & y8 & -> & H8 & a9 & a10 & -> & H9 & H10).
      exists a1, a2, a3, a4, a5, a6, a7, a8, a9, a10. auto 12.
  - intros strict (b1 & b2 & b3 & b4 & b5 & b6 & b7 & b8 & b9 & b10) bs.
    intros (a1 & y1 & -> & H1 & a2 & y2 & -> & H2 & a3 & y3 & -> & H3 & a4 & y4 & -> & H4 & a5 & y5 & -> & H5 & a6 & y6 & -> & H6 & a7 & y7 & -> & H7 & a8 & y8 & -> & H8 & a9 & a10 & -> & H9 & H10).
    exists a1, a2, a3, a4, a5, a6, a7, a8, a9, a10. auto 12.
  - intros a y H. cbn [pair_codec c_ser fst snd] in H. do 9 split_ser H. cbn [preimage_codec c_ser] in *. rec_ser.
  - intros t. cbn [preimage_codec pair_codec c_deser_rest]. rec_deser.
Qed.
Lemma rawtx_wlaws : wlaws tx_codec (fun t => bytes_value (tx_raw t)) same_raw (fun strict t => wire_bytes strict (tx_raw t)).
Proof.
  eapply (iso_wlaws tx_codec bytearray_codec tx_raw (fun raw => Tx unhashed_tx_default sha256d_default raw)).
  - apply bytes_wlaws.
  - intros a H; exact H.
  - intros a H; exact H.
  - intros a b H. exact H.
  - intros strict a bs. reflexivity.
  - intros strict b bs H. exact H.
  - intros a y H. cbn [tx_codec c_ser]. rewrite H. cbn [obind]. eexists. split; [reflexivity|].
    rewrite from_parts_data. cbn [map concat]. now rewrite named_data, app_nil_r.
  - intros t. reflexivity.
Qed.
