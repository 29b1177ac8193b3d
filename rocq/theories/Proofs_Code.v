From Verif Require Import Base BaseLemmas Model_Encoding Spec_Encoding Proofs_Encoding Spec_Integer
  Model_ByteArray Proofs_ByteArray Model_Opcode Model_Script Spec_Script Proofs_Script Model_Code Spec_Code.
From Coq Require Import ZifyBool ZifyNat.
Local Open Scope Z_scope.

(* ---------- splitting trees by their data ---------- *)
Lemma split_data t p s : ba_data t = p ++ s -> exists l r, ba_split t (zlen p) = Ok (l, r) /\ ba_data l = p /\ ba_data r = s.
Proof.
  intros H. pose proof (split_take t (zlen p) (zlen_nonneg p)) as Hs. rewrite H, take_bytes_app in Hs by reflexivity. exact Hs.
Qed.
Lemma split_data_n t p s n : ba_data t = p ++ s -> zlen p = n -> exists l r, ba_split t n = Ok (l, r) /\ ba_data l = p /\ ba_data r = s.
Proof. intros H <-. now apply split_data. Qed.
Lemma split_inv t n l r : 0 <= n -> ba_split t n = Ok (l, r) -> ba_data t = ba_data l ++ ba_data r /\ zlen (ba_data l) = n.
Proof.
  intros Hn H. pose proof (split_take t n Hn) as Hs.
  destruct (take_bytes_cases n (ba_data t) Hn) as [[_ E]|(a & b & E1 & E2 & E)]; rewrite E in Hs.
  - destruct Hs as (e & Hs). congruence.
  - destruct Hs as (l' & r' & Hs & <- & <-). rewrite H in Hs. injection Hs as <- <-. auto.
Qed.
Lemma split_no_panic t n : 0 <= n -> ba_split t n <> Panic.
Proof.
  intros Hn H. pose proof (split_take t n Hn) as Hs.
  destruct (take_bytes n (ba_data t)) as [[a b]|e|]; [destruct Hs as (? & ? & Hs & _)|destruct Hs as (? & Hs)|contradiction]; congruence.
Qed.

Lemma named_data a n : ba_data (ba_named a n) = ba_data a.
Proof. destruct a; reflexivity. Qed.

(* ---------- laws and combinators ---------- *)
Definition laws {A} (c : codec A) (value : A -> Prop) (same : A -> A -> Prop) : Prop :=
  roundtrips c value same /\ self_delimiting c same.

Definition pair_codec {A B} (ca : codec A) (cb : codec B) : codec (A * B) := Codec
  (fun ab => do x <- c_ser ca (fst ab); do y <- c_ser cb (snd ab); Ok (ba_concat x y))
  (fun t => do (a, t) <- c_deser_rest ca t; do (b, t) <- c_deser_rest cb t; Ok ((a, b), t)).

Lemma pair_laws {A B} (ca : codec A) (cb : codec B) va vb sa sb : laws ca va sa -> laws cb vb sb ->
  laws (pair_codec ca cb) (fun ab => va (fst ab) /\ vb (snd ab)) (fun x y => sa (fst x) (fst y) /\ sb (snd x) (snd y)).
Proof.
  intros [Ra Da] [Rb Db]. split.
  - intros [a b] [Ha Hb]. cbn in Ha, Hb. destruct (Ra a Ha) as (x & Ex & Ox & Hx). destruct (Rb b Hb) as (y & Ey & Oy & Hy).
    exists (ba_concat x y). cbn [pair_codec c_ser fst snd]. rewrite Ex. cbn [obind]. rewrite Ey. cbn [obind].
    split; [reflexivity|]. rewrite concat_data. split; [apply bytes_ok_app; auto|].
    intros t rest Ht Hrest. rewrite <- app_assoc in Ht.
    destruct (Hx t (ba_data y ++ rest) Ht) as (a' & t1 & E1 & S1 & D1); [apply bytes_ok_app; auto|].
    destruct (Hy t1 rest D1 Hrest) as (b' & t2 & E2 & S2 & D2).
    exists (a', b'), t2. cbn [pair_codec c_deser_rest]. rewrite E1. cbn [obind]. rewrite E2. cbn. auto.
  - intros t [a b] t' Hok H. cbn [pair_codec c_deser_rest] in H. apply obind_ok in H.
    destruct H as ((a0 & t1) & E1 & H). apply obind_ok in H. destruct H as ((b0 & t2) & E2 & H). injection H as -> -> ->.
    destruct (Da t a t1 Hok E1) as (p & Hp & Pa).
    assert (bytes_ok (ba_data t1)) as Hok1 by (rewrite Hp in Hok; apply bytes_ok_app in Hok; tauto).
    destruct (Db t1 b t' Hok1 E2) as (q & Hq & Pb).
    exists (p ++ q). split; [rewrite Hp, Hq; apply app_assoc|].
    intros u s Hu Hs. rewrite <- app_assoc in Hu. rewrite Hq in Hok1. apply bytes_ok_app in Hok1.
    destruct (Pa u (q ++ s) Hu) as (a' & u1 & F1 & S1 & D1); [apply bytes_ok_app; tauto|].
    destruct (Pb u1 s D1 Hs) as (b' & u2 & F2 & S2 & D2).
    exists (a', b'), u2. cbn [pair_codec c_deser_rest]. rewrite F1. cbn [obind]. rewrite F2. cbn. auto.
Qed.

(** Transfer along a record <-> tuple correspondence. *)
Lemma iso_laws {A B} (c : codec A) (c' : codec B) (f : A -> B) (g : B -> A) (va : A -> Prop) (sa : A -> A -> Prop) vb sb :
  laws c' vb sb ->
  (forall a, va a -> vb (f a)) ->
  (forall a b, sb (f a) b -> sa a (g b)) -> (forall b b', sb b b' -> sa (g b) (g b')) ->
  (forall a y, c_ser c' (f a) = Ok y -> exists x, c_ser c a = Ok x /\ ba_data x = ba_data y) ->
  (forall t, c_deser_rest c t = do (b, t') <- c_deser_rest c' t; Ok (g b, t')) ->
  laws c va sa.
Proof.
  intros [R D] Hv Hs1 Hs2 Hser Hde. split.
  - intros a Ha. destruct (R (f a) (Hv a Ha)) as (y & Ey & Oy & Hy).
    destruct (Hser a y Ey) as (x & Ex & Dx). exists x. rewrite Dx. split; [assumption|]. split; [assumption|].
    intros t rest Ht Hr. destruct (Hy t rest Ht Hr) as (b' & t' & E & S & Dt). exists (g b'), t'.
    rewrite Hde, E. cbn. auto.
  - intros t a t' Hok H. rewrite Hde in H. apply obind_ok in H. destruct H as ((b & t1) & E & H). injection H as <- <-.
    destruct (D t b t1 Hok E) as (p & Hp & P). exists p. split; [assumption|].
    intros u s Hu Hs. destruct (P u s Hu Hs) as (b' & u' & F & S & Du). exists (g b'), u'. rewrite Hde, F. cbn. auto.
Qed.

(* ---------- base codecs ---------- *)
Lemma fixed_laws n : 0 <= n -> laws (fixed_codec n) (fixed_value n) same_bytes.
Proof.
  intros Hn. split.
  - intros a [Hok Hl]. unfold ba_len in Hl. exists a. split; [reflexivity|]. split; [assumption|]. intros t rest Ht Hr.
    destruct (split_data_n t _ _ n Ht Hl) as (l & r & E & Dl & Dr). exists l, r. cbn [fixed_codec c_deser_rest].
    rewrite E. cbn [obind]. unfold fixed_from_byte_array, ba_len. rewrite Dl, Hl, Z.eqb_refl. cbn. unfold same_bytes. auto.
  - intros t a t' Hok H. cbn [fixed_codec c_deser_rest] in H. apply obind_ok in H. destruct H as ((l & r) & E & H).
    apply split_inv in E; [|assumption]. destruct E as [Dt Hl].
    unfold fixed_from_byte_array in H. destruct (n =? ba_len l) eqn:En; [|discriminate]. cbn in H. injection H as <- <-.
    exists (ba_data l). split; [assumption|]. intros u s Hu Hs. destruct (split_data_n u _ _ n Hu Hl) as (l' & r' & E' & Dl & Dr).
    exists l', r'. cbn [fixed_codec c_deser_rest]. rewrite E'. cbn [obind]. unfold fixed_from_byte_array, ba_len.
    rewrite Dl, Hl, Z.eqb_refl. cbn. unfold same_bytes. auto.
Qed.

Lemma pow_half n : (0 < n)%nat -> 2 ^ (8 * Z.of_nat n) = 2 * 2 ^ (8 * Z.of_nat n - 1).
Proof. intros H. replace (8 * Z.of_nat n) with (1 + (8 * Z.of_nat n - 1)) at 1 by lia. rewrite Z.pow_add_r by lia. reflexivity. Qed.

Lemma int_of_le_bytes n signed v : (0 < n)%nat -> int_value n signed v -> int_of_le n signed (le_bytes n v) = v.
Proof.
  intros Hn Hv. unfold int_of_le, int_value in *. rewrite le_value_bytes. cbv zeta. destruct signed; cbn [andb].
  - rewrite (pow_half n Hn). set (h := 2 ^ (8 * Z.of_nat n - 1)) in *.
    destruct (Z.lt_ge_cases v 0).
    + replace (v mod (2 * h)) with (v + 2 * h).
      * destruct (Z.leb_spec h (v + 2 * h)); lia.
      * symmetry. rewrite <- (Z.mod_add v 1) by lia. rewrite Z.mod_small; lia.
    + rewrite Z.mod_small by lia. destruct (Z.leb_spec h v); lia.
  - now rewrite Z.mod_small.
Qed.

Lemma int_laws n signed : (0 < n)%nat -> laws (int_codec n signed) (int_value n signed) eq.
Proof.
  intros Hn. split.
  - intros v Hv. exists (ba_unnamed (le_bytes n v)). split; [reflexivity|]. split; [apply le_bytes_ok|].
    intros t rest Ht Hr. cbn [ba_data ba_unnamed] in Ht.
    destruct (split_data_n t _ _ (Z.of_nat n) Ht (le_bytes_zlen n v)) as (l & r & E & Dl & Dr).
    exists v, r. cbn [int_codec c_deser_rest]. rewrite E. cbn [obind]. rewrite Dl, int_of_le_bytes by assumption. auto.
  - intros t a t' Hok H. cbn [int_codec c_deser_rest] in H. apply obind_ok in H. destruct H as ((l & r) & E & H).
    apply split_inv in E; [|lia]. destruct E as [Dt Hl]. injection H as <- <-.
    exists (ba_data l). split; [assumption|]. intros u s Hu Hs. destruct (split_data_n u _ _ _ Hu Hl) as (l' & r' & E' & Dl & Dr).
    eexists _, r'. cbn [int_codec c_deser_rest]. rewrite E'. cbn [obind]. rewrite Dl. auto.
Qed.
Lemma u32_laws : laws u32_codec u32_ok eq. Proof. exact (int_laws 4 false ltac:(lia)). Qed.
Lemma u64_laws : laws u64_codec u64_ok eq. Proof. exact (int_laws 8 false ltac:(lia)). Qed.
Lemma i32_laws : laws i32_codec i32_ok eq. Proof. exact (int_laws 4 true ltac:(lia)). Qed.

Lemma bool_laws : laws bool_codec (fun _ => True) eq.
Proof.
  split.
  - intros b _. exists (ba_unnamed [if b then 1 else 0]). split; [reflexivity|]. split; [apply bytes1; destruct b; lia|].
    intros t rest Ht Hr. cbn [ba_data ba_unnamed] in Ht.
    destruct (split_data_n t _ _ 1 Ht eq_refl) as (l & r & E & Dl & Dr).
    exists b, r. cbn [bool_codec c_deser_rest]. rewrite E. cbn [obind]. rewrite Dl. destruct b; auto.
  - intros t a t' Hok H. cbn [bool_codec c_deser_rest] in H. apply obind_ok in H. destruct H as ((l & r) & E & H).
    apply split_inv in E; [|lia]. destruct E as [Dt Hl]. injection H as <- <-.
    exists (ba_data l). split; [assumption|]. intros u s Hu Hs. destruct (split_data_n u _ _ _ Hu Hl) as (l' & r' & E' & Dl & Dr).
    eexists _, r'. cbn [bool_codec c_deser_rest]. rewrite E'. cbn [obind]. rewrite Dl. auto.
Qed.

(* read_size *)
Lemma read_size_data t p s n : ba_data t = p ++ s -> is_varint n p -> exists r, read_size t = Ok (n, r) /\ ba_data r = s.
Proof.
  intros Ht Hv. unfold read_size. rewrite Ht, (varint_read n p s Hv). cbn [obind].
  assert (ba_len t - zlen s = zlen p) as -> by (unfold ba_len; rewrite Ht, zlen_app; lia).
  destruct (split_data t p s Ht) as (l & r & -> & _ & Dr). cbn. eauto.
Qed.
Lemma read_size_inv t n r : bytes_ok (ba_data t) -> read_size t = Ok (n, r) ->
  exists p, ba_data t = p ++ ba_data r /\ is_varint n p.
Proof.
  intros Hok H. unfold read_size in H. apply obind_ok in H. destruct H as ((len & unread) & E & H).
  apply varint_read_inv in E; [|assumption]. destruct E as (p & Hv & Hp).
  assert (ba_len t - zlen unread = zlen p) as El by (unfold ba_len; rewrite Hp, zlen_app; lia).
  rewrite El in H. destruct (split_data t p unread Hp) as (l & r' & E & _ & Dr). rewrite E in H. cbn in H. injection H as <- <-.
  exists p. rewrite Dr. auto.
Qed.
Lemma read_size_no_panic t : bytes_ok (ba_data t) -> read_size t <> Panic.
Proof.
  intros Hok H. unfold read_size in H. destruct (read_var_int_total (ba_data t)) as [(n & r & E)|E]; rewrite E in H; [|discriminate].
  cbn [obind] in H. apply varint_read_inv in E; [|assumption]. destruct E as (p & Hv & Hp).
  assert (ba_len t - zlen r = zlen p) as El by (unfold ba_len; rewrite Hp, zlen_app; lia).
  rewrite El in H. destruct (split_data t p r Hp) as (l & r' & E & _ & Dr). rewrite E in H. discriminate.
Qed.
Lemma varint_ok n p : is_varint n p -> bytes_ok p /\ u64_ok n.
Proof.
  intros [Hn|bs Hb Hl Hv|bs Hb Hl Hv|bs Hb Hl Hv].
  - split; [apply bytes1; lia|unfold u64_ok; change (2 ^ 64) with 18446744073709551616; lia].
  - split; [apply bytes_ok_cons; unfold byte_ok; split; [lia|assumption]|].
    pose proof (le_value_bound bs Hb) as B. unfold zlen in B. rewrite Hl in B. change (2 ^ (8 * Z.of_nat 2)) with 65536 in B.
    unfold u64_ok. change (2 ^ 64) with 18446744073709551616. lia.
  - split; [apply bytes_ok_cons; unfold byte_ok; split; [lia|assumption]|].
    pose proof (le_value_bound bs Hb) as B. unfold zlen in B. rewrite Hl in B. change (2 ^ (8 * Z.of_nat 4)) with 4294967296 in B.
    unfold u64_ok. change (2 ^ 64) with 18446744073709551616. lia.
  - split; [apply bytes_ok_cons; unfold byte_ok; split; [lia|assumption]|].
    pose proof (le_value_bound bs Hb) as B. unfold zlen in B. rewrite Hl in B. change (2 ^ (8 * Z.of_nat 8)) with 18446744073709551616 in B.
    unfold u64_ok. change (2 ^ 64) with 18446744073709551616. lia.
Qed.

Lemma mem_u64 {A} (l : list A) : in_memory (zlen l) -> u64_ok (zlen l).
Proof.
  unfold in_memory, u64_ok. change (2 ^ 63) with 9223372036854775808. change (2 ^ 64) with 18446744073709551616.
  pose proof (zlen_nonneg l). lia.
Qed.

Lemma bytearray_laws : laws bytearray_codec bytes_value same_bytes.
Proof.
  split.
  - intros a [Hok Hm]. eexists. split; [reflexivity|]. cbn [ba_data]. rewrite concat_data. cbn [ba_data ba_new].
    pose proof (mem_u64 _ Hm) as Hu. split; [apply bytes_ok_app; split; [now apply encode_var_int_ok|assumption]|].
    intros t rest Ht Hr. rewrite <- app_assoc in Ht.
    destruct (read_size_data t _ _ _ Ht (encode_var_int_form _ Hu)) as (r & E & Dr).
    cbn [bytearray_codec c_deser_rest]. unfold ba_len in E. rewrite E. cbn [obind].
    destruct (split_data r _ _ Dr) as (l & r' & E' & Dl & Dr'). rewrite E'. exists l, r'. unfold same_bytes. auto.
  - intros t a t' Hok H. cbn [bytearray_codec c_deser_rest] in H. apply obind_ok in H. destruct H as ((n & r) & E & H).
    apply read_size_inv in E; [|assumption]. destruct E as (p & Dt & Hv).
    destruct (varint_ok n p Hv) as [Hp Hn]. unfold u64_ok in Hn.
    apply split_inv in H; [|lia]. destruct H as [Dr Hl].
    exists (p ++ ba_data a). split; [rewrite Dt, Dr; apply app_assoc|].
    intros u s Hu Hs. rewrite <- app_assoc in Hu. destruct (read_size_data u _ _ _ Hu Hv) as (r' & E' & Dr').
    cbn [bytearray_codec c_deser_rest]. rewrite E'. cbn [obind].
    destruct (split_data_n r' _ _ n Dr' Hl) as (l & r'' & E'' & Dl & Dr''). exists l, r''. unfold same_bytes. auto.
Qed.

(* scripts *)
Lemma same_op_means o o' i : same_op o o' -> means o i -> means o' i.
Proof. intros H Hm. destruct H as [| |x y m Hxy| |]; auto. inversion Hm; subst. rewrite Hxy. constructor. Qed.
Lemma same_op_sym o o' : same_op o o' -> same_op o' o.
Proof. intros H; destruct H; constructor; auto. Qed.

Lemma map_t_op_from ops : map t_op (script_from_ops ops) = ops.
Proof. unfold script_from_ops. rewrite map_map. cbn. apply map_id. Qed.

Definition same_instrs (ops ops' : list op) : Prop := Forall2 (fun o o' => exists i, means o i /\ means o' i) ops ops'.
Lemma same_script_ops s ops : same_instrs (map t_op s) ops -> same_script s (script_from_ops ops).
Proof.
  unfold same_instrs, same_script. intros H. remember (map t_op s) as l eqn:E. revert s E.
  induction H as [|o o' l l' Ho _ IH]; intros s E; destruct s as [|t s]; try discriminate; [constructor|].
  injection E as -> ->. cbn. constructor; [exact Ho|]. now apply IH.
Qed.

Lemma deser_same_data t u ops : bytes_ok (ba_data t) -> ba_data u = ba_data t -> deserialize_ops_ba t = Ok ops ->
  exists ops', deserialize_ops_ba u = Ok ops' /\ same_instrs ops ops'.
Proof.
  intros Hok Hd E. pose proof (deserialize_agree t Hok) as Ht. pose proof (deserialize_agree u) as Hu. rewrite Hd in Hu.
  specialize (Hu Hok). destruct (deserialize_ops_total (ba_data t) Hok) as [(ch & is & ops0 & _ & _ & Hm & _ & E0)|[_ E0]]; rewrite E0 in *.
  - destruct Ht as (o1 & E1 & F1). destruct Hu as (o2 & E2 & F2). rewrite E in E1. injection E1 as <-.
    exists o2. split; [assumption|]. unfold same_instrs. clear - F1 F2 Hm. revert ops o2 F1 F2.
    induction Hm as [|o i l is Ho _ IH]; intros ops o2 F1 F2; inversion F1; inversion F2; subst; constructor; auto.
    exists i. split; eapply same_op_means; eauto.
  - destruct Ht as (e & Ht). congruence.
Qed.

Lemma script_laws : laws script_codec script_value same_script.
Proof.
  destruct bytearray_laws as [Rb Db]. split.
  - intros s [Hops Hmem]. destruct (ser_deser (map t_op s) Hops) as (a & ops' & E & Hb & E' & Heq & _ & _).
    assert (script_ser_ops s = Ok a) as Es by (unfold script_ser_ops; now rewrite E).
    destruct (Rb a) as (x & Ex & Ox & Hx); [split; [assumption|now apply Hmem]|].
    exists x. cbn [script_codec c_ser]. rewrite Es. cbn [obind]. split; [assumption|]. split; [assumption|].
    intros t rest Ht Hr. destruct (Hx t rest Ht Hr) as (a' & t' & E1 & S1 & D1). unfold same_bytes in S1.
    pose proof (deserialize_agree a') as Ha. rewrite <- S1, E' in Ha. destruct (Ha Hb) as (ops'' & E2 & F2).
    exists (script_from_ops ops''), t'. cbn [script_codec c_deser_rest]. rewrite E1. cbn [obind]. rewrite E2. cbn [obind].
    split; [reflexivity|]. split; [|assumption]. apply same_script_ops.
    clear - Heq F2. unfold same_instrs. revert ops'' F2. induction Heq as [|o o0 l l0 (i & I1 & I2) _ IH]; intros ops'' F2; inversion F2; subst; constructor; auto.
    exists i. split; [assumption|]. eapply same_op_means; eauto.
  - intros t s t' Hok H. cbn [script_codec c_deser_rest] in H. apply obind_ok in H. destruct H as ((a & t1) & E1 & H).
    apply obind_ok in H. destruct H as (ops & E2 & H). injection H as <- <-.
    assert (exists p, ba_data t = p ++ ba_data t1 /\ bytes_ok (ba_data a) /\ forall u s, ba_data u = p ++ s -> bytes_ok s ->
        exists a' u', c_deser_rest bytearray_codec u = Ok (a', u') /\ same_bytes a a' /\ ba_data u' = s) as (p & Dt & Hoka & P).
    { pose proof E1 as E1'. cbn [bytearray_codec c_deser_rest] in E1'. apply obind_ok in E1'. destruct E1' as ((n & r) & En & Hsp).
      apply read_size_inv in En; [|assumption]. destruct En as (q & Dq & Hv). destruct (varint_ok n q Hv) as [_ Hn]. unfold u64_ok in Hn.
      apply split_inv in Hsp; [|lia]. destruct Hsp as [Dr _].
      destruct (Db t a t1 Hok E1) as (p & Dt & P). exists p. split; [assumption|]. split; [|assumption].
      rewrite Dq, Dr in Hok. apply bytes_ok_app in Hok. destruct Hok as [_ Hok]. apply bytes_ok_app in Hok. tauto. }
    exists p. split; [assumption|]. intros u s Hu Hs. destruct (P u s Hu Hs) as (a' & u' & F & S & Du).
    destruct (deser_same_data a a' ops Hoka) as (ops' & F2 & Si); [symmetry; exact S|assumption|].
    exists (script_from_ops ops'), u'. cbn [script_codec c_deser_rest]. rewrite F. cbn [obind]. rewrite F2. cbn [obind].
    split; [reflexivity|]. split; [|assumption]. apply same_script_ops. now rewrite map_t_op_from.
Qed.

(* vectors *)
Lemma vec_loop_round {A} (c : codec A) value same : roundtrips c value same -> forall v, Forall value v ->
  exists parts, omap (c_ser c) v = Ok parts /\ bytes_ok (concat (map ba_data parts)) /\
    forall t rest, ba_data t = concat (map ba_data parts) ++ rest -> bytes_ok rest ->
      exists v' t', vec_loop c (length v) t = Ok (v', t') /\ Forall2 same v v' /\ ba_data t' = rest.
Proof.
  intros R v Hv. induction Hv as [|a v Ha _ (parts & E & Ok1 & P)].
  - exists []. split; [reflexivity|]. split; [constructor|]. intros t rest Ht _. exists [], t. cbn. auto.
  - destruct (R a Ha) as (x & Ex & Ox & Hx). exists (x :: parts). split; [now apply omap_app_cons|]. cbn [map concat].
    split; [apply bytes_ok_app; auto|]. intros t rest Ht Hr. rewrite <- app_assoc in Ht.
    destruct (Hx t _ Ht) as (a' & t1 & E1 & S1 & D1); [apply bytes_ok_app; auto|].
    destruct (P t1 rest D1 Hr) as (v' & t2 & E2 & S2 & D2). exists (a' :: v'), t2. cbn [length vec_loop].
    rewrite E1. cbn [obind]. rewrite E2. cbn. auto.
Qed.
Lemma vec_loop_delim {A} (c : codec A) same : self_delimiting c same -> forall n t v t', bytes_ok (ba_data t) ->
  vec_loop c n t = Ok (v, t') -> length v = n /\ exists p, ba_data t = p ++ ba_data t' /\
    forall u s, ba_data u = p ++ s -> bytes_ok s ->
      exists v' u', vec_loop c n u = Ok (v', u') /\ Forall2 same v v' /\ ba_data u' = s.
Proof.
  intros D n. induction n as [|n IH]; intros t v t' Hok H.
  - injection H as <- <-. split; [reflexivity|]. exists []. split; [reflexivity|]. intros u s Hu _. exists [], u. cbn. auto.
  - cbn [vec_loop] in H. apply obind_ok in H. destruct H as ((a & t1) & E1 & H). apply obind_ok in H. destruct H as ((v1 & t2) & E2 & H).
    injection H as <- <-. destruct (D t a t1 Hok E1) as (p & Dt & P). rewrite Dt in Hok. apply bytes_ok_app in Hok.
    destruct (IH t1 v1 t2 ltac:(tauto) E2) as (Hl & q & Dq & Q). split; [cbn; lia|]. exists (p ++ q). split; [rewrite Dt, Dq; apply app_assoc|].
    intros u s Hu Hs. rewrite <- app_assoc in Hu. rewrite Dq in Hok. destruct Hok as [_ Hok]. apply bytes_ok_app in Hok.
    destruct (P u _ Hu) as (a' & u1 & F1 & S1 & D1); [apply bytes_ok_app; tauto|].
    destruct (Q u1 s D1 Hs) as (v' & u2 & F2 & S2 & D2). exists (a' :: v'), u2. cbn [vec_loop]. rewrite F1. cbn [obind]. rewrite F2. cbn. auto.
Qed.
Lemma vec_laws {A} sz (c : codec A) value same : laws c value same -> laws (vec_codec sz c) (vec_value sz value) (Forall2 same).
Proof.
  intros [R D]. split.
  - intros v (Hv & Hsz & Hlen). assert (u64_ok (zlen v)) as Hu by (unfold u64_ok; pose proof (zlen_nonneg v); lia).
    destruct (vec_loop_round c value same R v Hv) as (parts & E & Ok1 & P).
    eexists. cbn [vec_codec c_ser]. rewrite E. cbn [obind]. split; [reflexivity|]. rewrite concat_data, from_parts_data. cbn [ba_data ba_new].
    split; [apply bytes_ok_app; split; [now apply encode_var_int_ok|assumption]|].
    intros t rest Ht Hr. rewrite <- app_assoc in Ht.
    destruct (read_size_data t _ _ _ Ht (encode_var_int_form _ Hu)) as (r & E1 & Dr).
    destruct (P r rest Dr Hr) as (v' & t' & E2 & S & D2). exists v', t'. cbn [vec_codec c_deser_rest]. rewrite E1. cbn [obind].
    destruct (Z.ltb_spec (2 ^ 63 - 1) (zlen v * sz)); [lia|]. unfold zlen. rewrite Nat2Z.id. auto.
  - intros t v t' Hok H. cbn [vec_codec c_deser_rest] in H. apply obind_ok in H. destruct H as ((n & r) & E1 & H).
    destruct (Z.ltb_spec (2 ^ 63 - 1) (n * sz)); [discriminate|].
    apply read_size_inv in E1; [|assumption]. destruct E1 as (p & Dt & Hv). rewrite Dt in Hok. apply bytes_ok_app in Hok.
    destruct (vec_loop_delim c same D _ r v t' ltac:(tauto) H) as (_ & q & Dq & Q).
    exists (p ++ q). split; [rewrite Dt, Dq; apply app_assoc|].
    intros u s Hu Hs. rewrite <- app_assoc in Hu. 
    destruct (read_size_data u _ _ _ Hu Hv) as (r' & E1 & Dr).
    destruct (Q r' s Dr Hs) as (v' & u' & F & S & Du). exists v', u'. cbn [vec_codec c_deser_rest]. rewrite E1. cbn [obind].
    destruct (Z.ltb_spec (2 ^ 63 - 1) (n * sz)); [lia|]. auto.
Qed.

(* records *)
Ltac inv_ser H :=
  cbn [pair_codec c_ser fst snd] in H;
  repeat (apply obind_ok in H; let x := fresh "x" in let E := fresh "E" in destruct H as (x & E & H); cbn [pair_codec c_ser fst snd] in E).
Lemma obind_assoc {A B C} (o : outcome A) (f : A -> outcome B) (g : B -> outcome C) :
  obind (obind o f) g = obind o (fun a => obind (f a) g).
Proof. destruct o; reflexivity. Qed.

Lemma outpoint_laws : laws outpoint_codec outpoint_value same_outpoint.
Proof.
  eapply (iso_laws outpoint_codec (pair_codec sha256d_codec u32_codec)
    (fun o => (op_tx_hash o, op_vout o)) (fun ab => TxOutpoint (fst ab) (snd ab))).
  - apply pair_laws; [apply fixed_laws; lia|apply u32_laws].
  - intros a H. exact H.
  - intros a [b1 b2]. cbn. unfold same_outpoint, same_bytes. auto.
  - intros [a1 a2] [b1 b2]. cbn. unfold same_outpoint, same_bytes. auto.
  - intros a y H. cbn [pair_codec c_ser fst snd] in H. apply obind_ok in H. destruct H as (x1 & E1 & H).
    apply obind_ok in H. destruct H as (x2 & E2 & H). injection H as <-. cbn [outpoint_codec c_ser]. rewrite E1. cbn [obind]. rewrite E2. cbn [obind].
    eexists. split; [reflexivity|]. rewrite from_parts_data, concat_data. cbn [map concat]. rewrite !named_data, app_nil_r. reflexivity.
  - intros t. cbn [outpoint_codec pair_codec c_deser_rest]. destruct (c_deser_rest sha256d_codec t) as [[h t1]|e|]; cbn [obind]; auto.
    destruct (c_deser_rest u32_codec t1) as [[v t2]|e|]; reflexivity.
Qed.

Lemma input_laws : laws input_codec input_value same_input.
Proof.
  eapply (iso_laws input_codec (pair_codec outpoint_codec (pair_codec script_codec u32_codec))
    (fun o => (in_prev_out o, (in_script o, in_sequence o)))
    (fun ab => TxInput (fst ab) (fst (snd ab)) (snd (snd ab)) None None None None)).
  - apply pair_laws; [apply outpoint_laws|apply pair_laws; [apply script_laws|apply u32_laws]].
  - intros a H. exact H.
  - intros a [b1 [b2 b3]]. cbn. unfold same_input. auto.
  - intros [a1 [a2 a3]] [b1 [b2 b3]]. cbn. unfold same_input. auto.
  - intros a y H. cbn [pair_codec c_ser fst snd] in H. apply obind_ok in H. destruct H as (x1 & E1 & H).
    apply obind_ok in H. destruct H as (x23 & E23 & H). injection H as <-.
    apply obind_ok in E23. destruct E23 as (x2 & E2 & E23). apply obind_ok in E23. destruct E23 as (x3 & E3 & E23). injection E23 as <-.
    cbn [input_codec c_ser]. rewrite E1. cbn [obind]. rewrite E2. cbn [obind]. rewrite E3. cbn [obind].
    eexists. split; [reflexivity|]. rewrite from_parts_data, !concat_data. cbn [map concat]. rewrite !named_data, app_nil_r. reflexivity.
  - intros t. cbn [input_codec pair_codec c_deser_rest]. rewrite !obind_assoc.
    destruct (c_deser_rest outpoint_codec t) as [[h t1]|e|]; cbn [obind]; auto. rewrite !obind_assoc.
    destruct (c_deser_rest script_codec t1) as [[v t2]|e|]; cbn [obind]; auto.
    destruct (c_deser_rest u32_codec t2) as [[w t3]|e|]; reflexivity.
Qed.

Lemma output_laws : laws output_codec output_value same_output.
Proof.
  eapply (iso_laws output_codec (pair_codec u64_codec script_codec)
    (fun o => (out_value o, out_script o)) (fun ab => TxOutput (fst ab) (snd ab))).
  - apply pair_laws; [apply u64_laws|apply script_laws].
  - intros a H. exact H.
  - intros a [b1 b2]. cbn. unfold same_output. auto.
  - intros [a1 a2] [b1 b2]. cbn. unfold same_output. auto.
  - intros a y H. cbn [pair_codec c_ser fst snd] in H. apply obind_ok in H. destruct H as (x1 & E1 & H).
    apply obind_ok in H. destruct H as (x2 & E2 & H). injection H as <-. cbn [output_codec c_ser]. rewrite E1. cbn [obind]. rewrite E2. cbn [obind].
    eexists. split; [reflexivity|]. rewrite from_parts_data, concat_data. cbn [map concat]. rewrite !named_data, app_nil_r. reflexivity.
  - intros t. cbn [output_codec pair_codec c_deser_rest]. destruct (c_deser_rest u64_codec t) as [[h t1]|e|]; cbn [obind]; auto.
    destruct (c_deser_rest script_codec t1) as [[v t2]|e|]; reflexivity.
Qed.

Lemma unhashed_tx_laws si so : laws (unhashed_tx_codec si so) (tx_value si so) same_tx.
Proof.
  eapply (iso_laws (unhashed_tx_codec si so)
    (pair_codec i32_codec (pair_codec (vec_codec si input_codec) (pair_codec (vec_codec so output_codec) u32_codec)))
    (fun o => (tx_version o, (tx_inputs o, (tx_outputs o, tx_lock_time o))))
    (fun ab => UnhashedTx (fst ab) (fst (snd ab)) (fst (snd (snd ab))) (snd (snd (snd ab))))).
  - apply pair_laws; [apply i32_laws|apply pair_laws; [apply vec_laws, input_laws|apply pair_laws; [apply vec_laws, output_laws|apply u32_laws]]].
  - intros a H. exact H.
  - intros a [b1 [b2 [b3 b4]]]. cbn. unfold same_tx. auto.
  - intros [a1 [a2 [a3 a4]]] [b1 [b2 [b3 b4]]]. cbn. unfold same_tx. auto.
  - intros a y H. cbn [pair_codec c_ser fst snd] in H. apply obind_ok in H. destruct H as (x1 & E1 & H).
    apply obind_ok in H. destruct H as (x2' & E2' & H). injection H as <-.
    apply obind_ok in E2'. destruct E2' as (x2 & E2 & H). apply obind_ok in H. destruct H as (x3' & E3' & H). injection H as <-.
    apply obind_ok in E3'. destruct E3' as (x3 & E3 & H). apply obind_ok in H. destruct H as (x4 & E4 & H). injection H as <-.
    cbn [unhashed_tx_codec c_ser] in *. cbn [fst snd] in *. rewrite E1. cbn [obind]. rewrite E2. cbn [obind]. rewrite E3. cbn [obind]. rewrite E4. cbn [obind].
    eexists. split; [reflexivity|]. rewrite from_parts_data, !concat_data. cbn [map concat]. rewrite !named_data, app_nil_r. reflexivity.
  - intros t. cbn [unhashed_tx_codec pair_codec c_deser_rest]. rewrite !obind_assoc.
    repeat (rewrite ?obind_assoc; match goal with |- obind ?o _ = _ => destruct o as [[? ?]|?|]; cbn [obind]; auto end).
Qed.

Lemma tx_laws : laws tx_codec (fun t => bytes_value (tx_raw t)) same_raw.
Proof.
  eapply (iso_laws tx_codec bytearray_codec tx_raw (fun raw => Tx unhashed_tx_default sha256d_default raw)).
  - apply bytearray_laws.
  - intros a H. exact H.
  - intros a b H. exact H.
  - intros a b H. exact H.
  - intros a y H. cbn [tx_codec c_ser]. rewrite H. cbn [obind]. eexists. split; [reflexivity|].
    rewrite from_parts_data. cbn [map concat]. now rewrite named_data, app_nil_r.
  - intros t. reflexivity.
Qed.

Lemma preimage_laws : laws preimage_codec preimage_value same_preimage.
Proof.
  eapply (iso_laws preimage_codec
    (pair_codec i32_codec (pair_codec sha256d_codec (pair_codec sha256d_codec (pair_codec outpoint_codec (pair_codec script_codec
      (pair_codec u64_codec (pair_codec u32_codec (pair_codec sha256d_codec (pair_codec u32_codec u32_codec)))))))))
    (fun p => (pi_version p, (pi_hash_prevouts p, (pi_hash_sequence p, (pi_outpoint p, (pi_script_code p, (pi_value p,
       (pi_sequence p, (pi_hash_outputs p, (pi_lock_time p, pi_sig_hash_type p))))))))))
    (fun '(a, (b, (c, (d, (e, (f, (g, (h, (i, j))))))))) => TxPreimage a b c d e f g h i j)).
  - repeat (apply pair_laws; [first [apply i32_laws|apply u32_laws|apply u64_laws|apply outpoint_laws|apply script_laws|apply fixed_laws; lia]|]). apply u32_laws.
  - intros a H. exact H.
  - intros a (b1 & b2 & b3 & b4 & b5 & b6 & b7 & b8 & b9 & b10). cbn. unfold same_preimage, same_bytes. auto 12.
  - intros (a1 & a2 & a3 & a4 & a5 & a6 & a7 & a8 & a9 & a10) (b1 & b2 & b3 & b4 & b5 & b6 & b7 & b8 & b9 & b10). cbn. unfold same_preimage, same_bytes. auto 12.
  - intros a y H.
    cbn [pair_codec c_ser fst snd] in H.
    do 9 (apply obind_ok in H; let x := fresh "x" in let E := fresh "E" in let y' := fresh "y" in let H2 := fresh "H" in
          destruct H as (x & E & H); apply obind_ok in H; destruct H as (y' & H2 & H); injection H as <-; rename H2 into H).
    cbn [preimage_codec c_ser] in *.
    repeat match goal with E : _ = Ok _ |- _ => rewrite E; cbn [obind]; clear E end.
    eexists. split; [reflexivity|]. rewrite from_parts_data, !concat_data. cbn [map concat]. rewrite !named_data, app_nil_r. reflexivity.
  - intros t. cbn [preimage_codec pair_codec c_deser_rest].
    repeat (rewrite ?obind_assoc; match goal with |- obind ?o _ = _ => destruct o as [[? ?]|?|]; cbn [obind]; auto end).
Qed.
