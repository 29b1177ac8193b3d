(** The library's serialisation and signing messages against the network-side specification. *)
From Verif Require Import Base BaseLemmas Model_Encoding Spec_Encoding Proofs_Encoding Model_ByteArray Proofs_ByteArray Model_Opcode Model_Script
  Spec_Script Proofs_Script Model_Code Proofs_Code Model_Destination Model_Preimage Spec_Preimage Proofs_Preimage Model_TxBuilder Proofs_TxBuilder2 Spec_Network Spec_NetView Proofs_Network.
Local Open Scope list_scope.
Local Open Scope Z_scope.

Lemma Ok_inj {A} (a b : A) : Ok a = Ok b -> a = b. Proof. intros H. injection H. auto. Qed.
Lemma compact_eq n : 0 <= n -> encode_var_int n = compact n.
Proof.
  intros H. unfold encode_var_int, compact. destruct (Z.leb_spec n 0xfc), (Z.ltb_spec n 253); try lia.
  { cbn [le_bytes]. now rewrite Z.mod_small by lia. }
  destruct (Z.leb_spec n 0xffff), (Z.ltb_spec n 65536); try lia; [reflexivity|].
  destruct (Z.leb_spec n 0xffffffff), (Z.ltb_spec n 4294967296); try lia; reflexivity.
Qed.

Lemma le_bytes_mod k v : le_bytes k (v mod 2 ^ (8 * Z.of_nat k)) = le_bytes k v.
Proof.
  revert v. induction k as [|k IH]; intros v; [reflexivity|]. cbn [le_bytes].
  rewrite Nat2Z.inj_succ. replace (8 * Z.succ (Z.of_nat k)) with (8 + 8 * Z.of_nat k) by lia. rewrite Z.pow_add_r by lia. change (2 ^ 8) with 256.
  assert (0 < 2 ^ (8 * Z.of_nat k)) by (apply Z.pow_pos_nonneg; lia).
  rewrite Z.rem_mul_r by lia. f_equal.
  - replace (v mod 256 + 256 * ((v / 256) mod 2 ^ (8 * Z.of_nat k))) with (v mod 256 + ((v / 256) mod 2 ^ (8 * Z.of_nat k)) * 256) by lia.
    rewrite Z.mod_add by lia. apply Z.mod_mod. lia.
  - rewrite <- (IH (v / 256)). f_equal. replace (v mod 256 + 256 * ((v / 256) mod 2 ^ (8 * Z.of_nat k))) with (v mod 256 + ((v / 256) mod 2 ^ (8 * Z.of_nat k)) * 256) by lia.
    rewrite Z.div_add by lia. rewrite (Z.div_small (v mod 256)) by (apply Z.mod_pos_bound; lia). lia.
Qed.
Lemma le_bytes_mod4 v : le_bytes 4 (v mod 2 ^ 32) = le_bytes 4 v. Proof. exact (le_bytes_mod 4 v). Qed.

Lemma script_bytes s x : c_ser script_codec s = Ok x -> exists bs, as_script s bs /\ ba_data x = compact (zlen bs) ++ bs.
Proof.
  cbn [c_ser script_codec]. intros E. apply obind_ok in E. destruct E as (a & Ea & E). cbn [c_ser bytearray_codec] in E. apply Ok_inj in E. subst x.
  exists (ba_data a). split; [exists a; auto|]. rewrite concat_data. unfold ba_new, ba_len. cbn [ba_data]. rewrite compact_eq by apply zlen_nonneg. reflexivity.
Qed.
Lemma outpoint_ser_bytes o x n : c_ser outpoint_codec o = Ok x -> as_outpoint o n -> ba_data x = outpoint_bytes n.
Proof.
  cbn [c_ser outpoint_codec sha256d_codec fixed_codec u32_codec int_codec obind]. intros E [H1 H2]. apply Ok_inj in E. subst x.
  rewrite from_parts_data. cbn [map concat ba_named ba_data ba_unnamed]. unfold outpoint_bytes. rewrite H1, H2, ?app_nil_r. now rewrite named_data.
Qed.
Lemma outpoint_ser_ok o : exists x, c_ser outpoint_codec o = Ok x.
Proof. eexists. reflexivity. Qed.
Lemma input_ser_bytes i x : c_ser input_codec i = Ok x -> exists n, as_input i n /\ ba_data x = input_bytes n.
Proof.
  cbn [c_ser input_codec]. intros E. apply obind_ok in E. destruct E as (a & Ea & E). apply obind_ok in E. destruct E as (b & Eb & E).
  apply obind_ok in E. destruct E as (c & Ec & E). apply Ok_inj in E. subst x. destruct (script_bytes _ _ Eb) as (bs & Hs & Hb).
  exists (NetInput (ba_data (op_tx_hash (in_prev_out i))) (op_vout (in_prev_out i)) bs (in_sequence i)). split.
  - split; [split; reflexivity|]. split; [exact Hs|reflexivity].
  - rewrite from_parts_data. cbn [map concat]. rewrite !named_data, app_nil_r.
    rewrite (outpoint_ser_bytes _ _ (NetInput (ba_data (op_tx_hash (in_prev_out i))) (op_vout (in_prev_out i)) bs (in_sequence i)) Ea) by (split; reflexivity).
    cbn [c_ser u32_codec int_codec] in Ec. apply Ok_inj in Ec. subst c. unfold input_bytes. cbn [ni_script ni_sequence]. rewrite Hb. cbn [ba_unnamed ba_data]. now rewrite <- app_assoc.
Qed.
Lemma output_ser_bytes o x : c_ser output_codec o = Ok x -> exists n, as_output o n /\ ba_data x = output_bytes n.
Proof.
  cbn [c_ser output_codec]. intros E. apply obind_ok in E. destruct E as (a & Ea & E). apply obind_ok in E. destruct E as (b & Eb & E). apply Ok_inj in E. subst x.
  destruct (script_bytes _ _ Eb) as (bs & Hs & Hb). exists (NetOutput (out_value o) bs). split; [split; [reflexivity|exact Hs]|].
  rewrite from_parts_data. cbn [map concat]. rewrite !named_data, app_nil_r. cbn [c_ser u64_codec int_codec] in Ea. apply Ok_inj in Ea. subst a. unfold output_bytes. cbn [no_script no_value]. now rewrite Hb.
Qed.
Lemma as_script_fun s a b : as_script s a -> as_script s b -> a = b.
Proof. intros (x & E & <-) (y & E' & <-). congruence. Qed.
Lemma as_output_fun o a b : as_output o a -> as_output o b -> a = b.
Proof. destruct a, b. intros [H1 H2] [H3 H4]. cbn in *. subst. f_equal. eapply as_script_fun; eauto. Qed.
Lemma omap_ser {A N} (ser : A -> outcome barray) (R : A -> N -> Prop) (f : N -> list Z) l ps :
  (forall a x, ser a = Ok x -> exists n, R a n /\ ba_data x = f n) -> omap ser l = Ok ps -> exists ns, Forall2 R l ns /\ concat (map ba_data ps) = concat (map f ns).
Proof.
  intros H. revert ps. induction l as [|a l IH]; intros ps E; cbn [omap] in E.
  - apply Ok_inj in E. subst ps. exists []. auto.
  - apply obind_ok in E. destruct E as (x & Ex & E). apply obind_ok in E. destruct E as (xs & Exs & E). apply Ok_inj in E. subst ps.
    destruct (H _ _ Ex) as (n & Hn & Dn). destruct (IH _ Exs) as (ns & Hns & Dns). exists (n :: ns). split; [constructor; auto|]. cbn [map concat]. congruence.
Qed.
Lemma Forall2_zlen {A B} (R : A -> B -> Prop) l m : Forall2 R l m -> zlen l = zlen m.
Proof. intros H. unfold zlen. f_equal. induction H; cbn; congruence. Qed.
(** The serialised transaction is the network's encoding of it. *)
Lemma tx_ser_net t raw : tx_ser t = Ok raw -> exists n, as_net t n /\ net_bytes n = ba_data raw.
Proof.
  unfold tx_ser. cbn [c_ser unhashed_tx_codec]. intros E. apply obind_ok in E. destruct E as (a & Ea & E). apply obind_ok in E. destruct E as (b & Eb & E).
  apply obind_ok in E. destruct E as (c & Ec & E). apply obind_ok in E. destruct E as (d & Ed & E). apply Ok_inj in E. subst raw.
  cbn [c_ser vec_codec] in Eb, Ec. apply obind_ok in Eb. destruct Eb as (bp & Ebp & Eb). apply Ok_inj in Eb. apply obind_ok in Ec. destruct Ec as (cp & Ecp & Ec). apply Ok_inj in Ec.
  destruct (omap_ser _ as_input input_bytes _ _ input_ser_bytes Ebp) as (ins & Hi & Di).
  destruct (omap_ser _ as_output output_bytes _ _ output_ser_bytes Ecp) as (outs & Ho & Do).
  exists (NetTx (tx_version t mod 2 ^ 32) ins outs (tx_lock_time t)). split; [split; [reflexivity|]; split; [exact Hi|]; split; [exact Ho|reflexivity]|].
  cbn [c_ser i32_codec u32_codec int_codec] in Ea, Ed. apply Ok_inj in Ea. apply Ok_inj in Ed. subst a b c d.
  rewrite from_parts_data. cbn [map concat]. rewrite !named_data, !concat_data, !from_parts_data, Di, Do, app_nil_r.
  unfold net_bytes. cbn [nt_version nt_inputs nt_outputs nt_lock_time ba_unnamed ba_new ba_data]. rewrite le_bytes_mod4, !compact_eq by apply zlen_nonneg.
  rewrite (Forall2_zlen _ _ _ Hi), (Forall2_zlen _ _ _ Ho). now rewrite <- !app_assoc.
Qed.

(** ** The signing message *)
Definition sig_as_net (s : sig_tx) (n : net_tx) : Prop :=
  nt_version n = st_version s mod 2 ^ 32 /\ nt_lock_time n = st_lock_time s /\
  Forall2 (fun i m => as_outpoint (si_outpoint i) m /\ ni_sequence m = si_sequence i) (st_inputs s) (nt_inputs n) /\
  Forall2 as_output (st_outputs s) (nt_outputs n).
Lemma omap_ser_fun {A N} (ser : A -> outcome barray) (R : A -> N -> Prop) (f : N -> list Z) l ns ps :
  (forall a x n, ser a = Ok x -> R a n -> ba_data x = f n) -> Forall2 R l ns -> omap ser l = Ok ps -> concat (map ba_data ps) = concat (map f ns).
Proof.
  intros H F. revert ps. induction F as [|a n l ns Hn _ IH]; intros ps E; cbn [omap] in E.
  - apply Ok_inj in E. subst ps. reflexivity.
  - apply obind_ok in E. destruct E as (x & Ex & E). apply obind_ok in E. destruct E as (xs & Exs & E). apply Ok_inj in E. subst ps.
    cbn [map concat]. rewrite (H _ _ _ Ex Hn). f_equal. auto.
Qed.
Lemma output_ser_fun o x n : c_ser output_codec o = Ok x -> as_output o n -> ba_data x = output_bytes n.
Proof. intros E H. destruct (output_ser_bytes _ _ E) as (n' & H' & ->). f_equal. eapply as_output_fun; eauto. Qed.
Lemma Forall2_map_l2 {A B C} (R : B -> C -> Prop) (g : A -> B) (l : list A) (m : list C) : Forall2 (fun a c => R (g a) c) l m -> Forall2 R (map g l) m.
Proof. induction 1; cbn; constructor; auto. Qed.
Lemma Forall2_nth {A B} (R : A -> B -> Prop) l m k a : Forall2 R l m -> nth_error l k = Some a -> exists b, nth_error m k = Some b /\ R a b.
Proof. intros F. revert k. induction F as [|x y l m H _ IH]; intros [|k] E; cbn in *; try discriminate; [injection E as <-; eauto|eauto]. Qed.
Lemma Forall2_nth_none {A B} (R : A -> B -> Prop) l m k : Forall2 R l m -> nth_error l k = None -> nth_error m k = None.
Proof. intros F. revert k. induction F as [|x y l m H _ IH]; intros [|k] E; cbn in *; try discriminate; auto. Qed.

Lemma Forall2_impl {A B} (R S : A -> B -> Prop) l m : (forall a b, R a b -> S a b) -> Forall2 R l m -> Forall2 S l m.
Proof. intros H. induction 1; constructor; auto. Qed.

Section Sha.
Variable sha256 : list Z -> list Z.
Hypothesis sha32 : hash32 sha256.
Lemma hash256_32 : hash32 (hash256 sha256). Proof. intros m. apply sha32. Qed.
Lemma testbit7 f : byte_ok f -> Z.testbit f 7 = (128 <=? f).
Proof.
  unfold byte_ok. intros H. rewrite Z.testbit_eqb by lia. change (2 ^ 7) with 128. destruct (Z.leb_spec 128 f) as [K|K].
  - replace (f / 128) with 1 by (apply (Z.div_unique _ _ 1 (f - 128)); lia). reflexivity.
  - rewrite Z.div_small by lia. reflexivity.
Qed.
Lemma message_net s n pss idx i k f ps p msg lock value code :
  sig_as_net s n -> build_preimages (hash256 sha256) s = Ok pss -> nth_error (st_inputs s) idx = Some i -> nth_error (si_flags i) k = Some f -> byte_ok f ->
  nth_error pss idx = Some ps -> nth_error ps k = Some p -> c_ser preimage_codec p = Ok msg ->
  si_lock_script i = Some lock -> si_value i = Some value -> as_script (to_script_code_first lock) code ->
  net_message sha256 n idx value code f = Some (ba_data msg).
Proof.
  intros (Nv & Nl & Ni & No) B Hi Hf Hfb Hps Hp Em Hl Hv Hc. rewrite build_preimages_eq in B. apply obind_ok in B. destruct B as ([[hp hs] ho] & P & B).
  unfold pres in P. apply obind_ok in P. destruct P as (hp' & P1 & P). apply obind_ok in P. destruct P as (hs' & P2 & P). apply obind_ok in P. destruct P as (ho' & P3 & P).
  apply Ok_inj in P. injection P as -> -> ->.
  destruct (hash_all_inv _ hash256_32 _ _ _ _ _ _ P1) as (p1 & Q1 & D1). destruct (hash_all_inv _ hash256_32 _ _ _ _ _ _ P2) as (p2 & Q2 & D2). destruct (hash_all_inv _ hash256_32 _ _ _ _ _ _ P3) as (p3 & Q3 & D3).
  rewrite (omap_ser_fun (c_ser outpoint_codec) as_outpoint outpoint_bytes (map si_outpoint (st_inputs s)) (nt_inputs n) p1 outpoint_ser_bytes) in D1; [|apply Forall2_map_l2; eapply Forall2_impl; [|exact Ni]; intros ? ? [H _]; exact H|exact Q1].
  rewrite (omap_ser_fun (c_ser u32_codec) (fun q m => ni_sequence m = q) (fun m => le_bytes 4 (ni_sequence m)) (map si_sequence (st_inputs s)) (nt_inputs n)) in D2;
    [|intros q x m E <-; cbn [c_ser u32_codec int_codec] in E; apply Ok_inj in E; subst x; reflexivity|apply Forall2_map_l2; eapply Forall2_impl; [|exact Ni]; intros ? ? [_ H]; exact H|exact Q2].
  rewrite (omap_ser_fun _ as_output output_bytes _ (nt_outputs n) _ output_ser_fun No Q3) in D3.
  destruct (build_inputs_nth _ _ _ _ _ _ _ _ B) as [_ Bn]. destruct (Bn _ _ Hi) as (ps' & Hps' & Eps). rewrite Hps in Hps'. injection Hps' as <-. cbn [Nat.add] in Eps.
  destruct (omap_nth _ _ _ _ _ Eps Hf) as (p' & Hp' & Ep). rewrite Hp in Hp'. injection Hp' as <-.
  rewrite (build_preimage_eq _ _ _ _ _ _ _ _ _ _ Hl Hv) in Ep. apply obind_ok in Ep. destruct Ep as (h & Eh & Ep). apply Ok_inj in Ep. subst p.
  cbn [c_ser preimage_codec pi_version pi_hash_prevouts pi_hash_sequence pi_outpoint pi_script_code pi_value pi_sequence pi_hash_outputs pi_lock_time pi_sig_hash_type] in Em.
  cbn [c_ser i32_codec u32_codec u64_codec int_codec sha256d_codec fixed_codec obind] in Em. apply obind_ok in Em. destruct Em as (d & Ed & Em). apply obind_ok in Em. destruct Em as (e & Ee & Em).
  apply Ok_inj in Em. subst msg. destruct (Forall2_nth _ _ _ _ _ Ni Hi) as (m & Hm & Hmo & Hms). unfold net_message. rewrite Hm. cbv zeta. f_equal.
  rewrite from_parts_data. cbn [map concat]. rewrite !named_data, app_nil_r. rewrite (outpoint_ser_bytes _ _ _ Ed Hmo).
  destruct (script_bytes _ _ Ee) as (bs & Hbs & ->). rewrite (as_script_fun _ _ _ Hbs Hc). rewrite Nv, Nl, Hms, le_bytes_mod4. cbn [ba_unnamed ba_data].
  rewrite (testbit7 f Hfb). rewrite <- app_assoc.
  assert ((if f mod 32 =? 2 then repeat 0 32 else if f mod 32 =? 3 then match nth_error (nt_outputs n) idx with Some o => hash256 sha256 (output_bytes o) | None => repeat 0 32 end
           else hash256 sha256 (concat (map output_bytes (nt_outputs n)))) = ba_data h) as ->.
  { unfold outs_hash in Eh. rewrite masked_mod in Eh. unfold SIGHASH_SINGLE, SIGHASH_NONE in Eh.
    destruct (Z.eqb_spec (f mod 32) 2) as [E2|E2].
    { rewrite E2 in Eh. cbn in Eh. apply Ok_inj in Eh. subst h. reflexivity. }
    destruct (Z.eqb_spec (f mod 32) 3) as [E3|E3]; cbn [negb andb] in Eh.
    - destruct (Nat.ltb_spec idx (length (st_outputs s))) as [Hlt|Hge].
      + destruct (nth_error (st_outputs s) idx) as [o|] eqn:Eo; [|discriminate]. apply obind_ok in Eh. destruct Eh as (x & Ex & Eh).
        destruct (Forall2_nth _ _ _ _ _ No Eo) as (o' & -> & Ho'). destruct (digest_ok _ hash256_32 x) as (h' & Eh' & Dh). rewrite Eh' in Eh. apply Ok_inj in Eh. subst h'. rewrite Dh. now rewrite (output_ser_fun _ _ _ Ex Ho').
      + apply Ok_inj in Eh. subst h. rewrite (Forall2_nth_none _ _ _ idx No) by (apply nth_error_None; exact Hge). reflexivity.
    - apply Ok_inj in Eh. subst ho. symmetry. exact D3. }
  repeat f_equal.
  - destruct (128 <=? f); [reflexivity|symmetry; exact D1].
  - destruct (128 <=? f); cbn [negb andb orb]; [reflexivity|]. destruct (f mod 32 =? 3) eqn:?, (f mod 32 =? 2) eqn:?; cbn [negb andb orb]; try reflexivity. symmetry. exact D2.
Qed.
End Sha.
