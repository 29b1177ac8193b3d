From Verif Require Import Base BaseLemmas Model_Encoding Spec_Encoding Proofs_Encoding Spec_Integer
  Model_ByteArray Proofs_ByteArray Model_Opcode Model_Script Spec_Script Proofs_Script Model_Code Spec_Code Spec_Wire
  Proofs_Code Proofs_Wire Proofs_Codec Model_Destination Model_Preimage Spec_Preimage.
From Coq Require Import ZifyBool ZifyNat.
Local Open Scope Z_scope.

(* ---- flags ---- *)
Lemma contains_bit f : flags_contains f SIGHASH_ANYONECANPAY = Z.testbit f 7.
Proof.
  unfold flags_contains, SIGHASH_ANYONECANPAY. change 0x80 with (2 ^ 7). apply Bool.eq_iff_eq_true. rewrite Z.eqb_eq. split.
  - intros E. assert (Z.testbit (Z.land f (2 ^ 7)) 7 = true) as H by (rewrite E; apply Z.pow2_bits_true; lia).
    rewrite Z.land_spec in H. now apply andb_prop in H.
  - intros H. apply Z.bits_inj'. intros k Hk. rewrite Z.land_spec, Z.pow2_bits_eqb by lia. destruct (7 =? k) eqn:E; [|apply andb_false_r].
    apply Z.eqb_eq in E. subst k. now rewrite H.
Qed.
Lemma masked_mod f : Z.land f SIGHASH_MASK = f mod 32.
Proof. unfold SIGHASH_MASK. change 0x1f with (Z.ones 5). rewrite Z.land_ones by lia. reflexivity. Qed.

(* ---- script code ---- *)
Lemma count_sep_first s : count_sep s <> O -> exists pre t post, s = pre ++ t :: post /\ t_op t = OCode OP_CODESEPARATOR /\ count_sep pre = O.
Proof.
  induction s as [|t s IH]; [now intros H|]. intros H. destruct (sep_dec (t_op t)) as [e|n].
  - exists [], t, s. auto.
  - rewrite count_sep_no in H by assumption. destruct (IH H) as (pre & u & post & -> & Hu & Hp). exists (t :: pre), u, post.
    split; [reflexivity|]. split; [assumption|]. now rewrite count_sep_no.
Qed.
Lemma script_code_first_spec s : script_code_of s (to_script_code_first s).
Proof.
  destruct (Nat.eq_dec (count_sep s) 0) as [e|n].
  - left. split; [assumption|]. now apply script_code_first_none.
  - right. destruct (count_sep_first s n) as (pre & t & post & -> & Ht & Hp). exists pre, t.
    rewrite (script_code_first_found pre t post Ht Hp). auto.
Qed.
Lemma omap_app {A B} (f : A -> outcome B) a b ys : omap f (a ++ b) = Ok ys -> exists y1 y2, ys = y1 ++ y2 /\ omap f a = Ok y1 /\ omap f b = Ok y2.
Proof.
  revert ys. induction a as [|x a IH]; intros ys H; cbn [app omap] in *.
  - exists [], ys. auto.
  - apply obind_ok in H. destruct H as (y & Ey & H). apply obind_ok in H. destruct H as (r & Er & H). injection H as <-.
    destruct (IH _ Er) as (y1 & y2 & -> & E1 & E2). exists (y :: y1), y2. rewrite Ey, E1. cbn. auto.
Qed.
Lemma suffix_value pre post : script_value (pre ++ post) -> script_value post.
Proof.
  intros [Hok Hm]. rewrite map_app in Hok. pose proof (proj2 (proj1 (Forall_app _ _ _) Hok)) as Hp. split; [assumption|].
  intros a Ea. destruct (ser_ops_ok _ Hok) as (x & _ & _ & Ex & _).
  assert (script_ser_ops (pre ++ post) = Ok x) as Es by (unfold script_ser_ops; rewrite map_app, Ex; reflexivity).
  specialize (Hm x Es). unfold script_ser_ops in Ea. destruct (serialize_ops (map t_op post)) as [y|e|] eqn:Ey; try discriminate. injection Ea as <-.
  unfold serialize_ops in Ex, Ey. apply obind_ok in Ex. destruct Ex as (ps & Eps & Ex). apply obind_ok in Ey. destruct Ey as (qs & Eqs & Ey).
  injection Ex as <-. injection Ey as <-. destruct (omap_app _ _ _ _ Eps) as (y1 & y2 & -> & _ & E2). rewrite Eqs in E2. injection E2 as <-.
  revert Hm. unfold in_memory, ba_len. rewrite !from_parts_data, map_app, concat_app, zlen_app. pose proof (zlen_nonneg (concat (map ba_data y1))). lia.
Qed.
Lemma script_code_value s : script_value s -> script_value (to_script_code_first s).
Proof.
  intros H. destruct (script_code_first_spec s) as [[_ ->]|(pre & t & E & _)]; [assumption|].
  rewrite E in H. change (pre ++ t :: to_script_code_first s) with (pre ++ [t] ++ to_script_code_first s) in H. rewrite app_assoc in H. eapply suffix_value; eauto.
Qed.

(* ---- hashing loops ---- *)
Lemma concat_loop_iff {A} (ser : A -> outcome barray) label l : forall idx acc,
  match omap ser l with
  | Ok parts => exists r, concat_loop ser label idx l acc = Ok r /\ ba_data r = ba_data acc ++ concat (map ba_data parts)
  | Err e => concat_loop ser label idx l acc = Err e
  | Panic => concat_loop ser label idx l acc = Panic
  end.
Proof.
  induction l as [|x l IH]; intros idx acc; cbn [omap concat_loop].
  - exists acc. split; [reflexivity|]. cbn. now rewrite app_nil_r.
  - destruct (ser x) as [b|e|]; cbn [obind]; try reflexivity.
    specialize (IH (S idx) (ba_concat acc (ba_named b (label_idx label idx)))).
    destruct (omap ser l) as [ps|e|]; cbn [obind]; auto.
    destruct IH as (r & -> & D). exists r. split; [reflexivity|]. rewrite D, concat_data, named_data. cbn [map concat]. now rewrite app_assoc.
Qed.

Section Sha.
Variable sha : list Z -> list Z.
Hypothesis sha32 : hash32 sha.

Lemma digest_ok msg : exists h, digest_sha256d sha msg = Ok h /\ ba_data h = sha (ba_data msg).
Proof.
  unfold digest_sha256d, fixed_from_byte_array, ba_apply_function, ba_len. cbn [ba_data]. destruct (sha32 (ba_data msg)) as [L _].
  assert (zlen (sha (ba_data msg)) = 32) as -> by (unfold zlen; lia). cbn [Z.eqb Pos.eqb]. eexists. split; reflexivity.
Qed.
Lemma hash_all_ok {A} (ser : A -> outcome barray) label all name l parts : omap ser l = Ok parts ->
  exists h, hash_all sha ser label all name l = Ok h /\ ba_data h = sha (concat (map ba_data parts)).
Proof.
  intros E. unfold hash_all. pose proof (concat_loop_iff ser label l 0 (ba_unnamed [])) as H. rewrite E in H. destruct H as (r & -> & D).
  cbn [obind]. destruct (digest_ok (ba_named r all)) as (h & -> & Dh). cbn [obind]. eexists. split; [reflexivity|].
  rewrite named_data, Dh, named_data, D. reflexivity.
Qed.
Lemma hash_all_inv {A} (ser : A -> outcome barray) label all name l h : hash_all sha ser label all name l = Ok h ->
  exists parts, omap ser l = Ok parts /\ ba_data h = sha (concat (map ba_data parts)).
Proof.
  intros H. destruct (omap ser l) as [parts|e|] eqn:E.
  - destruct (hash_all_ok ser label all name l parts E) as (h' & E' & D). rewrite H in E'. injection E' as <-. eauto.
  - unfold hash_all in H. pose proof (concat_loop_iff ser label l 0 (ba_unnamed [])) as X. rewrite E in X. rewrite X in H. discriminate.
  - unfold hash_all in H. pose proof (concat_loop_iff ser label l 0 (ba_unnamed [])) as X. rewrite E in X. rewrite X in H. discriminate.
Qed.

Lemma omap_wire {A} (c : codec A) value same W l : wlaws c value same W -> Forall value l ->
  exists parts, omap (c_ser c) l = Ok parts /\ Forall2 (W true) l (map ba_data parts).
Proof.
  intros HW. induction 1 as [|x l Hx _ IH]; [exists []; split; [reflexivity|constructor]|].
  destruct (w_write _ _ _ _ HW x Hx) as (s & Es & Ws), IH as (ps & Ep & Wp). exists (s :: ps). cbn [omap]. rewrite Es, Ep. cbn. auto.
Qed.

Lemma build_inputs_nth t hp hs ho inputs : forall idx pss, build_inputs sha t hp hs ho idx inputs = Ok pss ->
  Forall2 (fun i ps => length ps = length (si_flags i)) inputs pss /\
  forall k i, nth_error inputs k = Some i -> exists ps, nth_error pss k = Some ps /\ omap (build_preimage sha t hp hs ho (idx + k) i) (si_flags i) = Ok ps.
Proof.
  induction inputs as [|x l IH]; intros idx pss H; cbn [build_inputs] in H.
  - injection H as <-. split; [constructor|]. intros [|k] i E; discriminate.
  - apply obind_ok in H. destruct H as (ps & Ep & H). apply obind_ok in H. destruct H as (r & Er & H). injection H as <-.
    destruct (IH _ _ Er) as [IH1 IH2]. split.
    + constructor; [|assumption]. clear - Ep. revert ps Ep. induction (si_flags x) as [|f fl IHf]; intros ps Ep; cbn [omap] in Ep.
      * now injection Ep as <-.
      * apply obind_ok in Ep. destruct Ep as (y & _ & Ep). apply obind_ok in Ep. destruct Ep as (z & Ez & Ep). injection Ep as <-. cbn. f_equal. now apply IHf.
    + intros [|k] i E; cbn [nth_error] in *.
      * injection E as <-. exists ps. rewrite Nat.add_0_r. auto.
      * destruct (IH2 k i E) as (qs & E1 & E2). exists qs. rewrite <- Nat.add_succ_comm. auto.
Qed.
Lemma omap_nth {A B} (f : A -> outcome B) l ys k x : omap f l = Ok ys -> nth_error l k = Some x -> exists y, nth_error ys k = Some y /\ f x = Ok y.
Proof.
  revert ys k. induction l as [|a l IH]; intros ys k H E; [destruct k; discriminate|]. cbn [omap] in H.
  apply obind_ok in H. destruct H as (y & Ey & H). apply obind_ok in H. destruct H as (r & Er & H). injection H as <-.
  destruct k as [|k]; cbn [nth_error] in *; [injection E as <-; eauto|eauto].
Qed.

(** the hash of the outputs for one input *)
Definition outs_hash (t : sig_tx) (ho : barray) (idx : nat) (flags : Z) : outcome barray :=
  let masked := Z.land flags SIGHASH_MASK in
  if negb (masked =? SIGHASH_SINGLE) && negb (masked =? SIGHASH_NONE) then Ok ho
     else if (masked =? SIGHASH_SINGLE) && (Nat.ltb idx (length (st_outputs t))) then
       match nth_error (st_outputs t) idx with
       | None => Panic
       | Some o => do s <- c_ser output_codec o; digest_sha256d sha s
       end
     else Ok (zero_hash "hashOutputs").

Lemma zero_hash_data n : ba_data (zero_hash n) = zeros32. Proof. reflexivity. Qed.

Lemma outs_hash_spec t ho idx flags parts : Forall output_value (st_outputs t) ->
  Forall2 (wire_output true) (st_outputs t) (map ba_data parts) -> ba_data ho = sha (concat (map ba_data parts)) ->
  exists h, outs_hash t ho idx flags = Ok h /\ spec_hash_outputs sha (st_outputs t) idx flags (ba_data h).
Proof.
  intros Hv HF Hh. unfold outs_hash, spec_hash_outputs, is_none, is_single, base_type. rewrite masked_mod. unfold SIGHASH_SINGLE, SIGHASH_NONE.
  destruct (flags mod 32 =? 3) eqn:E3; cbn [negb andb].
  - apply Z.eqb_eq in E3. destruct (Nat.ltb_spec idx (length (st_outputs t))) as [Hlt|Hge].
    + destruct (nth_error (st_outputs t) idx) as [o|] eqn:En; [|apply nth_error_None in En; lia].
      assert (output_value o) as Ho by (eapply Forall_forall; [exact Hv|eapply nth_error_In; eauto]).
      destruct (w_write _ _ _ _ output_wlaws o Ho) as (s & Es & Ws). rewrite Es. cbn [obind].
      destruct (digest_ok s) as (h & -> & D). exists h. split; [reflexivity|]. right; right; left. split; [assumption|]. eauto.
    + apply nth_error_None in Hge. eexists. split; [reflexivity|]. right; left. rewrite zero_hash_data. auto.
  - apply Z.eqb_neq in E3. destruct (flags mod 32 =? 2) eqn:E2; cbn [negb andb].
    + apply Z.eqb_eq in E2. eexists. split; [reflexivity|]. left. rewrite zero_hash_data. auto.
    + apply Z.eqb_neq in E2. eexists. split; [reflexivity|]. right; right; right. split; [assumption|]. split; [assumption|]. eauto.
Qed.

Lemma build_preimage_eq t hp hs ho idx i flags lock value : si_lock_script i = Some lock -> si_value i = Some value ->
  build_preimage sha t hp hs ho idx i flags =
  (do h <- outs_hash t ho idx flags;
   Ok (TxPreimage (st_version t) (if Z.testbit flags 7 then zero_hash "hashPrevouts" else hp)
        (if negb (Z.testbit flags 7) && negb (flags mod 32 =? 3) && negb (flags mod 32 =? 2) then hs else zero_hash "hashSequence")
        (si_outpoint i) (to_script_code_first lock) value (si_sequence i) h (st_lock_time t) flags)).
Proof.
  intros Hl Hv. unfold build_preimage, outs_hash. rewrite Hl, Hv, contains_bit, masked_mod. cbn [expect obind].
  destruct (Z.testbit flags 7); reflexivity.
Qed.

Lemma spec_hash_outputs_32 outs idx flags h : spec_hash_outputs sha outs idx flags h -> length h = 32%nat /\ bytes_ok h.
Proof.
  assert (length zeros32 = 32%nat /\ bytes_ok zeros32) as Z32 by (split; [reflexivity|repeat constructor; lia]).
  intros [[_ ->]|[(_ & _ & ->)|[(_ & o & bs & _ & _ & ->)|(_ & _ & parts & _ & ->)]]]; auto.
Qed.

Definition pres (t : sig_tx) : outcome (barray * barray * barray) :=
  do hp <- hash_all sha (c_ser outpoint_codec) "outpoint_" "prevouts" "hashPrevouts" (map si_outpoint (st_inputs t));
  do hs <- hash_all sha (c_ser u32_codec) "sequence_" "sequences" "hashSequence" (map si_sequence (st_inputs t));
  do ho <- hash_all sha (c_ser output_codec) "output_" "outputs" "hashOutputs" (st_outputs t);
  Ok (hp, hs, ho).

Lemma build_preimages_eq t : build_preimages sha t = (do (hps, ho) <- pres t; let '(hp, hs) := hps in build_inputs sha t hp hs ho 0 (st_inputs t)).
Proof.
  unfold build_preimages, pres. destruct (hash_all sha (c_ser outpoint_codec) _ _ _ _); cbn [obind]; try reflexivity.
  destruct (hash_all sha (c_ser u32_codec) _ _ _ _); cbn [obind]; try reflexivity.
  destruct (hash_all sha (c_ser output_codec) _ _ _ _); cbn [obind]; reflexivity.
Qed.

Lemma Forall2_map_l {A B C} (R : B -> C -> Prop) (f : A -> B) l m : Forall2 R (map f l) m <-> Forall2 (fun a => R (f a)) l m.
Proof.
  revert m. induction l as [|a l IH]; intros m; cbn [map]; split; intros H; inversion H; subst; constructor; auto; now apply IH.
Qed.

Lemma pres_ok t : sig_value t -> exists hp hs ho p1 p2 p3, pres t = Ok (hp, hs, ho) /\
  Forall2 (fun i => wire_outpoint (si_outpoint i)) (st_inputs t) (map ba_data p1) /\ ba_data hp = sha (concat (map ba_data p1)) /\
  Forall2 (fun i => wire_int 4 (si_sequence i)) (st_inputs t) (map ba_data p2) /\ ba_data hs = sha (concat (map ba_data p2)) /\
  Forall2 (wire_output true) (st_outputs t) (map ba_data p3) /\ ba_data ho = sha (concat (map ba_data p3)).
Proof.
  intros (Hver & Hin & Hout & Hlt).
  assert (Forall outpoint_value (map si_outpoint (st_inputs t))) as V1 by (apply Forall_map; eapply Forall_impl; [|exact Hin]; intros i H; apply H).
  assert (Forall u32_ok (map si_sequence (st_inputs t))) as V2 by (apply Forall_map; eapply Forall_impl; [|exact Hin]; intros i H; apply H).
  destruct (omap_wire _ _ _ _ _ outpoint_wlaws V1) as (p1 & E1 & W1). pose proof (proj1 (Forall2_map_l _ _ _ _) W1) as W1'.
  destruct (omap_wire _ _ _ _ _ u32_wlaws V2) as (p2 & E2 & W2). pose proof (proj1 (Forall2_map_l _ _ _ _) W2) as W2'.
  destruct (omap_wire _ _ _ _ _ output_wlaws Hout) as (p3 & E3 & W3).
  unfold pres. destruct (hash_all_ok (c_ser outpoint_codec) "outpoint_" "prevouts" "hashPrevouts" _ _ E1) as (hp & -> & D1).
  destruct (hash_all_ok (c_ser u32_codec) "sequence_" "sequences" "hashSequence" _ _ E2) as (hs & -> & D2).
  destruct (hash_all_ok (c_ser output_codec) "output_" "outputs" "hashOutputs" _ _ E3) as (ho & -> & D3). cbn [obind].
  exists hp, hs, ho, p1, p2, p3. split; [reflexivity|]. split; [exact W1'|]. split; [exact D1|]. split; [exact W2'|]. split; [exact D2|]. split; [exact W3|exact D3].
Qed.

Lemma len32 (l : list Z) : length l = 32%nat -> zlen l = 32. Proof. unfold zlen. lia. Qed.

Lemma build_one t hp hs ho p1 p2 p3 idx i flags : sig_value t -> nth_error (st_inputs t) idx = Some i -> u32_ok flags ->
  Forall2 (fun i => wire_outpoint (si_outpoint i)) (st_inputs t) (map ba_data p1) -> ba_data hp = sha (concat (map ba_data p1)) ->
  Forall2 (fun i => wire_int 4 (si_sequence i)) (st_inputs t) (map ba_data p2) -> ba_data hs = sha (concat (map ba_data p2)) ->
  Forall2 (wire_output true) (st_outputs t) (map ba_data p3) -> ba_data ho = sha (concat (map ba_data p3)) ->
  exists p m, build_preimage sha t hp hs ho idx i flags = Ok p /\ preimage_value p /\ c_ser preimage_codec p = Ok m /\ sighash_message sha t idx flags (ba_data m).
Proof.
  intros (Hver & Hin & Hout & Hlt) En Hf W1 D1 W2 D2 W3 D3.
  assert (sig_input_value i) as (Vo & Vq & _ & (v & Ev & Vv) & (lock & El & Vl)) by (eapply Forall_forall; [exact Hin|eapply nth_error_In; eauto]).
  rewrite (build_preimage_eq t hp hs ho idx i flags lock v El Ev).
  destruct (outs_hash_spec t ho idx flags p3 Hout W3 D3) as (h & -> & Sh). cbn [obind].
  assert (length zeros32 = 32%nat /\ bytes_ok zeros32) as [Z1 Z2] by (split; [reflexivity|repeat constructor; lia]).
  set (P := TxPreimage _ _ _ _ _ _ _ _ _ _).
  assert (S1 : spec_hash_prevouts sha (st_inputs t) flags (ba_data (pi_hash_prevouts P))).
  { unfold P, spec_hash_prevouts, anyone_can_pay. cbn [pi_hash_prevouts]. destruct (Z.testbit flags 7).
    - left. rewrite zero_hash_data. auto.
    - right. split; [discriminate|]. eauto. }
  assert (S2 : spec_hash_sequence sha (st_inputs t) flags (ba_data (pi_hash_sequence P))).
  { unfold P, spec_hash_sequence, anyone_can_pay, is_none, is_single, base_type. cbn [pi_hash_sequence]. destruct (Z.testbit flags 7); cbn [negb andb].
    - left. rewrite zero_hash_data. auto.
    - destruct (flags mod 32 =? 3) eqn:E3; cbn [negb andb]; [left; rewrite zero_hash_data; split; [right; right; now apply Z.eqb_eq|reflexivity]|].
      destruct (flags mod 32 =? 2) eqn:E2; cbn [negb andb]; [left; rewrite zero_hash_data; split; [right; left; now apply Z.eqb_eq|reflexivity]|].
      right. apply Z.eqb_neq in E2, E3. split; [discriminate|]. split; [assumption|]. split; [assumption|]. eauto. }
  assert (length (ba_data (pi_hash_prevouts P)) = 32%nat /\ bytes_ok (ba_data (pi_hash_prevouts P))) as [L1 B1]
    by (destruct S1 as [[_ ->]|[_ (parts & _ & ->)]]; auto).
  assert (length (ba_data (pi_hash_sequence P)) = 32%nat /\ bytes_ok (ba_data (pi_hash_sequence P))) as [L2 B2]
    by (destruct S2 as [[_ ->]|(_ & _ & _ & parts & _ & ->)]; auto).
  destruct (spec_hash_outputs_32 _ _ _ _ Sh) as [L3 B3].
  assert (HP : preimage_value P).
  { unfold preimage_value. split; [exact Hver|]. split; [split; [exact B1|apply len32; exact L1]|]. split; [split; [exact B2|apply len32; exact L2]|].
    split; [exact Vo|]. split; [apply script_code_value; exact Vl|]. split; [exact Vv|]. split; [exact Vq|]. split; [split; [exact B3|apply len32; exact L3]|]. split; [exact Hlt|exact Hf]. }
  destruct (w_write _ _ _ _ preimage_wlaws P HP) as (m & Em & Wm).
  exists P, m. split; [reflexivity|]. split; [exact HP|]. split; [exact Em|].
  destruct Wm as (a1 & a2 & a3 & a4 & a5 & a6 & a7 & a8 & a9 & a10 & Eb & F1 & F2 & F3 & F4 & F5 & F6 & F7 & F8 & F9 & F10).
  destruct F2 as [-> _]. destruct F3 as [-> _]. destruct F8 as [-> _].
  exists i, v, lock, (to_script_code_first lock), a1, (ba_data (pi_hash_prevouts P)), (ba_data (pi_hash_sequence P)), a4, a5, a6, a7, (ba_data (pi_hash_outputs P)), a9, a10.
  split; [exact En|]. split; [exact Ev|]. split; [exact El|]. split; [exact Eb|]. split; [exact F1|]. split; [exact S1|]. split; [exact S2|]. split; [exact F4|].
  split; [apply script_code_first_spec|]. split; [exact F5|]. split; [exact F6|]. split; [exact F7|]. split; [exact Sh|]. split; [exact F9|exact F10].
Qed.

Lemma omap_all {A B} (f : A -> outcome B) l : Forall (fun x => exists y, f x = Ok y) l -> exists ys, omap f l = Ok ys.
Proof. induction 1 as [|x l (y & Ey) _ (ys & IH)]; [eexists; reflexivity|]. cbn [omap]. rewrite Ey, IH. cbn. eauto. Qed.
Lemma build_inputs_ok t hp hs ho inputs : forall idx,
  (forall k i, nth_error inputs k = Some i -> Forall (fun f => exists p, build_preimage sha t hp hs ho (idx + k) i f = Ok p) (si_flags i)) ->
  exists pss, build_inputs sha t hp hs ho idx inputs = Ok pss.
Proof.
  induction inputs as [|x l IH]; intros idx H; [eexists; reflexivity|]. cbn [build_inputs].
  destruct (omap_all (build_preimage sha t hp hs ho idx x) (si_flags x)) as (ps & ->). { specialize (H 0%nat x eq_refl). now rewrite Nat.add_0_r in H. }
  cbn [obind]. destruct (IH (S idx)) as (pss & ->); [|cbn; eauto]. intros k i E. rewrite Nat.add_succ_comm. now apply (H (S k) i).
Qed.

Lemma build_preimages_spec t : sig_value t ->
  exists pss, build_preimages sha t = Ok pss /\ Forall2 (fun i ps => length ps = length (si_flags i)) (st_inputs t) pss /\
    forall idx i k f, nth_error (st_inputs t) idx = Some i -> nth_error (si_flags i) k = Some f ->
      exists ps p m, nth_error pss idx = Some ps /\ nth_error ps k = Some p /\ preimage_value p /\ c_ser preimage_codec p = Ok m /\ sighash_message sha t idx f (ba_data m).
Proof.
  intros Hv. destruct (pres_ok t Hv) as (hp & hs & ho & p1 & p2 & p3 & Ep & W1 & D1 & W2 & D2 & W3 & D3).
  rewrite build_preimages_eq, Ep. cbn [obind].
  assert (Hone : forall idx i f, nth_error (st_inputs t) idx = Some i -> In f (si_flags i) ->
    exists p m, build_preimage sha t hp hs ho idx i f = Ok p /\ preimage_value p /\ c_ser preimage_codec p = Ok m /\ sighash_message sha t idx f (ba_data m)).
  { intros idx i f En Hf. eapply build_one; eauto. destruct Hv as (_ & Hin & _).
    assert (sig_input_value i) as (_ & _ & Vf & _) by (eapply Forall_forall; [exact Hin|eapply nth_error_In; eauto]). eapply Forall_forall; eauto. }
  destruct (build_inputs_ok t hp hs ho (st_inputs t) 0) as (pss & E).
  { intros k i En. apply Forall_forall. intros f Hf. destruct (Hone k i f En Hf) as (p & m & Ep' & _). exists p. exact Ep'. }
  exists pss. split; [exact E|]. destruct (build_inputs_nth t hp hs ho _ _ _ E) as [HF Hn]. split; [exact HF|].
  intros idx i k f En Ek. destruct (Hn idx i En) as (ps & Eps & Eo). destruct (omap_nth _ _ _ _ _ Eo Ek) as (p & Ep1 & Ep2).
  destruct (Hone idx i f En (nth_error_In _ _ Ek)) as (p' & m & Ep' & Hp & Em & Hm). cbn [Nat.add] in Ep2. rewrite Ep2 in Ep'. injection Ep' as <-.
  exists ps, p, m. auto.
Qed.
End Sha.

(* ---------- C25: commitment ---------- *)
Lemma wire_inj {A} (c : codec A) value same W : wlaws c value same W -> per same -> forall s s' a b x y r r',
  value a -> value b -> W s a x -> W s' b y -> bytes_ok (x ++ r) -> x ++ r = y ++ r' -> same a b /\ r = r'.
Proof.
  intros HW [Sy Tr] s s' a b x y r r' Va Vb Wa Wb Hok E.
  pose proof Hok as Hok2. rewrite E in Hok2. apply bytes_ok_app in Hok, Hok2. destruct Hok as [H1 H2], Hok2 as [H3 H4].
  destruct (w_complete _ _ _ _ HW s a x Va Wa H1 (ba_unnamed (x ++ r)) r eq_refl H2) as (a' & t' & E1 & S1 & D1).
  destruct (w_complete _ _ _ _ HW s' b y Vb Wb H3 (ba_unnamed (x ++ r)) r' E H4) as (b' & u' & E2 & S2 & D2).
  rewrite E1 in E2. injection E2 as <- <-. split; [|congruence]. eapply Tr; [exact S1|]. now apply Sy.
Qed.
Lemma wire_concat_inj {A} (c : codec A) value same W : wlaws c value same W -> per same ->
  (forall s a x, W s a x -> x <> []) -> forall s l l' p p', Forall value l -> Forall value l' ->
  Forall2 (W s) l p -> Forall2 (W s) l' p' -> bytes_ok (concat p) -> concat p = concat p' -> Forall2 same l l'.
Proof.
  intros HW Hper Hne s l l' p p' Vl Vl' Hp. revert l' p' Vl'. induction Hp as [|a x l p Ha Hp IH]; intros l' p' Vl' Hp' Hok E.
  - destruct Hp' as [|b y l' p' Hb Hp']; [constructor|]. cbn [concat] in E. symmetry in E. apply app_eq_nil in E. destruct E as [E _]. now apply Hne in Hb.
  - destruct Hp' as [|b y l' p' Hb Hp']; [cbn [concat] in E; apply app_eq_nil in E; destruct E as [E _]; now apply Hne in Ha|].
    cbn [concat] in *. inversion Vl; subst. inversion Vl'; subst.
    destruct (wire_inj c value same W HW Hper s s a b x y (concat p) (concat p')) as [S1 S2]; auto.
    constructor; [assumption|]. apply bytes_ok_app in Hok. apply (IH ltac:(assumption) l' p'); auto. apply Hok.
Qed.

Lemma wire_int_ok n v bs : wire_int n v bs -> bytes_ok bs. Proof. intros (_ & H & _). exact H. Qed.
Lemma wire_ok {A} (c : codec A) value same W s l p : wlaws c value same W -> Forall value l -> (forall a x, value a -> W s a x -> bytes_ok x) -> Forall2 (W s) l p -> bytes_ok (concat p).
Proof.
  intros HW V Hok. induction 1 as [|a x l p Ha _ IH]; [constructor|]. inversion V; subst. cbn [concat]. apply bytes_ok_app. eauto.
Qed.
Lemma wire_outpoint_ok o x : outpoint_value o -> wire_outpoint o x -> bytes_ok x.
Proof. intros [[H _] _] (h & v & -> & [-> _] & Hv). apply bytes_ok_app. split; [assumption|]. now apply wire_int_ok in Hv. Qed.
Lemma reads_ok body is : reads_as body is -> Forall instr_ok is -> bytes_ok body.
Proof.
  intros (chunks & -> & H). induction H as [|c i cs is Hc _ IH]; intros Hi; [constructor|]. inversion Hi; subst. cbn [concat]. apply bytes_ok_app.
  split; [eapply chunk_ok; eauto|auto].
Qed.
Lemma wire_script_ok st s x : script_value s -> wire_script st s x -> bytes_ok x.
Proof.
  intros [Hok _] (len & body & is & -> & [Hv _] & Hr & Hm & _). apply bytes_ok_app. split; [now apply varint_ok in Hv|].
  eapply reads_ok; [exact Hr|]. clear - Hok Hm. revert Hok. induction Hm; intros Hok; inversion Hok; subst; constructor; eauto using means_ok.
Qed.
Lemma wire_output_ok st o x : output_value o -> wire_output st o x -> bytes_ok x.
Proof. intros [_ H] (v & s & -> & Hv & Hs). apply bytes_ok_app. split; [now apply wire_int_ok in Hv|eapply wire_script_ok; eauto]. Qed.

Lemma wire_int_ne n v bs : (0 < n)%nat -> wire_int n v bs -> bs <> [].
Proof. intros H (L & _) ->. cbn in L. lia. Qed.
Lemma wire_outpoint_ne o x : wire_outpoint o x -> x <> [].
Proof. intros (h & v & -> & _ & Hv). apply wire_int_ne in Hv; [|lia]. destruct h, v; cbn; congruence. Qed.
Lemma wire_output_ne s o x : wire_output s o x -> x <> [].
Proof. intros (h & v & -> & Hv & _). apply wire_int_ne in Hv; [|lia]. destruct h, v; cbn; congruence. Qed.

Section Commit.
Variable sha : list Z -> list Z.
Hypothesis sha32 : hash32 sha.

Lemma code_value lock code : script_value lock -> script_code_of lock code -> script_value code.
Proof.
  intros H [[_ ->]|(pre & t & -> & _)]; [assumption|]. change (pre ++ t :: code) with (pre ++ [t] ++ code) in H. rewrite app_assoc in H. eapply suffix_value; eauto.
Qed.
Lemma sha_or x y : sha x = sha y -> collision sha \/ x = y.
Proof. intros E. destruct (list_eq_dec Z.eq_dec x y) as [e|n]; [auto|]. left. exists x, y. auto. Qed.

Lemma prevouts32 ins f h : spec_hash_prevouts sha ins f h -> fixed_value 32 (ba_unnamed h).
Proof.
  intros H. assert (length h = 32%nat /\ bytes_ok h) as [L B].
  { destruct H as [[_ ->]|[_ (p & _ & ->)]]; [split; [reflexivity|repeat constructor; lia]|auto]. }
  split; [exact B|]. unfold ba_len. cbn [ba_data]. now apply len32.
Qed.
Lemma sequence32 ins f h : spec_hash_sequence sha ins f h -> fixed_value 32 (ba_unnamed h).
Proof.
  intros H. assert (length h = 32%nat /\ bytes_ok h) as [L B].
  { destruct H as [[_ ->]|(_ & _ & _ & p & _ & ->)]; [split; [reflexivity|repeat constructor; lia]|auto]. }
  split; [exact B|]. unfold ba_len. cbn [ba_data]. now apply len32.
Qed.
Lemma outputs32 outs idx f h : spec_hash_outputs sha outs idx f h -> fixed_value 32 (ba_unnamed h).
Proof. intros H. destruct (spec_hash_outputs_32 sha sha32 _ _ _ _ H) as [L B]. split; [exact B|]. unfold ba_len. cbn [ba_data]. now apply len32. Qed.

Lemma message_commits t t' idx idx' f f' msg : sig_value t -> sig_value t' -> u32_ok f -> u32_ok f' ->
  sighash_message sha t idx f msg -> sighash_message sha t' idx' f' msg -> collision sha \/ commits t t' idx idx' f f'.
Proof.
  intros (Vv & Vi & Vo & Vl) (Vv' & Vi' & Vo' & Vl') Uf Uf'
    (i & v & lock & code & a1 & a2 & a3 & a4 & a5 & a6 & a7 & a8 & a9 & a10 & En & Ev & El & Em & F1 & F2 & F3 & F4 & Fc & F5 & F6 & F7 & F8 & F9 & F10)
    (i' & v' & lock' & code' & b1 & b2 & b3 & b4 & b5 & b6 & b7 & b8 & b9 & b10 & En' & Ev' & El' & Em' & G1 & G2 & G3 & G4 & Gc & G5 & G6 & G7 & G8 & G9 & G10).
  assert (sig_input_value i) as (Xo & Xq & _ & (w & Ew & Xv) & (s & Es & Xs)) by (eapply Forall_forall; [exact Vi|eapply nth_error_In; eauto]).
  assert (sig_input_value i') as (Yo & Yq & _ & (w' & Ew' & Yv) & (s' & Es' & Ys)) by (eapply Forall_forall; [exact Vi'|eapply nth_error_In; eauto]).
  rewrite Ev in Ew. injection Ew as <-. rewrite El in Es. injection Es as <-. rewrite Ev' in Ew'. injection Ew' as <-. rewrite El' in Es'. injection Es' as <-.
  set (P := TxPreimage (st_version t) (ba_unnamed a2) (ba_unnamed a3) (si_outpoint i) code v (si_sequence i) (ba_unnamed a8) (st_lock_time t) f).
  set (Q := TxPreimage (st_version t') (ba_unnamed b2) (ba_unnamed b3) (si_outpoint i') code' v' (si_sequence i') (ba_unnamed b8) (st_lock_time t') f').
  pose proof (prevouts32 _ _ _ F2) as P2. pose proof (sequence32 _ _ _ F3) as P3. pose proof (outputs32 _ _ _ _ F8) as P8.
  pose proof (prevouts32 _ _ _ G2) as Q2. pose proof (sequence32 _ _ _ G3) as Q3. pose proof (outputs32 _ _ _ _ G8) as Q8.
  pose proof (code_value _ _ Xs Fc) as P5. pose proof (code_value _ _ Ys Gc) as Q5.
  assert (VP : preimage_value P) by (unfold preimage_value, P; cbn [pi_version pi_hash_prevouts pi_hash_sequence pi_outpoint pi_script_code pi_value pi_sequence pi_hash_outputs pi_lock_time pi_sig_hash_type]; repeat (split; [assumption|]); assumption).
  assert (VQ : preimage_value Q) by (unfold preimage_value, Q; cbn [pi_version pi_hash_prevouts pi_hash_sequence pi_outpoint pi_script_code pi_value pi_sequence pi_hash_outputs pi_lock_time pi_sig_hash_type]; repeat (split; [assumption|]); assumption).
  assert (WP : wire_preimage true P msg).
  { exists a1, a2, a3, a4, a5, a6, a7, a8, a9, a10. split; [exact Em|]. split; [exact F1|]. split; [split; [reflexivity|apply P2]|]. split; [split; [reflexivity|apply P3]|].
    split; [exact F4|]. split; [exact F5|]. split; [exact F6|]. split; [exact F7|]. split; [split; [reflexivity|apply P8]|]. split; [exact F9|exact F10]. }
  assert (WQ : wire_preimage true Q msg).
  { exists b1, b2, b3, b4, b5, b6, b7, b8, b9, b10. split; [exact Em'|]. split; [exact G1|]. split; [split; [reflexivity|apply Q2]|]. split; [split; [reflexivity|apply Q3]|].
    split; [exact G4|]. split; [exact G5|]. split; [exact G6|]. split; [exact G7|]. split; [split; [reflexivity|apply Q8]|]. split; [exact G9|exact G10]. }
  assert (Hok : bytes_ok (msg ++ [])).
  { rewrite app_nil_r, Em. destruct P2 as [B2 _], P3 as [B3 _], P8 as [B8 _].
    repeat (apply bytes_ok_app; split; [first [exact B2|exact B3|exact B8|exact (wire_outpoint_ok _ _ Xo F4)|exact (wire_script_ok _ _ _ P5 F5)
      |exact (wire_int_ok _ _ _ F1)|exact (wire_int_ok _ _ _ F6)|exact (wire_int_ok _ _ _ F7)|exact (wire_int_ok _ _ _ F9)]|]).
    exact (wire_int_ok _ _ _ F10). }
  destruct (wire_inj _ _ _ _ preimage_wlaws per_preimage true true P Q msg msg [] [] VP VQ WP WQ Hok eq_refl) as [HS _].
  destruct HS as (S1 & S2 & S3 & S4 & S5 & S6 & S7 & S8 & S9 & S10).
  unfold P, Q in S1, S2, S3, S4, S5, S6, S7, S8, S9, S10.
  cbn [pi_version pi_hash_prevouts pi_hash_sequence pi_outpoint pi_script_code pi_value pi_sequence pi_hash_outputs pi_lock_time pi_sig_hash_type ba_data ba_unnamed] in S1, S2, S3, S4, S5, S6, S7, S8, S9, S10.
  clear P Q P2 P3 P8 Q2 Q3 Q8 P5 Q5 VP VQ WP WQ Hok Em Em' F1 F4 F5 F6 F7 F9 F10 G1 G4 G5 G6 G7 G9 G10. subst f' a2 a3 a8.
  assert (Vop : Forall outpoint_value (map si_outpoint (st_inputs t))) by (apply Forall_map; eapply Forall_impl; [|exact Vi]; intros x H; apply H).
  assert (Vop' : Forall outpoint_value (map si_outpoint (st_inputs t'))) by (apply Forall_map; eapply Forall_impl; [|exact Vi']; intros x H; apply H).
  assert (Vsq : Forall u32_ok (map si_sequence (st_inputs t))) by (apply Forall_map; eapply Forall_impl; [|exact Vi]; intros x H; apply H).
  assert (Vsq' : Forall u32_ok (map si_sequence (st_inputs t'))) by (apply Forall_map; eapply Forall_impl; [|exact Vi']; intros x H; apply H).
  assert (C1 : collision sha \/ (~ anyone_can_pay f -> Forall2 (fun i i' => same_outpoint (si_outpoint i) (si_outpoint i')) (st_inputs t) (st_inputs t'))).
  { destruct F2 as [[A _]|[_ (p & Hp & Eh)]]; [right; intros N; contradiction|]. destruct G2 as [[A _]|[_ (q & Hq & Eh')]]; [right; intros N; contradiction|].
    rewrite Eh in Eh'. destruct (sha_or _ _ Eh') as [C|E]; [auto|]. right. intros _. apply Forall2_map_l with (f := si_outpoint) in Hp. apply Forall2_map_l with (f := si_outpoint) in Hq.
    assert (Hpo : bytes_ok (concat p)).
    { apply (wire_ok _ _ _ _ true _ _ outpoint_wlaws Vop); [exact wire_outpoint_ok|exact Hp]. }
    pose proof (wire_concat_inj _ _ _ _ outpoint_wlaws per_outpoint (fun _ => wire_outpoint_ne) true _ _ p q Vop Vop' Hp Hq Hpo E) as R.
    clear - R. apply Forall2_map_l in R. revert R. generalize (st_inputs t'). induction (st_inputs t) as [|x l IH]; intros l' R; destruct l'; inversion R; subst; constructor; auto. }
  assert (C2 : collision sha \/ (~ anyone_can_pay f -> ~ is_none f -> ~ is_single f -> map si_sequence (st_inputs t) = map si_sequence (st_inputs t'))).
  { destruct F3 as [[A _]|(_ & _ & _ & p & Hp & Eh)]; [right; tauto|]. destruct G3 as [[A _]|(_ & _ & _ & q & Hq & Eh')]; [right; tauto|].
    rewrite Eh in Eh'. destruct (sha_or _ _ Eh') as [C|E]; [auto|]. right. intros _ _ _. apply Forall2_map_l with (f := si_sequence) in Hp. apply Forall2_map_l with (f := si_sequence) in Hq.
    assert (Hpo : bytes_ok (concat p)).
    { apply (wire_ok _ _ _ _ true _ _ u32_wlaws Vsq); [intros a x _; apply wire_int_ok|exact Hp]. }
    pose proof (wire_concat_inj _ _ _ _ u32_wlaws per_eq (fun _ v bs => wire_int_ne 4 v bs ltac:(lia)) true _ _ p q Vsq Vsq' Hp Hq Hpo E) as R.
    clear - R. induction R; congruence. }
  assert (C3 : collision sha \/ (~ is_none f -> ~ is_single f -> Forall2 same_output (st_outputs t) (st_outputs t'))).
  { destruct F8 as [[A _]|[(A & _ & _)|[(A & _)|(_ & _ & p & Hp & Eh)]]]; try (right; tauto). destruct G8 as [[A _]|[(A & _ & _)|[(A & _)|(_ & _ & q & Hq & Eh')]]]; try (right; tauto).
    rewrite Eh in Eh'. destruct (sha_or _ _ Eh') as [C|E]; [auto|]. right. intros _ _.
    assert (Hpo : bytes_ok (concat p)).
    { apply (wire_ok _ _ _ _ true _ _ output_wlaws Vo); [exact (wire_output_ok true)|exact Hp]. }
    exact (wire_concat_inj _ _ _ _ output_wlaws per_output wire_output_ne true _ _ p q Vo Vo' Hp Hq Hpo E). }
  assert (C4 : collision sha \/ (is_single f -> forall o o', nth_error (st_outputs t) idx = Some o -> nth_error (st_outputs t') idx' = Some o' -> same_output o o')).
  { destruct F8 as [[A _]|[(_ & A & _)|[(_ & o & x & Eo & Hx & Eh)|(_ & A & _)]]].
    - right. unfold is_single, is_none in *. lia.
    - right. intros _ o o' E. congruence.
    - destruct G8 as [[A _]|[(_ & A & _)|[(_ & o' & y & Eo' & Hy & Eh')|(_ & A & _)]]].
      + right. unfold is_single, is_none in *. lia.
      + right. intros _ u u' _ E. congruence.
      + rewrite Eh in Eh'. destruct (sha_or _ _ Eh') as [C|E]; [auto|]. right. intros _ u u' Eu Eu'.
        rewrite Eo in Eu. injection Eu as <-. rewrite Eo' in Eu'. injection Eu' as <-.
        assert (output_value o) as Ho by (eapply Forall_forall; [exact Vo|eapply nth_error_In; eauto]).
        assert (output_value o') as Ho' by (eapply Forall_forall; [exact Vo'|eapply nth_error_In; eauto]).
        assert (bytes_ok (x ++ [])) as Hxo by (rewrite app_nil_r; exact (wire_output_ok true o x Ho Hx)).
        destruct (wire_inj _ _ _ _ output_wlaws per_output true true o o' x y [] [] Ho Ho' Hx Hy Hxo ltac:(congruence)) as [R _]. exact R.
      + right. tauto.
    - right. tauto. }
  destruct C1 as [C|C1]; [auto|]. destruct C2 as [C|C2]; [auto|]. destruct C3 as [C|C3]; [auto|]. destruct C4 as [C|C4]; [auto|].
  right. unfold commits. split; [reflexivity|]. split; [exact S1|]. split; [exact S9|]. split.
  - exists i, i', lock, lock', code, code'. split; [exact En|]. split; [exact En'|]. split; [exact S4|]. split; [exact S7|]. split; [congruence|].
    split; [exact El|]. split; [exact El'|]. split; [exact Fc|]. split; [exact Gc|exact S5].
  - split; [exact C1|]. split; [exact C2|]. split; [exact C3|exact C4].
Qed.

(** independence *)
Lemma preimage_depends t t' idx idx' i i' k k' f pss pss' :
  build_preimages sha t = Ok pss -> build_preimages sha t' = Ok pss' ->
  nth_error (st_inputs t) idx = Some i -> nth_error (st_inputs t') idx' = Some i' ->
  nth_error (si_flags i) k = Some f -> nth_error (si_flags i') k' = Some f ->
  st_version t = st_version t' -> st_lock_time t = st_lock_time t' ->
  si_outpoint i = si_outpoint i' -> si_sequence i = si_sequence i' -> si_value i = si_value i' -> si_lock_script i = si_lock_script i' ->
  anyone_can_pay f \/ map si_outpoint (st_inputs t) = map si_outpoint (st_inputs t') ->
  anyone_can_pay f \/ is_none f \/ is_single f \/ map si_sequence (st_inputs t) = map si_sequence (st_inputs t') ->
  is_none f \/ (is_single f /\ nth_error (st_outputs t) idx = nth_error (st_outputs t') idx') \/ (~ is_single f /\ st_outputs t = st_outputs t') ->
  exists ps ps' p, nth_error pss idx = Some ps /\ nth_error pss' idx' = Some ps' /\ nth_error ps k = Some p /\ nth_error ps' k' = Some p.
Proof.
  intros B B' En En' Ek Ek' Hv Hl Ho Hq Hval Hls D1 D2 D3.
  rewrite build_preimages_eq in B, B'. apply obind_ok in B, B'. destruct B as ([[hp hs] ho] & Ep & B), B' as ([[hp' hs'] ho'] & Ep' & B').
  destruct (build_inputs_nth sha t hp hs ho _ _ _ B) as [_ N]. destruct (build_inputs_nth sha t' hp' hs' ho' _ _ _ B') as [_ N'].
  destruct (N idx i En) as (ps & E1 & O1), (N' idx' i' En') as (ps' & E1' & O1'). cbn [Nat.add] in O1, O1'.
  destruct (omap_nth _ _ _ _ _ O1 Ek) as (p & E2 & O2), (omap_nth _ _ _ _ _ O1' Ek') as (p' & E2' & O2').
  exists ps, ps', p. split; [exact E1|]. split; [exact E1'|]. split; [exact E2|]. rewrite E2'. f_equal.
  enough (Ok p' = Ok p) as X by (now injection X). rewrite <- O2, <- O2'. clear E1 E1' E2 E2' O1 O1' O2 O2' N N' B B' p p' ps ps' En En' Ek Ek'.
  unfold pres in Ep, Ep'. apply obind_ok in Ep, Ep'. destruct Ep as (x1 & X1 & Ep), Ep' as (x1' & X1' & Ep').
  apply obind_ok in Ep, Ep'. destruct Ep as (x2 & X2 & Ep), Ep' as (x2' & X2' & Ep'). apply obind_ok in Ep, Ep'. destruct Ep as (x3 & X3 & Ep), Ep' as (x3' & X3' & Ep').
  injection Ep as -> -> ->. injection Ep' as -> -> ->.
  unfold build_preimage. rewrite <- Hls, <- Hval, <- Ho, <- Hq, <- Hv, <- Hl. rewrite !contains_bit, !masked_mod.
  assert ((if negb (Z.testbit f 7) then hp else zero_hash "hashPrevouts") = (if negb (Z.testbit f 7) then hp' else zero_hash "hashPrevouts")) as R1.
  { destruct D1 as [A|A]; [unfold anyone_can_pay in A; now rewrite A|]. rewrite <- A, X1 in X1'. injection X1' as <-. reflexivity. }
  rewrite <- R1. clear R1.
  unfold anyone_can_pay, is_none, is_single, base_type, SIGHASH_SINGLE, SIGHASH_NONE in *.
  assert ((if negb (Z.testbit f 7) && negb (f mod 32 =? 3) && negb (f mod 32 =? 2) then hs else zero_hash "hashSequence") =
          (if negb (Z.testbit f 7) && negb (f mod 32 =? 3) && negb (f mod 32 =? 2) then hs' else zero_hash "hashSequence")) as R2.
  { destruct D2 as [A|[A|[A|A]]]; [now rewrite A|rewrite A; now rewrite !andb_false_r|rewrite A; now rewrite andb_false_r|]. rewrite <- A, X2 in X2'. injection X2' as <-. reflexivity. }
  rewrite <- R2. clear R2.
  destruct D3 as [A|[[A A']|[A A']]].
  - rewrite A. cbn. reflexivity.
  - rewrite A. cbn [Z.eqb Pos.eqb negb andb]. rewrite <- A'.
    assert ((idx <? length (st_outputs t))%nat = (idx' <? length (st_outputs t'))%nat) as ->; [|reflexivity].
    apply Bool.eq_iff_eq_true. rewrite !Nat.ltb_lt, <- !nth_error_Some, A'. reflexivity.
  - rewrite <- A', X3 in X3'. injection X3' as <-. rewrite (proj2 (Z.eqb_neq _ _) A). cbn [negb andb].
    destruct (f mod 32 =? 2) eqn:E2; reflexivity.
Qed.
End Commit.
