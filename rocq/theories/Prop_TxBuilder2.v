(** Properties C28-C31: the transaction builder (order, sizes, signing, hand-over). *)
From Coq Require Import Permutation.
From Verif Require Import Base BaseLemmas Model_Encoding Model_ByteArray Proofs_ByteArray Model_Opcode Model_Script Spec_Script Proofs_Script Model_Code Spec_Code Proofs_Code
  Model_Address Model_Destination Model_Preimage Proofs_Preimage Prop_Preimage Model_TxBuilder Spec_TxBuilder Proofs_TxBuilder Proofs_TxBuilder2 Proofs_TxBuilder3 Proofs_TxBuilder4 Proofs_TxBuilder5 Prop_TxBuilder.
Local Open Scope Z_scope.

(** C28: fixed outputs unchanged and in order, leftover outputs at their places, nothing else; inputs in
    order, spending what they were added for; after any signing history. *)
Theorem C28_order_preserved : forall sigs sha256d release allowed (b : tx_builder sigs) u t, constructed allowed b -> unsigned_of sha256d release b u -> final_tx u t ->
  tx_version t = b_version b /\ tx_lock_time t = b_lock_time b /\ Forall2 spends (b_inputs b) (tx_inputs t) /\
  exists vs, filled (b_outputs b) vs (tx_outputs t).
Proof.
  intros sigs sha release allowed b u t HC HU HT. rewrite (final_partial _ _ _ _ _ HU HT). destruct (unsigned_frame _ _ _ _ HU) as (Ub & _ & _ & HF).
  destruct (partial_handed _ _ _ _ _ HC HU) as (_ & HH & _). unfold partial_tx at 1 2 4. cbn [tx_version tx_lock_time tx_outputs]. rewrite Ub.
  split; [reflexivity|]. split; [reflexivity|]. split; [|exact HF]. induction HH; constructor; auto using handed_spends.
Qed.
Print Assumptions C28_order_preserved.

(** C28: build_without_estimation refuses leftover outputs, and otherwise takes the outputs as they are. *)
Theorem C28_without_estimation : forall sigs sha256d (b : tx_builder sigs) u, build_without_estimation sha256d b = Ok u -> b_outputs b = map KnownValue (u_outputs u).
Proof. intros sigs sha b u E. destruct (build_without_inv _ _ _ E) as (X & _). now apply known_outputs_inv. Qed.
Print Assumptions C28_without_estimation.
Theorem C28_leftover_needs_estimation : forall sigs sha256d (b : tx_builder sigs) lo up p s, In (Leftover lo up p s) (b_outputs b) ->
  build_without_estimation sha256d b = Err (EMsg 1).
Proof.
  intros sigs sha b lo up p s H. unfold build_without_estimation. assert (known_outputs (b_outputs b) = Err (EMsg 1)) as ->; [|reflexivity].
  induction (b_outputs b) as [|[o|lo' up' p' s'] outs IH]; [destruct H| |reflexivity]. destruct H as [H|H]; [discriminate|]. cbn [known_outputs]. now rewrite (IH H).
Qed.
Print Assumptions C28_leftover_needs_estimation.

(** C29: the size estimate is an upper bound on the size of the signed transaction, if every signatory's
    placeholder gives a script at least as long as any real signature does. *)
Theorem C29_estimate_bounds_size : forall sigs sha256d release good (b : tx_builder sigs) u ops u' t, constructed (fits_placeholder good) b ->
  (build sha256d release b = Ok u \/ build_without_estimation sha256d b = Ok u) -> apply_ops u ops = Ok u' -> Forall (signs_with good) ops -> complete_tx u' = Ok t ->
  exists raw, tx_ser t = Ok raw /\ zlen (ba_data raw) <= u_estimated_size u.
Proof. intros. eapply estimate_bounds; eassumption. Qed.
Print Assumptions C29_estimate_bounds_size.

(** C29: which is the case for P2PKH and signatures of at most MAX_SIGNATURE_SIZE (72) bytes. *)
Theorem C29_p2pkh : forall sigs ty (to_ba : sigs ty -> barray) of_ba sha256d release (b : tx_builder sigs) u ops u' t, (forall x, to_ba (of_ba x) = x) ->
  constructed (is_p2pkh sigs ty to_ba of_ba) b -> (build sha256d release b = Ok u \/ build_without_estimation sha256d b = Ok u) ->
  apply_ops u ops = Ok u' -> Forall (signs_with (short_sig sigs ty to_ba)) ops -> complete_tx u' = Ok t ->
  exists raw, tx_ser t = Ok raw /\ zlen (ba_data raw) <= u_estimated_size u.
Proof.
  intros sigs ty to_ba of_ba sha release b u ops u' t Hrt HC. apply estimate_bounds. eapply constructed_mono; [|exact HC]. intros s. now apply p2pkh_fits.
Qed.
Print Assumptions C29_p2pkh.

Lemma build_rate sigs sha release (b : tx_builder sigs) u : in_range b -> (release = false \/ totals_fit b /\ u_estimated_size u * b_fee_per_kb b < 2 ^ 64) ->
  build sha release b = Ok u -> (exists o, length (u_outputs u) <> o /\ o = length (filter (fun x => match x with KnownValue _ => true | _ => false end) (b_outputs b))) ->
  u_estimated_size u * b_fee_per_kb b / 1000 <= input_total b - output_total (u_outputs u).
Proof.
  intros HR HT E (o & Hne & Ho). assert (release = false \/ totals_fit b) as HT' by tauto.
  destruct (build_inv _ _ _ _ E HR HT') as (H0 & st & Ep & _ & Eo & _ & _ & Ees). destruct (distribution release b HR _ st H0 Ep) as [I _].
  assert (Hfee : input_total b - output_total (u_outputs u) = st_total st).
  { rewrite Eo. unfold make_outputs. rewrite (filled_total _ _ _ (filled_values (st_m st) (b_outputs b) 0)). pose proof (inv_sum _ _ _ _ _ I). lia. }
  rewrite Hfee. pose proof (inv_est _ _ _ _ _ I) as IE. destruct (st_est st) as [size|].
  - destruct IE as (k & lo & up & p & s & v & f & Hk & Hv & Hl & Hf & Hle & Heq). rewrite Ees in *. assert (f = size * b_fee_per_kb b / 1000) as <-; [|exact Hle].
    eapply fee_exact; [exact HR| |exact Hf]. tauto.
  - exfalso. apply Hne. rewrite Ho, Eo. unfold make_outputs. clear - IE. generalize O. induction (b_outputs b) as [|[x|? ? ? ?] l IH]; intros k; cbn [make_outputs_from filter length]; [reflexivity|now rewrite IH|].
    rewrite IE. apply IH.
Qed.
(** C29: so whenever a leftover output was placed (there are more outputs than fixed ones), the finished
    transaction pays at least the requested rate for its actual size. *)
Theorem C29_fee_covers_size : forall sigs sha256d release good (b : tx_builder sigs) u ops u' t raw, in_range b ->
  (release = false \/ totals_fit b /\ u_estimated_size u * b_fee_per_kb b < 2 ^ 64) -> constructed (fits_placeholder good) b ->
  build sha256d release b = Ok u -> apply_ops u ops = Ok u' -> Forall (signs_with good) ops -> complete_tx u' = Ok t -> tx_ser t = Ok raw ->
  length (tx_outputs t) <> length (filter (fun x => match x with KnownValue _ => true | _ => false end) (b_outputs b)) ->
  zlen (ba_data raw) * b_fee_per_kb b / 1000 <= input_total b - output_total (tx_outputs t).
Proof.
  intros sigs sha release good b u ops u' t raw HR HT HC E HA HG Ht Er Hl. destruct (C29_estimate_bounds_size _ sha release good b u ops u' t HC (or_introl E) HA HG Ht) as (raw' & Er' & Hle).
  assert (raw' = raw) as -> by congruence. destruct (complete_inv _ _ Ht) as (_ & Co & _). destruct (apply_ops_frame _ _ _ HA) as (_ & Ao & _). rewrite Co, Ao in *.
  etransitivity; [|apply (build_rate _ sha release b u HR HT E); eauto]. apply Z.div_le_mono; [lia|]. destruct HR as (_ & _ & Hr). unfold u64_ok in Hr. nia.
Qed.
Print Assumptions C29_fee_covers_size.

(** C30: an input that was signed cannot be signed again, whatever happened in between. *)
Theorem C30_sign_once : forall sigs (u u' : unsigned_tx sigs) ops o o', apply_ops u ops = Ok u' -> In o ops -> op_index o' = op_index o ->
  apply_op u' o' = Err (EInputAlreadySigned (Z.of_nat (op_index o))).
Proof.
  intros sigs u u' ops o o' E Ho Hi. rewrite apply_op_eq, Hi. 
  assert (Hlt : (op_index o < length (u_inputs u))%nat).
  { destruct (in_split _ _ Ho) as (l1 & l2 & ->). rewrite apply_ops_app in E. apply obind_ok in E. destruct E as (v & E1 & E2). cbn [apply_ops] in E2. apply obind_ok in E2. destruct E2 as (w & E2 & _).
    destruct (apply_op_inv _ _ _ E2) as (S & _). destruct (apply_ops_frame _ _ _ E1) as (_ & _ & _ & _ & L & _). rewrite <- L. eapply nth_length. exact S. }
  destruct (proj2 (slots_after ops u u' E _ Hlt)) as (i & ->); [right; eauto|reflexivity].
Qed.
Print Assumptions C30_sign_once.

(** C30: the order of signing does not matter. *)
Theorem C30_any_order : forall sigs (u u' : unsigned_tx sigs) ops ops', Permutation ops ops' -> apply_ops u ops = Ok u' -> apply_ops u ops' = Ok u'.
Proof. intros. eapply apply_ops_perm; eassumption. Qed.
Print Assumptions C30_any_order.

(** C30: a signing call touches its own input's script only. *)
Theorem C30_signs_only_its_input : forall sigs sha256d release allowed (b : tx_builder sigs) u o u', constructed allowed b -> unsigned_of sha256d release b u -> apply_op u o = Ok u' ->
  let t := partial_tx u in let t' := partial_tx u' in
  tx_version t' = tx_version t /\ tx_lock_time t' = tx_lock_time t /\ tx_outputs t' = tx_outputs t /\
  exists before i after s, tx_inputs t = before ++ i :: after /\ length before = op_index o /\ in_script i = [] /\
    tx_inputs t' = before ++ TxInput (in_prev_out i) s (in_sequence i) (in_lock_script i) (in_value i) (in_is_p2sh i) (in_sig_hash_flags i) :: after.
Proof.
  intros sigs sha release allowed b u o u' HC HU E t t'. destruct (apply_op_inv _ _ _ E) as (S & j & M & E1). destruct (made_inv _ _ _ M) as (bi & pre & s & Hb & _ & Ej & _).
  subst t t'. rewrite E1, partial_set. cbn [tx_version tx_lock_time tx_outputs tx_inputs]. do 3 (split; [reflexivity|]).
  assert (Hk : nth_error (tx_inputs (partial_tx u)) (op_index o) = Some (signed_input bi [])).
  { unfold partial_tx. cbn [tx_inputs]. rewrite partial_nth_at, S, Hb. reflexivity. }
  destruct (nth_error_split _ _ Hk) as (before & after & Hs & Hl). exists before, (signed_input bi []), after, s.
  split; [exact Hs|]. split; [exact Hl|]. split; [reflexivity|]. rewrite Hs, <- Hl, upd_app_mid, Ej. reflexivity.
Qed.
Print Assumptions C30_signs_only_its_input.

(** C30: the transaction can be completed exactly when every input was signed (or imported signed);
    otherwise complete_tx panics. *)
Theorem C30_complete_iff_all_signed : forall sigs sha256d release (b : tx_builder sigs) u ops u', (build sha256d release b = Ok u \/ build_without_estimation sha256d b = Ok u) ->
  apply_ops u ops = Ok u' ->
  ((forall k bi, nth_error (b_inputs b) k = Some bi -> came_signed bi \/ exists o, In o ops /\ op_index o = k) -> complete_tx u' = Ok (partial_tx u')) /\
  ((exists k bi, nth_error (b_inputs b) k = Some bi /\ ~ came_signed bi /\ forall o, In o ops -> op_index o <> k) -> complete_tx u' = Panic).
Proof.
  intros sigs sha release b u ops u' HB HA. destruct (build_frame _ _ _ _ HB) as (Fb & Fi & _). destruct (apply_ops_frame _ _ _ HA) as (Ab & _ & _ & _ & Al & _).
  assert (HL : length (u_inputs u) = length (b_inputs b)) by (rewrite Fi; apply map_length).
  assert (HK : forall k bi, nth_error (b_inputs b) k = Some bi -> ((exists i, nth_error (u_inputs u') k = Some (Some i)) <-> came_signed bi \/ exists o, In o ops /\ op_index o = k)).
  { intros k bi Hk. rewrite (slots_after _ _ _ HA k) by (rewrite HL; eapply nth_length; exact Hk). rewrite Fi, nth_error_map, Hk. cbn [option_map]. rewrite <- presigned_some.
    split; (intros [(i & Hi)|H]; [left; exists i; congruence|right; exact H]). }
  split.
  - intros H. destruct (complete_cases u') as [[_ (t & Et)]|[(k & Hlt & Hn) _]].
    + rewrite <- (complete_partial u' t); [exact Et|now rewrite Ab, Fb, Al, HL|exact Et].
    + exfalso. rewrite Al, HL in Hlt. destruct (nth_error (b_inputs b) k) as [bi|] eqn:Hk; [|apply nth_error_None in Hk; lia]. destruct (proj2 (HK k bi Hk) (H k bi Hk)) as (i & Hi). congruence.
  - intros (k & bi & Hk & Hn & Ho). destruct (complete_cases u') as [[HA' _]|[_ X]]; [|exact X]. exfalso.
    destruct (proj1 (HK k bi Hk)) as [X|(o & Hin & Hidx)]; [|exact (Hn X)|exact (Ho o Hin Hidx)]. apply HA'. rewrite Al, HL. eapply nth_length. exact Hk.
Qed.
Print Assumptions C30_complete_iff_all_signed.

(** C30: the reference add_input returns signs the input just added, with exactly the script its signatory
    builds for the right preimages, and completes it with the data of that input; whatever was added to the
    builder afterwards and whatever else was signed before. *)
Theorem C30_reference_signs_its_input : forall sigs sha256d release (b b' b2 : tx_builder sigs) input lock s r more u sg,
  add_input b input lock s = (b', r) -> b_inputs b2 = b_inputs b' ++ more -> unsigned_of sha256d release b2 u -> nth_error (u_inputs u) r = Some None ->
  exists pre, nth_error (u_preimages u) r = Some pre /\
    (forall sc, s_script s pre (Some (u_estimated_size u)) sg lock (u_outputs u) = Ok sc ->
      exists u', sign_input u r (s_type s) sg = Ok u' /\
        nth_error (tx_inputs (partial_tx u')) r = Some (TxInput (ui_prev_out input) sc (ui_sequence input) (Some lock) (Some (ui_value input)) (Some (s_is_p2sh s)) (Some (s_flags s)))) /\
    sign_input u r (s_type s) sg = sign_input_signatory u r s sg /\
    (forall ty sg', ty <> s_type s -> sign_input u r ty sg' = Panic).
Proof.
  intros sigs sha release b b' b2 input lock s r more u sg Ea Eb2 HU Hr. destruct (unsigned_frame _ _ _ _ HU) as (Ub & Ul & Up & _).
  unfold add_input in Ea. injection Ea as <- <-. cbn [b_inputs] in Eb2. set (bi := BuilderInput _ _ _ _ _ _) in Eb2.
  assert (Hbi : nth_error (b_inputs b2) (length (b_inputs b)) = Some bi) by (rewrite Eb2, <- app_assoc, nth_error_app2, Nat.sub_diag by lia; reflexivity).
  assert (exists pre, nth_error (u_preimages u) (length (b_inputs b)) = Some pre) as (pre & Hp) by (eapply preimages_at; eassumption).
  exists pre. split; [exact Hp|].
  assert (forall sc, s_script s pre (Some (u_estimated_size u)) sg lock (u_outputs u) = sc -> sign_input u (length (b_inputs b)) (s_type s) sg = do x <- sc; Ok (set_input u (length (b_inputs b)) (signed_input bi x))) as HS.
  { intros sc <-. unfold sign_input, sign_input_dyn. rewrite Hr, Ub, Hbi, Hp. cbn [expect obind]. cbn [bi bi_func signatory_func lock_or_empty bi_lock_script]. unfold signatory_func. rewrite downcast_same. reflexivity. }
  split; [|split].
  - intros sc Esc. rewrite (HS _ Esc). cbn [obind]. eexists. split; [reflexivity|]. rewrite partial_set. cbn [tx_inputs]. rewrite nth_upd_same; [reflexivity|].
    unfold partial_tx. cbn [tx_inputs]. apply nth_error_Some. rewrite partial_nth_at, Hr, Ub, Hbi. discriminate.
  - rewrite (HS _ eq_refl). unfold sign_input_signatory. rewrite Hr, Ub, Hbi, Hp. reflexivity.
  - intros ty sg' Hne. unfold sign_input, sign_input_dyn. rewrite Hr, Ub, Hbi, Hp. cbn [expect obind]. cbn [bi bi_func]. unfold signatory_func. rewrite downcast_other by exact Hne. reflexivity.
Qed.
Print Assumptions C30_reference_signs_its_input.

(** C30: there is no input to sign beyond the inputs added. *)
Theorem C30_out_of_range_panics : forall sigs sha256d release (b : tx_builder sigs) u o, unsigned_of sha256d release b u -> (length (b_inputs b) <= op_index o)%nat -> apply_op u o = Panic.
Proof.
  intros sigs sha release b u o HU H. destruct (unsigned_frame _ _ _ _ HU) as (Ub & Ul & _). rewrite apply_op_eq. rewrite (proj2 (nth_error_None _ _)) by lia. reflexivity.
Qed.
Print Assumptions C30_out_of_range_panics.

(** C31: re-importing a partial transaction works, keeps everything bit for bit, and leaves the same signing
    messages; what was signed stays signed. *)
Theorem C31_reimport : forall sigs sha256d release allowed (b : tx_builder sigs) u raw, constructed allowed b -> unsigned_of sha256d release b u ->
  tx_ser (partial_tx u) = Ok raw -> exists u2, build_without_estimation sha256d (from_tx sigs (partial_tx u)) = Ok u2 /\ u_estimated_size u2 = zlen (ba_data raw).
Proof.
  intros sigs sha release allowed b u raw HC HU Er. destruct (reimport_ok _ _ _ _ _ _ HC HU Er) as (u2 & E2). exists u2. split; [exact E2|].
  destruct (reimport_inv _ _ _ _ _ HC HU release u2 (or_intror E2)) as (_ & _ & _ & _ & _ & HL). rewrite (tx_ser_ok_len _ _ Er) in HL. congruence.
Qed.
Print Assumptions C31_reimport.
Theorem C31_reimport_keeps_everything : forall sigs sha256d release release' allowed (b : tx_builder sigs) u u2, constructed allowed b -> unsigned_of sha256d release b u ->
  (build sha256d release' (from_tx sigs (partial_tx u)) = Ok u2 \/ build_without_estimation sha256d (from_tx sigs (partial_tx u)) = Ok u2) ->
  partial_tx u2 = partial_tx u /\ u_preimages u2 = u_preimages u /\
  forall o i, nth_error (tx_inputs (partial_tx u)) (op_index o) = Some i -> in_script i <> [] -> apply_op u2 o = Err (EInputAlreadySigned (Z.of_nat (op_index o))).
Proof.
  intros sigs sha release release' allowed b u u2 HC HU HB. destruct (reimport_inv _ _ _ _ _ HC HU _ _ HB) as (_ & _ & Fp & Fi & Ft & _).
  split; [exact Ft|]. split; [exact Fp|]. intros o i Hi Hne. rewrite apply_op_eq, Fi, map_map, nth_error_map, Hi. cbn [option_map presigned from_tx_input bi_signed]. destruct (in_script i); [congruence|reflexivity].
Qed.
Print Assumptions C31_reimport_keeps_everything.

(** C31: the other party signs with sign_input_signatory; the result is the transaction the first party would
    have got by signing itself. *)
Theorem C31_remote_signing : forall sigs sha256d release release' allowed (b : tx_builder sigs) u k s sg u1 u2, constructed allowed b -> unsigned_of sha256d release b u ->
  signatory_ignores_estimate s -> sign_input_signatory u k s sg = Ok u1 ->
  (build sha256d release' (from_tx sigs (partial_tx u)) = Ok u2 \/ build_without_estimation sha256d (from_tx sigs (partial_tx u)) = Ok u2) ->
  exists u3, sign_input_signatory u2 k s sg = Ok u3 /\ partial_tx u3 = partial_tx u1.
Proof. intros. eapply remote_sign; eassumption. Qed.
Print Assumptions C31_remote_signing.

(** C31, trap: plain sign_input on an imported unsigned input accepts any signature of any type, puts an
    empty script there, and counts the input as signed. *)
Theorem C31_sign_input_after_import_refuted : forall sigs sha256d (t : unhashed_tx) u2 k i ty (sg : sigs ty),
  build_without_estimation sha256d (from_tx sigs t) = Ok u2 -> nth_error (tx_inputs t) k = Some i -> in_script i = [] ->
  exists u3, sign_input u2 k ty sg = Ok u3 /\ exists j, nth_error (u_inputs u3) k = Some (Some j) /\ in_script j = [].
Proof.
  intros sigs sha t u2 k i ty sg E Hi Hs. destruct (build_without_inv _ _ _ E) as (_ & _ & Ep & Eb & Ei). cbn [from_tx b_inputs] in Ei.
  assert (Hb : nth_error (b_inputs (u_builder u2)) k = Some (from_tx_input sigs i)) by (rewrite Eb; cbn [from_tx b_inputs]; now rewrite nth_error_map, Hi).
  assert (exists pre, nth_error (u_preimages u2) k = Some pre) as (pre & Hp) by (rewrite Eb in Hb; eapply preimages_at; eassumption).
  assert (Hn : nth_error (u_inputs u2) k = Some None) by (rewrite Ei, map_map, nth_error_map, Hi; cbn [option_map presigned from_tx_input bi_signed]; now rewrite Hs).
  unfold sign_input, sign_input_dyn. rewrite Hn, Hb, Hp. cbn [expect obind bi_func from_tx_input]. eexists. split; [reflexivity|].
  eexists. unfold set_input. cbn [u_inputs]. rewrite nth_upd_same by (eapply nth_length; exact Hn). split; [reflexivity|exact Hs].
Qed.
Print Assumptions C31_sign_input_after_import_refuted.

(** C31, trap: a transaction imported without the values of the coins it spends is signed as if they were 0. *)
Theorem C31_missing_value_is_zero_refuted : forall sigs sha256d (t : unhashed_tx) u2 k i pre p,
  build_without_estimation sha256d (from_tx sigs t) = Ok u2 -> nth_error (tx_inputs t) k = Some i -> in_value i = None ->
  nth_error (u_preimages u2) k = Some pre -> In p pre -> pi_value p = 0.
Proof.
  intros sigs sha t u2 k i pre p E Hi Hv Hp Hin. destruct (build_without_inv _ _ _ E) as (_ & _ & Ep & _ & _).
  rewrite build_preimages_eq in Ep. apply obind_ok in Ep. destruct Ep as ([[hp hs] ho] & _ & Ep). destruct (build_inputs_nth _ _ _ _ _ _ _ _ Ep) as [_ H].
  cbn [builder_sig_tx st_inputs from_tx b_inputs] in H. edestruct (H k) as (ps & Hps & Ho); [rewrite map_map, nth_error_map, Hi; reflexivity|].
  assert (ps = pre) as -> by congruence. apply omap_Forall2 in Ho. clear - Ho Hv Hin. induction Ho as [|f q fs qs Hq _ IH]; [destruct Hin|]. destruct Hin as [->|Hin]; [|auto].
  unfold build_preimage in Hq. apply obind_ok in Hq. destruct Hq as (houts & _ & Hq). cbn [si_lock_script si_value bi_input from_tx_input ui_value expect obind] in Hq. rewrite Hv in Hq. injection Hq as <-. reflexivity.
Qed.
Print Assumptions C31_missing_value_is_zero_refuted.

(** Two signatures, of 72 and 60 bytes. *)
Definition ex_ops : list (@sign_op ex_sigs) := [SignInput 1 (Any (sigs := ex_sigs) 0 (ba_unnamed (repeat 9 72))); SignInput 0 (Any (sigs := ex_sigs) 0 (ba_unnamed (repeat 8 60)))].

(** C29, witness: an input imported without a script is estimated as empty, so a transaction signed through
    sign_input_signatory can be larger than the estimate. *)
Theorem C29_imported_refuted : exists (t : unhashed_tx) u u' t' raw, build_without_estimation ex_sha (from_tx ex_sigs t) = Ok u /\
  sign_input_signatory u 0 (ex_signatory 2) (ba_unnamed (repeat 9 72)) = Ok u' /\ complete_tx u' = Ok t' /\ tx_ser t' = Ok raw /\ u_estimated_size u < zlen (ba_data raw).
Proof.
  exists (UnhashedTx 1 [TxInput (TxOutpoint (ba_unnamed (repeat 1 32)) 0) [] 0 (Some ex_lock) (Some 5) (Some false) (Some [0x41])] [] 0).
  do 4 eexists. do 4 (split; [vm_compute; reflexivity|]). vm_compute. reflexivity.
Qed.
Print Assumptions C29_imported_refuted.

Example C29_nonvacuous : exists u u' t raw, constructed (is_p2pkh ex_sigs 0 (fun x => x) (fun x => x)) ex_builder /\ build ex_sha false ex_builder = Ok u /\
  apply_ops u ex_ops = Ok u' /\ Forall (signs_with (short_sig ex_sigs 0 (fun x => x))) ex_ops /\ complete_tx u' = Ok t /\ tx_ser t = Ok raw /\
  zlen (ba_data raw) = 341 /\ u_estimated_size u = 353 /\
  length (tx_outputs t) <> length (filter (fun x => match x with KnownValue _ => true | _ => false end) (b_outputs ex_builder)).
Proof.
  do 4 eexists. split; [exact ex_constructed|]. split; [vm_compute; reflexivity|]. split; [vm_compute; reflexivity|]. split.
  { assert (forall n k, byte_ok n -> (k <= 72)%nat -> short_sig ex_sigs 0 (fun x => x) 0 (ba_unnamed (repeat n k))) as H.
    { intros n k Hn Hk. exists eq_refl. cbn [eq_rect]. cbv zeta. cbn [ba_data ba_unnamed ba_new]. split; [apply Forall_forall; intros x Hx; apply repeat_spec in Hx; now subst|].
      unfold zlen, MAX_SIGNATURE_SIZE. rewrite repeat_length. lia. }
    constructor; [|constructor; [|constructor]]; do 3 eexists; (split; [reflexivity|]); apply H; unfold byte_ok; lia. }
  split; [vm_compute; reflexivity|]. split; [vm_compute; reflexivity|]. split; [vm_compute; reflexivity|]. split; [reflexivity|]. vm_compute. discriminate.
Qed.
(** the hypothesis of C29_estimate_bounds_size in the general form *)
Example C29_fits : forall n, byte_ok n -> fits_placeholder (short_sig ex_sigs 0 (fun x => x)) (ex_signatory n).
Proof. intros n H. eapply (p2pkh_fits ex_sigs 0 _ (fun x => x)); [reflexivity|]. now apply ex_p2pkh. Qed.

Lemma ex_unsigned u u' : build ex_sha false ex_builder = Ok u -> apply_ops u ex_ops = Ok u' -> unsigned_of ex_sha false ex_builder u'.
Proof. intros A B. exists u, ex_ops. auto. Qed.
Example C28_nonvacuous : exists u t, unsigned_of ex_sha false ex_builder u /\ final_tx u t /\ map out_value (tx_outputs t) = [20000; 69640; 10000; 7] /\ map in_sequence (tx_inputs t) = [0xfffffffe; 0xfffffffd].
Proof. do 2 eexists. split; [eapply ex_unsigned; vm_compute; reflexivity|]. split; [right; vm_compute; reflexivity|]. split; reflexivity. Qed.
Example C28_without_nonvacuous : exists u, build_without_estimation ex_sha (add_output (builder_new ex_sigs 1 2) (TxOutput 5 ex_lock)) = Ok u.
Proof. eexists. vm_compute. reflexivity. Qed.
Example C30_nonvacuous : exists u u1 u2 e, build ex_sha false ex_builder = Ok u /\ apply_ops u ex_ops = Ok u2 /\ apply_ops u (rev ex_ops) = Ok u2 /\
  apply_ops u [SignInput 1 (Any (sigs := ex_sigs) 0 (ba_unnamed (repeat 9 72)))] = Ok u1 /\ complete_tx u1 = Panic /\
  apply_op u1 (SignInput 1 (Any (sigs := ex_sigs) 0 (ba_unnamed (repeat 9 72)))) = Err e /\ complete_tx u2 = Ok (partial_tx u2).
Proof.
  do 4 eexists. split; [vm_compute; reflexivity|]. split; [vm_compute; reflexivity|]. split; [vm_compute; reflexivity|]. split; [vm_compute; reflexivity|].
  split; [vm_compute; reflexivity|]. split; [vm_compute; reflexivity|]. vm_compute. reflexivity.
Qed.
Example C31_nonvacuous : exists u u1 u2 u3 raw, build ex_sha false ex_builder = Ok u /\ apply_ops u [SignInput 1 (Any (sigs := ex_sigs) 0 (ba_unnamed (repeat 9 72)))] = Ok u1 /\
  tx_ser (partial_tx u1) = Ok raw /\ build_without_estimation ex_sha (from_tx ex_sigs (partial_tx u1)) = Ok u2 /\
  sign_input_signatory u2 0 (ex_signatory 2) (ba_unnamed (repeat 8 60)) = Ok u3 /\ complete_tx u3 = Ok (partial_tx u3) /\ signatory_ignores_estimate (ex_signatory 2).
Proof.
  do 5 eexists. split; [vm_compute; reflexivity|]. split; [vm_compute; reflexivity|]. split; [vm_compute; reflexivity|]. split; [vm_compute; reflexivity|].
  split; [vm_compute; reflexivity|]. split; [vm_compute; reflexivity|]. intros pre est est' sg lock outs. reflexivity.
Qed.
