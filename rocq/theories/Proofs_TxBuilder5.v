(** Lemmas about the transaction builder: signing bookkeeping and hand-over. *)
From Verif Require Import Base BaseLemmas Model_Encoding Model_ByteArray Proofs_ByteArray Model_Opcode Model_Script Spec_Script Proofs_Script Model_Code Proofs_Code Model_Address Model_Destination Model_Preimage
  Proofs_Preimage Model_TxBuilder Spec_TxBuilder Proofs_TxBuilder Proofs_TxBuilder2 Proofs_TxBuilder3 Proofs_TxBuilder4.
Local Open Scope Z_scope.

Section D.
Context {sigs : Z -> Type}.
Notation tx_builder := (tx_builder sigs).
Notation builder_input := (builder_input sigs).
Notation unsigned_tx := (unsigned_tx sigs).
Notation signatory := (signatory sigs).
Notation sign_op := (@sign_op sigs).

Lemma constructed_mono (P Q : signatory -> Prop) (b : tx_builder) : (forall s, P s -> Q s) -> constructed P b -> constructed Q b.
Proof. intros H HC. induction HC; constructor; auto. Qed.

Lemma unsigned_frame sha release (b : tx_builder) u : unsigned_of sha release b u -> u_builder u = b /\ length (u_inputs u) = length (b_inputs b) /\
  build_preimages sha (builder_sig_tx b (u_outputs u)) = Ok (u_preimages u) /\ exists vs, filled (b_outputs b) vs (u_outputs u).
Proof.
  intros (u0 & ops & HB & HA). destruct (build_frame _ _ _ _ HB) as (Fb & Fi & Fp). destruct (apply_ops_frame _ _ _ HA) as (Ab & Ao & Ap & _ & Al & _).
  rewrite Ab, Ao, Ap, Al, Fi, map_length. split; [exact Fb|]. split; [reflexivity|]. split; [exact Fp|].
  destruct HB as [HB|HB].
  - destruct (build_inv0 _ _ _ _ HB) as (st & t0 & _ & _ & -> & _). exists (values (st_m st) 0 (b_outputs b)). apply filled_values.
  - destruct (build_without_inv _ _ _ HB) as (E & _). apply known_outputs_inv in E. rewrite E. eexists. apply filled_known_all.
Qed.
Lemma complete_partial (u : unsigned_tx) t : length (u_inputs u) = length (b_inputs (u_builder u)) -> complete_tx u = Ok t -> t = partial_tx u.
Proof.
  intros L E. destruct (complete_inv _ _ E) as (Ci & Co & Cv & Cl). unfold partial_tx. rewrite (partial_complete _ _ _ Ci L), <- Co, <- Cv, <- Cl. now destruct t.
Qed.
Lemma final_partial sha release (b : tx_builder) u t : unsigned_of sha release b u -> final_tx u t -> t = partial_tx u.
Proof. intros HU [->|E]; [reflexivity|]. destruct (unsigned_frame _ _ _ _ HU) as (Ub & Ul & _). apply complete_partial; [now rewrite Ub|exact E]. Qed.
Lemma handed_spends (bi : builder_input) i : handed bi i -> spends bi i.
Proof.
  intros [(s & ->)|(-> & _)]; unfold spends; cbn [signed_input in_prev_out in_sequence in_value from_tx_input bi_input ui_prev_out ui_sequence ui_value]; (split; [reflexivity|]); (split; [reflexivity|]).
  - congruence.
  - intros v ->. reflexivity.
Qed.

(** ** which slots are filled *)
Lemma slots_after (l : list sign_op) : forall u u', apply_ops u l = Ok u' -> forall k, (k < length (u_inputs u))%nat ->
  ((exists i, nth_error (u_inputs u') k = Some (Some i)) <-> (exists i, nth_error (u_inputs u) k = Some (Some i)) \/ exists o, In o l /\ op_index o = k).
Proof.
  induction l as [|o l IH]; intros u u' E k Hk; cbn [apply_ops] in E.
  - injection E as <-. split; [auto|]. intros [H|(o & [] & _)]. exact H.
  - apply obind_ok in E. destruct E as (v & E1 & E). destruct (apply_op_inv _ _ _ E1) as (S1 & i & _ & ->).
    rewrite (IH _ _ E) by (unfold set_input; cbn [u_inputs]; now rewrite upd_length). unfold set_input. cbn [u_inputs].
    destruct (Nat.eq_dec (op_index o) k) as [<-|Hne].
    + split; [intros _; right; exists o; split; [now left|reflexivity]|]. intros _. left. exists i. now apply nth_upd_same.
    + rewrite nth_upd_other by exact Hne. split; (intros [H|(o' & Ho & Hk')]; [left; exact H|]).
      * right. exists o'. split; [now right|exact Hk'].
      * right. destruct Ho as [<-|Ho]; [congruence|]. exists o'. auto.
Qed.
Lemma complete_cases (u : unsigned_tx) : ((forall k, (k < length (u_inputs u))%nat -> exists i, nth_error (u_inputs u) k = Some (Some i)) /\ exists t, complete_tx u = Ok t) \/
  ((exists k, (k < length (u_inputs u))%nat /\ nth_error (u_inputs u) k = Some None) /\ complete_tx u = Panic).
Proof.
  unfold complete_tx. generalize (u_builder u) (u_outputs u). intros b outs. generalize (u_inputs u). clear u.
  assert (forall l : list (option tx_input), ((forall k, (k < length l)%nat -> exists i, nth_error l k = Some (Some i)) /\ exists t, omap expect l = Ok t) \/ ((exists k, (k < length l)%nat /\ nth_error l k = Some None) /\ omap expect l = Panic)) as H.
  { induction l as [|[i|] l IH].
    - left. split; [intros k Hk; cbn in Hk; lia|]. now exists [].
    - destruct IH as [[A (t & B)]|[(k & A & B) C]].
      + left. split; [|exists (i :: t); cbn [omap expect obind]; now rewrite B]. intros [|k] Hk; [exists i; reflexivity|]. apply A. cbn in Hk. lia.
      + right. split; [|cbn [omap expect obind]; now rewrite C]. exists (S k). split; [cbn; lia|exact B].
    - right. split; [|reflexivity]. exists O. split; [cbn; lia|reflexivity]. }
  intros l. destruct (H l) as [[A (t & ->)]|[A ->]]; [left|right]; (split; [exact A|]); [eexists; reflexivity|reflexivity].
Qed.
Lemma presigned_some (bi : builder_input) : (exists i, presigned bi = Some i) <-> came_signed bi.
Proof.
  unfold presigned, came_signed. destruct (bi_signed bi) as [i|]; [|split; [intros (? & X); discriminate|intros (? & X & _); discriminate]].
  destruct (in_script i) eqn:E; split.
  - intros (? & X). discriminate.
  - intros (j & X & Y). injection X as <-. congruence.
  - intros _. exists i. split; [reflexivity|congruence].
  - intros _. eauto.
Qed.

(** ** re-import *)
Lemma reimport_inv sha release allowed (b : tx_builder) u : constructed allowed b -> unsigned_of sha release b u ->
  forall release' u2, build sha release' (from_tx sigs (partial_tx u)) = Ok u2 \/ build_without_estimation sha (from_tx sigs (partial_tx u)) = Ok u2 ->
  u_builder u2 = from_tx sigs (partial_tx u) /\ u_outputs u2 = u_outputs u /\ u_preimages u2 = u_preimages u /\ u_inputs u2 = map presigned (map (from_tx_input sigs) (tx_inputs (partial_tx u))) /\ partial_tx u2 = partial_tx u /\
  tx_len (partial_tx u) = Ok (u_estimated_size u2).
Proof.
  intros HC HU release' u2 HB. destruct (partial_handed _ _ _ _ _ HC HU) as (Ub & HH & HP). destruct (build_frame _ _ _ _ HB) as (Fb & Fi & Fp).
  assert (Eo : u_outputs u2 = tx_outputs (partial_tx u)).
  { assert (exists vs, filled (b_outputs (from_tx sigs (partial_tx u))) vs (u_outputs u2)) as (vs & HF).
    { destruct HB as [HB|HB]; [|destruct (build_without_inv _ _ _ HB) as (E & _); apply known_outputs_inv in E; rewrite E; eexists; apply filled_known_all].
      destruct (build_inv0 _ _ _ _ HB) as (st & t0 & _ & _ & -> & _). eexists. apply filled_values. }
    cbn [from_tx b_outputs] in HF. rewrite <- (app_nil_r (map KnownValue _)) in HF. destruct (filled_knowns _ _ _ _ HF) as (vs' & os' & _ & Ho & H'). inversion H'; subst. now rewrite app_nil_r in Ho. }
  split; [exact Fb|]. split; [exact Eo|]. split.
  { rewrite (reimport_sig_tx b (partial_tx u)) in Fp; [|exact HH|cbn; now rewrite Ub|cbn; now rewrite Ub]. rewrite Eo in Fp. cbn [partial_tx tx_outputs] in Fp. congruence. }
  split; [exact Fi|]. split.
  { unfold partial_tx at 1. rewrite Fb, Fi, Eo. cbn [from_tx b_inputs b_version b_lock_time]. rewrite (reimport_inputs b) by exact HH. reflexivity. }
  destruct (reported_estimate _ _ _ _ HB) as (os & Ees & Hscr). rewrite <- (reimport_estimate (sigs := sigs)). 
  rewrite (estimate_scripts _ _ os); [exact Ees| |rewrite Hscr; now rewrite Eo]. cbn [from_tx b_inputs]. apply Forall_map, Forall_forall. intros i _ pre est sg lock o o'. reflexivity.
Qed.
Lemma reimport_ok sha release allowed (b : tx_builder) u raw : constructed allowed b -> unsigned_of sha release b u -> tx_ser (partial_tx u) = Ok raw ->
  exists u2, build_without_estimation sha (from_tx sigs (partial_tx u)) = Ok u2.
Proof.
  intros HC HU Er. destruct (partial_handed _ _ _ _ _ HC HU) as (Ub & HH & HP). unfold build_without_estimation.
  assert (known_outputs (b_outputs (from_tx sigs (partial_tx u))) = Ok (u_outputs u)) as -> by (now apply known_outputs_inv). cbn [obind].
  pose proof (reimport_estimate (sigs := sigs) (partial_tx u)) as Ee. cbn [partial_tx tx_outputs] in Ee. change (UnhashedTx _ _ _ _) with (partial_tx u) in Ee. rewrite Ee, (tx_ser_ok_len _ _ Er). cbn [obind].
  rewrite (reimport_sig_tx b (partial_tx u)); [|exact HH|cbn; now rewrite Ub|cbn; now rewrite Ub]. rewrite HP. cbn [obind]. eauto.
Qed.
End D.

Section E.
Context {sigs : Z -> Type}.
Notation tx_builder := (tx_builder sigs).
Notation builder_input := (builder_input sigs).
Notation unsigned_tx := (unsigned_tx sigs).
Notation signatory := (signatory sigs).

Lemma partial_nth_at (slots : list (option tx_input)) (bis : list builder_input) : forall k, nth_error (partial_inputs slots bis) k =
  match nth_error slots k, nth_error bis k with Some s, Some bi => Some (match s with Some i => i | None => signed_input bi [] end) | _, _ => None end.
Proof.
  revert bis. induction slots as [|s slots IH]; intros [|bi bis] [|k]; cbn [partial_inputs nth_error]; try reflexivity; [destruct (nth_error slots k); reflexivity|]. apply IH.
Qed.
Lemma partial_upd (bis : list builder_input) : forall slots k i, partial_inputs (upd slots k (Some i)) bis = upd (partial_inputs slots bis) k i.
Proof.
  induction bis as [|bi bis IH]; intros [|s slots] [|k] i; cbn [upd partial_inputs]; try reflexivity. f_equal. apply IH.
Qed.
Lemma partial_set (u : unsigned_tx) k i : partial_tx (set_input u k i) = UnhashedTx (tx_version (partial_tx u)) (upd (tx_inputs (partial_tx u)) k i) (tx_outputs (partial_tx u)) (tx_lock_time (partial_tx u)).
Proof. unfold partial_tx, set_input. cbn [u_builder u_outputs u_inputs tx_version tx_inputs tx_outputs tx_lock_time]. now rewrite partial_upd. Qed.
Lemma s_script_estimate (s : signatory) : signatory_ignores_estimate s -> forall pre est est' sg lock outs, s_script s pre est sg lock outs = s_script s pre est' sg lock outs.
Proof. intros H pre est est' sg lock outs. unfold s_script. now rewrite (H pre est est'). Qed.

Lemma remote_sign sha release allowed (b : tx_builder) u k (s : signatory) sg u1 : constructed allowed b -> unsigned_of sha release b u -> signatory_ignores_estimate s ->
  sign_input_signatory u k s sg = Ok u1 -> forall release' u2, build sha release' (from_tx sigs (partial_tx u)) = Ok u2 \/ build_without_estimation sha (from_tx sigs (partial_tx u)) = Ok u2 ->
  exists u3, sign_input_signatory u2 k s sg = Ok u3 /\ partial_tx u3 = partial_tx u1.
Proof.
  intros HC HU HS E release' u2 HB. destruct (reimport_inv _ _ _ _ _ HC HU _ _ HB) as (Fb & Fo & Fp & Fi & Ft & _).
  destruct (apply_op_inv u u1 (SignInputSignatory k s sg) E) as (S0 & i & M & E1). cbn [op_index] in *.
  destruct (made_inv _ _ _ M) as (bi & pre & sc & Hb & Hp & Ei & Es). cbn [op_index] in Hb, Hp.
  assert (Hk : nth_error (tx_inputs (partial_tx u)) k = Some (signed_input bi [])).
  { unfold partial_tx. cbn [tx_inputs]. rewrite partial_nth_at, S0, Hb. reflexivity. }
  exists (set_input u2 k i). split.
  - change (apply_op u2 (SignInputSignatory k s sg) = Ok (set_input u2 k i)). rewrite apply_op_eq. cbn [op_index].
    rewrite Fi, map_map, nth_error_map, Hk. cbn [option_map presigned from_tx_input bi_signed signed_input in_script].
    unfold made. cbn [op_index]. rewrite Fb, Fp, Hp. cbn [from_tx b_inputs]. rewrite nth_error_map, Hk. cbn [option_map expect obind].
    rewrite Fo, (s_script_estimate s HS pre _ (Some (u_estimated_size u))).
    assert (lock_or_empty (from_tx_input sigs (signed_input bi [])) = lock_or_empty bi) as -> by reflexivity. rewrite Es. cbn [obind]. rewrite Ei. reflexivity.
  - rewrite E1, !partial_set, Ft. reflexivity.
Qed.
Lemma preimages_at sha (b : tx_builder) outs pss k bi : build_preimages sha (builder_sig_tx b outs) = Ok pss -> nth_error (b_inputs b) k = Some bi -> exists pre, nth_error pss k = Some pre.
Proof.
  intros E Hk. rewrite build_preimages_eq in E. apply obind_ok in E. destruct E as ([[hp hs] ho] & _ & E). destruct (build_inputs_nth _ _ _ _ _ _ _ _ E) as [_ H].
  cbn [builder_sig_tx st_inputs] in H. edestruct (H k) as (ps & Hp & _); [rewrite nth_error_map, Hk; reflexivity|]. eauto.
Qed.
End E.
