(** The network's byte encoding determines the transaction; transactions made with the builder, as the network sees them. *)
From Verif Require Import Base BaseLemmas Model_Encoding Spec_Encoding Proofs_Encoding Model_ByteArray Proofs_ByteArray Model_Opcode Model_Script Spec_Script Proofs_Script
  Model_Address Model_Code Spec_Code Model_Destination Spec_Destination Model_Preimage Spec_Preimage Proofs_Preimage Model_TxBuilder Spec_TxBuilder Spec_Calls
  Proofs_Destination Proofs_TxBuilder2 Proofs_TxBuilder3 Proofs_TxBuilder5 Prop_Destination Prop_Calls Spec_Network Spec_NetView Proofs_Network Proofs_Network2 Proofs_Network3.
From Coq Require Import Permutation.
Local Open Scope list_scope.
Local Open Scope Z_scope.

Lemma app_same {A} (a b c d : list A) : length a = length c -> a ++ b = c ++ d -> a = c /\ b = d.
Proof. apply app_inj. Qed.
Lemma le_pf k a b r s : 0 <= a < 2 ^ (8 * Z.of_nat k) -> 0 <= b < 2 ^ (8 * Z.of_nat k) -> le_bytes k a ++ r = le_bytes k b ++ s -> a = b /\ r = s.
Proof.
  intros Ha Hb E. apply app_same in E; [|now rewrite !le_bytes_length]. destruct E as [E ->]. split; [|reflexivity].
  apply (f_equal le_value) in E. now rewrite !le_value_bytes_small in E by assumption.
Qed.
Lemma compact_pf a b r s : 0 <= a < 2 ^ 64 -> 0 <= b < 2 ^ 64 -> compact a ++ r = compact b ++ s -> a = b /\ r = s.
Proof. intros Ha Hb. rewrite <- !compact_eq by lia. now apply encode_var_int_prefix_free. Qed.
Lemma sized_pf (a b r s : list Z) : zlen a < 2 ^ 64 -> zlen b < 2 ^ 64 -> compact (zlen a) ++ a ++ r = compact (zlen b) ++ b ++ s -> a = b /\ r = s.
Proof.
  intros Ha Hb E. apply compact_pf in E; [|split; [apply zlen_nonneg|assumption]|split; [apply zlen_nonneg|assumption]]. destruct E as [L E]. apply app_same in E; [exact E|unfold zlen in L; lia].
Qed.
Lemma input_pf i j r s : (length (ni_txid i) = 32%nat /\ u32_ok (ni_vout i) /\ zlen (ni_script i) < 2 ^ 64 /\ u32_ok (ni_sequence i)) ->
  (length (ni_txid j) = 32%nat /\ u32_ok (ni_vout j) /\ zlen (ni_script j) < 2 ^ 64 /\ u32_ok (ni_sequence j)) -> input_bytes i ++ r = input_bytes j ++ s -> i = j /\ r = s.
Proof.
  intros (A1 & A2 & A3 & A4) (B1 & B2 & B3 & B4) E. unfold input_bytes, outpoint_bytes in E. rewrite <- !app_assoc in E.
  apply app_same in E; [|congruence]. destruct E as [E1 E]. apply le_pf in E; [|exact A2|exact B2]. destruct E as [E2 E]. apply sized_pf in E; [|exact A3|exact B3]. destruct E as [E3 E]. apply le_pf in E; [|exact A4|exact B4]. destruct E as [E4 E].
  split; [|exact E]. destruct i, j. cbn in *. congruence.
Qed.
Lemma output_pf i j r s : (u64_ok (no_value i) /\ zlen (no_script i) < 2 ^ 64) -> (u64_ok (no_value j) /\ zlen (no_script j) < 2 ^ 64) -> output_bytes i ++ r = output_bytes j ++ s -> i = j /\ r = s.
Proof.
  intros (A1 & A2) (B1 & B2) E. unfold output_bytes in E. rewrite <- !app_assoc in E. apply le_pf in E; [|exact A1|exact B1]. destruct E as [E1 E]. apply sized_pf in E; [|exact A2|exact B2]. destruct E as [E2 E].
  split; [|exact E]. destruct i, j. cbn in *. congruence.
Qed.
Lemma list_pf {A} (f : A -> list Z) (P : A -> Prop) : (forall a b r s, P a -> P b -> f a ++ r = f b ++ s -> a = b /\ r = s) ->
  forall l k r s, Forall P l -> Forall P k -> length l = length k -> concat (map f l) ++ r = concat (map f k) ++ s -> l = k /\ r = s.
Proof.
  intros H. induction l as [|a l IH]; intros [|b k] r s Fl Fk L E; try discriminate; [auto|]. inversion Fl; subst. inversion Fk; subst. cbn [map concat] in E. rewrite <- !app_assoc in E.
  apply H in E; [|assumption|assumption]. destruct E as [-> E]. apply IH in E; [|assumption|assumption|cbn in L; lia]. destruct E as [-> ->]. auto.
Qed.
Lemma net_bytes_inj a b : net_ok a -> net_ok b -> net_bytes a = net_bytes b -> a = b.
Proof.
  intros (A1 & A2 & A3 & A4 & A5 & A6) (B1 & B2 & B3 & B4 & B5 & B6) E. unfold net_bytes in E.
  apply le_pf in E; [|exact A1|exact B1]. destruct E as [E1 E]. apply compact_pf in E; [|split; [apply zlen_nonneg|assumption]|split; [apply zlen_nonneg|assumption]]. destruct E as [L E].
  apply (list_pf _ _ input_pf) in E; [|exact A5|exact B5|unfold zlen in L; lia]. destruct E as [E2 E]. apply compact_pf in E; [|split; [apply zlen_nonneg|assumption]|split; [apply zlen_nonneg|assumption]]. destruct E as [L2 E].
  apply (list_pf _ _ output_pf) in E; [|exact A6|exact B6|unfold zlen in L2; lia]. destruct E as [E3 E]. rewrite <- (app_nil_r (le_bytes 4 (nt_lock_time a))), <- (app_nil_r (le_bytes 4 (nt_lock_time b))) in E.
  apply le_pf in E; [|exact A2|exact B2]. destruct E as [E4 _]. destruct a, b. cbn in *. congruence.
Qed.
Lemma as_net_ok is os t n : tx_value is os t -> as_net t n -> net_ok n.
Proof.
  intros (Hv & (HI & _ & LI) & (HO & _ & LO) & Hl) (N1 & N2 & N3 & N4). unfold net_ok. rewrite N1, N4. split; [unfold u32_ok; apply Z.mod_pos_bound; lia|]. split; [exact Hl|].
  rewrite <- (Forall2_zlen _ _ _ N2), <- (Forall2_zlen _ _ _ N3). split; [exact LI|]. split; [exact LO|]. split.
  - clear -HI N2. induction N2 as [|i m li lm H _ IH]; [constructor|]. inversion HI as [|? ? Hi HI']; subst. constructor; [|auto].
    destruct Hi as ([[_ H1] H2] & [_ H3] & H4). destruct H as ([K1 K2] & (x & Kx & Kd) & K3). rewrite K1, K2, K3, <- Kd. split; [unfold ba_len, zlen in H1; lia|]. split; [exact H2|]. split; [|exact H4].
    specialize (H3 _ Kx). unfold in_memory, ba_len in H3. change (2 ^ 63 - 1) with 9223372036854775807 in H3. change (2 ^ 64) with 18446744073709551616. lia.
  - clear -HO N3. induction N3 as [|i m li lm H _ IH]; [constructor|]. inversion HO as [|? ? Hi HO']; subst. constructor; [|auto].
    destruct Hi as (H1 & _ & H3). destruct H as (K1 & x & Kx & Kd). rewrite K1, <- Kd. split; [exact H1|].
    specialize (H3 _ Kx). unfold in_memory, ba_len in H3. change (2 ^ 63 - 1) with 9223372036854775807 in H3. change (2 ^ 64) with 18446744073709551616. lia.
Qed.
(** The bytes of a library transaction have exactly one reading as a network transaction. *)
Lemma ser_is_net is os t raw nt : tx_value is os t -> tx_ser t = Ok raw -> net_ok nt -> net_bytes nt = ba_data raw -> as_net t nt.
Proof.
  intros V E O B. destruct (tx_ser_net _ _ E) as (n & A & Bn). rewrite (net_bytes_inj nt n O (as_net_ok _ _ _ _ V A)); [exact A|congruence].
Qed.

Section S.
Context {sigs : Z -> Type}.
(** *** The signed input's script *)
Lemma signs_index (o : @sign_op sigs) k s sg : signs o k s sg -> op_index o = k. Proof. intros [->| ->]; reflexivity. Qed.
Lemma signed_script sha release v lt (l : list (@call sigs)) b rs u0 ops u t k input lock s sg o :
  run_calls (builder_new sigs v lt) l = (b, rs) -> build sha release b = Ok u0 \/ build_without_estimation sha b = Ok u0 -> apply_ops u0 ops = Ok u -> final_tx u t ->
  nth_error (asked_inputs l) k = Some (input, lock, s) -> In o ops -> @signs sigs o k s sg ->
  exists pre sc, nth_error (u_preimages u0) k = Some pre /\ s_script s pre (Some (u_estimated_size u0)) sg lock (u_outputs u0) = Ok sc /\
    nth_error (tx_inputs t) k = Some (TxInput (ui_prev_out input) sc (ui_sequence input) (Some lock) (Some (ui_value input)) (Some (s_is_p2sh s)) (Some (s_flags s))).
Proof.
  intros ER EB EA HT Hk Ho Hs. assert (unsigned_of sha release b u) as HU by (exists u0, ops; auto).
  rewrite (final_partial _ _ _ _ _ HU HT). destruct (run_spec _ _ _ _ ER) as [Eb _]. cbn [builder_new new_with_fee b_version b_inputs b_outputs b_lock_time b_fee_per_kb app] in Eb.
  assert (nth_error (b_inputs b) k = Some (asked_bi (input, lock, s))) as Hbk by (rewrite Eb; cbn [b_inputs]; now rewrite nth_error_map, Hk).
  destruct (build_frame _ _ _ _ EB) as (Fb & Fi & _). destruct (in_split _ _ Ho) as (l1 & l2 & ->).
  pose proof (apply_ops_perm (l1 ++ o :: l2) (l1 ++ l2 ++ [o])) as PP. assert (Permutation (l1 ++ o :: l2) (l1 ++ l2 ++ [o])) as Pm by (apply Permutation_app_head; apply Permutation_cons_append).
  specialize (PP Pm _ _ EA). clear Pm. rewrite app_assoc in PP. rewrite apply_ops_app in PP. apply obind_ok in PP. destruct PP as (w & Ew & E). cbn [apply_ops] in E. apply obind_ok in E. destruct E as (w' & E1 & E). apply Ok_inj in E. subst w'.
  destruct (apply_op_inv _ _ _ E1) as (S1 & i & M & Eu). destruct (apply_ops_frame _ _ _ Ew) as (Wb & Wo & Wp & We & Wl & _). destruct (made_inv _ _ _ M) as (bi & pre & sc & Hb & Hp & Ei & Hsc).
  pose proof (signs_index _ _ _ _ Hs) as Ix. rewrite Ix in *. rewrite Wb, Fb, Hbk in Hb. injection Hb as <-. rewrite Wp in Hp. exists pre, sc. split; [exact Hp|].
  rewrite We, Wo in Hsc. split.
  - destruct Hs as [->| ->]; [|exact Hsc]. cbn [asked_bi bi_func lock_or_empty bi_lock_script signatory_func] in Hsc. unfold signatory_func in Hsc. rewrite downcast_same in Hsc. exact Hsc.
  - subst i u. unfold partial_tx. cbn [tx_inputs]. rewrite partial_nth_at. unfold set_input. cbn [u_inputs u_builder]. rewrite Wb, Fb, Hbk. rewrite nth_upd_same; [reflexivity|]. apply nth_error_Some. congruence.
Qed.
(** *** The preimages' transaction is the finished one *)
Lemma sig_net sha release v lt (l : list (@call sigs)) b rs u0 ops u t nt :
  run_calls (builder_new sigs v lt) l = (b, rs) -> build sha release b = Ok u0 \/ build_without_estimation sha b = Ok u0 -> apply_ops u0 ops = Ok u -> final_tx u t -> as_net t nt ->
  sig_as_net (builder_sig_tx b (u_outputs u0)) nt /\ build_preimages sha (builder_sig_tx b (u_outputs u0)) = Ok (u_preimages u0).
Proof.
  intros ER EB EA HT (N1 & N2 & N3 & N4). assert (unsigned_of sha release b u) as HU by (exists u0, ops; auto). destruct (build_frame _ _ _ _ EB) as (Fb & Fi & Fp). split; [|exact Fp].
  assert (constructed (fun _ => True) b) as HC by (eapply run_constructed; [apply co_new|auto|exact ER]).
  rewrite (final_partial _ _ _ _ _ HU HT) in *. destruct (partial_handed _ _ _ _ _ HC HU) as (Ub & HH & _). destruct (apply_ops_frame _ _ _ EA) as (Wb & Wo & Wp & We & Wl & _).
  unfold sig_as_net, builder_sig_tx. cbn [st_version st_lock_time st_inputs st_outputs]. unfold partial_tx in N1, N3, N4. cbn [tx_version tx_outputs tx_lock_time] in N1, N3, N4. rewrite Ub in N1, N4. rewrite Wo in N3.
  split; [exact N1|]. split; [exact N4|]. split; [|exact N3]. apply Forall2_map_l2. cbn [si_outpoint si_sequence].
  clear -HH N2. revert N2. generalize (nt_inputs nt). induction HH as [|bi i lb li H _ IH]; intros ns F; inversion F as [|? n ? ns' [[A B] [_ C]] F']; subst; constructor; [|auto].
  destruct (handed_spends _ _ H) as (P & Q & _). rewrite <- P, <- Q. split; [split; assumption|exact C].
Qed.
End S.
