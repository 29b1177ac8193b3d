(** C63: a builder does what its calls ask for; the defaults. *)
From Coq Require Import Permutation.
From Verif Require Import Base BaseLemmas Model_Encoding Model_Integer Model_ByteArray Model_Opcode Model_Script Spec_Script Model_Hash Model_Code Spec_Code Model_Address Model_Destination Model_Preimage
  Model_TxBuilder Spec_TxBuilder Proofs_TxBuilder Proofs_TxBuilder2 Proofs_TxBuilder3 Proofs_TxBuilder4 Proofs_TxBuilder5 Prop_Preimage Prop_TxBuilder Prop_TxBuilder2 Spec_Calls Prop_Calls Spec_Asked.
Local Open Scope Z_scope.
Local Open Scope list_scope.

Section Lemmas.
Context {sigs : Z -> Type}.
Lemma after_shape (st : start) (cs : list (@call sigs)) : after st cs =
  TxBuilder (b_version (@begin sigs st)) (b_inputs (@begin sigs st) ++ map asked_bi (asked_inputs cs)) (b_outputs (@begin sigs st) ++ Spec_Calls.asked_outputs cs)
    (b_lock_time (@begin sigs st)) (asked_fee (b_fee_per_kb (@begin sigs st)) cs).
Proof. unfold after. destruct (run_calls (begin st) cs) as [b rs] eqn:E. exact (proj1 (run_spec _ _ _ _ E)). Qed.
Lemma after_asked (st : start) (cs : list (@call sigs)) : let b := after st cs in
  b_version b = asked_version st /\ b_lock_time b = asked_lock_time st /\ b_fee_per_kb b = asked_rate st cs /\
  map (fun i => bi_input i) (b_inputs b) = asked_spends st cs /\ b_outputs b = asked_outputs st cs.
Proof.
  cbv zeta. rewrite after_shape. cbn [b_version b_inputs b_outputs b_lock_time b_fee_per_kb]. unfold asked_spends, asked_rate. rewrite map_app, map_map.
  assert (map (fun x => bi_input (asked_bi x)) (asked_inputs cs) = map (fun a => fst (fst a)) (asked_inputs cs)) as -> by (apply map_ext; intros [[i l] s]; reflexivity).
  destruct st as [v l| |v l f|t|]; repeat split. cbn [begin from_tx b_inputs]. now rewrite map_map.
Qed.
Lemma after_constructed allowed (st : start) (cs : list (@call sigs)) : all_signatories allowed cs -> constructed allowed (after st cs).
Proof.
  intros H. unfold after. destruct (run_calls (begin st) cs) as [b rs] eqn:E. eapply run_constructed; [|exact H|exact E].
  destruct st as [v l| |v l f|t|]; [apply co_new|apply co_new|apply co_new|apply co_from_tx|exact (co_new allowed 0 0 0)].
Qed.
Lemma asked_input_total (st : start) (cs : list (@call sigs)) : input_total (after st cs) = asked_total st cs.
Proof. unfold input_total, asked_total. destruct (after_asked st cs) as (_ & _ & _ & <- & _). now rewrite map_map. Qed.
Lemma asked_range (st : start) (cs : list (@call sigs)) : amounts_ok st cs -> in_range (after st cs).
Proof.
  intros (H1 & H2 & H3). destruct (after_asked st cs) as (_ & _ & C & D & E). cbv zeta in *. unfold in_range. rewrite C, E. split; [|split; assumption].
  rewrite <- D in H1. rewrite Forall_map in H1. exact H1.
Qed.
Lemma asked_fits release (st : start) (cs : list (@call sigs)) : release = false \/ no_overflow st cs -> release = false \/ totals_fit (after st cs) /\ fees_fit (after st cs).
Proof.
  intros [->|(H1 & H2 & H3)]; [now left|]. right. destruct (after_asked st cs) as (_ & _ & C & _ & E). cbv zeta in *. unfold totals_fit, fees_fit. rewrite C, E, asked_input_total. auto.
Qed.
Lemma after_ignores (st : start) (cs : list (@call sigs)) : all_signatories signatory_ignores_outputs cs -> Forall ignores_outputs (b_inputs (after st cs)).
Proof.
  intros H. pose proof (constructed_inputs _ _ (after_constructed _ st cs H)) as HI. eapply Forall_impl; [|exact HI]. intros bi [(i & ->)|(input & lock & s & Hs & ->)] pre est sg lk o o'; [reflexivity|].
  cbn [bi_func]. unfold signatory_func. destruct (match sg with Some a => _ | None => _ end) as [v| |]; cbn [obind]; try reflexivity. unfold s_script. now rewrite (Hs pre est v lk o o').
Qed.
End Lemmas.

(** C27's facts together, for one assignment of amounts. *)
Lemma change_all sigs sha256d release (b : tx_builder sigs) u : in_range b -> (release = false \/ totals_fit b /\ fees_fit b) ->
  Forall ignores_outputs (b_inputs b) -> build sha256d release b = Ok u ->
  let fee := input_total b - output_total (u_outputs u) in
  exists vs, filled (b_outputs b) vs (u_outputs u) /\
    (forall k lo up p s, nth_error (b_outputs b) k = Some (Leftover lo up p s) -> leftover_rule b vs k lo up p) /\
    (forall k lo up p s v, nth_error (b_outputs b) k = Some (Leftover lo up p s) -> nth_error vs k = Some (Some v) ->
      lo < v <= up /\ u_estimated_size u * b_fee_per_kb b / 1000 <= fee /\ (v < up -> fee = u_estimated_size u * b_fee_per_kb b / 1000)).
Proof.
  intros HR HT HI E fee. assert (release = false \/ totals_fit b) as HT' by tauto.
  destruct (reported_estimate _ _ _ _ (or_introl E)) as (os0 & Ees & Hscr). rewrite (estimate_scripts _ _ _ HI Hscr) in Ees.
  assert (HF : release = false \/ fees_fit b) by tauto.
  destruct (build_inv _ _ _ _ E HR HT') as (H0 & st & Ep & _ & Eo & _ & _ & Est). destruct (distribution release b HR _ st H0 Ep) as [I D].
  exists (values (st_m st) 0 (b_outputs b)). split; [rewrite Eo; apply filled_values|]. split.
  { intros k lo up p s Hk. unfold leftover_rule.
  destruct (D k lo up p s Hk) as [A|(A & os & size & fe & B & C & F & G)]; [left; exact A|]. right. split; [exact A|]. exists os, size. split; [exact B|]. split; [exact C|].
  assert (fe = size * b_fee_per_kb b / 1000) as <-; [|exact G]. eapply fee_exact; [exact HR| |exact F]. destruct HT as [HT|[_ HT]]; [auto|]. right. eapply HT. exact C. }
  intros k lo up p s v Hk Hv. assert (Hm : st_m st k = Some v) by (rewrite values_nth, Hk in Hv; cbn [Nat.add] in Hv; congruence).
  split.
  { destruct (inv_dom _ _ _ _ _ I _ _ Hm) as (lo' & up' & p' & s' & A & B & _). rewrite Hk in A. injection A as <- <- <- <-. exact B. }
  assert (Hfee : fee = st_total st).
  { unfold fee. rewrite Eo. unfold make_outputs. rewrite (filled_total _ _ _ (filled_values (st_m st) (b_outputs b) 0)). pose proof (inv_sum _ _ _ _ _ I). lia. }
  split.
  { pose proof (inv_est _ _ _ _ _ I) as IE. destruct (st_est st) as [size|]; [|rewrite IE in Hm; discriminate].
    destruct IE as (l & lol & upl & pl & sl & vl' & f & Hl & Hvl & Hbef & Hf & Hle & Heq). rewrite Hfee, Est.
    assert (f = size * b_fee_per_kb b / 1000) as <-; [|exact Hle]. eapply fee_exact; [exact HR| |exact Hf]. destruct HF as [?|HF]; [auto|]. right. apply (HF (u_outputs u)). rewrite Est in Ees. exact Ees. }
  intros Hlt.
  pose proof (inv_est _ _ _ _ _ I) as IE. 
  destruct (st_est st) as [size|]; [|rewrite IE in Hm; discriminate]. destruct IE as (l & lol & upl & pl & sl & vl' & f & Hl & Hvl & Hbef & Hf & Hle & Heq).
  assert (f = size * b_fee_per_kb b / 1000) as Hfv. { eapply fee_exact; [exact HR| |exact Hf]. destruct HF as [?|HF]; [auto|]. right. apply (HF (u_outputs u)). rewrite Est in Ees. exact Ees. }
  rewrite Hfee, Est, <- Hfv. destruct (Hbef k v Hm) as [->|(pk & Hin & HX)].
  { assert (vl' = v) as -> by congruence. rewrite Hk in Hl. injection Hl as <- <- <- <-. symmetry. auto. }
  exfalso. apply order_in in Hin. destruct Hin as (lo2 & up2 & s2 & Hk2). rewrite Hk in Hk2. injection Hk2 as <- <- <- <-.
  assert (HN : forall j w, st_m st j = Some w -> 0 <= w).
  { intros j w Hj. destruct (inv_dom _ _ _ _ _ I _ _ Hj) as (lo3 & up3 & p3 & s3 & A & B & _). destruct (leftover_bounds b HR _ _ _ _ _ A) as [[? _] _]. lia. }
  destruct (earlier_mono b (st_m st) k p v l pl lo up s Hk Hm HX HN) as [Hsum Hpat].
  specialize (D k lo up p s Hk) as Dk. specialize (D l lol upl pl sl Hl) as Dl. cbv zeta in Dk, Dl.
  set (rk := _ - amount_sum (earlier p k 0 _ _)) in *. set (rl := _ - amount_sum (earlier pl l 0 _ _)) in *.
  assert (Hvl0 : nth_error (values (st_m st) 0 (b_outputs b)) l = Some (Some vl')) by (rewrite values_nth, Hl; cbn [Nat.add]; now rewrite Hvl).
  rewrite Hv in Dk. rewrite Hvl0 in Dl. destruct Dk as [[_ X]|(Hgk & osk & sk & fk & Fk & Esk & Efk & Rk)]; [discriminate|].
  destruct Dl as [[_ X]|(Hgl & osl & szl & fl & Fl & Esl & Efl & Rl)]; [discriminate|].
  pose proof (estimate_grows b _ _ _ _ _ _ HI Fk Fl (Hpat _ _ _ _ _ Hl) Esk Esl) as Hgrow.
  assert (fk = sk * b_fee_per_kb b / 1000) as ->. { eapply fee_exact; [exact HR| |exact Efk]. destruct HF as [?|HF]; [auto|]. right. exact (HF _ _ Esk). }
  assert (fl = szl * b_fee_per_kb b / 1000) as ->. { eapply fee_exact; [exact HR| |exact Efl]. destruct HF as [?|HF]; [auto|]. right. exact (HF _ _ Esl). }
  assert (sk * b_fee_per_kb b / 1000 <= szl * b_fee_per_kb b / 1000) as Hmono.
  { apply Z.div_le_mono; [lia|]. destruct HR as (_ & _ & Hr). unfold u64_ok in Hr. nia. }
  destruct (leftover_bounds b HR _ _ _ _ _ Hl) as [[Hlo0 _] _].
  injection Rk as Rk. injection Rl as Rl. destruct (lo <? _) eqn:Ek in Rk; [|discriminate]. destruct (lol <? _) eqn:El in Rl; [|discriminate].
  injection Rk as Rk. injection Rl as Rl. apply Z.ltb_lt in El. unfold rk, rl in *. lia.
Qed.

(** C63: the finished transaction has the version, lock time, coins and outputs the calls asked for, in the order of the calls. *)
Theorem C63_follows_calls : forall sigs sha256d release st (cs : list (@call sigs)) u t, unsigned_of sha256d release (after st cs) u -> final_tx u t ->
  tx_version t = asked_version st /\ tx_lock_time t = asked_lock_time st /\
  Forall2 (fun a i => in_prev_out i = ui_prev_out a /\ in_sequence i = ui_sequence a /\ forall v, in_value i = Some v -> v = ui_value a) (asked_spends st cs) (tx_inputs t) /\
  exists vs, filled (asked_outputs st cs) vs (tx_outputs t).
Proof.
  intros sigs sha release st cs u t HU HT. assert (all_signatories (fun _ => True) cs) as HA by (intros ? ? ? _; exact I).
  destruct (C28_order_preserved _ sha release _ _ _ _ (after_constructed _ st cs HA) HU HT) as (H1 & H2 & H3 & H4).
  destruct (after_asked st cs) as (A & B & _ & D & E). cbv zeta in *. rewrite A in H1. rewrite B in H2. rewrite E in H4. rewrite <- D. split; [exact H1|]. split; [exact H2|]. split; [|exact H4].
  clear - H3. induction H3; cbn [map]; constructor; auto.
Qed.
Print Assumptions C63_follows_calls.

(** C63: every change output lies within the bounds it was added with (more than 546 satoshis by default), change is distributed by the rule of C27,
    and the fee is at least the rate asked for, exactly that if a change output is below its upper bound. *)
Theorem C63_change : forall sigs sha256d release st (cs : list (@call sigs)) u, amounts_ok st cs -> release = false \/ no_overflow st cs ->
  all_signatories signatory_ignores_outputs cs -> build sha256d release (after st cs) = Ok u ->
  let fee := asked_total st cs - output_total (u_outputs u) in
  exists vs, filled (asked_outputs st cs) vs (u_outputs u) /\
    (forall k lo up p s v, nth_error (asked_outputs st cs) k = Some (Leftover lo up p s) -> nth_error vs k = Some (Some v) ->
      lo < v <= up /\ u_estimated_size u * asked_rate st cs / 1000 <= fee /\ (v < up -> fee = u_estimated_size u * asked_rate st cs / 1000)) /\
    (forall k lo up p s, nth_error (asked_outputs st cs) k = Some (Leftover lo up p s) -> leftover_rule (after st cs) vs k lo up p).
Proof.
  intros sigs sha release st cs u HA HO HI E fee. pose proof (asked_range st cs HA) as HR. pose proof (asked_fits release st cs HO) as HF. pose proof (after_ignores st cs HI) as HG.
  destruct (change_all _ sha release _ _ HR HF HG E) as (vs & F & L & X). destruct (after_asked st cs) as (_ & _ & C & _ & Eo). cbv zeta in *. rewrite asked_input_total, C, Eo in *.
  exists vs. split; [exact F|]. split; [|exact L]. exact X.
Qed.
Print Assumptions C63_change.

Lemma default_rate_1000 sigs st (cs : list (@call sigs)) : default_rate st cs -> asked_rate st cs = 1000.
Proof.
  intros [H N]. unfold asked_rate, asked_fee. assert (match st with StartWithFee _ _ f => f | StartDefault => 0 | _ => 1000 end = 1000) as -> by (destruct st; [reflexivity|reflexivity|contradiction|reflexivity|contradiction]).
  clear H. induction cs as [|c cs IH]; cbn [fold_left]; [reflexivity|]. destruct c as [| | | | |f]; try (apply IH; intros g Hg; apply (N g); right; exact Hg). exfalso. apply (N f). left. reflexivity.
Qed.
(** C63: a builder whose fee rate was never set pays one satoshi for each byte of the estimate: at least that as soon as change is placed, exactly that if a change
    output is below its upper bound, which the default change output always is. *)
Theorem C63_default_fee : forall sigs sha256d release st (cs : list (@call sigs)) u, default_rate st cs -> amounts_ok st cs -> release = false \/ no_overflow st cs ->
  all_signatories signatory_ignores_outputs cs -> build sha256d release (after st cs) = Ok u ->
  let fee := asked_total st cs - output_total (u_outputs u) in
  exists vs, filled (asked_outputs st cs) vs (u_outputs u) /\
    forall k lo up p s v, nth_error (asked_outputs st cs) k = Some (Leftover lo up p s) -> nth_error vs k = Some (Some v) ->
      u_estimated_size u <= fee /\ (v < up -> fee = u_estimated_size u).
Proof.
  intros sigs sha release st cs u HD HA HO HI E fee. destruct (C63_change _ sha release st cs u HA HO HI E) as (vs & F & X & _). exists vs. split; [exact F|].
  intros k lo up p s v Hk Hv. destruct (X k lo up p s v Hk Hv) as (_ & H1 & H2). rewrite (default_rate_1000 _ _ _ HD), Z.div_mul in H1, H2 by discriminate. auto.
Qed.
Print Assumptions C63_default_fee.

(** C63: a P2PKH payment made with the defaults and one change output that got something, completed with signatures of at most 72 bytes, pays at least
    one satoshi per byte of its real size. *)
Theorem C63_p2pkh_relay_fee : forall sigs ty (to_ba : sigs ty -> barray) of_ba sha256d release st (cs : list (@call sigs)) u ops u' t raw, (forall x, to_ba (of_ba x) = x) ->
  default_rate st cs -> amounts_ok st cs -> release = false \/ no_overflow st cs -> all_signatories (is_p2pkh sigs ty to_ba of_ba) cs ->
  build sha256d release (after st cs) = Ok u -> apply_ops u ops = Ok u' -> Forall (signs_with (short_sig sigs ty to_ba)) ops -> complete_tx u' = Ok t -> tx_ser t = Ok raw ->
  length (tx_outputs t) <> length (filter (fun o => match o with KnownValue _ => true | _ => false end) (asked_outputs st cs)) ->
  zlen (ba_data raw) <= asked_total st cs - output_total (tx_outputs t).
Proof.
  intros sigs ty to_ba of_ba sha release st cs u ops u' t raw Hrt HD HA HO HP E Ea Hg Ht Er Hl. pose proof (asked_range st cs HA) as HR. pose proof (asked_fits release st cs HO) as HF.
  assert (all_signatories signatory_ignores_outputs cs) as HI by (intros i lock s Hin; destruct (HP _ _ _ Hin) as (pk & fl & _ & _ & _ & ->); intros pre est sg lk o o'; reflexivity).
  destruct (C27_uncapped_change_pays_exact_fee _ sha release _ _ HR HF (after_ignores st cs HI) E) as (Es & _).
  destruct (after_asked st cs) as (_ & _ & C & _ & Eo). cbv zeta in *.
  pose proof (C29_fee_covers_size _ sha release (short_sig sigs ty to_ba) (after st cs) u ops u' t raw HR) as X. rewrite asked_input_total, C, Eo, (default_rate_1000 _ _ _ HD), Z.div_mul in X by discriminate.
  apply X; try assumption.
  - destruct HF as [->|[T G]]; [now left|right]. split; [exact T|]. specialize (G _ _ Es). now rewrite C, (default_rate_1000 _ _ _ HD) in G.
  - eapply constructed_mono; [|exact (after_constructed _ st cs HP)]. intros s. now apply p2pkh_fits.
Qed.
Print Assumptions C63_p2pkh_relay_fee.

Lemma Ok_inj {A} (a b : A) : Ok a = Ok b -> a = b.
Proof. congruence. Qed.
Lemma vl_compact n : 0 <= n -> vl n = compact_len n.
Proof.
  intros H. unfold vl, compact_len, encode_var_int. change (2 ^ 16) with 65536. change (2 ^ 32) with 4294967296.
  destruct (Z.leb_spec n 0xfc), (Z.ltb_spec n 253); try lia; [reflexivity|]. destruct (Z.leb_spec n 0xffff), (Z.ltb_spec n 65536); try lia; [reflexivity|].
  destruct (Z.leb_spec n 0xffffffff), (Z.ltb_spec n 4294967296); try lia; reflexivity.
Qed.
Lemma outs_sizes os : forall ns, omap out_len os = Ok ns -> Forall2 output_size os ns.
Proof.
  intros ns E. apply omap_Forall2 in E. induction E as [|o n os ns Hn _ IH]; constructor; [|exact IH]. unfold out_len, script_len, lenO in Hn. apply obind_ok in Hn. destruct Hn as (l & Hl & Hn). apply obind_ok in Hl. destruct Hl as (b & Eb & Hl).
  apply Ok_inj in Hl, Hn. subst l n. exists b. split; [exact Eb|]. unfold var_len. rewrite vl_compact by apply zlen_nonneg. lia.
Qed.
(** C63: the size a builder of P2PKH payments reports, and takes the fee for: 149 bytes for each input. *)
Theorem C63_p2pkh_estimate : forall sigs ty (to_ba : sigs ty -> barray) of_ba sha256d release st (cs : list (@call sigs)) u, (forall x, to_ba (of_ba x) = x) ->
  match st with StartFrom _ => False | _ => True end -> all_signatories (is_p2pkh sigs ty to_ba of_ba) cs ->
  Forall (fun a => zlen (ba_data (op_tx_hash (ui_prev_out a))) = 32) (asked_spends st cs) ->
  build sha256d release (after st cs) = Ok u \/ build_without_estimation sha256d (after st cs) = Ok u ->
  let n := zlen (asked_spends st cs) in
  exists sizes, Forall2 output_size (u_outputs u) sizes /\
    u_estimated_size u = 4 + compact_len n + 149 * n + compact_len (zlen (u_outputs u)) + sum sizes + 4.
Proof.
  intros sigs ty to_ba of_ba sha release st cs u Hrt Hst HP H32 E n. destruct (reported_estimate sha release _ _ E) as (os & Es & Hs).
  assert (all_signatories signatory_ignores_outputs cs) as HI by (intros i lock s Hin; destruct (HP _ _ _ Hin) as (pk & fl & _ & _ & _ & ->); intros pre est sg lk o o'; reflexivity).
  rewrite (estimate_scripts _ _ _ (after_ignores st cs HI) Hs) in Es. rewrite estimate_len in Es. apply obind_ok in Es. destruct Es as (is & Ei & Es). unfold tx_len in Es. cbn [tx_inputs tx_outputs] in Es.
  apply obind_ok in Es. destruct Es as (li & Eli & Es). apply obind_ok in Es. destruct Es as (lo & Elo & Es). exists lo. split; [now apply outs_sizes|].
  assert (Hb : Forall (fun bi => zlen (ba_data (op_tx_hash (ui_prev_out (bi_input bi)))) = 32 /\ added (is_p2pkh sigs ty to_ba of_ba) bi) (b_inputs (after st cs))).
  { destruct (after_asked st cs) as (_ & _ & _ & D & _). cbv zeta in D. rewrite <- D in H32. rewrite Forall_map in H32.
    assert (Forall (added (is_p2pkh sigs ty to_ba of_ba)) (b_inputs (after st cs))) as HB; [|clear - H32 HB; induction H32; inversion HB; subst; constructor; auto].
    rewrite after_shape. cbn [b_inputs]. apply Forall_app. split; [destruct st; try contradiction; constructor|]. apply Forall_map, Forall_forall. intros [[i lock] s] Hin.
    exists i, lock, s. split; [|reflexivity]. apply in_flat_map in Hin. destruct Hin as (c & Hc & Hin). destruct c; try contradiction. destruct Hin as [X|[]]. injection X as <- <- <-. eapply HP. exact Hc. }
  assert (n = zlen (b_inputs (after st cs))) as Hn by (unfold n, zlen; destruct (after_asked st cs) as (_ & _ & _ & D & _); cbv zeta in D; now rewrite <- D, map_length).
  apply omap_Forall2 in Ei. apply omap_Forall2 in Eli.
  assert (sum li = 149 * n /\ zlen is = n) as [S1 S2].
  { rewrite Hn. clear - Ei Eli Hb Hrt. revert li Eli. induction Ei as [|bi i bis is Ebi Ei IH]; intros li Eli; inversion Eli as [|? l ? li' El Eli']; subst; [split; reflexivity|].
    inversion Hb as [|? ? (H32 & input & lock & s & (pk & fl & Hpk & _ & _ & ->) & ->) Hb']; subst. destruct (IH Hb' _ Eli') as [X1 X2]. cbn [sum fold_right]. fold (sum li'). rewrite X1. rewrite !zlen_cons.
    unfold estimate_input in Ebi. cbn [bi_lock_script bi_flags bi_func bi_input] in *. apply obind_ok in Ebi. destruct Ebi as (sc & Esc & Ebi). injection Ebi as <-.
    assert (sc = p2pkh_build_script (P2PKHSignatory pk fl) p2pkh_placeholder) as ->.
    { unfold signatory_func, s_script, s_build in Esc. cbn in Esc. rewrite Hrt in Esc. congruence. }
    destruct (p2pkh_script_len pk fl p2pkh_placeholder Hpk) as (x & Ex & _ & Hx); [reflexivity|]. specialize (Hx eq_refl).
    unfold in_len, script_len, lenO in El. cbn [in_script in_prev_out] in El. rewrite Ex in El. cbn [obind] in El. rewrite Hx, H32 in El. apply Ok_inj in El. subst l. change (var_len 108) with 109. split; [lia|now rewrite X2]. }
  assert (u_estimated_size u = 8 + vl (zlen is) + sum li + vl (zlen (u_outputs u)) + sum lo) as -> by congruence.
  rewrite S1, S2. unfold n. rewrite !vl_compact by apply zlen_nonneg. lia.
Qed.
Print Assumptions C63_p2pkh_estimate.

(** False for TxBuilder::default(): transactions of version 0 that pay no fee at all. *)
Definition ex_calls : list (@call ex_sigs) := [CallInput (ex_in 1 60000) ex_lock (ex_signatory 2); CallOutput (TxOutput 20000 ex_lock); CallLeftover ex_lock].
Theorem C63_default_builder_refuted : exists (cs : list (@call ex_sigs)) u, build ex_sha false (after StartDefault cs) = Ok u /\ tx_version (partial_tx u) = 0 /\
  map out_value (u_outputs u) = [20000; 40000] /\ output_total (u_outputs u) = asked_total StartDefault cs /\ 0 < u_estimated_size u.
Proof. exists ex_calls. eexists. split; [vm_compute; reflexivity|]. repeat (split; [vm_compute; reflexivity|]). vm_compute. reflexivity. Qed.
Print Assumptions C63_default_builder_refuted.

(** C63: the other defaults: instructions made from plain operations carry no debugging data, the P2PKH placeholder is 72 zero bytes, the default transaction
    is of version 1 and empty, the default hash is zero. *)
Theorem C63_defaults : forall ops t, In t (script_from_ops ops) ->
  t_src_file t = "<unknown>"%string /\ t_src_line t = 0 /\ t_src_column t = 0 /\ t_src_code t = [] /\ t_pushed_names t = None /\ t_alt_pushed_names t = None.
Proof. intros ops t H. apply in_map_iff in H. destruct H as (o & <- & _). repeat split. Qed.
Print Assumptions C63_defaults.
Theorem C63_default_values :
  (forall sigs ty (to_ba : sigs ty -> barray) of_ba s x, is_p2pkh sigs ty to_ba of_ba s -> s_placeholder s = x -> exists b, ba_data b = repeat 0 72 /\ existT sigs (s_type s) x = existT sigs ty (of_ba b)) /\
  tx_version unhashed_tx_default = 1 /\ tx_inputs unhashed_tx_default = [] /\ tx_outputs unhashed_tx_default = [] /\ tx_lock_time unhashed_tx_default = 0 /\
  ba_data sha256d_default = repeat 0 32.
Proof.
  split; [|repeat split]. intros sigs ty to_ba of_ba s x (pk & f & _ & _ & _ & ->) <-. exists p2pkh_placeholder. split; reflexivity.
Qed.
Print Assumptions C63_default_values.

Example C63_nonvacuous : exists u, let st := StartNew 2 77 in default_rate st ex_calls /\ amounts_ok st ex_calls /\ all_signatories (is_p2pkh ex_sigs 0 (fun x => x) (fun x => x)) ex_calls /\
  build ex_sha false (after st ex_calls) = Ok u /\ map out_value (u_outputs u) = [20000; 39817] /\ u_estimated_size u = 4 + 1 + 149 + 1 + (12 + 12) + 4 /\
  asked_outputs st ex_calls = [KnownValue (TxOutput 20000 ex_lock); Leftover 546 (2 ^ 64 - 1) 0 ex_lock] /\ asked_rate st (ex_calls ++ [CallSetFee 5; CallSetFee 7]) = 7.
Proof.
  eexists. split; [split; [exact I|]; intros f [H|[H|[H|[]]]]; discriminate|]. split.
  { split; [|split]; [constructor; [vm_compute; split; congruence|constructor]| |vm_compute; split; congruence]. constructor; [vm_compute; split; congruence|]. constructor; [vm_compute; split; split; congruence|constructor]. }
  split; [intros i lock s [H|[H|[H|[]]]]; try discriminate; injection H as <- <- <-; apply ex_p2pkh; vm_compute; split; congruence|].
  split; [vm_compute; reflexivity|]. repeat (split; [vm_compute; reflexivity|]). reflexivity.
Qed.
