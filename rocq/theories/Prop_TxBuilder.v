(** Properties C26-C31: the transaction builder. *)
From Coq Require Import Permutation.
From Verif Require Import Base BaseLemmas Model_Encoding Model_ByteArray Proofs_ByteArray Model_Opcode Model_Script Spec_Script Proofs_Script Model_Code Spec_Code Proofs_Code
  Model_Address Model_Destination Model_Preimage Proofs_Preimage Prop_Preimage Model_TxBuilder Spec_TxBuilder Proofs_TxBuilder Proofs_TxBuilder2 Proofs_TxBuilder3 Proofs_TxBuilder4.
Local Open Scope Z_scope.


(** C26: a built transaction never pays out more than its inputs hold.  (In a debug build overflowing sums
    panic; in a release build the sums have to fit.) *)
Theorem C26_no_money_created : forall sigs sha256d release (b : tx_builder sigs) u, in_range b -> (release = false \/ totals_fit b) ->
  build sha256d release b = Ok u -> output_total (u_outputs u) <= input_total b.
Proof.
  intros sigs sha release b u HR HT E. destruct (build_inv _ _ _ _ E HR HT) as (H0 & st & Ep & _ & -> & _).
  destruct (distribution release b HR _ st H0 Ep) as [I _]. unfold make_outputs. rewrite (filled_total _ _ _ (filled_values (st_m st) (b_outputs b) 0)).
  pose proof (inv_sum _ _ _ _ _ I). pose proof (inv_nonneg _ _ _ _ _ I). lia.
Qed.
Print Assumptions C26_no_money_created.

(** C26: too little input is reported, with the missing amount ... *)
Theorem C26_insufficient_inputs : forall sigs sha256d release (b : tx_builder sigs), in_range b -> totals_fit b ->
  input_total b < known_total (b_outputs b) ->
  build sha256d release b = Err (EInsufficientInputAmount (known_total (b_outputs b) - input_total b)).
Proof.
  intros sigs sha release b HR HT H. unfold build. destruct (sums_ok release b HR HT) as [-> ->]. cbn [obind]. now rewrite (proj2 (Z.ltb_lt _ _) H).
Qed.
Print Assumptions C26_insufficient_inputs.

(** ... and is the only error there is. *)
Theorem C26_only_error : forall sigs sha256d release (b : tx_builder sigs) e, constructed infallible b -> in_range b -> (release = false \/ totals_fit b) ->
  build sha256d release b = Err e -> input_total b < known_total (b_outputs b) /\ e = EInsufficientInputAmount (known_total (b_outputs b) - input_total b).
Proof.
  intros sigs sha release b e HC HR HT E. unfold build in E.
  destruct (known_output_sum release b) as [known|e1|] eqn:Ek; cbn [obind] in E; [|exfalso; unfold known_output_sum in Ek; exact (u64_sum_err _ _ _ _ Ek)|discriminate].
  destruct (input_sum release b) as [total|e1|] eqn:Et; cbn [obind] in E; [|exfalso; unfold input_sum in Et; exact (u64_sum_err _ _ _ _ Et)|discriminate].
  assert (known = known_total (b_outputs b) /\ total = input_total b) as [-> ->].
  { destruct HT as [->|HT]; [now apply sums_debug|]. destruct (sums_ok release b HR HT) as [A B]. split; congruence. }
  destruct (_ <? _) eqn:El; [apply Z.ltb_lt in El; split; [exact El|congruence]|]. exfalso.
  pose proof (estimate_no_err b HC) as NE.
  destruct (place_all _ _ _ _) as [[[tm m] est]|e1|] eqn:Ep; cbn [obind] in E; [| |discriminate].
  2:{ exact (place_all_no_err release b NE _ _ _ Ep). }
  destruct est as [s|]; [|destruct (estimate_size b _) as [s|e1|] eqn:Es; [|exact (NE _ _ Es)|discriminate]]; cbn [obind] in E;
    (destruct (build_preimages _ _) as [p|e1|] eqn:Epre; cbn [obind] in E; [discriminate|exact (preimages_no_err _ _ _ Epre)|discriminate]).
Qed.
Print Assumptions C26_only_error.

(** C26, witness: in a release build the sums wrap around, so that a transaction paying 2^64 satoshis out of
    nothing is built. *)
Theorem C26_release_overflow_refuted : exists (b : tx_builder (fun _ => barray)) u, in_range b /\ build ex_sha true b = Ok u /\
  input_total b < output_total (u_outputs u).
Proof.
  exists (add_outputs (new_simple (fun _ => barray)) [TxOutput (2 ^ 63) ex_lock; TxOutput (2 ^ 63) ex_lock]). eexists. split.
  - apply in_rangeb_ok. reflexivity.
  - split; [vm_compute; reflexivity|]. vm_compute. reflexivity.
Qed.
Print Assumptions C26_release_overflow_refuted.
(** C26, witness: build_without_estimation does not compare inputs and outputs at all. *)
Theorem C26_without_estimation_refuted : exists (b : tx_builder (fun _ => barray)) u, in_range b /\ totals_fit b /\ build_without_estimation ex_sha b = Ok u /\
  input_total b < output_total (u_outputs u).
Proof.
  exists (add_output (new_simple (fun _ => barray)) (TxOutput 5 ex_lock)). eexists. split.
  - apply in_rangeb_ok. reflexivity.
  - split; [split; vm_compute; reflexivity|]. split; [vm_compute; reflexivity|]. vm_compute. reflexivity.
Qed.
Print Assumptions C26_without_estimation_refuted.

(** C27: every leftover output gets exactly what the rule says. *)
Theorem C27_leftover_rule : forall sigs sha256d release (b : tx_builder sigs) u, in_range b -> (release = false \/ totals_fit b /\ fees_fit b) ->
  build sha256d release b = Ok u ->
  exists vs, filled (b_outputs b) vs (u_outputs u) /\
    forall k lo up p s, nth_error (b_outputs b) k = Some (Leftover lo up p s) -> leftover_rule b vs k lo up p.
Proof.
  intros sigs sha release b u HR HT E. assert (release = false \/ totals_fit b) as HT' by tauto.
  destruct (build_inv _ _ _ _ E HR HT') as (H0 & st & Ep & _ & -> & _). destruct (distribution release b HR _ st H0 Ep) as [_ D].
  exists (values (st_m st) 0 (b_outputs b)). split; [apply filled_values|]. intros k lo up p s Hk. unfold leftover_rule.
  destruct (D k lo up p s Hk) as [A|(A & os & size & fee & B & C & F & G)]; [left; exact A|]. right. split; [exact A|]. exists os, size. split; [exact B|]. split; [exact C|].
  assert (fee = size * b_fee_per_kb b / 1000) as <-; [|exact G]. eapply fee_exact; [exact HR| |exact F]. destruct HT as [HT|[_ HT]]; [auto|]. right. eapply HT. exact C.
Qed.
Print Assumptions C27_leftover_rule.

(** C27: bounds, and the fee.  If any leftover output was placed, the fee is at least the requested one for
    the reported size; it is exactly that if the last one served did not hit its upper bound. *)
Theorem C27_bounds_and_fee : forall sigs sha256d release (b : tx_builder sigs) u, in_range b -> (release = false \/ totals_fit b /\ u_estimated_size u * b_fee_per_kb b < 2 ^ 64) ->
  build sha256d release b = Ok u ->
  let fee := input_total b - output_total (u_outputs u) in
  exists vs, filled (b_outputs b) vs (u_outputs u) /\
    (forall k v, nth_error vs k = Some (Some v) -> exists lo up p s, nth_error (b_outputs b) k = Some (Leftover lo up p s) /\ lo < v <= up) /\
    ((forall k v, nth_error vs k <> Some (Some v)) \/
     u_estimated_size u * b_fee_per_kb b / 1000 <= fee /\
     exists k lo up p s v, nth_error (b_outputs b) k = Some (Leftover lo up p s) /\ nth_error vs k = Some (Some v) /\
       (forall j lo' up' p' s' v', nth_error (b_outputs b) j = Some (Leftover lo' up' p' s') -> nth_error vs j = Some (Some v') -> j = k \/ served_before p' j p k = true) /\
       (v < up -> fee = u_estimated_size u * b_fee_per_kb b / 1000)).
Proof.
  intros sigs sha release b u HR HT E fee. assert (release = false \/ totals_fit b) as HT' by tauto.
  destruct (build_inv _ _ _ _ E HR HT') as (H0 & st & Ep & _ & Eo & _ & _ & Ees). destruct (distribution release b HR _ st H0 Ep) as [I _].
  assert (HV : forall k v, nth_error (values (st_m st) 0 (b_outputs b)) k = Some (Some v) -> st_m st k = Some v).
  { intros k v H. rewrite values_nth in H. destruct (nth_error (b_outputs b) k) as [[o|? ? ? ?]|]; cbn [Nat.add] in H; congruence. }
  assert (Hfee : fee = st_total st).
  { unfold fee. rewrite Eo. unfold make_outputs. rewrite (filled_total _ _ _ (filled_values (st_m st) (b_outputs b) 0)). pose proof (inv_sum _ _ _ _ _ I). lia. }
  exists (values (st_m st) 0 (b_outputs b)). split; [rewrite Eo; apply filled_values|]. split.
  { intros k v H. apply HV in H. destruct (inv_dom _ _ _ _ _ I _ _ H) as (lo & up & p & s & A & B & _). eauto 6. }
  pose proof (inv_est _ _ _ _ _ I) as IE. destruct (st_est st) as [size|]; [right|left; intros k v H; apply HV in H; rewrite IE in H; discriminate].
  destruct IE as (k & lo & up & p & s & v & f & Hk & Hv & Hl & Hf & Hle & Heq). rewrite Ees in *.
  assert (f = size * b_fee_per_kb b / 1000) as <-. { eapply fee_exact; [exact HR| |exact Hf]. tauto. }
  rewrite Hfee. split; [exact Hle|]. exists k, lo, up, p, s, v. split; [exact Hk|]. split; [rewrite values_nth, Hk; cbn [Nat.add]; now rewrite Hv|]. split; [|intros Hlt; symmetry; auto].
  intros j lo' up' p' s' v' Hj Hvj. apply HV in Hvj. destruct (Hl j v' Hvj) as [->|(pj & Hin & HX)]; [auto|]. right. apply order_in in Hin. destruct Hin as (lo2 & up2 & s2 & Hj2).
  rewrite Hj in Hj2. injection Hj2 as <- <- <- <-. now apply served_lex.
Qed.
Print Assumptions C27_bounds_and_fee.

(** C27: for inputs whose scripts do not depend on the outputs (P2PKH for instance), the reported size is the
    estimate for the very transaction that was built, and as soon as any leftover output stays below its upper bound
    the fee is exactly the requested one. *)
Theorem C27_uncapped_change_pays_exact_fee : forall sigs sha256d release (b : tx_builder sigs) u, in_range b -> (release = false \/ totals_fit b /\ fees_fit b) ->
  Forall ignores_outputs (b_inputs b) -> build sha256d release b = Ok u ->
  let fee := input_total b - output_total (u_outputs u) in
  estimate_size b (u_outputs u) = Ok (u_estimated_size u) /\
  exists vs, filled (b_outputs b) vs (u_outputs u) /\
    forall k lo up p s v, nth_error (b_outputs b) k = Some (Leftover lo up p s) -> nth_error vs k = Some (Some v) -> v < up ->
      fee = u_estimated_size u * b_fee_per_kb b / 1000.
Proof.
  intros sigs sha release b u HR HT HI E fee. assert (release = false \/ totals_fit b) as HT' by tauto.
  destruct (reported_estimate _ _ _ _ (or_introl E)) as (os0 & Ees & Hscr). rewrite (estimate_scripts _ _ _ HI Hscr) in Ees. split; [exact Ees|].
  assert (HF : release = false \/ fees_fit b) by tauto.
  destruct (build_inv _ _ _ _ E HR HT') as (H0 & st & Ep & _ & Eo & _ & _ & Est). destruct (distribution release b HR _ st H0 Ep) as [I D].
  exists (values (st_m st) 0 (b_outputs b)). split; [rewrite Eo; apply filled_values|]. intros k lo up p s v Hk Hv Hlt.
  pose proof (inv_est _ _ _ _ _ I) as IE. assert (Hm : st_m st k = Some v) by (rewrite values_nth, Hk in Hv; cbn [Nat.add] in Hv; congruence).
  destruct (st_est st) as [size|]; [|rewrite IE in Hm; discriminate]. destruct IE as (l & lol & upl & pl & sl & vl' & f & Hl & Hvl & Hbef & Hf & Hle & Heq).
  assert (f = size * b_fee_per_kb b / 1000) as Hfv. { eapply fee_exact; [exact HR| |exact Hf]. destruct HF as [?|HF]; [auto|]. right. apply (HF (u_outputs u)). rewrite Est in Ees. exact Ees. }
  assert (Hfee : fee = st_total st).
  { unfold fee. rewrite Eo. unfold make_outputs. rewrite (filled_total _ _ _ (filled_values (st_m st) (b_outputs b) 0)). pose proof (inv_sum _ _ _ _ _ I). lia. }
  rewrite Hfee, Est, <- Hfv. destruct (Hbef k v Hm) as [->|(pk & Hin & HX)].
  { assert (vl' = v) as -> by congruence. rewrite Hk in Hl. injection Hl as <- <- <- <-. symmetry. auto. }
  exfalso. apply order_in in Hin. destruct Hin as (lo2 & up2 & s2 & Hk2). rewrite Hk in Hk2. injection Hk2 as <- <- <- <-.
  assert (HN : forall j w, st_m st j = Some w -> 0 <= w).
  { intros j w Hj. destruct (inv_dom _ _ _ _ _ I _ _ Hj) as (lo3 & up3 & p3 & s3 & A & B & _). destruct (leftover_bounds b HR _ _ _ _ _ A) as [[? _] _]. lia. }
  destruct (earlier_mono b (st_m st) k p v l pl lo up s Hk Hm HX HN) as [Hsum Hpat].
  specialize (D k lo up p s Hk) as Dk. specialize (D l lol upl pl sl Hl) as Dl. cbv zeta in Dk, Dl.
  set (rk := _ - amount_sum (earlier p k 0 _ _)) in *. set (rl := _ - amount_sum (earlier pl l 0 _ _)) in *.
  assert (Hvl0 : nth_error (values (st_m st) 0 (b_outputs b)) l = Some (Some vl')) by (rewrite values_nth, Hl; cbn [Nat.add]; now rewrite Hvl).
  rewrite Hv in Dk. rewrite Hvl0 in Dl. destruct Dk as [[_ X]|(Hgk & osk & sk & fk & Fk & Esk & Efk & Rk)]; [discriminate|].
  destruct Dl as [[_ X]|(Hgl & osl & szl & fl & Fl & Esl & Efl & Rl)]; [discriminate|].
  pose proof (estimate_grows b _ _ _ _ _ _ HI Fk Fl (Hpat _ _ _ _ _ Hl) Esk Esl) as Hgrow.
  assert (fk = sk * b_fee_per_kb b / 1000) as ->. { eapply fee_exact; [exact HR| |exact Efk]. destruct HF as [?|HF]; [auto|]. right. exact (HF _ _ Esk). }
  assert (fl = szl * b_fee_per_kb b / 1000) as ->. { eapply fee_exact; [exact HR| |exact Efl]. destruct HF as [?|HF]; [auto|]. right. exact (HF _ _ Esl). }
  assert (sk * b_fee_per_kb b / 1000 <= szl * b_fee_per_kb b / 1000) as Hmono.
  { apply Z.div_le_mono; [lia|]. destruct HR as (_ & _ & Hr). unfold u64_ok in Hr. nia. }
  destruct (leftover_bounds b HR _ _ _ _ _ Hl) as [[Hlo0 _] _].
  injection Rk as Rk. injection Rl as Rl. destruct (lo <? _) eqn:Ek in Rk; [|discriminate]. destruct (lol <? _) eqn:El in Rl; [|discriminate].
  injection Rk as Rk. injection Rl as Rl. apply Z.ltb_lt in El. unfold rk, rl in *. lia.
Qed.
Print Assumptions C27_uncapped_change_pays_exact_fee.

(** C27: the usual case of one change output, spelled out. *)
Theorem C27_single_change : forall sigs sha256d release (b : tx_builder sigs) u os1 lo up p s os2, in_range b -> (release = false \/ totals_fit b /\ fees_fit b) ->
  b_outputs b = map KnownValue os1 ++ Leftover lo up p s :: map KnownValue os2 -> build sha256d release b = Ok u ->
  let remaining := input_total b - output_total (os1 ++ os2) in
  (remaining <= lo /\ u_outputs u = os1 ++ os2) \/
  (lo < remaining /\ exists size, estimate_size b (os1 ++ TxOutput (Z.min remaining up) s :: os2) = Ok size /\
     let amount := Z.min (remaining - size * b_fee_per_kb b / 1000) up in
     u_outputs u = os1 ++ (if lo <? amount then [TxOutput amount s] else []) ++ os2).
Proof.
  intros sigs sha release b u os1 lo up p s os2 HR HT Eb E remaining.
  destruct (C27_leftover_rule _ _ _ _ _ HR HT E) as (vs & HF & HRule).
  assert (Hk : nth_error (b_outputs b) (length os1) = Some (Leftover lo up p s)).
  { rewrite Eb, nth_error_app2, map_length, Nat.sub_diag by (rewrite map_length; lia). reflexivity. }
  specialize (HRule _ _ _ _ _ Hk). unfold leftover_rule in HRule. cbv zeta in HRule. rewrite Eb in HF, HRule.
  destruct (filled_single _ _ _ _ _ _ _ _ HF) as (ov & -> & Ho).
  rewrite earlier_single, amount_sum_nones in HRule.
  assert (known_total (map KnownValue os1 ++ Leftover lo up p s :: map KnownValue os2) = output_total (os1 ++ os2)) as Hkt by apply known_total_single.
  rewrite Hkt in HRule. replace (input_total b - output_total (os1 ++ os2) - 0) with remaining in HRule by (unfold remaining; lia).
  assert (nth_error (repeat None (length os1) ++ ov :: repeat None (length os2)) (length os1) = Some ov) as Hn.
  { rewrite nth_error_app2, repeat_length, Nat.sub_diag by (rewrite repeat_length; lia). reflexivity. }
  rewrite Hn in HRule. destruct HRule as [[Hle X]|(Hlt & os & size & Hos & Es & X)].
  - left. injection X as ->. split; [exact Hle|]. exact Ho.
  - right. split; [exact Hlt|]. exists size.
    assert (upd (repeat None (length os1) ++ None :: repeat None (length os2)) (length os1) (Some (Z.min remaining up)) = repeat None (length os1) ++ Some (Z.min remaining up) :: repeat None (length os2)) as Hu.
    { pose proof (upd_app_mid (repeat (@None Z) (length os1)) None (repeat None (length os2)) (Some (Z.min remaining up))) as U. now rewrite repeat_length in U. }
    rewrite Hu in Hos. destruct (filled_single _ _ _ _ _ _ _ _ Hos) as (ov' & Eov & Ho'). apply app_inv_head in Eov. injection Eov as <-. cbn [app] in Ho'. subst os.
    split; [exact Es|]. injection X as ->. cbv zeta. rewrite Ho. destruct (lo <? _); reflexivity.
Qed.
Print Assumptions C27_single_change.

(** C27, witness: when no leftover output is placed (here: nothing is left over), the fee can be below the
    requested rate; build does not report that. *)
Theorem C27_low_fee_refuted : exists (b : tx_builder (fun _ => barray)) u, in_range b /\ totals_fit b /\ build ex_sha false b = Ok u /\
  input_total b - output_total (u_outputs u) < u_estimated_size u * b_fee_per_kb b / 1000.
Proof.
  exists (add_leftover_output (new_simple (fun _ => barray)) ex_lock). eexists. split.
  - apply in_rangeb_ok. reflexivity.
  - split; [split; vm_compute; reflexivity|]. split; [vm_compute; reflexivity|]. vm_compute. reflexivity.
Qed.
Print Assumptions C27_low_fee_refuted.

(** A concrete builder: two P2PKH inputs, two fixed outputs, two leftover outputs (the second one is served
    first and hits its bound). *)
Definition ex_sigs : Z -> Type := fun _ => barray.
Definition ex_signatory (n : Z) : signatory ex_sigs := p2pkh_signatory_of ex_sigs 0 (fun x => x) (fun x => x) (P2PKHSignatory (repeat n 33) 0x41).
Definition ex_in (n v : Z) : unsigned_tx_input := UnsignedTxInput (TxOutpoint (ba_unnamed (repeat n 32)) n) (0xffffffff - n) v.
Definition ex_builder : tx_builder ex_sigs :=
  let b0 := builder_new ex_sigs 2 77 in
  let b1 := fst (add_input b0 (ex_in 1 60000) ex_lock (ex_signatory 2)) in
  let b2 := add_output b1 (TxOutput 20000 ex_lock) in
  let b3 := add_leftover_output_bounded b2 546 (2 ^ 64 - 1) 5 ex_lock in
  let b4 := fst (add_input b3 (ex_in 2 40000) ex_lock (ex_signatory 3)) in
  let b5 := add_leftover_output_bounded b4 546 10000 1 [] in
  add_output b5 (TxOutput 7 ex_lock).
Lemma ex_p2pkh n : byte_ok n -> is_p2pkh ex_sigs 0 (fun x => x) (fun x => x) (ex_signatory n).
Proof.
  intros Hn. exists (repeat n 33), 0x41. split; [apply repeat_length|]. split; [|split; [unfold byte_ok; lia|reflexivity]].
  apply Forall_forall. intros x Hx. apply repeat_spec in Hx. now subst.
Qed.
Lemma ex_constructed : constructed (is_p2pkh ex_sigs 0 (fun x => x) (fun x => x)) ex_builder.
Proof. unfold ex_builder. cbv zeta. repeat (apply co_add_output || apply co_add_bounded || apply co_new || (apply co_add_input; [|apply ex_p2pkh; unfold byte_ok; lia])). Qed.
Example C26_nonvacuous : in_range ex_builder /\ totals_fit ex_builder /\ constructed infallible ex_builder /\
  (exists u, build ex_sha false ex_builder = Ok u /\ output_total (u_outputs u) = 99647 /\ input_total ex_builder = 100000) /\
  (exists e, build ex_sha false (add_output ex_builder (TxOutput 80000 [])) = Err e /\ e = EInsufficientInputAmount 7).
Proof.
  split; [apply in_rangeb_ok; vm_compute; reflexivity|]. split; [split; vm_compute; reflexivity|]. split.
  { pose proof ex_constructed as H. induction H; constructor; auto. destruct H0 as (pk & f & _ & _ & _ & ->). intros pre est sg l outs e. cbn. destruct pre; discriminate. }
  split; [eexists; split; [vm_compute; reflexivity|]; split; vm_compute; reflexivity|]. eexists. split; [vm_compute; reflexivity|reflexivity].
Qed.
Example C27_nonvacuous : exists u, build ex_sha false ex_builder = Ok u /\ Forall ignores_outputs (b_inputs ex_builder) /\
  map out_value (u_outputs u) = [20000; 69640; 10000; 7] /\ u_estimated_size u = 353 /\ b_fee_per_kb ex_builder = 1000.
Proof.
  eexists. split; [vm_compute; reflexivity|]. split; [|repeat split].
  assert (forall n i l, ignores_outputs (BuilderInput i (signatory_func (ex_signatory n)) (s_flags (ex_signatory n)) (Some l) (Some (s_is_p2sh (ex_signatory n))) None)) as H.
  { intros n i l pre est sg lock o o'. cbn [bi_func]. unfold signatory_func. destruct sg as [a|]; cbn [expect obind]; [destruct (downcast _ a); cbn [expect obind]; [|reflexivity]|]; reflexivity. }
  constructor; [apply H|]. constructor; [apply H|constructor].
Qed.
Example C27_single_change_nonvacuous : let b := add_leftover_output (add_output (fst (add_input (builder_new ex_sigs 2 77) (ex_in 1 60000) ex_lock (ex_signatory 2))) (TxOutput 20000 ex_lock)) ex_lock in
  exists u, b_outputs b = map KnownValue [TxOutput 20000 ex_lock] ++ Leftover 546 (2 ^ 64 - 1) 0 ex_lock :: map KnownValue [] /\ build ex_sha false b = Ok u /\ map out_value (u_outputs u) = [20000; 39817].
Proof. cbv zeta. eexists. split; [reflexivity|]. split; [vm_compute; reflexivity|]. vm_compute. reflexivity. Qed.
