(** C28 and C27 in terms of the caller's calls; C24/C29: the placeholder preimage. *)
From Verif Require Import Base BaseLemmas Model_Encoding Model_ByteArray Proofs_ByteArray Model_Opcode Model_Script Model_Code Model_Destination Model_Preimage Model_TxBuilder Spec_TxBuilder Spec_Calls Proofs_Script Proofs_Preimage Proofs_TxBuilder Proofs_TxBuilder2 Proofs_TxBuilder3 Proofs_TxBuilder4 Proofs_TxBuilder5 Prop_Preimage Prop_TxBuilder Prop_TxBuilder2.
Local Open Scope string_scope.
Local Open Scope list_scope.
Local Open Scope Z_scope.

Section C.
Context {sigs : Z -> Type}.
Lemma add_outputs_spec os : forall b : tx_builder sigs, add_outputs b os = TxBuilder (b_version b) (b_inputs b) (b_outputs b ++ map KnownValue os) (b_lock_time b) (b_fee_per_kb b).
Proof.
  induction os as [|o os IH]; intros b; [cbn; rewrite app_nil_r; now destruct b|]. unfold add_outputs. cbn [fold_left]. change (add_outputs (add_output b o) os = TxBuilder (b_version b) (b_inputs b) (b_outputs b ++ map KnownValue (o :: os)) (b_lock_time b) (b_fee_per_kb b)). rewrite IH. cbn [add_output add_builder_output b_version b_inputs b_outputs b_lock_time b_fee_per_kb map]. now rewrite <- app_assoc.
Qed.
Definition asked_bi (a : unsigned_tx_input * script * signatory sigs) : builder_input sigs :=
  let '(i, l, s) := a in BuilderInput i (signatory_func s) (s_flags s) (Some l) (Some (s_is_p2sh s)) None.
Lemma run_spec l : forall (b b' : tx_builder sigs) rs, run_calls b l = (b', rs) ->
  b' = TxBuilder (b_version b) (b_inputs b ++ map asked_bi (asked_inputs l)) (b_outputs b ++ asked_outputs l) (b_lock_time b) (asked_fee (b_fee_per_kb b) l) /\
  rs = seq (length (b_inputs b)) (length (asked_inputs l)).
Proof.
  induction l as [|c l IH]; intros b b' rs E.
  - cbn in E. injection E as <- <-. cbn. rewrite !app_nil_r. now destruct b.
  - cbn [run_calls] in E. destruct (run_call b c) as [b1 r1] eqn:E1. destruct (run_calls b1 l) as [b2 r2] eqn:E2. injection E as <- <-. destruct (IH _ _ _ E2) as [-> ->].
    destruct c; cbn [run_call] in E1; unfold add_input in E1; injection E1 as <- <-; rewrite ?add_outputs_spec; cbn [add_output add_leftover_output add_leftover_output_bounded add_builder_output set_fee_per_kb b_version b_inputs b_outputs b_lock_time b_fee_per_kb asked_inputs asked_outputs asked_fee flat_map fold_left map app length];
      rewrite <- ?app_assoc; (split; [reflexivity|]); rewrite ?app_length; cbn [length app seq]; rewrite ?Nat.add_1_r; reflexivity.
Qed.
Lemma run_constructed allowed l : forall (b b' : tx_builder sigs) rs, constructed allowed b -> (forall i lk s, In (CallInput i lk s) l -> allowed s) -> run_calls b l = (b', rs) -> constructed allowed b'.
Proof.
  induction l as [|c l IH]; intros b b' rs HC HA E; [cbn in E; injection E as <- <-; exact HC|].
  cbn [run_calls] in E. destruct (run_call b c) as [b1 r1] eqn:E1. destruct (run_calls b1 l) as [b2 r2] eqn:E2. injection E as <- <-. eapply IH; [|intros; eapply HA; right; eassumption|exact E2].
  destruct c; cbn [run_call] in E1.
  - destruct (add_input b input lock s) as [bb rr] eqn:Ea. injection E1 as <- <-. replace bb with (fst (add_input b input lock s)) by now rewrite Ea. constructor; [exact HC|]. eapply HA. left. reflexivity.
  - injection E1 as <- <-. now constructor.
  - injection E1 as <- <-. clear -HC. revert b HC. induction os as [|o os IH]; intros b HC; [exact HC|]. unfold add_outputs. cbn [fold_left]. apply IH. now constructor.
  - injection E1 as <- <-. now constructor.
  - injection E1 as <- <-. now constructor.
  - injection E1 as <- <-. now constructor.
Qed.

(** The finished (or partially signed) transaction is what the calls asked for: version and lock time, one input per add_input
    call in call order, the outputs in call order with leftover outputs filled or left out; the fee rate is the last one set
    (1000 satoshis per 1000 bytes if none); add_input returns 0, 1, 2, ... *)
Theorem C28_calls : forall sha256d release (v lt : Z) (l : list (@call sigs)) b rs u t, run_calls (builder_new sigs v lt) l = (b, rs) ->
  unsigned_of sha256d release b u -> final_tx u t ->
  tx_version t = v /\ tx_lock_time t = lt /\ Forall2 as_asked (asked_inputs l) (tx_inputs t) /\
  (exists vs, filled (asked_outputs l) vs (tx_outputs t)) /\ rs = seq 0 (length (asked_inputs l)).
Proof.
  intros sha release v lt l b rs u t E HU HT. destruct (run_spec _ _ _ _ E) as [Eb Er]. cbn [builder_new new_with_fee b_version b_inputs b_outputs b_lock_time b_fee_per_kb app length] in Eb, Er.
  assert (constructed (fun _ => True) b) as HC by (eapply run_constructed; [apply co_new|auto|exact E]).
  destruct (C28_order_preserved _ sha release _ b u t HC HU HT) as (T1 & T2 & _ & vs & T4).
  split; [rewrite T1, Eb; reflexivity|]. split; [rewrite T2, Eb; reflexivity|]. split; [|split; [exists vs; rewrite Eb in T4; exact T4|exact Er]].
  rewrite (final_partial _ _ _ _ _ HU HT). destruct (partial_handed _ _ _ _ _ HC HU) as (_ & HH & _).
  rewrite Eb in HH. cbn [b_inputs] in HH. clear -HH. revert HH. generalize (tx_inputs (partial_tx u)). induction (asked_inputs l) as [|[[i lk] s] a IH]; intros is HH; inversion HH as [|? ? ? ? S HH']; subst; [constructor|]. constructor; [|now apply IH].
  destruct S as [(sc & ->)|(S & _)]; [repeat split|]. unfold from_tx_input, asked_bi in S. discriminate S.
Qed.
(** What C27's rules are applied to: the asked outputs, the inputs' total and the last fee rate set. *)
Theorem C27_calls : forall (v lt : Z) (l : list (@call sigs)) b rs, run_calls (builder_new sigs v lt) l = (b, rs) ->
  b_outputs b = asked_outputs l /\ input_total b = sum (map (fun a => ui_value (fst (fst a))) (asked_inputs l)) /\ b_fee_per_kb b = asked_fee 1000 l.
Proof.
  intros v lt l b rs E. destruct (run_spec _ _ _ _ E) as [-> _]. cbn [builder_new new_with_fee b_version b_inputs b_outputs b_lock_time b_fee_per_kb app].
  split; [reflexivity|]. split; [|reflexivity]. unfold input_total. cbn [b_inputs]. rewrite map_map. f_equal. apply map_ext. intros [[i lk] s]. reflexivity.
Qed.
End C.
Print Assumptions C28_calls.
Print Assumptions C27_calls.

(** C29: a signatory that puts the preimage into the script is estimated correctly: the placeholder preimage is exactly as
    long as the real one. *)
Lemma data1 (a : barray) n : zlen (ba_data (ba_named a n)) = zlen (ba_data a). Proof. now destruct a. Qed.
Lemma parts_len ps : zlen (ba_data (ba_from_parts ps)) = sum (map (fun a => zlen (ba_data a)) ps).
Proof. rewrite from_parts_data. induction ps as [|p ps IH]; [reflexivity|]. cbn [map concat sum fold_right]. rewrite zlen_app, IH. reflexivity. Qed.
Lemma Ok_inj' {A} (a b : A) : Ok a = Ok b -> a = b. Proof. intros H. injection H. auto. Qed.
Lemma preimage_len p x : c_ser preimage_codec p = Ok x -> exists y, c_ser script_codec (pi_script_code p) = Ok y /\
  zlen (ba_data x) = 32 + zlen (ba_data (pi_hash_prevouts p)) + zlen (ba_data (pi_hash_sequence p)) + zlen (ba_data (op_tx_hash (pi_outpoint p))) + zlen (ba_data y) + zlen (ba_data (pi_hash_outputs p)) - 4.
Proof.
  cbn [preimage_codec c_ser outpoint_codec sha256d_codec fixed_codec i32_codec u32_codec u64_codec int_codec obind]. intros E. apply obind_ok in E. destruct E as (y & Ey & E). exists y. split; [exact Ey|]. apply Ok_inj' in E. subst x.
  rewrite parts_len. cbn [map]. rewrite !data1, !parts_len. cbn [map]. rewrite !data1. cbn [ba_unnamed ba_data sum fold_right]. rewrite !le_bytes_zlen. lia.
Qed.
Lemma digest_32 sha a h : digest_sha256d sha a = Ok h -> zlen (ba_data h) = 32.
Proof. unfold digest_sha256d, fixed_from_byte_array. destruct (32 =? _) eqn:E; [|discriminate]. intros H. injection H as <-. apply Z.eqb_eq in E. unfold ba_len in E. lia. Qed.
Lemma hash_all_32 {A} sha (ser : A -> outcome barray) x y z l h : hash_all sha ser x y z l = Ok h -> zlen (ba_data h) = 32.
Proof. unfold hash_all. intros E. apply obind_ok in E. destruct E as (a & _ & E). apply obind_ok in E. destruct E as (b & E & F). injection F as <-. rewrite data1. eapply digest_32, E. Qed.
Theorem C29_placeholder_preimage : forall sha256d t pss idx ps i lock p x, build_preimages sha256d t = Ok pss -> nth_error pss idx = Some ps -> In p ps ->
  nth_error (st_inputs t) idx = Some i -> si_lock_script i = Some lock -> zlen (ba_data (op_tx_hash (si_outpoint i))) = 32 -> c_ser preimage_codec p = Ok x ->
  exists y, c_ser preimage_codec (empty_with_script lock) = Ok y /\ zlen (ba_data y) = zlen (ba_data x).
Proof.
  intros sha t pss idx ps i lock p x E Hps Hp Hi Hl Ho Ex. unfold build_preimages in E. apply obind_ok in E. destruct E as (hp & E1 & E). apply obind_ok in E. destruct E as (hs & E2 & E). apply obind_ok in E. destruct E as (ho & E3 & E).
  apply hash_all_32 in E1, E2, E3. destruct (build_inputs_nth sha t hp hs ho _ _ _ E) as [_ N]. destruct (N _ _ Hi) as (ps' & Ep & Eo). assert (ps' = ps) as -> by congruence. clear N. cbn [Nat.add] in Eo.
  destruct (In_nth_error _ _ Hp) as (k & Hk). destruct (nth_error (si_flags i) k) as [f|] eqn:Ef.
  2:{ apply omap_Forall2 in Eo. apply Proofs_Script.Forall2_len in Eo. apply nth_error_None in Ef. assert (nth_error ps k <> None) as HN by congruence. apply nth_error_Some in HN. lia. }
  destruct (omap_nth _ _ _ _ _ Eo Ef) as (p' & Hk' & Eb). assert (p' = p) as -> by congruence. unfold build_preimage in Eb. cbv zeta in Eb. apply obind_ok in Eb. destruct Eb as (h & Eh & Eb). rewrite Hl in Eb. cbn [expect obind] in Eb. apply obind_ok in Eb. destruct Eb as (v & Ev & Eb). injection Eb as <-.
  assert (zlen (ba_data h) = 32) as H32.
  { destruct (_ && _) in Eh; [injection Eh as <-; exact E3|]. destruct (_ && _) in Eh; [|injection Eh as <-; reflexivity]. destruct (nth_error (st_outputs t) idx); [|discriminate]. apply obind_ok in Eh. destruct Eh as (o & _ & Eh). eapply digest_32, Eh. }
  destruct (preimage_len _ _ Ex) as (y & Ey & Hx). cbn [pi_script_code pi_hash_prevouts pi_hash_sequence pi_outpoint pi_hash_outputs] in Ey, Hx.
  assert (exists z, c_ser preimage_codec (empty_with_script lock) = Ok z) as (z & Ez).
  { cbn [preimage_codec c_ser outpoint_codec sha256d_codec fixed_codec i32_codec u32_codec u64_codec int_codec obind empty_with_script pi_script_code]. cbn [pi_version pi_hash_prevouts pi_hash_sequence pi_outpoint pi_script_code pi_value pi_sequence pi_hash_outputs pi_lock_time pi_sig_hash_type]. rewrite Ey. cbn [obind]. eauto. }
  exists z. split; [exact Ez|]. destruct (preimage_len _ _ Ez) as (y' & Ey' & Hz). cbn [empty_with_script pi_script_code pi_hash_prevouts pi_hash_sequence pi_outpoint pi_hash_outputs] in Ey', Hz. assert (y' = y) as -> by congruence.
  rewrite Hx, Hz, H32, Ho. 
  assert (zlen (ba_data (if negb (flags_contains f SIGHASH_ANYONECANPAY) then hp else zero_hash "hashPrevouts")) = 32) as -> by (destruct (negb _); [exact E1|reflexivity]).
  match goal with |- context [zlen (ba_data (if ?c then hs else ?d))] => assert (zlen (ba_data (if c then hs else d)) = 32) as -> by (destruct c; [exact E2|reflexivity]) end.
  assert (forall n, zlen (ba_data (zero_hash n)) = 32) as Z0 by reflexivity. rewrite !Z0. cbn [op_tx_hash]. change (zlen (ba_data (ba_unnamed (repeat 0 32)))) with 32. reflexivity.
Qed.
Print Assumptions C29_placeholder_preimage.

Definition ex_calls : list (@call ex_sigs) :=
  [CallOutput (TxOutput 20000 ex_lock); CallInput (ex_in 1 60000) ex_lock (ex_signatory 2); CallLeftover ex_lock; CallSetFee 2000;
   CallOutputs [TxOutput 700 []; TxOutput 800 ex_lock]; CallInput (ex_in 4 5000) ex_lock (ex_signatory 9)].
Example C28_calls_nonvacuous : exists b u, run_calls (builder_new ex_sigs 2 77) ex_calls = (b, [0; 1]%nat) /\ build ex_sha false b = Ok u /\ asked_fee 1000 ex_calls = 2000 /\ map out_value (tx_outputs (partial_tx u)) = [20000; 42794; 700; 800]%Z.
Proof. do 2 eexists. split; [vm_compute; reflexivity|]. split; [vm_compute; reflexivity|]. split; vm_compute; reflexivity. Qed.
Example C29_placeholder_nonvacuous : exists pss ps p x, build_preimages ex_sha (sig_tx_of (UnhashedTx 1 [TxInput (TxOutpoint (ba_unnamed (repeat 7 32)) 3) [] 5 (Some ex_lock) (Some 900) None None] [TxOutput 4 ex_lock] 0) [0xc3]) = Ok pss /\ nth_error pss 0 = Some ps /\ In p ps /\ c_ser preimage_codec p = Ok x /\ ba_len x = 158.
Proof. do 4 eexists. split; [vm_compute; reflexivity|]. split; [reflexivity|]. split; [left; reflexivity|]. split; vm_compute; reflexivity. Qed.
