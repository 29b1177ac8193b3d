(** Lemmas about the transaction builder: no errors besides the documented one; a single change output. *)
From Verif Require Import Base BaseLemmas Model_Encoding Model_ByteArray Proofs_ByteArray Model_Opcode Model_Script Spec_Script Proofs_Script Model_Code Proofs_Code Model_Address Model_Destination Model_Preimage
  Proofs_Preimage Model_TxBuilder Spec_TxBuilder Proofs_TxBuilder Proofs_TxBuilder2 Proofs_TxBuilder3.
Local Open Scope Z_scope.

Definition no_err {A} (o : outcome A) : Prop := forall e, o <> Err e.
Lemma no_err_ok {A} (a : A) : no_err (Ok a). Proof. discriminate. Qed.
Lemma no_err_bind {A B} (o : outcome A) (f : A -> outcome B) : no_err o -> (forall a, no_err (f a)) -> no_err (do x <- o; f x).
Proof. intros H1 H2 e. destruct o; cbn [obind]; [apply H2|intros X; injection X as ->; exact (H1 e eq_refl)|discriminate]. Qed.
Lemma no_err_omap {A B} (f : A -> outcome B) l : Forall (fun x => no_err (f x)) l -> no_err (omap f l).
Proof.
  induction 1 as [|x l H _ IH]; cbn [omap]; [apply no_err_ok|]. apply no_err_bind; [exact H|]. intros y. apply no_err_bind; [exact IH|]. intros; apply no_err_ok.
Qed.
Lemma no_err_expect {A} (o : option A) : no_err (expect o). Proof. destruct o; discriminate. Qed.
Lemma no_err_script s : no_err (script_ser_ops s). Proof. intros e. unfold script_ser_ops. destruct (serialize_ops _); discriminate. Qed.
Lemma no_err_script_len s : no_err (script_len s).
Proof. unfold script_len, lenO. apply no_err_bind; [apply no_err_script|intros; apply no_err_ok]. Qed.
Lemma no_err_tx_len t : no_err (tx_len t).
Proof.
  unfold tx_len. apply no_err_bind; [|intros; apply no_err_bind; [|intros; apply no_err_ok]]; apply no_err_omap, Forall_forall; intros x _; apply no_err_bind;
    try apply no_err_script_len; intros; apply no_err_ok.
Qed.
Lemma no_err_output o : no_err (c_ser output_codec o).
Proof.
  intros e E. pose proof (out_len_ser o) as L. rewrite E in L. unfold out_len in L. symmetry in L. revert L.
  apply no_err_bind; [apply no_err_script_len|intros; apply no_err_ok].
Qed.
Lemma no_err_outpoint o : no_err (c_ser outpoint_codec o). Proof. intros e E. discriminate E. Qed.
Lemma no_err_u32 o : no_err (c_ser u32_codec o). Proof. intros e E. discriminate E. Qed.

Section N.
Context {sigs : Z -> Type}.
Notation tx_builder := (tx_builder sigs).
Lemma s_script_no_err (s : signatory sigs) : infallible s -> forall pre est sg lock outs, no_err (s_script s pre est sg lock outs).
Proof.
  intros H pre est sg lock outs. unfold s_script. apply no_err_bind; [intros e; apply H|]. intros ops. destruct (s_is_p2sh s); [|apply no_err_ok].
  apply no_err_bind; [apply no_err_script|intros; apply no_err_ok].
Qed.
Lemma estimate_no_err (b : tx_builder) : constructed infallible b -> forall outs e, estimate_size b outs <> Err e.
Proof.
  intros HC outs. rewrite estimate_len. apply no_err_bind; [|intros; apply no_err_tx_len]. apply no_err_omap. pose proof (constructed_inputs _ _ HC) as HI.
  eapply Forall_impl; [|exact HI]. intros bi [(i & ->)|(input & lock & s & Hs & ->)]; unfold estimate_input; cbn [bi_lock_script bi_func bi_input bi_flags from_tx_input].
  - destruct (in_lock_script i); cbn [obind]; apply no_err_ok.
  - apply no_err_bind; [|intros; apply no_err_ok]. unfold signatory_func. cbn [obind]. now apply s_script_no_err.
Qed.
Lemma place_all_no_err release (b : tx_builder) : (forall outs e, estimate_size b outs <> Err e) -> forall l st e, place_all release b l st <> Err e.
Proof.
  intros NE. induction l as [|[k p] l IH]; intros st; cbn [place_all]; [apply no_err_ok|]. destruct (nth_error _ k) as [[o|lo up p' s]|]; [apply IH| |discriminate].
  apply no_err_bind; [|intros; exact (IH a)]. destruct st as [[total m] est]. unfold place. destruct (total <=? lo); [apply no_err_ok|].
  apply no_err_bind; [intros e; apply NE|]. intros size. apply no_err_bind; [|intros pr; destruct (_ <=? total); [destruct (_ <=? lo)|]; apply no_err_ok].
  unfold u64_of. destruct (_ <? _); [apply no_err_ok|]. destruct release; discriminate.
Qed.
End N.
Lemma digest_no_err sha m : no_err (digest_sha256d sha m).
Proof. intros e. unfold digest_sha256d. destruct (fixed_from_byte_array _ _); discriminate. Qed.
Lemma concat_loop_no_err {A} (ser : A -> outcome barray) label l : (forall x, no_err (ser x)) -> forall idx acc, no_err (concat_loop ser label idx l acc).
Proof. intros H. induction l as [|x l IH]; intros idx acc; cbn [concat_loop]; [apply no_err_ok|]. apply no_err_bind; [apply H|intros; apply IH]. Qed.
Lemma hash_all_no_err {A} sha (ser : A -> outcome barray) label all name l : (forall x, no_err (ser x)) -> no_err (hash_all sha ser label all name l).
Proof.
  intros H. unfold hash_all. apply no_err_bind; [now apply concat_loop_no_err|]. intros a. apply no_err_bind; [apply digest_no_err|intros; apply no_err_ok].
Qed.
Lemma preimages_no_err sha t e : build_preimages sha t <> Err e.
Proof.
  revert e. unfold build_preimages. apply no_err_bind; [apply hash_all_no_err, no_err_outpoint|]. intros hp. apply no_err_bind; [apply hash_all_no_err, no_err_u32|]. intros hs.
  apply no_err_bind; [apply hash_all_no_err, no_err_output|]. intros ho. generalize O. induction (st_inputs t) as [|i l IH]; intros idx; cbn [build_inputs]; [apply no_err_ok|].
  apply no_err_bind; [|intros; apply no_err_bind; [apply IH|intros; apply no_err_ok]]. apply no_err_omap, Forall_forall. intros f _. unfold build_preimage.
  apply no_err_bind; [|intros; apply no_err_bind; [apply no_err_expect|intros; apply no_err_bind; [apply no_err_expect|intros; apply no_err_ok]]].
  destruct (_ && _); [apply no_err_ok|]. destruct (_ && _); [|apply no_err_ok]. destruct (nth_error _ _); [|discriminate]. apply no_err_bind; [apply no_err_output|intros; apply digest_no_err].
Qed.

(** ** a single change output *)
Lemma filled_knowns os1 : forall rest vs os, filled (map KnownValue os1 ++ rest) vs os -> exists vs' os', vs = repeat None (length os1) ++ vs' /\ os = os1 ++ os' /\ filled rest vs' os'.
Proof.
  induction os1 as [|o os1 IH]; intros rest vs os H; [exists vs, os; auto|]. cbn [map app] in H. inversion H as [|? ? vs0 os0 H0| |]; subst.
  destruct (IH _ _ _ H0) as (vs' & os' & -> & -> & H'). exists vs', os'. auto.
Qed.
Lemma filled_single os1 lo up p s os2 vs os : filled (map KnownValue os1 ++ Leftover lo up p s :: map KnownValue os2) vs os ->
  exists ov, vs = repeat None (length os1) ++ ov :: repeat None (length os2) /\ os = os1 ++ (match ov with Some v => [TxOutput v s] | None => [] end) ++ os2.
Proof.
  intros H. destruct (filled_knowns _ _ _ _ H) as (vs1 & os1' & -> & -> & H1).
  inversion H1 as [| |? ? ? ? v ? vs2 os2' H2|? ? ? ? ? vs2 os2' H2]; subst; rewrite <- (app_nil_r (map KnownValue os2)) in H2;
    destruct (filled_knowns _ _ _ _ H2) as (vs3 & os3 & -> & -> & H3); inversion H3; subst; rewrite !app_nil_r; [exists (Some v)|exists None]; auto.
Qed.
Lemma earlier_knowns p k os : forall idx rest vs, earlier p k idx (map KnownValue os ++ rest) (repeat None (length os) ++ vs) = repeat None (length os) ++ earlier p k (idx + length os) rest vs.
Proof.
  induction os as [|o os IH]; intros idx rest vs; cbn [map app length repeat earlier]; [now rewrite Nat.add_0_r|]. rewrite IH. do 3 f_equal. lia.
Qed.
Lemma earlier_single os1 lo up p s os2 ov : earlier p (length os1) 0 (map KnownValue os1 ++ Leftover lo up p s :: map KnownValue os2) (repeat None (length os1) ++ ov :: repeat None (length os2))
  = repeat None (length os1) ++ None :: repeat None (length os2).
Proof.
  rewrite earlier_knowns. cbn [earlier]. unfold served_before. rewrite Z.ltb_irrefl, Z.eqb_refl, Nat.ltb_irrefl. cbn [andb orb]. do 2 f_equal.
  pose proof (earlier_knowns p (length os1) os2 (S (0 + length os1)) [] []) as X. rewrite !app_nil_r in X. exact X.
Qed.
Lemma amount_sum_nones n m : amount_sum (repeat None n ++ None :: repeat None m) = 0.
Proof.
  assert (forall k l, amount_sum (repeat None k ++ l) = amount_sum l) as H by (induction k; cbn; auto). rewrite H. cbn [amount_sum].
  rewrite <- (app_nil_r (repeat None m)), H. reflexivity.
Qed.
Lemma known_total_single os1 lo up p s os2 : known_total (map KnownValue os1 ++ Leftover lo up p s :: map KnownValue os2) = output_total (os1 ++ os2).
Proof.
  unfold output_total. induction os1 as [|o os1 IH]; cbn [map app known_total sum fold_right].
  - induction os2 as [|o os2 IH]; cbn [map known_total sum fold_right]; [reflexivity|]. now rewrite IH.
  - rewrite IH. reflexivity.
Qed.

(** a computable form of [in_range], for the examples *)
Definition u64b (v : Z) : bool := (0 <=? v) && (v <? 2 ^ 64).
Lemma u64b_ok v : u64b v = true -> u64_ok v.
Proof. unfold u64b, u64_ok. intros H. apply andb_true_iff in H. destruct H as [A B]. apply Z.leb_le in A. apply Z.ltb_lt in B. lia. Qed.
Definition in_rangeb {sigs} (b : tx_builder sigs) : bool :=
  forallb (fun i => u64b (ui_value (bi_input i))) (b_inputs b) &&
  forallb (fun o => match o with KnownValue o => u64b (out_value o) | Leftover lo up _ _ => u64b lo && u64b up end) (b_outputs b) && u64b (b_fee_per_kb b).
Lemma in_rangeb_ok {sigs} (b : tx_builder sigs) : in_rangeb b = true -> in_range b.
Proof.
  unfold in_rangeb, in_range. intros H. apply andb_true_iff in H. destruct H as [H C]. apply andb_true_iff in H. destruct H as [A B]. rewrite forallb_forall in A, B.
  split; [apply Forall_forall; intros; apply u64b_ok; auto|]. split; [|now apply u64b_ok]. apply Forall_forall. intros o Ho. specialize (B o Ho). destruct o; [now apply u64b_ok|].
  apply andb_true_iff in B. destruct B. split; now apply u64b_ok.
Qed.
