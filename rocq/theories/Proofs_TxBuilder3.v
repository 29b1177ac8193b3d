(** Lemmas about the transaction builder: constructed builders, signing histories, hand-over. *)
From Coq Require Import Eqdep_dec Permutation.
From Verif Require Import Base BaseLemmas Model_Encoding Model_ByteArray Proofs_ByteArray Model_Opcode Model_Script Spec_Script Proofs_Script Model_Code Proofs_Code Model_Address Model_Destination Model_Preimage
  Proofs_Preimage Model_TxBuilder Spec_TxBuilder Proofs_TxBuilder Proofs_TxBuilder2.
Local Open Scope Z_scope.

Lemma nth_upd_same {A} (l : list A) : forall i x, (i < length l)%nat -> nth_error (upd l i x) i = Some x.
Proof. induction l as [|h l IH]; intros [|i] x H; cbn in *; try lia; [reflexivity|]. apply IH. lia. Qed.
Lemma nth_upd_other {A} (l : list A) : forall i j x, i <> j -> nth_error (upd l i x) j = nth_error l j.
Proof. induction l as [|h l IH]; intros [|i] [|j] x H; cbn; try congruence; try reflexivity. apply IH. congruence. Qed.
Lemma upd_comm {A} (l : list A) : forall i j x y, i <> j -> upd (upd l i x) j y = upd (upd l j y) i x.
Proof. induction l as [|h l IH]; intros [|i] [|j] x y H; cbn; try congruence; try reflexivity. f_equal. apply IH. congruence. Qed.

Section B.
Context {sigs : Z -> Type}.
Notation tx_builder := (tx_builder sigs).
Notation builder_input := (builder_input sigs).
Notation unsigned_tx := (unsigned_tx sigs).
Notation signatory := (signatory sigs).
Notation sign_op := (@sign_op sigs).

(** ** constructed builders *)
Definition added (allowed : signatory -> Prop) (bi : builder_input) : Prop :=
  exists input lock s, allowed s /\ bi = BuilderInput input (signatory_func s) (s_flags s) (Some lock) (Some (s_is_p2sh s)) None.
Lemma constructed_inputs allowed (b : tx_builder) : constructed allowed b ->
  Forall (fun bi => (exists i, bi = from_tx_input sigs i) \/ added allowed bi) (b_inputs b).
Proof.
  intros H. induction H; cbn [b_inputs new_with_fee from_tx set_fee_per_kb add_input fst add_output add_leftover_output add_leftover_output_bounded add_builder_output]; try assumption.
  - constructor.
  - apply Forall_map. apply Forall_forall. intros i _. left. eauto.
  - apply Forall_app. split; [assumption|]. constructor; [|constructor]. right. exists input, lock, s. auto.
Qed.

(** ** one signing call *)
Definition made (u : unsigned_tx) (o : sign_op) : outcome tx_input :=
  do bi <- expect (nth_error (b_inputs (u_builder u)) (op_index o));
  do pre <- expect (nth_error (u_preimages u) (op_index o));
  do s <- match o with
          | SignInput _ sg => bi_func bi pre (Some (u_estimated_size u)) (Some sg) (lock_or_empty bi) (u_outputs u)
          | SignInputSignatory _ s sg => s_script s pre (Some (u_estimated_size u)) sg (lock_or_empty bi) (u_outputs u)
          end;
  Ok (signed_input bi s).
Lemma apply_op_eq (u : unsigned_tx) (o : sign_op) : apply_op u o =
  match nth_error (u_inputs u) (op_index o) with
  | None => Panic
  | Some (Some _) => Err (EInputAlreadySigned (Z.of_nat (op_index o)))
  | Some None => do i <- made u o; Ok (set_input u (op_index o) i)
  end.
Proof.
  destruct o as [idx sg|idx s sg]; cbn [apply_op op_index]; unfold sign_input_dyn, sign_input_signatory, made; cbn [op_index];
    destruct (nth_error (u_inputs u) idx) as [[i|]|]; cbn [expect obind]; try reflexivity;
    destruct (nth_error (b_inputs (u_builder u)) idx) as [bi|]; cbn [expect obind]; try reflexivity;
    destruct (nth_error (u_preimages u) idx) as [pre|]; cbn [expect obind]; try reflexivity.
  - destruct (bi_func _ _ _ _ _ _); reflexivity.
  - destruct (s_script _ _ _ _ _ _); reflexivity.
Qed.
Lemma apply_op_inv (u u' : unsigned_tx) o : apply_op u o = Ok u' -> nth_error (u_inputs u) (op_index o) = Some None /\ exists i, made u o = Ok i /\ u' = set_input u (op_index o) i.
Proof.
  rewrite apply_op_eq. destruct (nth_error _ _) as [[i|]|]; try discriminate. intros E. apply obind_ok in E. destruct E as (i & Ei & E). injection E as <-. eauto.
Qed.
Lemma made_set (u : unsigned_tx) k i o : made (set_input u k i) o = made u o.
Proof. reflexivity. Qed.
Lemma made_inv (u : unsigned_tx) o i : made u o = Ok i -> exists bi pre s, nth_error (b_inputs (u_builder u)) (op_index o) = Some bi /\ nth_error (u_preimages u) (op_index o) = Some pre /\
  i = signed_input bi s /\
  match o with
  | SignInput _ sg => bi_func bi pre (Some (u_estimated_size u)) (Some sg) (lock_or_empty bi) (u_outputs u)
  | SignInputSignatory _ s sg => s_script s pre (Some (u_estimated_size u)) sg (lock_or_empty bi) (u_outputs u)
  end = Ok s.
Proof.
  unfold made. intros E. apply obind_ok in E. destruct E as (bi & Eb & E). apply obind_ok in E. destruct E as (pre & Ep & E). apply obind_ok in E. destruct E as (s & Es & E).
  exists bi, pre, s. destruct (nth_error (b_inputs (u_builder u)) (op_index o)) eqn:E1; [|discriminate]. destruct (nth_error (u_preimages u) (op_index o)) eqn:E2; [|discriminate].
  cbn in Eb, Ep. split; [congruence|]. split; [congruence|]. split; [congruence|exact Es].
Qed.

Lemma nth_length {A} (l : list A) k x : nth_error l k = Some x -> (k < length l)%nat.
Proof. intros H. apply nth_error_Some. congruence. Qed.

Lemma apply_op_commute (u u1 u2 : unsigned_tx) o1 o2 : apply_op u o1 = Ok u1 -> apply_op u1 o2 = Ok u2 ->
  exists u1', apply_op u o2 = Ok u1' /\ apply_op u1' o1 = Ok u2.
Proof.
  intros E1 E2. destruct (apply_op_inv _ _ _ E1) as (S1 & i1 & M1 & ->). destruct (apply_op_inv _ _ _ E2) as (S2 & i2 & M2 & ->). rewrite made_set in M2.
  unfold set_input in S2 at 1. cbn [u_inputs] in S2.
  assert (op_index o1 <> op_index o2) as Hne.
  { intros X. rewrite <- X, nth_upd_same in S2 by (eapply nth_length; eassumption). discriminate. }
  rewrite nth_upd_other in S2 by exact Hne. exists (set_input u (op_index o2) i2). split.
  - rewrite apply_op_eq, S2, M2. reflexivity.
  - rewrite apply_op_eq. unfold set_input at 1. cbn [u_inputs]. rewrite nth_upd_other by congruence. rewrite S1, made_set, M1. cbn [obind]. f_equal.
    unfold set_input. cbn [u_builder u_outputs u_preimages u_inputs u_estimated_size]. f_equal. apply upd_comm. congruence.
Qed.
Lemma apply_ops_app (l l' : list sign_op) : forall u, apply_ops u (l ++ l') = do v <- apply_ops u l; apply_ops v l'.
Proof. induction l as [|o l IH]; intros u; cbn [app apply_ops]; [reflexivity|]. destruct (apply_op u o); cbn [obind]; [apply IH|reflexivity|reflexivity]. Qed.
Lemma apply_ops_perm (l l' : list sign_op) : Permutation l l' -> forall u u', apply_ops u l = Ok u' -> apply_ops u l' = Ok u'.
Proof.
  intros H. induction H as [|o l l' H IH|o1 o2 l|l1 l2 l3 _ IH1 _ IH2]; intros u u' E.
  - exact E.
  - cbn [apply_ops] in *. apply obind_ok in E. destruct E as (v & E1 & E2). rewrite E1. cbn [obind]. now apply IH.
  - cbn [apply_ops] in *. apply obind_ok in E. destruct E as (v & E1 & E). apply obind_ok in E. destruct E as (w & E2 & E).
    destruct (apply_op_commute _ _ _ _ _ E1 E2) as (v' & -> & E3). cbn [obind]. rewrite E3. exact E.
  - apply IH2. now apply IH1.
Qed.
(** what a history leaves unchanged *)
Lemma apply_ops_frame (l : list sign_op) : forall u u', apply_ops u l = Ok u' ->
  u_builder u' = u_builder u /\ u_outputs u' = u_outputs u /\ u_preimages u' = u_preimages u /\ u_estimated_size u' = u_estimated_size u /\ length (u_inputs u') = length (u_inputs u) /\
  forall j, (forall o, In o l -> op_index o <> j) -> nth_error (u_inputs u') j = nth_error (u_inputs u) j.
Proof.
  induction l as [|o l IH]; intros u u' E; cbn [apply_ops] in E; [injection E as <-; repeat split; reflexivity|].
  apply obind_ok in E. destruct E as (v & E1 & E). destruct (apply_op_inv _ _ _ E1) as (_ & i & _ & ->). destruct (IH _ _ E) as (A & B & C & D & F & G).
  rewrite A, B, C, D, F. unfold set_input. cbn [u_builder u_outputs u_preimages u_inputs u_estimated_size]. rewrite upd_length. repeat (split; [reflexivity|]).
  intros j Hj. rewrite G by (intros o' Ho; apply Hj; now right). unfold set_input. cbn [u_inputs]. apply nth_upd_other. apply Hj. now left.
Qed.

(** ** every slot of an unsigned transaction *)
Definition slot_ok (u : unsigned_tx) (P : builder_input -> tx_input -> Prop) : Prop :=
  length (u_inputs u) = length (b_inputs (u_builder u)) /\
  forall k bi i, nth_error (b_inputs (u_builder u)) k = Some bi -> nth_error (u_inputs u) k = Some (Some i) -> P bi i.
Lemma slots_apply (P : builder_input -> tx_input -> Prop) (u u' : unsigned_tx) o : slot_ok u P -> apply_op u o = Ok u' ->
  (forall bi i, nth_error (b_inputs (u_builder u)) (op_index o) = Some bi -> made u o = Ok i -> P bi i) -> slot_ok u' P.
Proof.
  intros [L H] E HP. destruct (apply_op_inv _ _ _ E) as (S & i & M & ->). split; unfold set_input; cbn [u_builder u_inputs]; [now rewrite upd_length|].
  intros k bi j Hb Hj. destruct (Nat.eq_dec (op_index o) k) as [<-|Hne].
  - rewrite nth_upd_same in Hj by (eapply nth_length; eassumption). injection Hj as <-. eapply HP; eassumption.
  - rewrite nth_upd_other in Hj by exact Hne. eapply H; eassumption.
Qed.
Lemma slots_apply_all (P : builder_input -> tx_input -> Prop) (l : list sign_op) : forall u u' : unsigned_tx, slot_ok u P -> apply_ops u l = Ok u' ->
  (forall o bi i, In o l -> nth_error (b_inputs (u_builder u)) (op_index o) = Some bi -> made u o = Ok i -> P bi i) -> slot_ok u' P.
Proof.
  induction l as [|o l IH]; intros u u' H E HP; cbn [apply_ops] in E; [injection E as <-; exact H|].
  apply obind_ok in E. destruct E as (v & E1 & E). destruct (apply_op_inv _ _ _ E1) as (_ & i & _ & Ev).
  eapply IH; [| exact E |].
  - eapply slots_apply; [exact H|exact E1|]. intros. eapply HP; eauto. now left.
  - intros o' bi j Ho. rewrite Ev. rewrite made_set. unfold set_input. cbn [u_builder]. intros. eapply HP; eauto. now right.
Qed.
Lemma slots_init (P : builder_input -> tx_input -> Prop) (u : unsigned_tx) b : u_builder u = b -> u_inputs u = map presigned (b_inputs b) ->
  (forall bi i, In bi (b_inputs b) -> bi_signed bi = Some i -> in_script i <> [] -> P bi i) -> slot_ok u P.
Proof.
  intros Eb Ei H. split; [now rewrite Ei, map_length, Eb|]. intros k bi i Hb Hi. rewrite Eb in Hb. rewrite Ei, nth_error_map, Hb in Hi. cbn [option_map] in Hi.
  injection Hi as Hi. unfold presigned in Hi. destruct (bi_signed bi) as [j|] eqn:Es; [|discriminate]. destruct (in_script j) eqn:Ej; [discriminate|].
  injection Hi as <-. eapply H; [eapply nth_error_In; eassumption|exact Es|congruence].
Qed.

Lemma build_without_inv sha (b : tx_builder) u : build_without_estimation sha b = Ok u ->
  known_outputs (b_outputs b) = Ok (u_outputs u) /\ estimate_size b (u_outputs u) = Ok (u_estimated_size u) /\
  build_preimages sha (builder_sig_tx b (u_outputs u)) = Ok (u_preimages u) /\ u_builder u = b /\ u_inputs u = map presigned (b_inputs b).
Proof.
  intros E. unfold build_without_estimation in E. apply obind_ok in E. destruct E as (outs & E1 & E). apply obind_ok in E. destruct E as (size & E2 & E). apply obind_ok in E. destruct E as (pre & E3 & E).
  injection E as <-. cbn [u_builder u_outputs u_preimages u_inputs u_estimated_size]. repeat split; assumption.
Qed.
Lemma build_inv0 sha release (b : tx_builder) u : build sha release b = Ok u ->
  exists st t0, place_all release b (sort_stable (leftovers_from 0 (b_outputs b))) (t0, no_amounts, None) = Ok st /\
  u_builder u = b /\ u_outputs u = make_outputs b (st_m st) /\ u_inputs u = map presigned (b_inputs b) /\
    build_preimages sha (builder_sig_tx b (u_outputs u)) = Ok (u_preimages u) /\
    match st_est st with Some s => u_estimated_size u = s | None => estimate_size b (u_outputs u) = Ok (u_estimated_size u) end.
Proof.
  intros E. unfold build in E.
  apply obind_ok in E. destruct E as (known & Ek & E). apply obind_ok in E. destruct E as (total & Et & E).
  destruct (_ <? _) eqn:El; [discriminate|].
  apply obind_ok in E. destruct E as ([[tm m] est] & Ep & E). exists (tm, m, est), (total - known). split; [exact Ep|].
  apply obind_ok in E. destruct E as (size & Es & E). apply obind_ok in E. destruct E as (pre & Epre & E). injection E as <-.
  cbn [u_builder u_outputs u_inputs u_preimages u_estimated_size st_m st_est fst snd]. repeat (split; [reflexivity || exact Epre|]).
  destruct est; [injection Es as <-; reflexivity|exact Es].
Qed.
Lemma known_outputs_inv outs os : known_outputs outs = Ok os <-> outs = map KnownValue os.
Proof.
  revert os. induction outs as [|[o|lo up p s] outs IH]; intros os; cbn [known_outputs].
  - split; [intros E; injection E as <-; reflexivity|destruct os; [reflexivity|discriminate]].
  - split.
    + intros E. apply obind_ok in E. destruct E as (r & Er & E). injection E as <-. cbn [map]. f_equal. now apply IH.
    + destruct os as [|o' os]; [discriminate|]. cbn [map]. intros E. injection E as -> E. apply IH in E. now rewrite E.
  - split; [discriminate|]. destruct os; discriminate.
Qed.
Lemma filled_known_all os : filled (map KnownValue os) (repeat None (length os)) os.
Proof. induction os as [|o os IH]; cbn; constructor. exact IH. Qed.

(** ** partial transactions *)
Lemma partial_inputs_spec slots (bis : list builder_input) : length slots = length bis ->
  Forall2 (fun p i => match fst p with Some j => i = j | None => i = signed_input (snd p) [] end) (combine slots bis) (partial_inputs slots bis).
Proof. revert bis. induction slots as [|s slots IH]; intros [|bi bis] H; cbn in *; try discriminate; constructor; [destruct s; reflexivity|]. apply IH. congruence. Qed.
Lemma partial_inputs_F2 (P : builder_input -> tx_input -> Prop) slots (bis : list builder_input) : length slots = length bis ->
  (forall k bi i, nth_error bis k = Some bi -> nth_error slots k = Some (Some i) -> P bi i) -> (forall bi, In bi bis -> P bi (signed_input bi [])) ->
  Forall2 P bis (partial_inputs slots bis).
Proof.
  revert bis. induction slots as [|s slots IH]; intros [|bi bis] H H1 H2; cbn in *; try discriminate; constructor.
  - destruct s as [i|]; [exact (H1 O bi i eq_refl eq_refl)|]. apply H2. now left.
  - apply IH; [congruence| |intros; apply H2; now right]. intros k. exact (H1 (S k)).
Qed.
Lemma complete_inv (u : unsigned_tx) t : complete_tx u = Ok t -> u_inputs u = map Some (tx_inputs t) /\ tx_outputs t = u_outputs u /\ tx_version t = b_version (u_builder u) /\ tx_lock_time t = b_lock_time (u_builder u).
Proof.
  unfold complete_tx. intros E. apply obind_ok in E. destruct E as (is & Ei & E). injection E as <-. cbn [tx_inputs tx_outputs tx_version tx_lock_time]. split; [|auto].
  revert is Ei. induction (u_inputs u) as [|s l IH]; intros is Ei; cbn [omap] in Ei; [injection Ei as <-; reflexivity|].
  apply obind_ok in Ei. destruct Ei as (i & E1 & Ei). apply obind_ok in Ei. destruct Ei as (r & E2 & Ei). injection Ei as <-. destruct s; [|discriminate]. cbn in E1. injection E1 as ->.
  cbn [map]. now rewrite (IH r E2).
Qed.
Lemma partial_complete slots (bis : list builder_input) is : slots = map Some is -> length slots = length bis -> partial_inputs slots bis = is.
Proof. intros ->. revert bis. induction is as [|i is IH]; intros [|bi bis] H; cbn in *; try discriminate; [reflexivity|]. f_equal. apply IH. congruence. Qed.
End B.

Lemma downcast_same (sigs : Z -> Type) ty (sg : sigs ty) : downcast ty (Any ty sg) = Some sg.
Proof.
  unfold downcast. cbn [any_type any_val]. destruct (Z.eq_dec ty ty) as [e|n]; [|congruence]. f_equal. 
  rewrite (UIP_dec Z.eq_dec e eq_refl). reflexivity.
Qed.
Lemma downcast_other (sigs : Z -> Type) ty ty' (sg : sigs ty) : ty <> ty' -> downcast ty' (Any ty sg) = None.
Proof. intros H. unfold downcast. cbn [any_type any_val]. destruct (Z.eq_dec ty ty'); [congruence|reflexivity]. Qed.

(** ** sizes of P2PKH input scripts *)
Lemma push_len a : 1 <= zlen (ba_data a) <= 75 -> exists x, serialize_push_bytes a true = Ok x /\ zlen (ba_data x) <= 1 + zlen (ba_data a) /\
  (2 <= zlen (ba_data a) -> zlen (ba_data x) = 1 + zlen (ba_data a)).
Proof.
  intros H. unfold serialize_push_bytes, serialize_push_prefix. set (n := zlen (ba_data a)) in *.
  rewrite (proj2 (Z.eqb_neq n 0)) by lia. cbn [andb]. destruct (n =? 1) eqn:E1; cbn [andb].
  - apply Z.eqb_eq in E1. destruct ((0 <? nth 0 (ba_data a) 0) && _); [|destruct (_ =? 0x81)]; cbn [obind]; eexists; (split; [reflexivity|]);
      rewrite ?concat_data; cbn [ba_data ba_unnamed ba_new]; rewrite ?zlen_app, ?zlen_cons, ?zlen_nil; fold n; lia.
  - apply Z.eqb_neq in E1. rewrite (proj2 (Z.leb_le n 0x4b)) by lia. cbn [obind]. eexists. split; [reflexivity|].
    rewrite concat_data. cbn [ba_data ba_unnamed ba_new]. rewrite zlen_app, zlen_cons, zlen_nil. fold n. lia.
Qed.
Lemma p2pkh_script_len pk f sg : length pk = 33%nat -> zlen (ba_data sg) <= MAX_SIGNATURE_SIZE ->
  exists x, script_ser_ops (p2pkh_build_script (P2PKHSignatory pk f) sg) = Ok x /\ zlen (ba_data x) <= 108 /\ (zlen (ba_data sg) = MAX_SIGNATURE_SIZE -> zlen (ba_data x) = 108).
Proof.
  intros Hpk Hs. unfold MAX_SIGNATURE_SIZE in *. pose proof (zlen_nonneg (ba_data sg)).
  unfold script_ser_ops, p2pkh_build_script, serialize_ops. cbn [map sg_flags sg_pubkey tagged_named tagged_from_op t_op op_from_array omap serialize_op].
  destruct (push_len (ba_concat sg (ba_new "sig_hash" [f mod 256]))) as (x & Ex & A & B); [rewrite concat_data; cbn [ba_data ba_new]; rewrite zlen_app, zlen_cons, zlen_nil; lia|].
  destruct (push_len (ba_unnamed pk)) as (y & Ey & C & D); [cbn [ba_data ba_unnamed ba_new]; unfold zlen; lia|].
  rewrite concat_data in A, B. cbn [ba_data ba_new ba_unnamed] in *. rewrite zlen_app, zlen_cons, zlen_nil in A, B.
  rewrite Ex. cbn [obind]. rewrite Ey. cbn [obind]. eexists. split; [reflexivity|]. rewrite from_parts_data. cbn [map concat]. rewrite !zlen_app, zlen_nil.
  assert (zlen pk = 33) as Hz by (unfold zlen; lia). rewrite Hz in *. specialize (D ltac:(lia)). split; [lia|]. intros Heq. specialize (B ltac:(lia)). lia.
Qed.
Lemma p2pkh_fits (sigs : Z -> Type) ty (to_ba : sigs ty -> barray) of_ba s : (forall x, to_ba (of_ba x) = x) -> is_p2pkh sigs ty to_ba of_ba s ->
  fits_placeholder (short_sig sigs ty to_ba) s.
Proof.
  intros Hrt (pk & f & Hpk & _ & _ & ->) sg pre est lock outs outs' placed real pb Hg E1 E2 E3. cbn [s_type p2pkh_signatory_of] in sg, Hg.
  destruct Hg as (e & _ & Hlen). rewrite (UIP_dec Z.eq_dec e eq_refl) in Hlen. cbn [eq_rect] in Hlen.
  assert (placed = p2pkh_build_script (P2PKHSignatory pk f) p2pkh_placeholder) as ->.
  { unfold s_script, s_build in E1. cbn in E1. rewrite Hrt in E1. congruence. }
  assert (real = p2pkh_build_script (P2PKHSignatory pk f) (to_ba sg)) as ->.
  { unfold s_script, s_build in E3. cbn [s_kind p2pkh_signatory_of s_is_p2sh] in E3. destruct pre; [discriminate|]. cbn [obind] in E3. cbn in E3. congruence. }
  destruct (p2pkh_script_len pk f p2pkh_placeholder Hpk) as (x & Ex & _ & Hx); [reflexivity|]. specialize (Hx eq_refl).
  destruct (p2pkh_script_len pk f (to_ba sg) Hpk Hlen) as (y & Ey & Hy & _). exists y. split; [exact Ey|]. assert (pb = x) as -> by congruence. lia.
Qed.

Section C.
Context {sigs : Z -> Type}.
Notation tx_builder := (tx_builder sigs).
Notation builder_input := (builder_input sigs).
Notation unsigned_tx := (unsigned_tx sigs).
Notation sign_op := (@sign_op sigs).

(** the estimate that [build] reports is that of a transaction with the same output scripts *)
Lemma est_pattern release (b : tx_builder) l : forall st st', NoDup (map fst l) -> (forall k, In k (map fst l) -> st_m st k = None) ->
  (forall size, st_est st = Some size -> exists m1, estimate_size b (make_outputs b m1) = Ok size /\ forall k, m1 k = None <-> st_m st k = None) ->
  place_all release b l st = Ok st' ->
  forall size, st_est st' = Some size -> exists m1, estimate_size b (make_outputs b m1) = Ok size /\ forall k, m1 k = None <-> st_m st' k = None.
Proof.
  induction l as [|[k p] l IH]; intros st st' ND HN HQ E; cbn [place_all] in E; [injection E as <-; exact HQ|].
  cbn [map fst] in *. inversion ND as [|? ? Hnin ND']; subst.
  destruct (nth_error (b_outputs b) k) as [[o|lo up p' s]|] eqn:En; [|apply obind_ok in E; destruct E as (st0 & E0 & E)|discriminate].
  { eapply IH; eauto. intros j Hj. apply HN. now right. }
  assert (Hm : st_m st k = None) by (apply HN; now left).
  apply (IH st0 st' ND'); [| |exact E].
  - intros j Hj. assert (j <> k) as Hne by congruence. assert (st_m st j = None) as Hj0 by (apply HN; now right).
    destruct st as [[total m] est]. unfold place in E0. cbn [st_m fst snd] in *.
    assert (forall v, set_amount m k v j = None) as Hs by (intros v; unfold set_amount; destruct (Nat.eqb_spec j k); congruence).
    destruct (total <=? lo); [injection E0 as <-; exact Hj0|]. apply obind_ok in E0. destruct E0 as (size & _ & E0). apply obind_ok in E0. destruct E0 as (pr & _ & E0).
    destruct (_ <=? total); [destruct (_ <=? lo)|]; injection E0 as <-; apply Hs.
  - intros size Hsz. destruct st as [[total m] est]. unfold place in E0. cbn [st_m st_est fst snd] in *.
    assert (forall j, set_amount m k None j = m j) as Hs by (intros j; unfold set_amount; destruct (Nat.eqb_spec j k); congruence).
    destruct (total <=? lo); [injection E0 as <-; exact (HQ size Hsz)|]. apply obind_ok in E0. destruct E0 as (size' & Es & E0). apply obind_ok in E0. destruct E0 as (pr & _ & E0).
    destruct (_ <=? total); [destruct (_ <=? lo)|]; injection E0 as <-; cbn [st_m st_est fst snd] in *.
    + destruct (HQ size Hsz) as (m1 & A & B). exists m1. split; [exact A|]. intros j. rewrite Hs. apply B.
    + injection Hsz as <-. eexists. split; [exact Es|]. intros j. unfold set_amount. destruct (Nat.eqb_spec j k); [split; discriminate|reflexivity].
    + destruct (HQ size Hsz) as (m1 & A & B). exists m1. split; [exact A|]. intros j. rewrite Hs. apply B.
Qed.
Lemma order_nodup outs : NoDup (map fst (sort_stable (leftovers_from 0 outs))).
Proof.
  apply (Permutation_NoDup (l := map fst (leftovers_from 0 outs))); [apply Permutation_map, sort_perm|].
  generalize O. induction outs as [|[o|lo up p s] outs IH]; intros idx; cbn [leftovers_from map fst]; [constructor|apply IH|]. constructor; [|apply IH].
  intros H. apply in_map_iff in H. destruct H as ([k p'] & Hk & Hin). cbn in Hk. subst k. pose proof (leftovers_ge outs (S idx)) as G. rewrite Forall_forall in G. specialize (G _ Hin). cbn in G. lia.
Qed.
Lemma pattern_scripts (b : tx_builder) m m' : (forall k, m k = None <-> m' k = None) -> map out_script (make_outputs b m) = map out_script (make_outputs b m').
Proof.
  intros H. eapply filled_scripts; [apply filled_values|apply filled_values|]. generalize O. generalize (b_outputs b). induction l as [|[o|? ? ? ?] l IH]; intros idx; cbn [values]; constructor; auto; try tauto.
Qed.
Lemma reported_estimate sha release (b : tx_builder) u : build sha release b = Ok u \/ build_without_estimation sha b = Ok u ->
  exists os, estimate_size b os = Ok (u_estimated_size u) /\ map out_script os = map out_script (u_outputs u).
Proof.
  intros [E|E].
  - destruct (build_inv0 _ _ _ _ E) as (st & t0 & Ep & _ & Eo & _ & _ & Es). destruct (st_est st) as [size|] eqn:Est.
    + destruct (est_pattern release b _ (t0, no_amounts, None) st (order_nodup _) (fun _ _ => eq_refl) (fun size H => ltac:(discriminate H)) Ep size Est) as (m1 & A & B).
      exists (make_outputs b m1). rewrite Es, Eo. split; [exact A|]. now apply pattern_scripts.
    + exists (u_outputs u). auto.
  - destruct (build_without_inv _ _ _ E) as (_ & Es & _). exists (u_outputs u). auto.
Qed.
Lemma build_frame sha release (b : tx_builder) u : build sha release b = Ok u \/ build_without_estimation sha b = Ok u ->
  u_builder u = b /\ u_inputs u = map presigned (b_inputs b) /\ build_preimages sha (builder_sig_tx b (u_outputs u)) = Ok (u_preimages u).
Proof.
  intros [E|E]; [destruct (build_inv0 _ _ _ _ E) as (st & t0 & _ & A & _ & B & C & _)|destruct (build_without_inv _ _ _ E) as (_ & _ & C & A & B)]; auto.
Qed.

Definition not_longer (bi : builder_input) (i : tx_input) : Prop :=
  in_prev_out i = ui_prev_out (bi_input bi) /\
  forall outs j n, estimate_input outs bi = Ok j -> script_len (in_script j) = Ok n -> exists m, script_len (in_script i) = Ok m /\ m <= n.
Lemma from_tx_not_longer i i' : in_prev_out i' = in_prev_out i -> in_script i' = in_script i -> not_longer (from_tx_input sigs i) i'.
Proof.
  intros H1 H2. split; [exact H1|]. intros outs j n Ej En. unfold estimate_input, from_tx_input in Ej. cbn [bi_lock_script bi_func] in Ej.
  exists n. split; [|lia]. rewrite H2. destruct (in_lock_script i); cbn [obind] in Ej; assert (in_script j = in_script i) as <- by (injection Ej as <-; reflexivity); exact En.
Qed.
Theorem estimate_bounds sha release good (b : tx_builder) u ops u' t : constructed (fits_placeholder good) b ->
  (build sha release b = Ok u \/ build_without_estimation sha b = Ok u) -> apply_ops u ops = Ok u' -> Forall (signs_with good) ops -> complete_tx u' = Ok t ->
  exists raw, tx_ser t = Ok raw /\ zlen (ba_data raw) <= u_estimated_size u.
Proof.
  intros HC HB HA HG HT. destruct (build_frame _ _ _ _ HB) as (Fb & Fi & _). destruct (reported_estimate _ _ _ _ HB) as (os & Ees & Hscr).
  pose proof (constructed_inputs _ _ HC) as HI. rewrite Forall_forall in HI.
  assert (S0 : slot_ok u not_longer).
  { apply (slots_init _ _ b Fb Fi). intros bi i Hin Hs Hne. destruct (HI _ Hin) as [(i0 & ->)|(? & ? & ? & ? & ->)]; cbn in Hs; [|discriminate]. injection Hs as <-. now apply from_tx_not_longer. }
  assert (S1 : slot_ok u' not_longer).
  { eapply slots_apply_all; [exact S0|exact HA|]. intros o bi i Ho Hb Hm. rewrite Fb in Hb. destruct (made_inv _ _ _ Hm) as (bi' & pre & s & Hb' & _ & -> & Hs). rewrite Fb in Hb'. assert (bi' = bi) as -> by congruence.
    rewrite Forall_forall in HG. destruct (HG o Ho) as (idx & ty & sg & -> & Hgood). destruct (HI _ (nth_error_In _ _ Hb)) as [(i0 & ->)|(input & lock & sig & Hfit & ->)].
    - cbn [bi_func from_tx_input] in Hs. injection Hs as <-. now apply from_tx_not_longer.
    - split; [reflexivity|]. cbn [bi_func] in Hs. unfold signatory_func in Hs. apply obind_ok in Hs. destruct Hs as (v & Ev & Hs).
      assert (good (s_type sig) v) as Hgv.
      { destruct (Z.eq_dec ty (s_type sig)) as [e|n]; [|rewrite downcast_other in Ev by exact n; discriminate]. clear Hs. revert v Ev. rewrite <- e. intros v Ev. rewrite downcast_same in Ev. cbn in Ev. injection Ev as <-. exact Hgood. }
      intros outs j n Ej En. unfold estimate_input in Ej. cbn [bi_lock_script bi_func bi_flags bi_input] in Ej. apply obind_ok in Ej. destruct Ej as (sc & Esc & Ej).
      assert (in_script j = sc) as Hj by (injection Ej as <-; reflexivity). rewrite Hj in En. unfold signatory_func in Esc. cbn [obind] in Esc.
      unfold script_len, lenO in En. apply obind_ok in En. destruct En as (pb & Epb & En). assert (n = zlen (ba_data pb)) as -> by congruence.
      cbn [lock_or_empty bi_lock_script] in Hs.
      destruct (Hfit _ _ _ _ _ _ _ _ _ Hgv Esc Epb Hs) as (rb & Erb & Hle). exists (zlen (ba_data rb)). split; [|exact Hle].
      cbn [signed_input in_script]. unfold script_len, lenO. rewrite Erb. reflexivity. }
  destruct (complete_inv _ _ HT) as (Ci & Co & Cv & Cl). destruct (apply_ops_frame _ _ _ HA) as (Ab & Ao & _ & _ & Al & _).
  rewrite estimate_len in Ees. apply obind_ok in Ees. destruct Ees as (is & Eis & Ees). unfold tx_len in Ees. cbn [tx_inputs tx_outputs] in Ees.
  apply obind_ok in Ees. destruct Ees as (ns & Ens & Ees). apply obind_ok in Ees. destruct Ees as (ms & Ems & Ees).
  destruct S1 as (L1 & S1). rewrite Ab, Fb in L1, S1. rewrite Ci in L1, S1.
  assert (HF : Forall2 (fun i j => in_prev_out i = in_prev_out j /\ forall n, script_len (in_script j) = Ok n -> exists m, script_len (in_script i) = Ok m /\ m <= n) (tx_inputs t) is).
  { apply omap_Forall2 in Eis. clear - L1 S1 Eis. rewrite map_length in L1. revert L1 S1. generalize (tx_inputs t). induction Eis as [|bi j bis is Hj _ IH]; intros ins L1 S1; (destruct ins as [|i ins]; [|cbn in L1]); cbn in L1; try discriminate; constructor.
    - destruct (S1 O bi i eq_refl eq_refl) as [A B]. split; [|intros n Hn; exact (B _ _ _ Hj Hn)]. rewrite A. unfold estimate_input in Hj. destruct (bi_lock_script bi); apply obind_ok in Hj; destruct Hj as (sc & _ & Hj); injection Hj as <-; reflexivity.
    - apply IH; [congruence|]. intros k. exact (S1 (S k)). }
  destruct (ins_le _ _ _ HF Ens) as (ns' & Ens' & Hle). destruct (outs_len_same _ _ Hscr) as [Hol Hoz]. rewrite Hol in Ems.
  assert (tx_len t = Ok (8 + vl (zlen (tx_inputs t)) + sum ns' + vl (zlen (tx_outputs t)) + sum ms)) as HL.
  { unfold tx_len. rewrite Ens'. cbn [obind]. rewrite Co, Ao, Ems. reflexivity. }
  destruct (tx_len_ok_ser _ _ HL) as (raw & Er & Hr). exists raw. split; [exact Er|].
  assert (zlen (tx_inputs t) = zlen is) as Hz by (unfold zlen; now rewrite (Forall2_len _ _ _ HF)).
  assert (u_estimated_size u = 8 + vl (zlen is) + sum ns + vl (zlen os) + sum ms) as -> by congruence. rewrite Hr, Co, Ao, Hoz, Hz. lia.
Qed.

(** ** hand-over *)
Definition handed (bi : builder_input) (i : tx_input) : Prop :=
  (exists s, i = signed_input bi s) \/ (bi = from_tx_input sigs i /\ in_script i <> []).
Lemma partial_handed sha release allowed (b : tx_builder) u : constructed allowed b -> unsigned_of sha release b u ->
  u_builder u = b /\ Forall2 handed (b_inputs b) (tx_inputs (partial_tx u)) /\ build_preimages sha (builder_sig_tx b (u_outputs u)) = Ok (u_preimages u).
Proof.
  intros HC (u0 & ops & HB & HA). destruct (build_frame _ _ _ _ HB) as (Fb & Fi & Fp). destruct (apply_ops_frame _ _ _ HA) as (Ab & Ao & Ap & _).
  pose proof (constructed_inputs _ _ HC) as HI. rewrite Forall_forall in HI.
  assert (S0 : slot_ok u0 handed).
  { apply (slots_init _ _ b Fb Fi). intros bi i Hin Hs Hne. destruct (HI _ Hin) as [(i0 & ->)|(? & ? & ? & ? & ->)]; cbn in Hs; [|discriminate]. injection Hs as <-. right. auto. }
  assert (S1 : slot_ok u handed).
  { eapply slots_apply_all; [exact S0|exact HA|]. intros o bi i Ho Hb Hm. destruct (made_inv _ _ _ Hm) as (bi' & pre & s & Hb' & _ & -> & Hs). assert (bi' = bi) as -> by congruence. left. eauto. }
  destruct S1 as [L1 S1]. rewrite Ab, Fb in *. split; [reflexivity|]. split; [|congruence].
  unfold partial_tx. cbn [tx_inputs]. rewrite Ab. apply partial_inputs_F2; [exact L1|exact S1|]. intros bi _. left. eauto.
Qed.
Lemma reimport_sig_tx (b : tx_builder) (t : unhashed_tx) outs : Forall2 handed (b_inputs b) (tx_inputs t) -> tx_version t = b_version b -> tx_lock_time t = b_lock_time b ->
  builder_sig_tx (from_tx sigs t) outs = builder_sig_tx b outs.
Proof.
  intros H V L. unfold builder_sig_tx. cbn [b_version b_inputs b_lock_time from_tx]. rewrite V, L. f_equal. rewrite map_map.
  induction H as [|bi i bis is Hi _ IH]; [reflexivity|]. cbn [map]. f_equal; [|exact IH]. destruct Hi as [(s & ->)|(-> & _)]; reflexivity.
Qed.
Lemma reimport_inputs (b : tx_builder) is : Forall2 handed (b_inputs b) is ->
  partial_inputs (map presigned (map (from_tx_input sigs) is)) (map (from_tx_input sigs) is) = is.
Proof.
  induction 1 as [|bi i bis is Hi _ IH]; [reflexivity|]. cbn [map partial_inputs]. f_equal; [|exact IH]. unfold presigned, from_tx_input at 1. cbn [bi_signed].
  destruct (in_script i) eqn:Es; [|reflexivity]. destruct Hi as [(s & ->)|(_ & Hne)]; [|congruence]. cbn [signed_input in_script] in Es. subst s. reflexivity.
Qed.
Lemma reimport_estimate (t : unhashed_tx) : estimate_size (from_tx sigs t) (tx_outputs t) = tx_len t.
Proof.
  rewrite estimate_len. cbn [from_tx b_inputs b_version b_lock_time]. rewrite omap_map.
  assert (omap (fun x => estimate_input (tx_outputs t) (from_tx_input sigs x)) (tx_inputs t) = Ok (map (fun i => TxInput (in_prev_out i) (in_script i) (in_sequence i) None None None None) (tx_inputs t))) as ->.
  { induction (tx_inputs t) as [|i l IH]; [reflexivity|]. cbn [omap map]. rewrite IH. unfold estimate_input, from_tx_input. cbn [bi_lock_script bi_func bi_input]. destruct (in_lock_script i); reflexivity. }
  cbn [obind]. unfold tx_len. cbn [tx_inputs tx_outputs]. rewrite omap_map. unfold zlen. rewrite map_length. reflexivity.
Qed.
End C.
