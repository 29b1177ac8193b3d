(** Property C67: what is shown for signing is what is signed and what is sent. *)
From Verif Require Import Base BaseLemmas Model_Encoding Model_ByteArray Proofs_ByteArray Model_Opcode Model_Script Spec_Script Proofs_Script Model_Code Spec_Code Proofs_Code
  Model_Address Model_Destination Model_Preimage Spec_Preimage Proofs_Preimage Prop_Preimage Model_TxBuilder Spec_TxBuilder Proofs_TxBuilder Proofs_TxBuilder2 Proofs_TxBuilder3 Proofs_TxBuilder4 Proofs_TxBuilder5 Prop_TxBuilder Prop_TxBuilder2
  Model_InputRef Spec_InputRef.
Local Open Scope Z_scope.

Section P.
Context {sigs : Z -> Type}.
Notation tx_builder := (tx_builder sigs).
Notation unsigned_tx := (unsigned_tx sigs).
Notation signatory := (signatory sigs).

Lemma added_at (b b' b2 : tx_builder) input lock s r more : add_input b input lock s = (b', r) -> b_inputs b2 = b_inputs b' ++ more ->
  nth_error (b_inputs b2) r = Some (BuilderInput input (signatory_func s) (s_flags s) (Some lock) (Some (s_is_p2sh s)) None).
Proof.
  intros Ea Eb2. unfold add_input in Ea. injection Ea as <- <-. cbn [b_inputs] in Eb2. rewrite Eb2, <- app_assoc, nth_error_app2, Nat.sub_diag by lia. reflexivity.
Qed.
Lemma preimages_for sha (b : tx_builder) outs pss k bi lock : build_preimages sha (builder_sig_tx b outs) = Ok pss -> nth_error (b_inputs b) k = Some bi -> bi_lock_script bi = Some lock ->
  exists ps, nth_error pss k = Some ps /\ Forall2 (preimage_for (b_version b) (b_lock_time b) (bi_input bi) lock) (bi_flags bi) ps.
Proof.
  intros E Hk Hl. rewrite build_preimages_eq in E. apply obind_ok in E. destruct E as ([[hp hs] ho] & _ & E). destruct (build_inputs_nth _ _ _ _ _ _ _ _ E) as [_ H].
  cbn [builder_sig_tx st_inputs] in H. edestruct (H k) as (ps & Hp & Ho); [rewrite nth_error_map, Hk; reflexivity|]. exists ps. split; [exact Hp|].
  cbn [si_flags] in Ho. apply omap_Forall2 in Ho. clear - Ho Hl. induction Ho as [|f p fs ps Hp _ IH]; constructor; [|exact IH].
  rewrite (build_preimage_eq _ _ _ _ _ _ _ _ lock (ui_value (bi_input bi))) in Hp; [|cbn [si_lock_script]; now rewrite Hl|reflexivity].
  apply obind_ok in Hp. destruct Hp as (h & _ & Hp). cbn [builder_sig_tx st_version st_lock_time si_outpoint si_sequence] in Hp. injection Hp as <-. unfold preimage_for.
  cbn [pi_version pi_lock_time pi_outpoint pi_sequence pi_value pi_script_code pi_sig_hash_type]. auto 10.
Qed.
Lemma sign_at (u : unsigned_tx) k bi pre s sg : nth_error (u_inputs u) k = Some None -> nth_error (b_inputs (u_builder u)) k = Some bi -> nth_error (u_preimages u) k = Some pre ->
  bi_func bi = signatory_func s -> sign_input u k (s_type s) sg = do x <- s_script s pre (Some (u_estimated_size u)) sg (lock_or_empty bi) (u_outputs u); Ok (set_input u k (signed_input bi x)).
Proof.
  intros Hr Hb Hp Hf. unfold sign_input, sign_input_dyn. rewrite Hr, Hb, Hp. cbn [expect obind]. rewrite Hf. unfold signatory_func. rewrite downcast_same. reflexivity.
Qed.
Lemma shown_script (u : unsigned_tx) k bi sc : nth_error (u_inputs u) k = Some None -> nth_error (b_inputs (u_builder u)) k = Some bi ->
  nth_error (tx_inputs (partial_tx (set_input u k (signed_input bi sc)))) k = Some (signed_input bi sc).
Proof.
  intros Hr Hb. rewrite partial_set. cbn [tx_inputs]. apply nth_upd_same. unfold partial_tx. cbn [tx_inputs]. apply nth_error_Some. rewrite partial_nth_at, Hr, Hb. discriminate.
Qed.
End P.

(** C67, one flag set: the reference reads one preimage, for exactly the coin, locking script and flags the input was added with;
    and it is the very preimage the signatory builds its script from when that input is signed (followed by the redeem script for P2SH). *)
Theorem C67_single_preimage : forall sigs sha256d release (b b' b2 : tx_builder sigs) input lock ty ph p2sh flags bld r more u,
  let s := Signatory ty ph p2sh (KindOne ty flags bld) in
  add_input b input lock s = (b', r) -> b_inputs b2 = b_inputs b' ++ more -> unsigned_of sha256d release b2 u ->
  exists p, input_preimages u s r = Ok (inl p) /\ preimage_for (b_version b2) (b_lock_time b2) input lock flags p /\ nth_error (preimages u) r = Some [p] /\
    (nth_error (u_inputs u) r = Some None -> forall sg ops ser, bld p (Some (u_estimated_size u)) sg lock (u_outputs u) = Ok ops -> script_ser_ops lock = Ok ser ->
       exists u' i, sign_input u r ty sg = Ok u' /\ nth_error (tx_inputs (partial_tx u')) r = Some i /\ in_script i = ops ++ (if p2sh then [tagged_from_op (op_from_array ser)] else [])).
Proof.
  intros sigs sha release b b' b2 input lock ty ph p2sh flags bld r more u s Ea Eb2 HU. pose proof (added_at _ _ _ _ _ _ _ _ Ea Eb2) as Hk.
  destruct (unsigned_frame _ _ _ _ HU) as (Ub & _ & Up & _). destruct (preimages_for _ _ _ _ _ _ lock Up Hk eq_refl) as (ps & Hps & F). cbn [bi_input bi_flags s_flags s_kind s] in F.
  inversion F as [|f p fs ps' Hp F' E1 E2]; subst f fs. inversion F'; subst ps'. subst ps. exists p. unfold input_preimages, preimages. rewrite Hps. cbn [expect obind make_tx_preimages s s_kind].
  split; [reflexivity|]. split; [exact Hp|]. split; [reflexivity|]. intros Hn sg ops ser Hb Hser. pose proof Hk as Hk'. rewrite <- Ub in Hk'.
  pose proof (sign_at u r _ [p] s sg Hn Hk' Hps eq_refl) as HS. unfold s_script, s_build in HS. cbn [s s_kind s_is_p2sh lock_or_empty bi_lock_script s_type] in HS. rewrite Hb, Hser in HS. cbn [obind] in HS.
  destruct p2sh; (eexists _, _; split; [exact HS|]; split; [apply shown_script; assumption|]; cbn [signed_input in_script]); [reflexivity|now rewrite app_nil_r].
Qed.
Print Assumptions C67_single_preimage.

(** C67, several flag sets: one preimage for each of them, in their order. *)
Theorem C67_multiple_preimages : forall sigs sha256d release (b b' b2 : tx_builder sigs) input lock ty ph p2sh flags bld r more u,
  let s := Signatory ty ph p2sh (KindMultiple ty flags bld) in
  add_input b input lock s = (b', r) -> b_inputs b2 = b_inputs b' ++ more -> unsigned_of sha256d release b2 u ->
  exists ps, input_preimages u s r = Ok (inr ps) /\ Forall2 (preimage_for (b_version b2) (b_lock_time b2) input lock) flags ps /\ nth_error (preimages u) r = Some ps /\
    (nth_error (u_inputs u) r = Some None -> forall sg ops ser, bld ps (Some (u_estimated_size u)) sg lock (u_outputs u) = Ok ops -> script_ser_ops lock = Ok ser ->
       exists u' i, sign_input u r ty sg = Ok u' /\ nth_error (tx_inputs (partial_tx u')) r = Some i /\ in_script i = ops ++ (if p2sh then [tagged_from_op (op_from_array ser)] else [])).
Proof.
  intros sigs sha release b b' b2 input lock ty ph p2sh flags bld r more u s Ea Eb2 HU. pose proof (added_at _ _ _ _ _ _ _ _ Ea Eb2) as Hk.
  destruct (unsigned_frame _ _ _ _ HU) as (Ub & _ & Up & _). destruct (preimages_for _ _ _ _ _ _ lock Up Hk eq_refl) as (ps & Hps & F). cbn [bi_input bi_flags s_flags s_kind s] in F.
  exists ps. unfold input_preimages, preimages. rewrite Hps. cbn [expect obind make_tx_preimages s s_kind].
  split; [reflexivity|]. split; [exact F|]. split; [reflexivity|]. intros Hn sg ops ser Hb Hser. pose proof Hk as Hk'. rewrite <- Ub in Hk'.
  pose proof (sign_at u r _ ps s sg Hn Hk' Hps eq_refl) as HS. unfold s_script, s_build in HS. cbn [s s_kind s_is_p2sh lock_or_empty bi_lock_script s_type] in HS. rewrite Hb, Hser in HS. cbn [obind] in HS.
  destruct p2sh; (eexists _, _; split; [exact HS|]; split; [apply shown_script; assumption|]; cbn [signed_input in_script]); [reflexivity|now rewrite app_nil_r].
Qed.
Print Assumptions C67_multiple_preimages.

(** C67: signing never changes what is shown, for any input. *)
Theorem C67_signing_keeps_preimages : forall sigs (u u' : unsigned_tx sigs) ops s r, apply_ops u ops = Ok u' -> input_preimages u' s r = input_preimages u s r /\ preimages u' = preimages u.
Proof. intros sigs u u' ops s r E. destruct (apply_ops_frame _ _ _ E) as (_ & _ & Ap & _). unfold input_preimages, preimages. rewrite Ap. auto. Qed.
Print Assumptions C67_signing_keeps_preimages.

Lemma handed_known sigs (bi : builder_input sigs) i : handed bi i -> in_value i <> None -> in_lock_script i <> None ->
  in_prev_out i = ui_prev_out (bi_input bi) /\ in_sequence i = ui_sequence (bi_input bi) /\ in_value i = Some (ui_value (bi_input bi)) /\ in_lock_script i = bi_lock_script bi.
Proof.
  intros [(s & ->)|[-> _]] Hv Hl; [cbn; auto|]. cbn [from_tx_input bi_input ui_prev_out ui_sequence ui_value bi_lock_script]. split; [reflexivity|]. split; [reflexivity|]. split; [|reflexivity]. destruct (in_value i); congruence.
Qed.
Lemma handed_maps sigs (bis : list (builder_input sigs)) is : Forall2 handed bis is ->
  map in_prev_out is = map (fun bi => ui_prev_out (bi_input bi)) bis /\ map in_sequence is = map (fun bi => ui_sequence (bi_input bi)) bis.
Proof.
  induction 1 as [|bi i bis is H _ (IH1 & IH2)]; [auto|]. cbn [map]. rewrite IH1, IH2. destruct (handed_spends _ _ H) as (-> & -> & _). auto.
Qed.
Lemma F2_nth1 {A B} (R : A -> B -> Prop) l l' k x : Forall2 R l l' -> nth_error l k = Some x -> exists y, nth_error l' k = Some y /\ R x y.
Proof. intros H. revert k. induction H as [|a b l l' Hab _ IH]; intros [|k] E; try discriminate; cbn in *; [injection E as <-; eauto|eauto]. Qed.
Lemma F2_nth2 {A B} (R : A -> B -> Prop) l l' k y : Forall2 R l l' -> nth_error l' k = Some y -> exists x, nth_error l k = Some x /\ R x y.
Proof. intros H. revert k. induction H as [|a b l l' Hab _ IH]; intros [|k] E; try discriminate; cbn in *; [injection E as <-; eauto|eauto]. Qed.

(** C67: what was shown is what the finished transaction (completed or partial, after any signing) needs: recomputing the preimages
    from it, for any list of flags, gives back the same ones. *)
Theorem C67_shown_is_sent : forall sigs sha256d release allowed (b : tx_builder sigs) u t flags pss k ps j p m, constructed allowed b -> unsigned_of sha256d release b u -> final_tx u t ->
  tx_preimages sha256d t flags = Ok pss ->
  nth_error (preimages u) k = Some ps -> nth_error ps j = Some p -> nth_error flags m = Some (pi_sig_hash_type p) ->
  exists qs, nth_error pss k = Some qs /\ nth_error qs m = Some p.
Proof.
  intros sigs sha release allowed b u t flags pss k ps j p m HC HU HT EP Hk Hj Hm. rewrite (final_partial _ _ _ _ _ HU HT) in *. clear HT t. unfold preimages in Hk.
  destruct (partial_handed _ _ _ _ _ HC HU) as (Ub & HH & HP).
  assert (K : Forall (fun i => in_value i <> None /\ in_lock_script i <> None) (tx_inputs (partial_tx u))).
  { eapply C24_unknown_value_or_script_panics; [|exact EP]. intros ->. destruct m; discriminate. }
  pose proof HP as HP'. rewrite build_preimages_eq in HP'. apply obind_ok in HP'. destruct HP' as ([[hp hs] ho] & _ & HP'). destruct (build_inputs_nth _ _ _ _ _ _ _ _ HP') as [HF HN].
  cbn [builder_sig_tx st_inputs] in HF, HN.
  destruct (F2_nth2 _ _ _ _ _ HF Hk) as (si & Hsi & _). rewrite nth_error_map in Hsi. destruct (nth_error (b_inputs b) k) as [bi|] eqn:Hbi; [|discriminate]. cbn [option_map] in Hsi.
  destruct (F2_nth1 _ _ _ _ _ HH Hbi) as (i & Hi & Hh). rewrite Forall_forall in K. destruct (K i (nth_error_In _ _ Hi)) as [Kv Kl].
  destruct (handed_known _ _ _ Hh Kv Kl) as (Ho & Hq & Hv & Hl). destruct (bi_lock_script bi) as [lock|] eqn:El; [|congruence].
  destruct (preimages_for _ _ _ _ _ _ lock HP Hbi El) as (ps' & Hps' & F). assert (ps' = ps) as -> by congruence. destruct (F2_nth2 _ _ _ _ _ F Hj) as (f & Hf & (_ & _ & _ & _ & _ & _ & Ef)).
  rewrite Ef in Hm. destruct (handed_maps _ _ _ HH) as [M1 M2].
  destruct (preimage_depends sha (builder_sig_tx b (u_outputs u)) (sig_tx_of (partial_tx u) flags) k k
    (SigInput (ui_prev_out (bi_input bi)) (ui_sequence (bi_input bi)) (bi_flags bi) (Some (ui_value (bi_input bi))) (Some lock))
    (SigInput (in_prev_out i) (in_sequence i) flags (in_value i) (in_lock_script i)) j m f (u_preimages u) pss) as (a & a' & q & A1 & A2 & A3 & A4); try assumption.
  - cbn [builder_sig_tx st_inputs]. rewrite nth_error_map, Hbi. cbn [option_map]. now rewrite El.
  - unfold sig_tx_of. cbn [st_inputs]. now rewrite nth_error_map, Hi.
  - cbn. now rewrite Ub.
  - cbn. now rewrite Ub.
  - cbn. now rewrite Ho.
  - cbn. now rewrite Hq.
  - cbn. now rewrite Hv.
  - cbn. now rewrite Hl.
  - right. unfold builder_sig_tx, sig_tx_of. cbn [st_inputs]. rewrite !map_map. cbn [si_outpoint]. symmetry. exact M1.
  - right. right. right. unfold builder_sig_tx, sig_tx_of. cbn [st_inputs]. rewrite !map_map. cbn [si_sequence]. symmetry. exact M2.
  - unfold builder_sig_tx, sig_tx_of. cbn [st_outputs]. unfold partial_tx. cbn [tx_outputs]. unfold is_single, is_none. cbv zeta. destruct (Z.eq_dec (f mod 32) 3) as [E3|E3]; [right; left|right; right]; auto.
  - exists a'. split; [exact A2|]. assert (a = ps) as -> by congruence. congruence.
Qed.
Print Assumptions C67_shown_is_sent.

Lemma hash_all_outputs sha (H : hash32 sha) label all name l h o : hash_all sha (c_ser output_codec) label all name l = Ok h -> In o l -> exists r, c_ser output_codec o = Ok r.
Proof.
  intros E Hi. destruct (hash_all_inv sha H _ _ _ _ _ _ E) as (parts & Eo & _). apply In_nth_error in Hi. destruct Hi as (k & Hk). destruct (omap_nth _ _ _ _ _ Eo Hk) as (r & _ & Er). eauto.
Qed.
(** C67: and it can always be recomputed if the coins spent are all known (as they are for the inputs added with add_input). *)
Theorem C67_recomputable : forall sigs sha256d release allowed (b : tx_builder sigs) u t flags, hash32 sha256d -> constructed allowed b -> unsigned_of sha256d release b u -> final_tx u t ->
  coins_known t -> exists pss, tx_preimages sha256d t flags = Ok pss /\ length pss = length (tx_inputs t).
Proof.
  intros sigs sha release allowed b u t flags H32 HC HU HT K. rewrite (final_partial _ _ _ _ _ HU HT) in *. clear HT t.
  destruct (partial_handed _ _ _ _ _ HC HU) as (Ub & HH & HP). destruct (handed_maps _ _ _ HH) as [M1 M2].
  rewrite build_preimages_eq in HP. apply obind_ok in HP. destruct HP as ([[hp hs] ho] & HPre & _).
  assert (EP : pres sha (sig_tx_of (partial_tx u) flags) = Ok (hp, hs, ho)).
  { rewrite <- HPre. unfold pres, builder_sig_tx, sig_tx_of. cbn [st_inputs st_outputs]. rewrite !map_map. cbn [si_outpoint si_sequence].
    change (map (fun x => in_prev_out x) (tx_inputs (partial_tx u))) with (map in_prev_out (tx_inputs (partial_tx u))). change (map (fun x => in_sequence x) (tx_inputs (partial_tx u))) with (map in_sequence (tx_inputs (partial_tx u))).
    rewrite M1, M2. reflexivity. }
  unfold tx_preimages. rewrite build_preimages_eq, EP. cbn [obind].
  assert (HO : forall o, In o (u_outputs u) -> exists r, c_ser output_codec o = Ok r).
  { unfold pres in HPre. apply obind_ok in HPre. destruct HPre as (x1 & _ & HPre). apply obind_ok in HPre. destruct HPre as (x2 & _ & HPre). apply obind_ok in HPre. destruct HPre as (x3 & X3 & _).
    intros o Ho. eapply hash_all_outputs; [exact H32|exact X3|exact Ho]. }
  destruct (build_inputs_ok sha (sig_tx_of (partial_tx u) flags) hp hs ho (st_inputs (sig_tx_of (partial_tx u) flags)) 0) as (pss & E).
  { intros k i Hi. unfold sig_tx_of in Hi. cbn [st_inputs] in Hi. rewrite nth_error_map in Hi. destruct (nth_error (tx_inputs (partial_tx u)) k) as [ti|] eqn:Ht; [|discriminate]. cbn [option_map] in Hi. injection Hi as <-.
    unfold coins_known in K. rewrite Forall_forall in K. destruct (K ti (nth_error_In _ _ Ht)) as [Kv Kl]. destruct (in_value ti) as [v|] eqn:Ev; [|congruence]. destruct (in_lock_script ti) as [l|] eqn:El; [|congruence].
    apply Forall_forall. intros f _. rewrite (build_preimage_eq _ _ _ _ _ _ _ _ l v) by reflexivity.
    assert (exists h, outs_hash sha (sig_tx_of (partial_tx u) flags) ho (0 + k) f = Ok h) as (h & ->); [|eexists; reflexivity].
    unfold outs_hash. cbv zeta. destruct (negb _ && negb _); [eauto|]. cbn [Nat.add]. change (st_outputs (sig_tx_of (partial_tx u) flags)) with (u_outputs u). destruct (_ && Nat.ltb k _) eqn:Eb; [|eauto].
    apply andb_prop in Eb. destruct Eb as [_ Eb]. apply Nat.ltb_lt in Eb. destruct (nth_error (u_outputs u) k) as [o|] eqn:Eo; [|apply nth_error_None in Eo; lia].
    destruct (HO o (nth_error_In _ _ Eo)) as (r & ->). cbn [obind]. destruct (digest_ok sha H32 r) as (h & -> & _). eauto. }
  exists pss. split; [exact E|]. destruct (build_inputs_nth _ _ _ _ _ _ _ _ E) as [HF _]. rewrite <- (Forall2_len _ _ _ HF). unfold sig_tx_of. cbn [st_inputs]. apply map_length.
Qed.
Print Assumptions C67_recomputable.

Lemma coins_value_known t : coins_value t -> coins_known t.
Proof. apply Forall_impl. intros i ((v & -> & _) & (l & -> & _)). split; discriminate. Qed.
Lemma sig_tx_of_value si so t flags : tx_value si so t -> Forall u32_ok flags -> coins_value t -> sig_value (sig_tx_of t flags).
Proof.
  intros (Vv & (Vi & _) & (Vo & _) & Vl) Hf HK. unfold sig_value, sig_tx_of. cbn [st_version st_inputs st_outputs st_lock_time]. split; [exact Vv|]. split; [|split; [exact Vo|exact Vl]].
  apply Forall_map. unfold coins_value in HK. rewrite Forall_forall in *. intros i Hi. destruct (Vi i Hi) as (A & _ & B). destruct (HK i Hi) as (C & D).
  unfold sig_input_value. cbn [si_outpoint si_sequence si_flags si_value si_lock_script]. split; [exact A|]. split; [exact B|]. split; [now apply Forall_forall|]. split; [exact C|exact D].
Qed.
Lemma F2_of_map {A B} (f : A -> B) (P : A -> A -> Prop) l l' : map f l = map f l' -> Forall2 P l l' -> Forall2 (fun x y => P x y /\ f x = f y) l l'.
Proof. intros E H. revert E. induction H as [|x y l l' Hxy _ IH]; intros E; constructor; cbn [map] in E; injection E as E1 E2; auto. Qed.
Lemma F2_map2 {A B} (f g : A -> B) (P : B -> B -> Prop) l l' : Forall2 P (map f l) (map g l') -> Forall2 (fun x y => P (f x) (g y)) l l'.
Proof. revert l'. induction l as [|x l IH]; intros [|y l'] H; inversion H; subst; constructor; auto. Qed.

(** C67: with the usual flags (no ANYONECANPAY, NONE or SINGLE) a digest fixes the transaction.  Whoever signs the digest of a preimage
    shown to him signs no other transaction: if the digest of a preimage shown for any input of any other build is the same, the two
    finished transactions are the same but for the input scripts (or a collision of the hash function was found). *)
Theorem C67_digest_fixes_transaction : forall sigs sha256d release release' allowed (b b' : tx_builder sigs) u u' t t' in_size out_size k k' ps ps' j j' p p' m m',
  hash32 sha256d -> constructed allowed b -> constructed allowed b' -> unsigned_of sha256d release b u -> unsigned_of sha256d release' b' u' -> final_tx u t -> final_tx u' t' ->
  tx_value in_size out_size t -> tx_value in_size out_size t' -> coins_value t -> coins_value t' ->
  nth_error (preimages u) k = Some ps -> nth_error ps j = Some p -> nth_error (preimages u') k' = Some ps' -> nth_error ps' j' = Some p' ->
  u32_ok (pi_sig_hash_type p) -> u32_ok (pi_sig_hash_type p') ->
  ~ anyone_can_pay (pi_sig_hash_type p) -> ~ is_none (pi_sig_hash_type p) -> ~ is_single (pi_sig_hash_type p) ->
  c_ser preimage_codec p = Ok m -> c_ser preimage_codec p' = Ok m' -> sha256d (ba_data m) = sha256d (ba_data m') ->
  collision sha256d \/ same_but_scripts t t'.
Proof.
  intros sigs sha release release' allowed b b' u u' t t' si so k k' ps ps' j j' p p' m m' H32 HC HC' HU HU' HT HT' V V' K K' Hk Hj Hk' Hj' Hf Hf' Ha Hn Hs Em Em' ED.
  destruct (list_eq_dec Z.eq_dec (ba_data m) (ba_data m')) as [EM|NE]; [|left; exists (ba_data m), (ba_data m'); auto]. clear ED.
  set (f := pi_sig_hash_type p) in *. set (f' := pi_sig_hash_type p') in *.
  destruct (C67_recomputable _ _ _ _ _ _ _ [f] H32 HC HU HT (coins_value_known _ K)) as (pss & EP & _). destruct (C67_recomputable _ _ _ _ _ _ _ [f'] H32 HC' HU' HT' (coins_value_known _ K')) as (pss' & EP' & _).
  destruct (C67_shown_is_sent _ _ _ _ _ _ _ _ _ _ _ _ _ O HC HU HT EP Hk Hj eq_refl) as (qs & Q & Qp). destruct (C67_shown_is_sent _ _ _ _ _ _ _ _ _ _ _ _ _ O HC' HU' HT' EP' Hk' Hj' eq_refl) as (qs' & Q' & Qp').
  assert (L : forall t flags pss k qs, tx_preimages sha t flags = Ok pss -> nth_error pss k = Some qs -> exists i, nth_error (st_inputs (sig_tx_of t flags)) k = Some i /\ si_flags i = flags).
  { clear. intros t flags pss k qs E Hk. unfold tx_preimages in E. rewrite build_preimages_eq in E. apply obind_ok in E. destruct E as ([[hp hs] ho] & _ & E). destruct (build_inputs_nth _ _ _ _ _ _ _ _ E) as [HF _].
    destruct (F2_nth2 _ _ _ _ _ HF Hk) as (i & Hi & _). exists i. split; [exact Hi|]. unfold sig_tx_of in Hi. cbn [st_inputs] in Hi. rewrite nth_error_map in Hi. destruct (nth_error (tx_inputs t) k); [|discriminate]. cbn [option_map] in Hi. injection Hi as <-. reflexivity. }
  destruct (L _ _ _ _ _ EP Q) as (i & Hi & Fi). destruct (L _ _ _ _ _ EP' Q') as (i' & Hi' & Fi').
  destruct (C25_signature_commits sha (sig_tx_of t [f]) (sig_tx_of t' [f']) k k' 0 0 pss pss' qs qs' p p' m m' i i' f f') as [C|C]; try assumption.
  - eapply sig_tx_of_value; [exact V| |exact K]. constructor; [exact Hf|constructor].
  - eapply sig_tx_of_value; [exact V'| |exact K']. constructor; [exact Hf'|constructor].
  - now rewrite Fi.
  - now rewrite Fi'.
  - now left.
  - right. destruct C as (_ & Cv & Cl & _ & C1 & C2 & C3 & _). unfold sig_tx_of in Cv, Cl, C1, C2, C3. cbn [st_version st_lock_time st_inputs st_outputs] in Cv, Cl, C1, C2, C3.
    specialize (C1 Ha). specialize (C2 Ha Hn Hs). specialize (C3 Hn Hs). unfold same_but_scripts. split; [exact Cv|]. split; [exact Cl|]. split; [|exact C3].
    rewrite !map_map in C2. cbn [si_sequence] in C2. apply F2_of_map; [exact C2|]. apply F2_map2 in C1. cbn [si_outpoint] in C1. exact C1.
Qed.
Print Assumptions C67_digest_fixes_transaction.

(** C67: a hand-made reference reads something exactly if there is such an input and, for a signatory with one flag set, that input
    has a preimage at all; otherwise it panics. *)
Theorem C67_made_up_reference : forall sigs sha256d release (b : tx_builder sigs) u (s : signatory sigs) n, unsigned_of sha256d release b u ->
  let r := input_reference_new n in
  ((exists v, input_preimages u s r = Ok v) <-> exists ps, nth_error (preimages u) n = Some ps /\ (ps <> [] \/ exists flags bld, s_kind s = KindMultiple (s_type s) flags bld)) /\
  ((forall v, input_preimages u s r <> Ok v) -> input_preimages u s r = Panic) /\
  length (preimages u) = length (b_inputs b).
Proof.
  intros sigs sha release b u s n HU r. subst r. unfold input_reference_new, input_preimages, preimages, make_tx_preimages. split; [|split].
  - destruct (nth_error (u_preimages u) n) as [ps|] eqn:E; cbn [expect obind].
    + split.
      * intros (v & Hv). exists ps. split; [reflexivity|]. destruct (s_kind s) as [f bld|f bld]; [left; destruct ps; discriminate|right; eauto].
      * intros (ps' & Eps & [H|(f & bld & H)]); injection Eps as <-; [destruct (s_kind s); [destruct ps; [congruence|eauto]|eauto]|rewrite H; eauto].
    + split; [intros (v & Hv); discriminate|intros (ps & Hp & _); discriminate].
  - intros H. destruct (nth_error (u_preimages u) n) as [ps|]; cbn [expect obind] in *; [|reflexivity]. destruct (s_kind s) as [f bld|f bld]; [destruct ps; [reflexivity|]|]; exfalso; eapply H; reflexivity.
  - destruct (unsigned_frame _ _ _ _ HU) as (_ & _ & Up & _). rewrite build_preimages_eq in Up. apply obind_ok in Up. destruct Up as ([[hp hs] ho] & _ & Up). destruct (build_inputs_nth _ _ _ _ _ _ _ _ Up) as [HF _].
    rewrite <- (Forall2_len _ _ _ HF). cbn [builder_sig_tx st_inputs]. apply map_length.
Qed.
Print Assumptions C67_made_up_reference.

(** Two inputs, the second for two flag sets; read back, signed, completed, and recomputed. *)
Definition ex_many : signatory ex_sigs := Signatory 0 (ba_unnamed []) false (KindMultiple 0 [0x41; 0xc3] (fun ps _ sg _ _ => Ok [])).
Example C67_nonvacuous : exists u p ps u' qs, let b := fst (add_input (fst (add_input (builder_new ex_sigs 2 77) (ex_in 1 60000) ex_lock (ex_signatory 2))) (ex_in 2 40000) ex_lock ex_many) in
  build_without_estimation ex_sha (add_output b (TxOutput 7 ex_lock)) = Ok u /\ input_preimages u (ex_signatory 2) 0 = Ok (inl p) /\ pi_value p = 60000 /\
  input_preimages u ex_many 1 = Ok (inr ps) /\ map pi_sig_hash_type ps = [0x41; 0xc3] /\ input_preimages u ex_many 2 = Panic /\
  apply_ops u [SignInput 0 (Any (sigs := ex_sigs) 0 (ba_unnamed (repeat 9 72)))] = Ok u' /\ tx_preimages ex_sha (partial_tx u') [0xc3; 0x41] = Ok qs /\ coins_known (partial_tx u') /\
  nth_error qs 1 = Some (rev ps).
Proof.
  do 5 eexists. cbv zeta. split; [vm_compute; reflexivity|]. split; [vm_compute; reflexivity|]. split; [reflexivity|]. split; [vm_compute; reflexivity|]. split; [reflexivity|]. split; [vm_compute; reflexivity|].
  split; [vm_compute; reflexivity|]. split; [vm_compute; reflexivity|]. split; [|vm_compute; reflexivity]. unfold coins_known. cbn. constructor; [split; discriminate|]. constructor; [split; discriminate|constructor].
Qed.
(** The same build before and after signing: two different transactions with the same digest, the same but for the script. *)
Definition ex_plain : signatory ex_sigs := Signatory 0 (ba_unnamed []) false (KindOne 0 0x41 (fun _ _ _ _ _ => Ok ex_lock)).
Definition ex_plain_builder : tx_builder ex_sigs := add_output (fst (add_input (builder_new ex_sigs 2 77) (ex_in 1 60000) ex_lock ex_plain)) (TxOutput 7 ex_lock).
Definition ex_plain_tx (s : script) : unhashed_tx :=
  UnhashedTx 2 [TxInput (TxOutpoint (ba_unnamed (repeat 1 32)) 1) s 0xfffffffe (Some ex_lock) (Some 60000) (Some false) (Some [0x41])] [TxOutput 7 ex_lock] 77.
Lemma ex_plain_value s : script_value s -> tx_value 200 100 (ex_plain_tx s) /\ coins_value (ex_plain_tx s).
Proof.
  intros Hs. unfold ex_plain_tx, tx_value, coins_value. cbn [tx_version tx_inputs tx_outputs tx_lock_time]. split.
  - split; [unfold i32_ok; lia|]. split; [|split; [|unfold u32_ok; lia]].
    + split; [|split; vm_compute; [discriminate|reflexivity]]. constructor; [|constructor]. unfold input_value, outpoint_value, fixed_value. cbn [in_prev_out in_script in_sequence op_tx_hash op_vout].
      split; [split; [split; [cbn [ba_data ba_unnamed ba_new]; apply Forall_forall; intros x Hx; apply repeat_spec in Hx; subst; unfold byte_ok; lia|reflexivity]|unfold u32_ok; lia]|]. split; [exact Hs|unfold u32_ok; lia].
    + split; [|split; vm_compute; [discriminate|reflexivity]]. constructor; [|constructor]. split; [cbn [out_value]; unfold u64_ok; lia|exact ex_lock_value].
  - constructor; [|constructor]. cbn [in_value in_lock_script]. split; [exists 60000; split; [reflexivity|unfold u64_ok; lia]|exists ex_lock; split; [reflexivity|exact ex_lock_value]].
Qed.
Example C67_digest_nonvacuous : exists u u' p m, constructed (fun _ => True) ex_plain_builder /\ unsigned_of ex_sha false ex_plain_builder u /\ unsigned_of ex_sha false ex_plain_builder u' /\
  partial_tx u = ex_plain_tx [] /\ complete_tx u' = Ok (ex_plain_tx ex_lock) /\ tx_value 200 100 (ex_plain_tx []) /\ tx_value 200 100 (ex_plain_tx ex_lock) /\ coins_value (ex_plain_tx []) /\ coins_value (ex_plain_tx ex_lock) /\
  nth_error (preimages u) 0 = Some [p] /\ nth_error (preimages u') 0 = Some [p] /\ pi_sig_hash_type p = 0x41 /\ ~ anyone_can_pay 0x41 /\ ~ is_none 0x41 /\ ~ is_single 0x41 /\ c_ser preimage_codec p = Ok m.
Proof.
  assert (script_value []) as V0. { split; [constructor|]. intros a E. vm_compute in E. injection E as <-. vm_compute. discriminate. }
  assert (exists u, build_without_estimation ex_sha ex_plain_builder = Ok u /\ partial_tx u = ex_plain_tx [] /\ exists u' p m, apply_ops u [SignInput 0 (Any (sigs := ex_sigs) 0 (ba_unnamed []))] = Ok u' /\ complete_tx u' = Ok (ex_plain_tx ex_lock) /\
    nth_error (preimages u) 0 = Some [p] /\ nth_error (preimages u') 0 = Some [p] /\ pi_sig_hash_type p = 0x41 /\ c_ser preimage_codec p = Ok m) as (u & B & P & u' & p & m & A & C & N & N' & F & S).
  { eexists. split; [vm_compute; reflexivity|]. split; [vm_compute; reflexivity|]. do 3 eexists. split; [vm_compute; reflexivity|]. split; [vm_compute; reflexivity|]. split; [vm_compute; reflexivity|]. split; [vm_compute; reflexivity|].
    split; [reflexivity|]. vm_compute. reflexivity. }
  exists u, u', p, m. split; [apply co_add_output, co_add_input; [apply co_new|exact I]|]. split; [exists u, []; auto|]. split; [eexists u, _; split; [right; exact B|exact A]|]. split; [exact P|]. split; [exact C|].
  destruct (ex_plain_value [] V0) as [X1 X2]. destruct (ex_plain_value ex_lock ex_lock_value) as [X3 X4].
  do 4 (split; [assumption|]). split; [exact N|]. split; [exact N'|]. split; [exact F|]. split; [unfold anyone_can_pay; vm_compute; discriminate|]. split; [unfold is_none; vm_compute; discriminate|]. split; [unfold is_single; vm_compute; discriminate|]. exact S.
Qed.
