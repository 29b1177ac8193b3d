(** Scripts with the same code are interchangeable in everything that is serialised, hashed or signed. *)
From Verif Require Import Base BaseLemmas Model_Encoding Spec_Encoding Proofs_Encoding Spec_Integer Model_ByteArray Proofs_ByteArray Model_Opcode Model_Script Spec_Script Proofs_Script
  Model_Code Spec_Code Spec_Wire Proofs_Code Proofs_Wire Proofs_Codec Model_Destination Model_Preimage Spec_Preimage Proofs_Preimage Model_Json Spec_Json Spec_JsonFile
  Model_Hash Spec_Hash Model_TxBuilder Model_Slp Model_Serde Spec_Serde Proofs_Serde Proofs_Serde2 Model_Preimage.
Local Open Scope Z_scope.

Definition sim {A B} (R : A -> B -> Prop) (o : outcome A) (o' : outcome B) : Prop := forall a, o = Ok a -> exists a', o' = Ok a' /\ R a a'.
Definition sameb (a b : barray) : Prop := ba_data b = ba_data a.
Lemma sim_bind {A B A' B'} (R : A -> A' -> Prop) (S : B -> B' -> Prop) o o' f f' : sim R o o' -> (forall a a', R a a' -> sim S (f a) (f' a')) -> sim S (obind o f) (obind o' f').
Proof. intros H F b E. apply obind_ok in E. destruct E as (a & E1 & E2). destruct (H a E1) as (a' & -> & HR). cbn [obind]. exact (F a a' HR b E2). Qed.
Lemma sim_ok {A B} (R : A -> B -> Prop) a b : R a b -> sim R (Ok a) (Ok b).
Proof. intros H x E. assert (a = x) as <- by (change (match Ok a with Ok y => y = x | _ => True end); rewrite E; reflexivity). exists b. auto. Qed.
Lemma sim_refl {A} (o : outcome A) : sim eq o o.
Proof. intros a E. exists a. auto. Qed.
Lemma sim_data o : sim sameb o o. Proof. intros a E. exists a. split; [assumption|reflexivity]. Qed.
Lemma sim_omap {A A' B B'} (R : A -> A' -> Prop) (S : B -> B' -> Prop) f f' l l' : Forall2 R l l' -> (forall a a', R a a' -> sim S (f a) (f' a')) -> sim (Forall2 S) (omap f l) (omap f' l').
Proof.
  intros H F. induction H as [|a a' l l' Ha _ IH]; cbn [omap]; [apply sim_ok; constructor|].
  apply (sim_bind S); [now apply F|]. intros b b' Hb. apply (sim_bind (Forall2 S)); [exact IH|]. intros r r' Hr. apply sim_ok. now constructor.
Qed.

Lemma script_sim s s' : same_code s s' -> sim sameb (c_ser script_codec s) (c_ser script_codec s').
Proof.
  intros H. cbn [c_ser script_codec]. apply (sim_bind sameb).
  - intros a E. destruct (same_op_code_ser s s' a H E) as (a' & E' & D). exists a'. auto.
  - intros a a' D. cbn [c_ser bytearray_codec]. apply sim_ok. unfold sameb in *. rewrite !concat_data. unfold ba_len. rewrite D. reflexivity.
Qed.
Lemma parts_sameb l l' : Forall2 sameb l l' -> sameb (ba_from_parts l) (ba_from_parts l').
Proof. intros H. unfold sameb. rewrite !from_parts_data. induction H as [|a a' l l' Ha _ IH]; [reflexivity|]. cbn [map concat]. unfold sameb in Ha. now rewrite Ha, IH. Qed.
Lemma named_sameb a a' n : sameb a a' -> sameb (ba_named a n) (ba_named a' n).
Proof. unfold sameb. now rewrite !named_data. Qed.
Lemma outpoint_sim o o' : same_outpoint o o' -> sim sameb (c_ser outpoint_codec o) (c_ser outpoint_codec o').
Proof.
  intros [H V]. cbn [c_ser outpoint_codec sha256d_codec fixed_codec u32_codec int_codec obind]. apply sim_ok, parts_sameb. rewrite V.
  constructor; [apply named_sameb; unfold sameb, same_bytes in *; now symmetry|]. constructor; [reflexivity|constructor].
Qed.
Lemma output_sim o o' : full_same_output same_code o o' -> sim sameb (c_ser output_codec o) (c_ser output_codec o').
Proof.
  intros [V H]. cbn [c_ser output_codec u64_codec int_codec obind]. rewrite V. apply (sim_bind sameb); [now apply script_sim|]. intros a a' D.
  apply sim_ok, parts_sameb. repeat constructor. now apply named_sameb.
Qed.
Lemma input_sim i i' : full_same_input same_code i i' -> sim sameb (c_ser input_codec i) (c_ser input_codec i').
Proof.
  intros (O & H & V & _). cbn [c_ser input_codec u32_codec int_codec obind]. rewrite V.
  apply (sim_bind sameb); [exact (outpoint_sim _ _ O)|]. intros b b' Db.
  apply (sim_bind sameb); [exact (script_sim _ _ H)|]. intros a a' D.
  apply sim_ok, parts_sameb. constructor; [now apply named_sameb|]. constructor; [now apply named_sameb|]. constructor; [reflexivity|constructor].
Qed.
Lemma vec_sim {A} (R : A -> A -> Prop) (c : codec A) sz l l' : (forall a a', R a a' -> sim sameb (c_ser c a) (c_ser c a')) -> Forall2 R l l' -> sim sameb (c_ser (vec_codec sz c) l) (c_ser (vec_codec sz c) l').
Proof.
  intros F H. cbn [c_ser vec_codec]. apply (sim_bind (Forall2 sameb)); [now apply (sim_omap R)|]. intros p p' Hp. apply sim_ok. unfold sameb.
  rewrite !concat_data. replace (zlen l') with (zlen l) by (unfold zlen; f_equal; now apply Forall2_len in H). f_equal. now apply parts_sameb.
Qed.
Lemma tx_sim si so t t' : full_same_tx same_code t t' -> sim sameb (c_ser (unhashed_tx_codec si so) t) (c_ser (unhashed_tx_codec si so) t').
Proof.
  intros (V & I & O & L). cbn [c_ser unhashed_tx_codec i32_codec u32_codec int_codec obind]. rewrite V, L.
  apply (sim_bind sameb); [exact (vec_sim _ input_codec si _ _ input_sim I)|]. intros a a' Da.
  apply (sim_bind sameb); [exact (vec_sim _ output_codec so _ _ output_sim O)|]. intros b b' Db.
  apply sim_ok, parts_sameb. constructor; [reflexivity|]. constructor; [now apply named_sameb|]. constructor; [now apply named_sameb|]. constructor; [reflexivity|constructor].
Qed.

Section Hash.
Variable sha : list Z -> list Z.
Hypothesis Hsha : hash32 sha.
Lemma digest_sim a a' : sameb a a' -> sim sameb (digest_sha256d sha a) (digest_sha256d sha a').
Proof.
  intros D. destruct (digest_ok sha Hsha a) as (h & E & Dh). destruct (digest_ok sha Hsha a') as (h' & E' & Dh'). rewrite E, E'. apply sim_ok. unfold sameb in *. congruence.
Qed.
Lemma hash_all_sim {A} (R : A -> A -> Prop) (ser : A -> outcome barray) lab all name l l' : (forall a a', R a a' -> sim sameb (ser a) (ser a')) -> Forall2 R l l' ->
  sim sameb (hash_all sha ser lab all name l) (hash_all sha ser lab all name l').
Proof.
  intros F H h E. destruct (hash_all_inv sha Hsha _ _ _ _ _ _ E) as (p & Ep & D). destruct (sim_omap R sameb ser ser l l' H F p Ep) as (p' & Ep' & Hp).
  destruct (hash_all_ok sha Hsha ser lab all name l' p' Ep') as (h' & E' & D'). exists h'. split; [exact E'|]. unfold sameb. rewrite D, D'. f_equal.
  clear -Hp. induction Hp as [|a b l l' H _ IH]; [reflexivity|]. cbn [map concat]. unfold sameb in H. now rewrite H, IH.
Qed.

(** the same sig input / preimage up to code *)
Definition ssame_input (a b : sig_input) : Prop :=
  same_outpoint (si_outpoint a) (si_outpoint b) /\ si_sequence a = si_sequence b /\ si_flags a = si_flags b /\ si_value a = si_value b /\
  same_option same_code (si_lock_script a) (si_lock_script b).
Definition ssame_pre (p q : tx_preimage) : Prop := sim sameb (c_ser preimage_codec p) (c_ser preimage_codec q).
Lemma sep_means o : op_eqb o (OCode OP_CODESEPARATOR) = true <-> means o (Exec 0xab).
Proof.
  split.
  - intros H. assert (o = OCode OP_CODESEPARATOR) as ->.
    { destruct o as [c| | | |]; cbn in H; try discriminate. apply opcode_eqb_spec in H. now subst. }
    apply (MExec OP_CODESEPARATOR). right. vm_compute. discriminate.
  - intros H. assert (forall o' i, means o' i -> i = Exec 0xab -> op_eqb o' (OCode OP_CODESEPARATOR) = true) as X; [|exact (X _ _ H eq_refl)].
    intros o' i M E. destruct M as [ | | | | | | |c B|b B]; try discriminate E.
    + destruct c; first [discriminate E|reflexivity].
    + injection E as ->. lia.
Qed.
Lemma sep_same t t' : same_op_code t t' -> op_eqb (t_op t) (OCode OP_CODESEPARATOR) = op_eqb (t_op t') (OCode OP_CODESEPARATOR).
Proof.
  intros (i & x & y & M & M' & _). destruct (op_eqb (t_op t) (OCode OP_CODESEPARATOR)) eqn:E.
  - apply sep_means in E. assert (i = Exec 0xab) as -> by (eapply means_fun; [exact M|exact E]). symmetry. now apply sep_means.
  - destruct (op_eqb (t_op t') (OCode OP_CODESEPARATOR)) eqn:E'; [|reflexivity]. apply sep_means in E'. assert (i = Exec 0xab) as -> by (eapply means_fun; [exact M'|exact E']).
    apply sep_means in M. congruence.
Qed.
Lemma code_first_same s s' : same_code s s' -> same_code (to_script_code_first s) (to_script_code_first s').
Proof.
  intros H. unfold to_script_code_first.
  assert (position (fun t => op_eqb (t_op t) (OCode OP_CODESEPARATOR)) s' = position (fun t => op_eqb (t_op t) (OCode OP_CODESEPARATOR)) s) as ->.
  { induction H as [|t t' l l' Ht _ IH]; [reflexivity|]. cbn [position]. rewrite (sep_same t t' Ht), IH. reflexivity. }
  destruct (position _ s) as [n|]; [|exact H]. generalize (S n). intros k. revert s s' H. induction k as [|k IH]; intros s s' H; [exact H|].
  destruct H as [|t t' l l' _ H]; [constructor|]. cbn [skipn]. apply IH. exact H.
Qed.
Lemma pre_sim p q : pi_version p = pi_version q -> sameb (pi_hash_prevouts p) (pi_hash_prevouts q) -> sameb (pi_hash_sequence p) (pi_hash_sequence q) ->
  same_outpoint (pi_outpoint p) (pi_outpoint q) -> same_code (pi_script_code p) (pi_script_code q) -> pi_value p = pi_value q -> pi_sequence p = pi_sequence q ->
  sameb (pi_hash_outputs p) (pi_hash_outputs q) -> pi_lock_time p = pi_lock_time q -> pi_sig_hash_type p = pi_sig_hash_type q -> ssame_pre p q.
Proof.
  intros V P Q O C Va Se H L T. unfold ssame_pre. cbn [c_ser preimage_codec i32_codec u32_codec u64_codec int_codec sha256d_codec fixed_codec obind]. rewrite V, Va, Se, L, T.
  apply (sim_bind sameb); [exact (outpoint_sim _ _ O)|]. intros a a' Da. apply (sim_bind sameb); [exact (script_sim _ _ C)|]. intros b b' Db. apply sim_ok, parts_sameb.
  repeat (constructor; [first [reflexivity|now apply named_sameb]|]); try constructor.
Qed.
Lemma nth_F2 {A} (R : A -> A -> Prop) l l' n : Forall2 R l l' -> same_option R (nth_error l n) (nth_error l' n).
Proof. intros H. revert n. induction H as [|a b l l' Hab _ IH]; intros [|n]; cbn; auto. Qed.
Lemma build_sim t t' hp hp' hs hs' ho ho' idx i i' f : st_version t = st_version t' -> Forall2 (full_same_output same_code) (st_outputs t) (st_outputs t') ->
  st_lock_time t = st_lock_time t' -> sameb hp hp' -> sameb hs hs' -> sameb ho ho' -> ssame_input i i' ->
  sim ssame_pre (build_preimage sha t hp hs ho idx i f) (build_preimage sha t' hp' hs' ho' idx i' f).
Proof.
  intros V O L Hp Hs Ho (So & Sq & _ & Sv & Sl). unfold build_preimage. cbv zeta.
  apply (sim_bind sameb).
  { destruct (_ && _)%bool; [now apply sim_ok|]. rewrite (Forall2_len _ _ _ O). destruct (_ && _)%bool; [|apply sim_ok; reflexivity].
    pose proof (nth_F2 _ _ _ idx O) as X. destruct (nth_error (st_outputs t) idx) as [o|], (nth_error (st_outputs t') idx) as [o'|]; cbn in X; try contradiction; [|intros z Z; discriminate Z].
    apply (sim_bind sameb); [now apply output_sim|]. intros a a' D. now apply digest_sim. }
  intros h h' Dh. rewrite <- Sv. destruct (si_lock_script i) as [l|], (si_lock_script i') as [l'|]; cbn in Sl; try contradiction; cbn [expect obind]; [|intros z Z; discriminate Z].
  destruct (si_value i) as [v|]; cbn [expect obind]; [|intros z Z; discriminate Z]. apply sim_ok, pre_sim; cbn; auto.
  - destruct (flags_contains f SIGHASH_ANYONECANPAY); [reflexivity|exact Hp].
  - destruct (_ && _)%bool; [exact Hs|reflexivity].
  - now apply code_first_same.
Qed.
Lemma build_inputs_sim t t' hp hp' hs hs' ho ho' : st_version t = st_version t' -> Forall2 (full_same_output same_code) (st_outputs t) (st_outputs t') ->
  st_lock_time t = st_lock_time t' -> sameb hp hp' -> sameb hs hs' -> sameb ho ho' -> forall l l' idx, Forall2 ssame_input l l' ->
  sim (Forall2 (Forall2 ssame_pre)) (build_inputs sha t hp hs ho idx l) (build_inputs sha t' hp' hs' ho' idx l').
Proof.
  intros V O L Hp Hs Ho l l' idx H. revert idx. induction H as [|i i' l l' Hi _ IH]; intros idx; cbn [build_inputs]; [apply sim_ok; constructor|].
  apply (sim_bind (Forall2 ssame_pre)).
  - destruct Hi as (A & B & F & C & D). rewrite <- F. apply (sim_omap eq); [clear; induction (si_flags i); constructor; auto|]. intros a a' <-. apply build_sim; auto. unfold ssame_input. auto.
  - intros p p' Hpp. apply (sim_bind (Forall2 (Forall2 ssame_pre))); [apply IH|]. intros r r' Hr. apply sim_ok. now constructor.
Qed.
Lemma F2_map {A B} (R : B -> B -> Prop) (f : A -> B) l l' : Forall2 (fun a b => R (f a) (f b)) l l' -> Forall2 R (map f l) (map f l').
Proof. induction 1; cbn; constructor; auto. Qed.
Lemma F2_weak {A B} (R S : A -> B -> Prop) l l' : (forall a b, R a b -> S a b) -> Forall2 R l l' -> Forall2 S l l'.
Proof. intros H. induction 1; constructor; auto. Qed.
Lemma preimages_sim t t' flags : full_same_tx same_code t t' -> sim (Forall2 (Forall2 ssame_pre)) (tx_preimages sha t flags) (tx_preimages sha t' flags).
Proof.
  intros (V & I & O & L). unfold tx_preimages, build_preimages, sig_tx_of. cbn [st_inputs st_outputs st_version st_lock_time].
  assert (Forall2 ssame_input (map (fun i => SigInput (in_prev_out i) (in_sequence i) flags (in_value i) (in_lock_script i)) (tx_inputs t))
            (map (fun i => SigInput (in_prev_out i) (in_sequence i) flags (in_value i) (in_lock_script i)) (tx_inputs t'))) as SI.
  { apply F2_map. eapply F2_weak; [|exact I]. intros a b (A & _ & B & C & D & _). unfold ssame_input. cbn. auto. }
  apply (sim_bind sameb); [apply (hash_all_sim same_outpoint); [exact outpoint_sim|apply F2_map; eapply F2_weak; [|exact SI]; intros a b X; apply X]|]. intros hp hp' Hp.
  apply (sim_bind sameb); [apply (hash_all_sim eq); [intros a a' <-; apply sim_data|apply F2_map; eapply F2_weak; [|exact SI]; intros a b X; apply X]|]. intros hs hs' Hs.
  apply (sim_bind sameb); [apply (hash_all_sim _ (c_ser output_codec)) with (1 := output_sim); exact O|]. intros ho ho' Ho.
  apply build_inputs_sim; auto.
Qed.
Lemma hashed_sim si so t t' : full_same_tx same_code t t' -> sim (fun a b => sameb (tx_hash a) (tx_hash b) /\ sameb (tx_raw a) (tx_raw b)) (tx_hashed sha si so t) (tx_hashed sha si so t').
Proof.
  intros H. unfold tx_hashed. apply (sim_bind sameb); [now apply tx_sim|]. intros r r' Hr. apply (sim_bind sameb); [now apply digest_sim|]. intros h h' Hh. now apply sim_ok.
Qed.
End Hash.
