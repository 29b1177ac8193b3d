(** C50: what the library serialises and signs is what the network reads and checks. *)
From Verif Require Import Base BaseLemmas Model_Encoding Spec_Encoding Proofs_Encoding Spec_Integer Model_ByteArray Proofs_ByteArray Model_Opcode Model_Script Spec_Script Proofs_Script
  Model_Address Model_Code Spec_Code Model_Destination Spec_Destination Model_Preimage Spec_Preimage Proofs_Preimage Model_TxBuilder Spec_TxBuilder Spec_Calls
  Proofs_Destination Proofs_TxBuilder2 Proofs_TxBuilder3 Proofs_TxBuilder5 Prop_Preimage Prop_TxBuilder Prop_Destination Prop_Calls
  Spec_Network Spec_NetView Proofs_Network Proofs_Network2 Proofs_Network3 Proofs_Network4.
Local Open Scope string_scope.
Local Open Scope list_scope.
Local Open Scope Z_scope.

(** The network's encoding is unambiguous. *)
Theorem C50_bytes_determine : forall a b, net_ok a -> net_ok b -> net_bytes a = net_bytes b -> a = b.
Proof. exact net_bytes_inj. Qed.
Print Assumptions C50_bytes_determine.

(** The network reads a serialised transaction as the transaction that was serialised: it is a well-formed encoding, and every
    reading of it has the library value's version, inputs, outputs and lock time. *)
Theorem C50_transaction_bytes : forall in_size out_size t raw, tx_value in_size out_size t -> tx_ser t = Ok raw ->
  (exists nt, net_ok nt /\ net_bytes nt = ba_data raw) /\
  forall nt, net_ok nt -> net_bytes nt = ba_data raw -> as_net t nt.
Proof.
  intros is os t raw V E. split.
  - destruct (tx_ser_net _ _ E) as (n & A & B). exists n. split; [eapply as_net_ok; eassumption|exact B].
  - intros nt O B. eapply ser_is_net; eassumption.
Qed.
Print Assumptions C50_transaction_bytes.

Lemma preimages_spec sha s pss k i lock value : build_preimages sha s = Ok pss -> nth_error (st_inputs s) k = Some i -> si_lock_script i = Some lock -> si_value i = Some value ->
  exists ps, nth_error pss k = Some ps /\ Forall2 (fun f p => pi_script_code p = to_script_code_first lock) (si_flags i) ps.
Proof.
  intros E Hi Hl Hv. rewrite build_preimages_eq in E. apply obind_ok in E. destruct E as ([[hp hs] ho] & _ & E). destruct (build_inputs_nth _ _ _ _ _ _ _ _ E) as [_ H].
  destruct (H _ _ Hi) as (ps & Hps & Eps). exists ps. split; [exact Hps|]. apply omap_Forall2 in Eps. eapply Forall2_impl; [|exact Eps]. intros f p Ep. cbn beta in Ep.
  rewrite (build_preimage_eq _ _ _ _ _ _ _ _ _ _ Hl Hv) in Ep. apply obind_ok in Ep. destruct Ep as (h & _ & Ep). apply Ok_inj in Ep. subst p. reflexivity.
Qed.
Lemma preimage_ser p code : script_ser_ops (pi_script_code p) = Ok code -> exists msg, c_ser preimage_codec p = Ok msg.
Proof.
  intros H. cbn [c_ser preimage_codec]. cbn [c_ser i32_codec u32_codec u64_codec int_codec sha256d_codec fixed_codec obind]. destruct (outpoint_ser_ok (pi_outpoint p)) as (x & ->). cbn [obind].
  cbn [c_ser script_codec]. rewrite H. cbn [obind c_ser bytearray_codec]. eauto.
Qed.

(** The messages handed out for signing are the ones the network hashes: for every input and every hash type asked for, whatever
    is signed in whatever order. *)
Theorem C50_messages : forall sigs sha256 release version lock_time (calls : list (@call sigs)) b rs u0 ops u t raw in_size out_size nt k input lock s,
  hash32 sha256 -> run_calls (builder_new sigs version lock_time) calls = (b, rs) ->
  build (hash256 sha256) release b = Ok u0 \/ build_without_estimation (hash256 sha256) b = Ok u0 -> apply_ops u0 ops = Ok u -> final_tx u t ->
  tx_value in_size out_size t -> tx_ser t = Ok raw -> net_ok nt -> net_bytes nt = ba_data raw ->
  nth_error (asked_inputs calls) k = Some (input, lock, s) -> Forall byte_ok (s_flags s) ->
  exists ps, nth_error (u_preimages u0) k = Some ps /\ length ps = length (s_flags s) /\
  forall j f p code, nth_error (s_flags s) j = Some f -> nth_error ps j = Some p -> script_ser_ops (to_script_code_first lock) = Ok code ->
    exists msg, c_ser preimage_codec p = Ok msg /\ net_message sha256 nt k (ui_value input) (ba_data code) f = Some (ba_data msg).
Proof.
  intros sigs sha release v lt l b rs u0 ops u t raw is os nt k input lock s Hsha ER EB EA HT V Er On Bn Hk Hf.
  pose proof (ser_is_net _ _ _ _ _ V Er On Bn) as HN. destruct (sig_net _ _ _ _ _ _ _ _ _ _ _ _ ER EB EA HT HN) as (SN & EP).
  destruct (run_spec _ _ _ _ ER) as [Eb _]. cbn [builder_new new_with_fee b_version b_inputs b_outputs b_lock_time b_fee_per_kb app] in Eb.
  set (si := SigInput (ui_prev_out input) (ui_sequence input) (s_flags s) (Some (ui_value input)) (Some lock)).
  assert (nth_error (st_inputs (builder_sig_tx b (u_outputs u0))) k = Some si) as Hi.
  { unfold builder_sig_tx. cbn [st_inputs]. rewrite Eb. cbn [b_inputs]. rewrite !nth_error_map, Hk. reflexivity. }
  destruct (preimages_spec _ _ _ _ _ lock (ui_value input) EP Hi eq_refl eq_refl) as (ps & Hps & F). exists ps. split; [exact Hps|]. cbn [si_flags si] in F. split; [symmetry; eapply Forall2_len; exact F|].
  intros j f p code Hj Hp Hc. destruct (Forall2_nth _ _ _ _ _ F Hj) as (p' & Hp' & Hpc). assert (p' = p) as -> by congruence.
  destruct (preimage_ser p code) as (msg & Em); [now rewrite Hpc|]. exists msg. split; [exact Em|].
  eapply (message_net sha Hsha _ nt _ k si j f ps p msg lock (ui_value input)); try eassumption; try reflexivity; [|exists code; auto].
  rewrite Forall_forall in Hf. apply Hf. eapply nth_error_In. exact Hj.
Qed.
Print Assumptions C50_messages.

(** Hence a signature check inside any script (P2SH included) whose script code is the library's accepts exactly the signatures of
    the message handed out, with an accepted hash type appended. *)
Theorem C50_signature_check : forall sigs sha256 release version lock_time (calls : list (@call sigs)) b rs u0 ops u t raw in_size out_size nt k input lock s ps j f p code,
  hash32 sha256 -> run_calls (builder_new sigs version lock_time) calls = (b, rs) ->
  build (hash256 sha256) release b = Ok u0 \/ build_without_estimation (hash256 sha256) b = Ok u0 -> apply_ops u0 ops = Ok u -> final_tx u t ->
  tx_value in_size out_size t -> tx_ser t = Ok raw -> net_ok nt -> net_bytes nt = ba_data raw ->
  nth_error (asked_inputs calls) k = Some (input, lock, s) -> Forall byte_ok (s_flags s) ->
  nth_error (u_preimages u0) k = Some ps -> nth_error (s_flags s) j = Some f -> nth_error ps j = Some p -> script_ser_ops (to_script_code_first lock) = Ok code ->
  exists msg, c_ser preimage_codec p = Ok msg /\ forall verify pk sig,
    checksig_of sha256 verify nt k (ui_value input) (ba_data code) (sig ++ [f]) pk = hashtype_ok f && verify pk (hash256 sha256 (ba_data msg)) sig.
Proof.
  intros sigs sha release v lt l b rs u0 ops u t raw is os nt k input lock s ps j f p code Hsha ER EB EA HT V Er On Bn Hk Hf Hps Hj Hp Hc.
  destruct (C50_messages _ _ _ _ _ _ _ _ _ _ _ _ _ _ _ _ _ _ _ _ Hsha ER EB EA HT V Er On Bn Hk Hf) as (ps' & Hps' & _ & HM). assert (ps' = ps) as -> by congruence.
  destruct (HM j f p code Hj Hp Hc) as (msg & Em & NM). exists msg. split; [exact Em|]. intros verify pk sig. unfold checksig_of. rewrite rev_app_distr. cbn [rev app]. rewrite NM, rev_involutive. reflexivity.
Qed.
Print Assumptions C50_signature_check.

Lemma p2pkh_script_bytes pk flags sg : bytes_ok pk -> zlen pk <= 520 -> byte_ok flags -> bytes_ok (ba_data sg) -> zlen (ba_data sg) <= 519 ->
  as_script (p2pkh_build_script (P2PKHSignatory pk flags) sg) (push_bytes (ba_data sg ++ [flags]) true ++ push_bytes pk true).
Proof.
  intros Op Lp Hf Os Ls. unfold byte_ok in Hf.
  assert (bytes_ok (ba_data sg ++ [flags])) as O1 by (apply bytes_ok_app; split; [exact Os|apply bytes1; lia]).
  assert (zlen (ba_data sg ++ [flags]) < 2 ^ 32) as L1 by (rewrite zlen_app, zlen_cons, zlen_nil; change (2 ^ 32) with 4294967296; lia).
  assert (zlen pk < 2 ^ 32) as L2 by (change (2 ^ 32) with 4294967296; lia).
  assert (ba_data (ba_concat sg (ba_new "sig_hash" [flags mod 256])) = ba_data sg ++ [flags]) as D1 by (rewrite concat_data; cbn [ba_new ba_data]; now rewrite Z.mod_small by lia).
  destruct (ser_push (ba_concat sg (ba_new "sig_hash" [flags mod 256])) true) as (x & Ex & Dx); [now rewrite D1|now rewrite D1|]. rewrite D1 in Dx.
  destruct (ser_push (ba_unnamed pk) true Op L2) as (y & Ey & Dy). cbn [ba_data ba_unnamed] in Dy.
  unfold as_script, script_ser_ops. change (map t_op (p2pkh_build_script (P2PKHSignatory pk flags) sg)) with [OPushArray (ba_concat sg (ba_new "sig_hash" [flags mod 256])) true; OPushArray (ba_unnamed pk) true].
  unfold serialize_ops, omap. rewrite Ex, Ey. cbn [obind].
  eexists. split; [reflexivity|]. rewrite from_parts_data. cbn [map concat]. rewrite Dx, Dy, app_nil_r. reflexivity.
Qed.

(** A P2PKH input made with the builder and signed is valid on the network exactly if the public key is the address's, the hash
    type is one the network accepts and the signature is one for the message that was handed out for signing. *)
Theorem C50_p2pkh : forall sigs ripemd160 sha1 sha256 verify checkdatasig locktime sequence multisig ty (to_ba : sigs ty -> barray) of_ba
    release version lock_time (calls : list (@call sigs)) b rs u0 ops u t raw in_size out_size nt k input a pk flags sg o,
  hash32 sha256 -> run_calls (builder_new sigs version lock_time) calls = (b, rs) ->
  build (hash256 sha256) release b = Ok u0 \/ build_without_estimation (hash256 sha256) b = Ok u0 -> apply_ops u0 ops = Ok u -> final_tx u t ->
  tx_value in_size out_size t -> tx_ser t = Ok raw -> net_ok nt -> net_bytes nt = ba_data raw ->
  let s := p2pkh_signatory_of sigs ty to_ba of_ba (P2PKHSignatory pk flags) in
  nth_error (asked_inputs calls) k = Some (input, address_script a, s) -> In o ops -> signs o k s sg ->
  ad_type a = P2PKH -> bytes_ok (ba_data (ad_hash a)) -> zlen (ba_data (ad_hash a)) = 20 ->
  bytes_ok pk -> zlen pk <= 520 -> byte_ok flags -> bytes_ok (ba_data (to_ba sg)) -> zlen (ba_data (to_ba sg)) <= 519 ->
  exists p msg, nth_error (u_preimages u0) k = Some [p] /\ c_ser preimage_codec p = Ok msg /\
  (valid_input ripemd160 sha1 sha256 verify checkdatasig locktime sequence multisig nt k (ui_value input) (locking_bytes P2PKH (ba_data (ad_hash a))) <->
   ripemd160 (sha256 pk) = ba_data (ad_hash a) /\ hashtype_ok flags = true /\ verify pk (hash256 sha256 (ba_data msg)) (ba_data (to_ba sg)) = true).
Proof.
  intros sigs ripemd sha1 sha verify cds lck sq ms ty to_ba of_ba release v lt l b rs u0 ops u t raw is os nt k input a pk flags sg o Hsha ER EB EA HT V Er On Bn s Hk Ho Hs Ta Oh Lh Op Lp Hf Os Ls.
  assert (Forall byte_ok (s_flags s)) as Hfs by (constructor; [exact Hf|constructor]).
  destruct (C50_messages _ _ _ _ _ _ _ _ _ _ _ _ _ _ _ _ _ _ _ _ Hsha ER EB EA HT V Er On Bn Hk Hfs) as (ps & Hps & Lps & HM).
  cbn [s_flags s p2pkh_signatory_of s_kind] in Lps. destruct ps as [|p [|q ps]]; try discriminate Lps.
  destruct (C22_locking_script_bytes a Oh Lh) as (code & Ec & Dc). rewrite Ta in Dc.
  assert (to_script_code_first (address_script a) = address_script a) as SC by (unfold address_script; rewrite Ta; reflexivity).
  destruct (HM 0%nat flags p code eq_refl eq_refl) as (msg & Em & NM); [now rewrite SC|]. exists p, msg. split; [exact Hps|]. split; [exact Em|].
  destruct (signed_script _ _ _ _ _ _ _ _ _ _ _ _ _ _ _ _ _ ER EB EA HT Hk Ho Hs) as (pre & sc & Hpre & Esc & Hin). assert (pre = [p]) as -> by congruence.
  unfold s_script in Esc. cbn [s_build s p2pkh_signatory_of s_kind s_is_p2sh obind] in Esc. apply Ok_inj in Esc. subst sc.
  destruct (ser_is_net _ _ _ _ _ V Er On Bn) as (_ & NI & _). destruct (Forall2_nth _ _ _ _ _ NI Hin) as (ni & Hni & (_ & Hsc & _)). cbn [in_script] in Hsc.
  pose proof (as_script_fun _ _ _ Hsc (p2pkh_script_bytes pk flags (to_ba sg) Op Lp Hf Os Ls)) as Dsc.
  unfold valid_input.
  assert (forall E, spends_coin E (ni_script ni) (locking_bytes P2PKH (ba_data (ad_hash a))) <->
    e_ripemd160 E (e_sha256 E pk) = ba_data (ad_hash a) /\ e_checksig E (locking_bytes P2PKH (ba_data (ad_hash a))) (ba_data (to_ba sg) ++ [flags]) pk = true) as SP.
  { intros E. rewrite Dsc. apply p2pkh_spend; auto; [apply bytes_ok_app; split; [exact Os|unfold byte_ok in Hf; apply bytes1; lia]|rewrite zlen_app, zlen_cons, zlen_nil; unfold MAX_ELEMENT; lia]. }
  assert (checksig_of sha verify nt k (ui_value input) (locking_bytes P2PKH (ba_data (ad_hash a))) (ba_data (to_ba sg) ++ [flags]) pk = hashtype_ok flags && verify pk (hash256 sha (ba_data msg)) (ba_data (to_ba sg))) as CS.
  { unfold checksig_of. rewrite rev_app_distr. cbn [rev app]. rewrite <- Dc, NM, rev_involutive. reflexivity. }
  split.
  - intros (i & Hi & S). assert (i = ni) as -> by congruence. apply SP in S. cbn [env_of e_ripemd160 e_sha256 e_checksig] in S. rewrite CS, andb_true_iff in S. exact S.
  - intros (A & B & C). exists ni. split; [exact Hni|]. apply SP. cbn [env_of e_ripemd160 e_sha256 e_checksig]. rewrite CS, B, C. auto.
Qed.
Print Assumptions C50_p2pkh.

Lemma combine_map {A B} (l : list A) (m : list B) : length l = length m -> map fst (combine l m) = l /\ map snd (combine l m) = m.
Proof. revert m. induction l as [|a l IH]; intros [|b m] H; try discriminate; [auto|]. cbn in *. destruct (IH m) as [-> ->]; [lia|auto]. Qed.
Lemma script_decodes s x : Forall op_ok (map t_op s) -> script_ser_ops s = Ok x -> bytes_ok (ba_data x) /\ exists l, decodes (ba_data x) l.
Proof.
  intros H E0. destruct (ser_ops_ok _ H) as (a & chunks & is & E & D & C & M & _ & O). unfold script_ser_ops in E0. rewrite E in E0. apply Ok_inj in E0. subst a. split; [exact O|].
  exists (combine chunks is). destruct (combine_map chunks is (Forall2_len _ _ _ C)) as [F S]. split; [now rewrite F|].
  clear -C. induction C; cbn; constructor; auto.
Qed.
Lemma script_app_ser a b x y : script_ser_ops a = Ok x -> script_ser_ops b = Ok y -> as_script (a ++ b) (ba_data x ++ ba_data y).
Proof.
  assert (forall s z, script_ser_ops s = Ok z -> serialize_ops (map t_op s) = Ok z) as I by (intros s z; unfold script_ser_ops; destruct (serialize_ops (map t_op s)); congruence).
  intros A B. apply I in A, B. unfold as_script, script_ser_ops. unfold serialize_ops in *. apply obind_ok in A. destruct A as (pa & A & Xa). apply Ok_inj in Xa. subst x. apply obind_ok in B. destruct B as (pb & B & Xb). apply Ok_inj in Xb. subst y.
  assert (omap serialize_op (map t_op (a ++ b)) = Ok (pa ++ pb)) as ->.
  { rewrite map_app. revert pa A. generalize (map t_op a). induction l as [|o l IH]; intros pa A; cbn [app omap] in *; [apply Ok_inj in A; subst pa; exact B|].
    apply obind_ok in A. destruct A as (z & Ez & A). apply obind_ok in A. destruct A as (zs & Ezs & A). apply Ok_inj in A. subst pa. rewrite Ez. cbn [obind]. rewrite (IH _ Ezs). reflexivity. }
  cbn [obind]. eexists. split; [reflexivity|]. now rewrite !from_parts_data, map_app, concat_app.
Qed.

(** A P2SH input: whatever unlocking script the signatory builds, the input is valid exactly if the redeem script is the one the
    coin is locked to, the unlocking script only pushes, and the redeem script succeeds on what it pushes. *)
Theorem C50_p2sh : forall sigs ripemd160 sha1 sha256 verify checkdatasig locktime sequence multisig
    release version lock_time (calls : list (@call sigs)) b rs u0 ops u t raw in_size out_size nt k input lock s sg o h redeem,
  hash32 sha256 -> run_calls (builder_new sigs version lock_time) calls = (b, rs) ->
  build (hash256 sha256) release b = Ok u0 \/ build_without_estimation (hash256 sha256) b = Ok u0 -> apply_ops u0 ops = Ok u -> final_tx u t ->
  tx_value in_size out_size t -> tx_ser t = Ok raw -> net_ok nt -> net_bytes nt = ba_data raw ->
  nth_error (asked_inputs calls) k = Some (input, lock, s) -> In o ops -> signs o k s sg -> s_is_p2sh s = true ->
  bytes_ok h -> zlen h = 20 -> Forall op_ok (map t_op lock) -> script_ser_ops lock = Ok redeem -> zlen (ba_data redeem) <= 520 ->
  exists pre user, nth_error (u_preimages u0) k = Some pre /\ s_build s pre (Some (u_estimated_size u0)) sg lock (u_outputs u0) = Ok user /\
  forall unlock, Forall op_ok (map t_op user) -> script_ser_ops user = Ok unlock -> zlen (ba_data unlock) + zlen (ba_data redeem) + 3 <= 10000 ->
  let E := env_of ripemd160 sha1 sha256 verify checkdatasig locktime sequence multisig nt k (ui_value input) in
  (valid_input ripemd160 sha1 sha256 verify checkdatasig locktime sequence multisig nt k (ui_value input) (locking_bytes P2SH h) <->
   ripemd160 (sha256 (ba_data redeem)) = h /\ push_only (ba_data unlock) /\
   exists stack final, executes E (ba_data unlock) [] stack /\ zlen stack <= 998 /\ executes E (ba_data redeem) stack final /\ success final).
Proof.
  intros sigs ripemd sha1 sha verify cds lck sq ms release v lt l b rs u0 ops u t raw is os nt k input lock s sg o h redeem Hsha ER EB EA HT V Er On Bn Hk Ho Hs P Oh Lh Ol Erd Lr.
  destruct (signed_script _ _ _ _ _ _ _ _ _ _ _ _ _ _ _ _ _ ER EB EA HT Hk Ho Hs) as (pre & sc & Hpre & Esc & Hin). unfold s_script in Esc. apply obind_ok in Esc. destruct Esc as (user & Eu & Esc).
  rewrite P, Erd in Esc. cbn [obind] in Esc. apply Ok_inj in Esc. exists pre, user. split; [exact Hpre|]. split; [exact Eu|]. intros unlock Ouser Eunl Lu E.
  destruct (script_decodes _ _ Ol Erd) as (Or & _). destruct (script_decodes _ _ Ouser Eunl) as (Ou & lu & Du).
  assert (zlen (ba_data redeem) < 2 ^ 32) as Lr32 by (change (2 ^ 32) with 4294967296; lia).
  destruct (ser_push redeem true Or Lr32) as (y & Ey & Dy).
  assert (exists y', script_ser_ops [tagged_from_op (op_from_array redeem)] = Ok y' /\ ba_data y' = push_bytes (ba_data redeem) true) as (y' & Ey' & Dy').
  { unfold script_ser_ops. change (map t_op [tagged_from_op (op_from_array redeem)]) with [OPushArray redeem true]. unfold serialize_ops, omap. rewrite Ey. cbn [obind]. eexists. split; [reflexivity|]. rewrite from_parts_data. cbn [map concat]. now rewrite app_nil_r. }
  destruct (ser_is_net _ _ _ _ _ V Er On Bn) as (_ & NI & _). destruct (Forall2_nth _ _ _ _ _ NI Hin) as (ni & Hni & (_ & Hsc & _)). cbn [in_script] in Hsc. rewrite <- Esc in Hsc.
  pose proof (as_script_fun _ _ _ Hsc (script_app_ser _ _ _ _ Eunl Ey')) as Dsc. rewrite Dy' in Dsc.
  assert (spends_coin E (ni_script ni) (locking_bytes P2SH h) <-> ripemd (sha (ba_data redeem)) = h /\ push_only (ba_data unlock) /\
    exists stack final, executes E (ba_data unlock) [] stack /\ zlen stack <= 998 /\ executes E (ba_data redeem) stack final /\ success final) as SP.
  { rewrite Dsc. apply (p2sh_spend E h (ba_data unlock) lu (ba_data redeem)); auto. }
  rewrite <- SP. unfold valid_input. split.
  - intros (i & Hi & S). assert (i = ni) as -> by congruence. exact S.
  - intros S. exists ni. auto.
Qed.
Print Assumptions C50_p2sh.

(** A concrete case: two P2PKH inputs (hash types ALL and SINGLE|ANYONECANPAY), one P2SH input (redeem script: push 5, NUMEQUAL), one output. *)
Definition ex_ripemd (m : list Z) : list Z := firstn 20 m.
Definition ex_verify (pk digest sg : list Z) : bool := same sg (firstn 3 pk ++ digest).
Definition ex_none3 : list Z -> list Z -> list Z -> bool := fun _ _ _ => false.
Definition ex_nolock : net_tx -> nat -> list Z -> bool := fun _ _ _ => false.
Definition ex_nomulti : net_tx -> nat -> Z -> list Z -> list (list Z) -> option (list (list Z) * bool) := fun _ _ _ _ _ => None.
Definition ex_address (n : Z) : address := Address P2PKH (ba_unnamed (ex_ripemd (ex_sha (repeat n 33)))) [] [] None.
Definition ex_key (n f : Z) : signatory ex_sigs := p2pkh_signatory_of ex_sigs 0 (fun x => x) (fun x => x) (P2PKHSignatory (repeat n 33) f).
Definition ex_redeem : script := map tagged_from_op [OPushInt 5; OCode OP_NUMEQUAL].
Definition ex_p2sh : signatory ex_sigs := Signatory 0 (ba_unnamed []) true (KindMultiple 0 [] (fun _ _ sg _ _ => Ok [tagged_from_op (op_from_array sg)])).
Definition ex_net_calls : list (@call ex_sigs) :=
  [CallInput (ex_in 1 60000) (address_script (ex_address 2)) (ex_key 2 0x41); CallInput (ex_in 2 9000) (address_script (ex_address 3)) (ex_key 3 0xc3);
   CallInput (ex_in 3 500) ex_redeem ex_p2sh; CallOutput (TxOutput 68000 ex_lock)].
Definition ex_net_builder : tx_builder ex_sigs := fst (run_calls (builder_new ex_sigs 2 77) ex_net_calls).
Definition ex_u0 : unsigned_tx ex_sigs := match build (hash256 ex_sha) false ex_net_builder with Ok u => u | _ => UnsignedTx ex_net_builder [] [] [] 0 end.
Definition ex_sign (k : nat) (n : Z) : @sign_op ex_sigs :=
  SignInput k (Any (sigs := ex_sigs) 0 (match nth_error (u_preimages ex_u0) k with
    | Some [p] => match c_ser preimage_codec p with Ok m => ba_unnamed (repeat n 3 ++ hash256 ex_sha (ba_data m)) | _ => ba_unnamed [] end | _ => ba_unnamed [] end)).
Definition ex_net_ops : list (@sign_op ex_sigs) := [ex_sign 1 3; SignInput 2 (Any (sigs := ex_sigs) 0 (ba_unnamed [5])); ex_sign 0 2].
Definition ex_u : unsigned_tx ex_sigs := match apply_ops ex_u0 ex_net_ops with Ok u => u | _ => ex_u0 end.
Definition ex_net_tx : unhashed_tx := partial_tx ex_u.
Definition ex_nt : net_tx :=
  let sb s := match script_ser_ops s with Ok x => ba_data x | _ => [] end in
  NetTx (tx_version ex_net_tx) (map (fun i => NetInput (ba_data (op_tx_hash (in_prev_out i))) (op_vout (in_prev_out i)) (sb (in_script i)) (in_sequence i)) (tx_inputs ex_net_tx))
    (map (fun o => NetOutput (out_value o) (sb (out_script o))) (tx_outputs ex_net_tx)) (tx_lock_time ex_net_tx).
Lemma ok_of {A} (o : outcome A) (d : A) : match o with Ok _ => true | _ => false end = true -> o = Ok (match o with Ok x => x | _ => d end).
Proof. destruct o; [reflexivity|discriminate|discriminate]. Qed.
Definition ex_raw : barray := match tx_ser ex_net_tx with Ok x => x | _ => ba_unnamed [] end.
Example C50_nonvacuous : run_calls (builder_new ex_sigs 2 77) ex_net_calls = (ex_net_builder, [0; 1; 2]%nat) /\ build (hash256 ex_sha) false ex_net_builder = Ok ex_u0 /\ apply_ops ex_u0 ex_net_ops = Ok ex_u /\
  complete_tx ex_u = Ok ex_net_tx /\ tx_ser ex_net_tx = Ok ex_raw /\ net_bytes ex_nt = ba_data ex_raw /\ zlen (ba_data ex_raw) = 291.
Proof.
  split; [reflexivity|]. split; [apply ok_of; vm_compute; reflexivity|]. split; [apply ok_of; vm_compute; reflexivity|]. split; [vm_compute; reflexivity|]. split; [vm_compute; reflexivity|]. split; vm_compute; reflexivity.
Qed.
Ltac opok := repeat (apply Forall_cons || apply Forall_nil); cbn [op_ok]; repeat split; try discriminate; try (unfold script_int; lia); try (repeat (apply Forall_cons || apply Forall_nil); unfold byte_ok; lia); try (vm_compute; reflexivity).
Lemma ex_script_value s n : Forall op_ok (map t_op s) -> (exists x, script_ser_ops s = Ok x /\ zlen (ba_data x) = n) -> n <= 1000 -> script_value s.
Proof. intros H (x & E & D) L. split; [exact H|]. intros a Ea. rewrite E in Ea. apply Ok_inj in Ea. subst a. unfold in_memory, ba_len. rewrite D. change (2 ^ 63 - 1) with 9223372036854775807. lia. Qed.
Lemma ex_net_tx_eq : ex_net_tx = ltac:(let x := eval vm_compute in ex_net_tx in exact x). Proof. vm_compute. reflexivity. Qed.
Lemma ex_net_tx_value : tx_value 1 1 ex_net_tx.
Proof.
  rewrite ex_net_tx_eq. unfold tx_value. cbn [tx_version tx_inputs tx_outputs tx_lock_time]. split; [unfold i32_ok; lia|]. split; [|split; [|unfold u32_ok; lia]].
  - split; [|split; vm_compute; [discriminate|reflexivity]]. repeat (apply Forall_cons || apply Forall_nil); unfold input_value, outpoint_value, fixed_value, u32_ok; cbn [in_prev_out in_script in_sequence op_tx_hash op_vout];
      (split; [split; [split; [cbn [ba_data]; repeat (apply Forall_cons || apply Forall_nil); unfold byte_ok; lia|vm_compute; reflexivity]|lia]|split; [|lia]]);
      (eapply ex_script_value; [opok|eexists; split; vm_compute; reflexivity|lia]).
  - split; [|split; vm_compute; [discriminate|reflexivity]]. repeat (apply Forall_cons || apply Forall_nil); unfold output_value, u64_ok; cbn [out_value out_script]; (split; [lia|]).
    eapply ex_script_value; [opok|eexists; split; vm_compute; reflexivity|lia].
Qed.
Definition ex_p2sh_hash : list Z := match script_ser_ops ex_redeem with Ok x => ex_ripemd (ex_sha (ba_data x)) | _ => [] end.
Example C50_valid_nonvacuous : tx_value 1 1 ex_net_tx /\ net_ok ex_nt /\
  (exists p msg, nth_error (u_preimages ex_u0) 1 = Some [p] /\ c_ser preimage_codec p = Ok msg /\
    valid_input ex_ripemd ex_sha ex_sha ex_verify ex_none3 ex_nolock ex_nolock ex_nomulti ex_nt 1 9000 (locking_bytes P2PKH (ba_data (ad_hash (ex_address 3))))) /\
  ~ valid_input ex_ripemd ex_sha ex_sha ex_none3 ex_none3 ex_nolock ex_nolock ex_nomulti ex_nt 1 9000 (locking_bytes P2PKH (ba_data (ad_hash (ex_address 3)))) /\
  valid_input ex_ripemd ex_sha ex_sha ex_verify ex_none3 ex_nolock ex_nolock ex_nomulti ex_nt 2 500 (locking_bytes P2SH ex_p2sh_hash).
Proof.
  split; [exact ex_net_tx_value|]. destruct C50_nonvacuous as (ER & EB & EA & EC & Er & En & _).
  assert (net_ok ex_nt) as On.
  { destruct (C50_transaction_bytes _ _ _ _ ex_net_tx_value Er) as ((n & On & Bn) & _). destruct (tx_ser_net _ _ Er) as (n' & A & B). pose proof (as_net_ok _ _ _ _ ex_net_tx_value A) as On'.
    unfold net_ok. split; [vm_compute; split; [discriminate|reflexivity]|]. split; [vm_compute; split; [discriminate|reflexivity]|]. split; [vm_compute; reflexivity|]. split; [vm_compute; reflexivity|].
    split; repeat (apply Forall_cons || apply Forall_nil); repeat split; try (vm_compute; reflexivity); vm_compute; discriminate. }
  split; [exact On|].
  assert (forall vf, exists p msg, nth_error (u_preimages ex_u0) 1 = Some [p] /\ c_ser preimage_codec p = Ok msg /\
    (valid_input ex_ripemd ex_sha ex_sha vf ex_none3 ex_nolock ex_nolock ex_nomulti ex_nt 1 9000 (locking_bytes P2PKH (ba_data (ad_hash (ex_address 3)))) <->
     ex_ripemd (ex_sha (repeat 3 33)) = ba_data (ad_hash (ex_address 3)) /\ hashtype_ok 0xc3 = true /\ vf (repeat 3 33) (hash256 ex_sha (ba_data msg)) (repeat 3 3 ++ hash256 ex_sha (ba_data msg)) = true)) as K.
  { intros vf. assert (exists p msg, nth_error (u_preimages ex_u0) 1 = Some [p] /\ c_ser preimage_codec p = Ok msg /\ ex_sign 1 3 = SignInput 1 (Any (sigs := ex_sigs) 0 (ba_unnamed (repeat 3 3 ++ hash256 ex_sha (ba_data msg))))) as (p & msg & Hp & Hm & Hs).
    { do 2 eexists. split; [vm_compute; reflexivity|]. split; [vm_compute; reflexivity|]. vm_compute. reflexivity. }
    destruct (C50_p2pkh ex_sigs ex_ripemd ex_sha ex_sha vf ex_none3 ex_nolock ex_nolock ex_nomulti 0 (fun x => x) (fun x => x) false 2 77 ex_net_calls ex_net_builder _ ex_u0 ex_net_ops ex_u ex_net_tx ex_raw 1 1 ex_nt 1 (ex_in 2 9000) (ex_address 3)
      (repeat 3 33) 0xc3 (ba_unnamed (repeat 3 3 ++ hash256 ex_sha (ba_data msg))) (ex_sign 1 3) ex_sha32 ER (or_introl EB) EA (or_intror EC) ex_net_tx_value Er On En) as (p' & msg' & Hp' & Hm' & V).
    - reflexivity.
    - left. reflexivity.
    - left. exact Hs.
    - reflexivity.
    - cbn [ad_hash ex_address ba_data ba_unnamed]. unfold ex_ripemd. apply bytes_ok_firstn. apply ex_sha32.
    - vm_compute. reflexivity.
    - repeat (apply Forall_cons || apply Forall_nil); unfold byte_ok; lia.
    - vm_compute. discriminate.
    - unfold byte_ok. lia.
    - cbn [ba_data ba_unnamed]. apply bytes_ok_app. split; [repeat (apply Forall_cons || apply Forall_nil); unfold byte_ok; lia|]. apply ex_sha32.
    - cbn [ba_data ba_unnamed]. rewrite zlen_app. unfold hash256, zlen. rewrite (proj1 (ex_sha32 _)), repeat_length. lia.
    - assert (p' = p) by congruence. subst p'. assert (msg' = msg) by congruence. subst msg'. exists p, msg. split; [exact Hp|]. split; [exact Hm|]. exact V. }
  split; [|split].
  - destruct (K ex_verify) as (p & msg & Hp & Hm & V). exists p, msg. split; [exact Hp|]. split; [exact Hm|]. apply V. split; [reflexivity|]. split; [reflexivity|]. unfold ex_verify. apply same_iff. reflexivity.
  - destruct (K ex_none3) as (p & msg & Hp & Hm & V). rewrite V. intros (_ & _ & X). discriminate X.
  - eexists. split; [vm_compute; reflexivity|]. split.
    + exists [([0x55], Push [5]); ([2; 0x55; 0x9c], Push [0x55; 0x9c])]. split; [split; [reflexivity|]|].
      * constructor; [exact (CkSmall 5 ltac:(lia))|]. constructor; [apply CkDirect; [lia|reflexivity]|constructor].
      * repeat constructor; cbn; eauto.
    + exists [[0x55; 0x9c]; [5]], [[1]; [5]]. split; [|split].
      * exists [([0x55], Push [5]); ([2; 0x55; 0x9c], Push [0x55; 0x9c])]. eexists. split; [split; [reflexivity|]; constructor; [exact (CkSmall 5 ltac:(lia))|]; constructor; [apply CkDirect; [lia|reflexivity]|constructor]|].
        split; [vm_compute; discriminate|]. split; [vm_compute; discriminate|]. split; [vm_compute; reflexivity|]. split; reflexivity.
      * exists (p2sh_chunks ex_p2sh_hash). eexists. split; [apply p2sh_decodes; vm_compute; reflexivity|]. split; [vm_compute; discriminate|]. split; [vm_compute; discriminate|]. split; [vm_compute; reflexivity|]. split; reflexivity.
      * right. exists ex_p2sh_hash, [0x55; 0x9c], [[5]], [[1]]. split; [split; [vm_compute; reflexivity|reflexivity]|]. split; [eexists _, _; split; reflexivity|]. split; [reflexivity|]. split; [|exists [1]; split; reflexivity].
        exists [([0x55], Push [5]); ([0x9c], Exec 0x9c)]. eexists. split; [split; [reflexivity|]; constructor; [exact (CkSmall 5 ltac:(lia))|]; constructor; [apply CkExec; cbn; lia|constructor]|].
        split; [vm_compute; discriminate|]. split; [vm_compute; discriminate|]. split; [vm_compute; reflexivity|]. split; reflexivity.
Qed.
