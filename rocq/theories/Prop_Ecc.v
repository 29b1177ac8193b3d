(** Property C56: the signature back-ends (bitcoin-cash-ecc) and keys, addresses, signatures and spends end to end. *)
From Verif Require Import Base BaseLemmas Model_ByteArray Model_Script Model_Code Model_Preimage Spec_Preimage Model_Address Model_AddressApi Model_Hash
  Model_Destination Model_TxBuilder Spec_TxBuilder Spec_Calls Spec_Code Spec_Network Spec_NetView Spec_Destination Prop_Network Prop_TxBuilder2 Model_Ecc Spec_Ecc Proofs_Ecc.
From Coq Require Import ZifyBool.
Local Open Scope Z_scope.
Local Open Scope list_scope.

(** C56: signing.  A secret key that is not 32 bytes or not a valid scalar, and else a message that is not 32 bytes, gives an
    [InvalidSize] error; otherwise the result is the strict DER encoding, at most 71 bytes long, of a low-S signature that is valid
    for the key and message, as a byte array that records the message it was made from. *)
Theorem C56_sign : forall S E sk m, scheme_ok S -> backend S E -> bytes_ok sk -> bytes_ok (ba_data m) ->
  (~ secret_key sk -> ecc_sign E sk m = Err (EInvalidSize 32 (zlen sk))) /\
  (secret_key sk -> zlen (ba_data m) <> 32 -> ecc_sign E sk m = Err (EInvalidSize 32 (zlen (ba_data m)))) /\
  (secret_key sk -> zlen (ba_data m) = 32 ->
     exists sig r s, ecc_sign E sk m = Ok sig /\
       ba_name sig = None /\ ba_function sig = FEcdsaSign /\ ba_preimage sig = Some [m] /\
       scalar r /\ low_s s /\ strict_der r s (ba_data sig) /\ valid S (key_of S (be_value sk)) (ba_data m) r s = true /\
       zlen (ba_data sig) <= 71).
Proof.
  intros S E sk m HS HE Bs Bm. destruct (sign_facts S E sk m HS HE Bs Bm) as (A & B & C). split; [exact A|]. split; [exact B|].
  intros Hk Hm. destruct (C Hk Hm) as (data & r & s & Eq & Hr & Hs & Hd & Hv). exists (BA data None FEcdsaSign (Some [m])), r, s.
  repeat (split; [first [exact Eq|reflexivity|assumption]|]). apply (der_size r s data Hr Hs Hd).
Qed.
Print Assumptions C56_sign.

(** C56: the public key of a valid secret key is the compressed key of its scalar (33 bytes); any other secret is refused. *)
Theorem C56_derive_pubkey : forall S E sk, scheme_ok S -> backend S E -> bytes_ok sk ->
  (~ secret_key sk -> ecc_derive_pubkey E sk = Err (EInvalidSize 32 (zlen sk))) /\
  (secret_key sk -> exists pk, ecc_derive_pubkey E sk = Ok pk /\ pk = key_of S (be_value sk) /\ bytes_ok pk /\ zlen pk = 33).
Proof.
  intros S E sk HS HE Bs. destruct (derive_facts S E sk HE Bs) as [A B]. split; [exact A|]. intros Hk. eexists. split; [exact (B Hk)|].
  split; [reflexivity|]. apply HS, Hk.
Qed.
Print Assumptions C56_derive_pubkey.

(** C56: whatever is signed with a key verifies under its public key, also when signing and verifying use different
    back-ends. *)
Theorem C56_sign_then_verify : forall S E E' E'' sk m sig pk, scheme_ok S -> backend S E -> backend S E' -> backend S E'' ->
  bytes_ok sk -> bytes_ok (ba_data m) -> ecc_sign E sk m = Ok sig -> ecc_derive_pubkey E' sk = Ok pk ->
  ecc_verify E'' pk (ba_data m) (ba_data sig) = Ok true.
Proof.
  intros S E E1 E2 sk m sig pk HS HE H1 H2 Bs Bm Es Ek. destruct (sign_facts S E sk m HS HE Bs Bm) as (A & B & C). destruct (derive_facts S E1 sk H1 Bs) as [D F].
  assert (secret_key sk \/ ~ secret_key sk) as [Hk|Hk] by (unfold secret_key, scalar; lia); [|rewrite (A Hk) in Es; discriminate].
  destruct (Z.eq_dec (zlen (ba_data m)) 32) as [Hm|Hm]; [|rewrite (B Hk Hm) in Es; discriminate].
  destruct (C Hk Hm) as (data & r & s & Eq & Hr & Hs & Hd & Hv). rewrite Eq in Es. injection Es as <-. rewrite (F Hk) in Ek. injection Ek as <-.
  cbn [ba_data]. rewrite (verify_low S E2 _ _ _ r s H2 (proj2 Hk) Bm Hm Hr Hs Hd), Hv. reflexivity.
Qed.
Print Assumptions C56_sign_then_verify.

(** C56: verifying a low-S signature gives exactly the verdict of the verification equation. *)
Theorem C56_verify : forall S E sk pk m sig r s, backend S E -> bytes_ok sk -> ecc_derive_pubkey E sk = Ok pk ->
  bytes_ok m -> zlen m = 32 -> scalar r -> low_s s -> strict_der r s sig ->
  ecc_verify E pk m sig = Ok (valid S pk m r s).
Proof.
  intros S E sk pk m sig r s HE Bs Ek Bm Hm Hr Hs Hd. destruct (derive_facts S E sk HE Bs) as [D F].
  assert (secret_key sk \/ ~ secret_key sk) as [Hk|Hk] by (unfold secret_key, scalar; lia); [|rewrite (D Hk) in Ek; discriminate].
  rewrite (F Hk) in Ek. injection Ek as <-. exact (verify_low S E _ _ _ r s HE (proj2 Hk) Bm Hm Hr Hs Hd).
Qed.
Print Assumptions C56_verify.

(** C56: a high-S signature is refused by the C back-end even if the equation holds ... *)
Theorem C56_high_s_refused : forall S L d m sig r s, c_crate_ok S L -> scalar d -> bytes_ok m -> zlen m = 32 -> scalar r -> scalar s -> ~ low_s s ->
  strict_der r s sig -> ecc_verify (c_ecc L) (key_of S d) m sig = Ok false.
Proof.
  intros S L d m sig r s HL Hd Bm Lm Hr Hs Hn Hsig. destruct HL as (_ & PM & _ & RD & _ & _ & PP & _ & _ & _ & CV). cbn [c_ecc ecc_verify]. unfold c_ecc_verify.
  rewrite (msg_some _ _ PM Bm Lm), (RD r s sig Hr Hs Hsig), (PP d Hd). cbn [or_err obind]. rewrite (CV _ _ _ _ Hs).
  assert (s <=? N / 2 = false) as -> by (apply Z.leb_gt; unfold low_s, scalar in *; lia). reflexivity.
Qed.
Print Assumptions C56_high_s_refused.
(** ... and made acceptable by [normalize_sig], which keeps validity, leaves low-S signatures alone, and is idempotent. *)
Theorem C56_normalize : forall S E r s sig, scheme_ok S -> backend S E -> scalar r -> scalar s -> strict_der r s sig ->
  exists sig' s', ecc_normalize_sig E sig = Ok sig' /\ low_s s' /\ strict_der r s' sig' /\ (s' = s \/ s' = N - s) /\
    (low_s s -> sig' = sig) /\ ecc_normalize_sig E sig' = Ok sig' /\
    forall d m, scalar d -> bytes_ok m -> zlen m = 32 -> ecc_verify E (key_of S d) m sig' = Ok (valid S (key_of S d) m r s).
Proof.
  intros S E r s sig HS HE Hr Hs Hd. destruct (normalize_facts S E r s sig HE Hr Hs Hd) as (sig' & En & Hd').
  pose proof (lower_low s Hs) as Hl. set (s' := if s <=? N / 2 then s else N - s) in *. exists sig', s'. split; [exact En|]. split; [exact Hl|]. split; [exact Hd'|].
  split; [unfold s'; destruct (s <=? N / 2); auto|]. split; [|split].
  - intros Hlow. eapply strict_der_unique; [exact Hd'|]. unfold s'. destruct (Z.leb_spec s (N / 2)); [exact Hd|unfold low_s in Hlow; lia].
  - destruct (normalize_facts S E r s' sig' HE Hr (low_scalar _ Hl) Hd') as (sig'' & En' & Hd''). rewrite En'. f_equal.
    eapply strict_der_unique; [exact Hd''|]. destruct (Z.leb_spec s' (N / 2)); [exact Hd'|unfold low_s in Hl; lia].
  - intros d m Hsd Bm Hm. rewrite (verify_low S E d m sig' r s' HE Hsd Bm Hm Hr Hl Hd'). unfold s'. now rewrite lower_valid.
Qed.
Print Assumptions C56_normalize.

(** C56: whatever the curve libraries do, no function of a back-end panics, and the errors are: for verify a wrong message size, then a
    malformed signature, then a malformed public key, in this order; for the others see above. *)
Theorem C56_never_panics : forall E, (exists L, E = c_ecc L) \/ (exists L, E = rust_ecc L) ->
  (forall sk m, ecc_sign E sk m <> Panic) /\ (forall pk m sig, ecc_verify E pk m sig <> Panic) /\
  (forall sk, ecc_derive_pubkey E sk <> Panic) /\ (forall sig, ecc_normalize_sig E sig <> Panic).
Proof.
  intros E [[L ->]|[L ->]]; cbn; (split; [|split; [|split]]); intros; unfold c_ecc_sign, rust_ecc_sign, c_ecc_verify, rust_ecc_verify,
    c_ecc_derive_pubkey, rust_ecc_derive_pubkey, c_ecc_normalize_sig, rust_ecc_normalize_sig;
  repeat match goal with |- context [or_err ?o _] => destruct o; cbn [or_err obind]; try discriminate end.
  destruct (c_verify L l p l0) as [[]|]; discriminate.
Qed.
Print Assumptions C56_never_panics.
Theorem C56_verify_errors : forall E e pk m sig, (exists L, E = c_ecc L) \/ (exists L, E = rust_ecc L) -> ecc_verify E pk m sig = Err e ->
  e = EInvalidSize 32 (zlen m) \/ e = EInvalidSignatureFormat \/ e = EInvalidPubkey.
Proof.
  intros E e pk m sig [[L ->]|[L ->]]; cbn; unfold c_ecc_verify, rust_ecc_verify;
  repeat match goal with |- context [or_err ?o _] => destruct o; cbn [or_err obind]; try (intros H; injection H as <-; auto; fail) end; [|discriminate].
  destruct (c_verify L l p l0) as [[]|]; try discriminate. intros H. injection H as <-. auto.
Qed.
Print Assumptions C56_verify_errors.
Theorem C56_verify_size_error : forall S E pk m sig, backend S E -> bytes_ok m ->
  (zlen m <> 32 -> ecc_verify E pk m sig = Err (EInvalidSize 32 (zlen m))) /\
  (zlen m = 32 -> ecc_verify E pk m sig <> Err (EInvalidSize 32 (zlen m))).
Proof.
  intros S E pk m sig [(L & HL & ->)|(L & HL & ->)] Bm; cbn; unfold c_ecc_verify, rust_ecc_verify; (split; intros Hm).
  - rewrite (msg_none _ _ (proj1 (proj2 HL)) Bm Hm). reflexivity.
  - rewrite (msg_some _ _ (proj1 (proj2 HL)) Bm Hm). cbn [or_err obind]. destruct (c_from_der L sig); cbn [or_err obind]; [|discriminate].
    destruct (c_pk_from_slice L pk); cbn [or_err obind]; [|discriminate]. destruct (c_verify L m p l) as [[]|]; discriminate.
  - rewrite (msg_none _ _ (proj1 (proj2 HL)) Bm Hm). reflexivity.
  - rewrite (msg_some _ _ (proj1 (proj2 HL)) Bm Hm). cbn [or_err obind]. destruct (r_parse_der L sig); cbn [or_err obind]; [|discriminate].
    destruct (r_pk_parse_compressed L pk); cbn [or_err obind]; discriminate.
Qed.
Print Assumptions C56_verify_size_error.
(** With a digest of 32 bytes and a well-formed signature only the public key can be at fault; with a derived key only the signature. *)
Theorem C56_verify_blame : forall S E pk m sig e, backend S E -> bytes_ok m -> zlen m = 32 -> ecc_verify E pk m sig = Err e ->
  (forall r s, scalar r -> scalar s -> strict_der r s sig -> e = EInvalidPubkey) /\
  (forall d, scalar d -> pk = key_of S d -> e = EInvalidSignatureFormat).
Proof.
  intros S E pk m sig e [(L & HL & ->)|(L & HL & ->)] Bm Hm; cbn; unfold c_ecc_verify, rust_ecc_verify.
  - destruct HL as (_ & PM & _ & RD & _ & _ & PP & _ & _ & _ & CV). rewrite (msg_some _ _ PM Bm Hm). cbn [or_err obind]. intros H. split.
    + intros r s Hr Hs Hd. rewrite (RD r s sig Hr Hs Hd) in H. cbn [or_err obind] in H. destruct (c_pk_from_slice L pk); cbn [or_err obind] in H; [|now injection H as <-]. rewrite (CV _ _ _ _ Hs) in H. destruct (_ && _) in H; discriminate.
    + intros d Hd ->. rewrite (PP d Hd) in H. destruct (c_from_der L sig); cbn [or_err obind] in H; [|now injection H as <-]. destruct (c_verify _ _ _ _) as [[]|] in H; try discriminate; now injection H as <-.
  - destruct HL as (_ & PM & _ & RD & _ & _ & PP & _). rewrite (msg_some _ _ PM Bm Hm). cbn [or_err obind]. intros H. split.
    + intros r s Hr Hs Hd. rewrite (RD r s sig Hr Hs Hd) in H. cbn [or_err obind] in H. destruct (r_pk_parse_compressed L pk); cbn [or_err obind] in H; [discriminate|now injection H as <-].
    + intros d Hd ->. rewrite (PP d Hd) in H. destruct (r_parse_der L sig); cbn [or_err obind] in H; [discriminate|now injection H as <-].
Qed.
Print Assumptions C56_verify_blame.

(** C56: a wallet's round trip.  The coin is locked by the address of the key's public key, the input is added to the builder with the
    P2PKH signatory, and the signature attached is the back-end's for the double SHA-256 of the message the builder hands out: then the network
    accepts the input - unless the DER signature happens to be 64 bytes long, which the network takes for a Schnorr signature. *)
Theorem C56_wallet : forall S E sigs ripemd160 sha1 sha256 verify checkdatasig locktime sequence multisig ty (to_ba : sigs ty -> barray) of_ba
    release version lock_time (calls : list (@call sigs)) b rs u0 ops u t raw in_size out_size nt k input sk pk prefix a flags sg o p msg h,
  scheme_ok S -> backend S E -> network_verify S verify -> hash32 sha256 -> (forall x, bytes_ok (ripemd160 x) /\ zlen (ripemd160 x) = 20) ->
  bytes_ok sk -> ecc_derive_pubkey E sk = Ok pk -> from_pk (fun x => ripemd160 (sha256 x)) prefix pk = Ok a ->
  run_calls (builder_new sigs version lock_time) calls = (b, rs) ->
  build (hash256 sha256) release b = Ok u0 \/ build_without_estimation (hash256 sha256) b = Ok u0 -> apply_ops u0 ops = Ok u -> final_tx u t ->
  tx_value in_size out_size t -> tx_ser t = Ok raw -> net_ok nt -> net_bytes nt = ba_data raw ->
  let s := p2pkh_signatory_of sigs ty to_ba of_ba (P2PKHSignatory pk flags) in
  nth_error (asked_inputs calls) k = Some (input, address_script a, s) -> In o ops -> signs o k s sg -> hashtype_ok flags = true ->
  nth_error (u_preimages u0) k = Some [p] -> c_ser preimage_codec p = Ok msg -> ba_data h = hash256 sha256 (ba_data msg) ->
  ecc_sign E sk h = Ok (to_ba sg) -> zlen (ba_data (to_ba sg)) <> 64 ->
  valid_input ripemd160 sha1 sha256 verify checkdatasig locktime sequence multisig nt k (ui_value input) (locking_bytes P2PKH (ba_data (ad_hash a))).
Proof.
  intros S E sigs ripemd sha1 sha verify cds lck sq ms ty to_ba of_ba release v lt l b rs u0 ops u t raw is os nt k input sk pk prefix a flags sg o p msg h
    HS HE HN Hsha Hrip Bs Ek Ea ER EB EA HT V Er On Bn s Hk Ho Hs Hf Hp Em Hh Esg H64.
  destruct (C56_derive_pubkey S E sk HS HE Bs) as [D1 D2].
  assert (secret_key sk \/ ~ secret_key sk) as [Hsk|Hsk] by (unfold secret_key, scalar; lia); [|rewrite (D1 Hsk) in Ek; discriminate].
  destruct (D2 Hsk) as (pk' & Ek' & Epk & Bpk & Lpk). rewrite Ek in Ek'. injection Ek' as <-.
  assert (bytes_ok (ba_data h) /\ zlen (ba_data h) = 32) as [Bh Lh].
  { rewrite Hh. unfold hash256. destruct (Hsha (sha (ba_data msg))) as [L B]. split; [exact B|]. unfold zlen. rewrite L. reflexivity. }
  destruct (C56_sign S E sk h HS HE Bs Bh) as (_ & _ & Hsign). destruct (Hsign Hsk Lh) as (sig & r & sc & Es & _ & _ & _ & Hr & Hsc & Hder & Hval & Hlen).
  rewrite Esg in Es. injection Es as <-.
  assert (ad_type a = P2PKH /\ ba_data (ad_hash a) = ripemd (sha pk)) as [Ta Da].
  { unfold from_pk in Ea. apply obind_ok in Ea. destruct Ea as (hh & Eh & Ea). unfold from_hash_px in Ea. apply obind_ok in Ea. destruct Ea as (txt & _ & Ea). injection Ea as <-.
    cbn [ad_type ad_hash]. split; [reflexivity|]. unfold hash_digest, fixed_from_byte_array in Eh. cbn [ba_apply_function ba_data ba_unnamed ba_len] in Eh.
    destruct (20 =? _); [|discriminate]. injection Eh as <-. reflexivity. }
  destruct (der_size r sc (ba_data (to_ba sg)) Hr Hsc Hder) as [_ Bsig].
  assert (byte_ok flags) as Bf.
  { unfold hashtype_ok in Hf. cbn [existsb] in Hf. unfold byte_ok. lia. }
  destruct (C50_p2pkh sigs ripemd sha1 sha verify cds lck sq ms ty to_ba of_ba release v lt l b rs u0 ops u t raw is os nt k input a pk flags sg o
    Hsha ER EB EA HT V Er On Bn Hk Ho Hs Ta) as (p' & msg' & Hp' & Em' & Hiff).
  - rewrite Da. apply Hrip.
  - rewrite Da. apply Hrip.
  - exact Bpk.
  - lia.
  - exact Bf.
  - exact Bsig.
  - lia.
  - assert (p' = p) as -> by congruence. assert (msg' = msg) as -> by congruence. apply Hiff. split; [now rewrite Da|]. split; [exact Hf|].
    apply HN; [exact H64|]. exists r, sc. rewrite <- Hh. rewrite Epk in *. auto.
Qed.
Print Assumptions C56_wallet.

(** C56: signatures of the back-ends are never longer than the P2PKH placeholder: the size estimate of a transaction all of whose
    inputs are P2PKH and signed by a back-end is an upper bound of its real size. *)
Theorem C56_estimate : forall S E sigs ty (to_ba : sigs ty -> barray) of_ba sha256d release (b : tx_builder sigs) u ops u' t,
  scheme_ok S -> backend S E -> (forall x, to_ba (of_ba x) = x) ->
  constructed (is_p2pkh sigs ty to_ba of_ba) b -> (build sha256d release b = Ok u \/ build_without_estimation sha256d b = Ok u) ->
  apply_ops u ops = Ok u' ->
  Forall (fun o => exists idx sg sk m, o = SignInput idx (Any ty sg) /\ bytes_ok sk /\ bytes_ok (ba_data m) /\ ecc_sign E sk m = Ok (to_ba sg)) ops ->
  complete_tx u' = Ok t ->
  exists raw, tx_ser t = Ok raw /\ zlen (ba_data raw) <= u_estimated_size u.
Proof.
  intros S E sigs ty to_ba of_ba sha release b u ops u' t HS HE Hrt HC HB HA HF Ht. eapply C29_p2pkh; try eassumption.
  eapply Forall_impl; [|exact HF]. intros o (idx & sg & sk & m & -> & Bs & Bm & Es). exists idx, ty, sg. split; [reflexivity|]. exists eq_refl. cbn [eq_rect].
  destruct (C56_sign S E sk m HS HE Bs Bm) as (A & B & C).
  assert (secret_key sk \/ ~ secret_key sk) as [Hk|Hk] by (unfold secret_key, scalar; lia); [|rewrite (A Hk) in Es; discriminate].
  destruct (Z.eq_dec (zlen (ba_data m)) 32) as [Hm|Hm]; [|rewrite (B Hk Hm) in Es; discriminate].
  destruct (C Hk Hm) as (sig & r & s & Eq & _ & _ & _ & Hr & Hs & Hd & _). rewrite Eq in Es. injection Es as ->. destruct (der_size r s _ Hr Hs Hd) as [L Bo].
  split; [exact Bo|]. change MAX_SIGNATURE_SIZE with 72. lia.
Qed.
Print Assumptions C56_estimate.

(** A toy scheme and crates meeting the contracts: the hypotheses above can be satisfied. *)
Definition toy_point (pk m : list Z) : Z := 1 + (be_value pk + be_value m) mod (N / 2).
Definition toy : scheme :=
  Scheme (fun d => 2 :: be_bytes 32 d) (fun pk m r s => (r =? toy_point pk m) && ((s =? toy_point pk m) || (s =? N - toy_point pk m))).
Definition toy_key (b : list Z) : option Z := if (zlen b =? 32) && (0 <? be_value b) && (be_value b <? N) then Some (be_value b) else None.
Definition toy_msg (b : list Z) : option (list Z) := if zlen b =? 32 then Some b else None.
Definition toy_sign (m : list Z) (d : Z) : Z * Z := let x := toy_point (key_of toy d) m in (x, x).
Definition toy_lower (g : Z * Z) : Z * Z := (fst g, if snd g <=? N / 2 then snd g else N - snd g).
Definition toy_verify (m : list Z) (g : Z * Z) (pk : list Z) : option c_error :=
  if (snd g <=? N / 2) && valid toy pk m (fst g) (snd g) then None else Some IncorrectSignature.
Definition toy_c : c_crate := CCrate toy_key toy_msg toy_sign der_ser der_parse der_parse toy_lower (fun pk => Some pk) toy_verify (key_of toy).
Definition toy_rust : rust_crate := RustCrate toy_key toy_msg (fun m d => (fst (toy_sign m d), N - snd (toy_sign m d))) der_ser der_parse der_parse toy_lower
  (fun pk => if zlen pk =? 33 then Some pk else None) (fun m g pk => valid toy pk m (fst g) (snd g)) (key_of toy).
Lemma toy_low pk m : low_s (toy_point pk m).
Proof. unfold toy_point, low_s. pose proof (Z.mod_pos_bound (be_value pk + be_value m) (N / 2) eq_refl). lia. Qed.
Lemma toy_scheme : scheme_ok toy.
Proof.
  split.
  - intros d _. cbn [key_of toy]. split; [apply bytes_ok_cons; split; [unfold byte_ok; lia|unfold be_bytes; apply bytes_ok_rev, le_bytes_ok]|].
    rewrite zlen_cons. unfold be_bytes, zlen. rewrite rev_length, le_bytes_length. reflexivity.
  - intros pk m r s. cbn [valid toy]. destruct (r =? toy_point pk m); [|reflexivity]. cbn [andb]. generalize (toy_point pk m). generalize N. intros n x. lia.
Qed.
Lemma toy_keys : parses_keys toy_key.
Proof.
  intros b _ d. unfold toy_key, secret_key, scalar. destruct ((zlen b =? 32) && (0 <? be_value b) && (be_value b <? N)) eqn:E.
  - apply andb_prop in E. destruct E as [E E3]. apply andb_prop in E. destruct E as [E1 E2]. apply Z.eqb_eq in E1. apply Z.ltb_lt in E2, E3.
    split; [intros H; injection H as <-; auto|intros [_ ->]; reflexivity].
  - split; [discriminate|]. intros [[A [B C]] _]. rewrite A in E. apply Z.ltb_lt in B, C. rewrite B, C in E. discriminate.
Qed.
Lemma toy_msgs : parses_messages toy_msg.
Proof. intros b _ m. unfold toy_msg. destruct (Z.eqb_spec (zlen b) 32); split; try discriminate; [intros H; injection H as <-; auto|intros [_ ->]; reflexivity|tauto]. Qed.
Lemma toy_valid d m : valid toy (key_of toy d) m (toy_point (key_of toy d) m) (toy_point (key_of toy d) m) = true.
Proof. cbn [valid toy]. now rewrite !Z.eqb_refl. Qed.
Theorem C56_contracts_satisfiable : scheme_ok toy /\ backend toy (c_ecc toy_c) /\ backend toy (rust_ecc toy_rust).
Proof.
  split; [exact toy_scheme|]. split; [left; exists toy_c; split; [|reflexivity]|right; exists toy_rust; split; [|reflexivity]].
  - split; [exact toy_keys|]. split; [exact toy_msgs|]. split; [exact der_ser_ok|]. split; [exact der_parse_ok|]. split; [exact der_parse_ok|].
    split; [intros r s _; reflexivity|]. split; [intros d _; reflexivity|]. split.
    { intros m d _ _ _. cbn [c_sign toy_c]. unfold toy_sign. split; [apply low_scalar, toy_low|]. split; [apply low_scalar, toy_low|]. apply toy_valid. }
    split; [reflexivity|]. split; [intros m d _ _ _; apply toy_low|]. intros m r s pk _. reflexivity.
  - split; [exact toy_keys|]. split; [exact toy_msgs|]. split; [exact der_ser_ok|]. split; [exact der_parse_ok|]. split; [exact der_parse_ok|].
    split; [intros r s _; reflexivity|]. split.
    { intros d Hd. cbn [r_pk_parse_compressed toy_rust]. rewrite (proj2 (proj1 toy_scheme d Hd)). reflexivity. }
    split.
    { intros m d _ _ _. cbn [r_sign toy_rust]. unfold toy_sign. cbn [fst snd]. pose proof (toy_low (key_of toy d) m) as Hl. split; [apply low_scalar, Hl|].
      split; [|rewrite (proj2 toy_scheme); apply toy_valid]. apply low_scalar in Hl. unfold scalar in *. lia. }
    split; [reflexivity|]. intros m r s pk _. reflexivity.
Qed.
Print Assumptions C56_contracts_satisfiable.

Definition toy_secret : list Z := repeat 0 31 ++ [7].
(** A signature of 70 bytes made with one back-end and checked with the other; a zero secret key is refused. *)
Definition toy_message : barray := ba_unnamed (repeat 1 32).
Example C56_nonvacuous : secret_key toy_secret /\
  (exists sig pk, ecc_sign (rust_ecc toy_rust) toy_secret toy_message = Ok sig /\ ecc_derive_pubkey (c_ecc toy_c) toy_secret = Ok pk /\
     ecc_verify (c_ecc toy_c) pk (ba_data toy_message) (ba_data sig) = Ok true /\
     ecc_verify (c_ecc toy_c) pk (repeat 2 32) (ba_data sig) = Ok false /\ zlen (ba_data sig) = 70) /\
  ecc_sign (c_ecc toy_c) (repeat 0 32) toy_message = Err (EInvalidSize 32 32).
Proof.
  split; [split; [reflexivity|split; reflexivity]|]. split; [|reflexivity].
  destruct (ecc_sign (rust_ecc toy_rust) toy_secret toy_message) as [sig| |] eqn:E1; [|vm_compute in E1; discriminate|vm_compute in E1; discriminate].
  destruct (ecc_derive_pubkey (c_ecc toy_c) toy_secret) as [pk| |] eqn:E2; [|vm_compute in E2; discriminate|vm_compute in E2; discriminate].
  exists sig, pk. vm_compute in E1. vm_compute in E2. injection E1 as <-. injection E2 as <-. split; [reflexivity|]. split; [reflexivity|]. vm_compute. auto.
Qed.

(** C56, exception: an ECDSA signature whose DER encoding is 64 bytes long is not covered: the network, which takes it for a
    Schnorr signature, may refuse it. *)
Definition toy_network (pk m sig : list Z) : bool :=
  negb (zlen sig =? 64) && if list_eq_dec Z.eq_dec sig (der_ser (toy_point pk m, toy_point pk m)) then true else false.
Lemma toy_network_ok : network_verify toy toy_network.
Proof.
  intros pk m sig H64. unfold toy_network. apply Z.eqb_neq in H64. rewrite H64. cbn [negb andb]. pose proof (toy_low pk m) as Hl.
  destruct (list_eq_dec Z.eq_dec sig (der_ser (toy_point pk m, toy_point pk m))) as [->|Hne]; split; try discriminate.
  - intros _. exists (toy_point pk m), (toy_point pk m). split; [apply low_scalar, Hl|]. split; [exact Hl|]. split; [apply der_ser_ok; apply low_scalar, Hl|].
    cbn [valid toy]. now rewrite !Z.eqb_refl.
  - reflexivity.
  - intros (r & s & Hr & Hs & Hd & Hv). exfalso. cbn [valid toy] in Hv. apply andb_prop in Hv. destruct Hv as [E1 E2]. apply Z.eqb_eq in E1. subst r.
    apply orb_prop in E2. destruct E2 as [E2|E2]; apply Z.eqb_eq in E2; subst s.
    + apply Hne. eapply strict_der_unique; [exact Hd|]. apply der_ser_ok; apply low_scalar, Hl.
    + unfold low_s in *. change N with (2 * (N / 2) + 1) in Hs at 2. lia.
Qed.
Theorem C56_64_bytes_refuted : exists S E verify sk m sig pk, scheme_ok S /\ backend S E /\ network_verify S verify /\
  ecc_sign E sk m = Ok sig /\ ecc_derive_pubkey E sk = Ok pk /\ zlen (ba_data sig) = 64 /\ verify pk (ba_data m) (ba_data sig) = false.
Proof.
  set (sk := be_bytes 32 (2 ^ 230)). set (m := ba_unnamed (repeat 0 32)).
  destruct (ecc_sign (c_ecc toy_c) sk m) as [sig| |] eqn:E1; [|vm_compute in E1; discriminate|vm_compute in E1; discriminate].
  destruct (ecc_derive_pubkey (c_ecc toy_c) sk) as [pk| |] eqn:E2; [|vm_compute in E2; discriminate|vm_compute in E2; discriminate].
  exists toy, (c_ecc toy_c), toy_network, sk, m, sig, pk. destruct C56_contracts_satisfiable as (A & B & _).
  split; [exact A|]. split; [exact B|]. split; [exact toy_network_ok|]. split; [exact E1|]. split; [exact E2|].
  assert (zlen (ba_data sig) = 64) as L by (vm_compute in E1; injection E1 as <-; reflexivity). split; [exact L|].
  unfold toy_network. rewrite L. reflexivity.
Qed.
Print Assumptions C56_64_bytes_refuted.
