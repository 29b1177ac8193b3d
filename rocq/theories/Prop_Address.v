(** Properties C19, C20, C21: CashAddr texts. *)
From Verif Require Import Base BaseLemmas Model_ByteArray Model_Address Spec_Address Proofs_Address Proofs_Address2 Proofs_AddressDist Proofs_Address3.
Local Open Scope Z_scope.

(** C19: the text built for an address is its CashAddr text, for every prefix. *)
Theorem C19_text_is_cash_addr : forall prefix t hash, bytes_ok (ba_data hash) ->
  exists a, from_hash prefix t hash = Ok a /\ cash_addr_text prefix t (ba_data hash) (ad_text a) /\
    ad_type a = t /\ ad_hash a = hash /\ ad_prefix a = prefix.
Proof.
  intros p t h H. destruct (to_cash_addr_ok p t (ba_data h) H) as (txt & E & S). unfold from_hash. rewrite E. cbn [obind].
  eexists. split; [reflexivity|]. cbn [ad_text ad_type ad_hash ad_prefix]. auto.
Qed.
Print Assumptions C19_text_is_cash_addr.

Theorem C19_text_unique : forall prefix t hash x y, cash_addr_text prefix t hash x -> cash_addr_text prefix t hash y -> x = y.
Proof. exact cash_addr_text_unique. Qed.
Print Assumptions C19_text_unique.

(** C19: parsing the text returns the address; also with letters in any case. *)
Theorem C19_round_trip : forall prefix t hash a s,
  Forall (fun x => ~ 65 <= x <= 90 /\ x <> 58) prefix -> bytes_ok (ba_data hash) -> length (ba_data hash) = 20%nat ->
  from_hash prefix t hash = Ok a -> same_letters s (ad_text a) ->
  exists b, from_cash_addr s = Ok b /\ ad_type b = t /\ ba_data (ad_hash b) = ba_data hash /\ ad_prefix b = prefix /\ ad_kind b = ad_kind a /\ ad_text b = s.
Proof.
  intros p t h a s Hp Hb Hl Ha Hs. destruct (C19_text_is_cash_addr p t h Hb) as (a' & E & S & _). rewrite Ha in E. injection E as <-.
  assert (ad_kind a = from_prefix_str p) as -> by (unfold from_hash in Ha; apply obind_ok in Ha; destruct Ha as (tx & _ & Ha); injection Ha as <-; reflexivity).
  eexists. split; [eapply (read_text p t (ba_data h) (ad_text a) s (ad_text a)); auto|cbn; auto].
  - eapply Forall_impl; [|exact Hp]. now intros x [H _].
  - intros Hi. rewrite Forall_forall in Hp. destruct (Hp _ Hi). congruence.
Qed.
Print Assumptions C19_round_trip.

Theorem C19_round_trip_upper_case : forall prefix t hash a,
  Forall (fun x => ~ 65 <= x <= 90 /\ x <> 58) prefix -> bytes_ok (ba_data hash) -> length (ba_data hash) = 20%nat ->
  from_hash prefix t hash = Ok a ->
  exists b, from_cash_addr (map upper_case (ad_text a)) = Ok b /\ ad_type b = t /\ ba_data (ad_hash b) = ba_data hash /\ ad_prefix b = prefix.
Proof.
  intros p t h a Hp Hb Hl Ha. destruct (C19_round_trip p t h a _ Hp Hb Hl Ha (upper_same (ad_text a))) as (b & E & H1 & H2 & H3 & _). exists b. auto.
Qed.
Print Assumptions C19_round_trip_upper_case.

(** C19: with the default prefix, prefix and colon may be left out. *)
Theorem C19_round_trip_without_prefix : forall t hash a s chars,
  bytes_ok (ba_data hash) -> length (ba_data hash) = 20%nat ->
  from_hash (text "bitcoincash") t hash = Ok a -> ad_text a = text "bitcoincash:" ++ chars -> same_letters s chars ->
  exists b, from_cash_addr s = Ok b /\ ad_type b = t /\ ba_data (ad_hash b) = ba_data hash /\ ad_prefix b = text "bitcoincash" /\ ad_kind b = Some BitcoinCash.
Proof.
  intros t h a s chars Hb Hl Ha Ht Hs. destruct (C19_text_is_cash_addr (text "bitcoincash") t h Hb) as (a' & E & S & _). rewrite Ha in E. injection E as <-.
  eexists. split; [eapply (read_text (text "bitcoincash") t (ba_data h) (ad_text a) s chars); auto|cbn; auto].
  - apply Forall_forall. cbn. unfold low_ok. intros x Hx. lia.
  - cbn. lia.
Qed.
Print Assumptions C19_round_trip_without_prefix.

(** C19: no two distinct addresses share a text. *)
Theorem C19_text_injective : forall p t h p' t' h' a a',
  ~ In 58 p -> ~ In 58 p' -> bytes_ok (ba_data h) -> bytes_ok (ba_data h') -> length (ba_data h) = 20%nat -> length (ba_data h') = 20%nat ->
  from_hash p t h = Ok a -> from_hash p' t' h' = Ok a' -> ad_text a = ad_text a' -> p = p' /\ t = t' /\ ba_data h = ba_data h'.
Proof.
  intros p t h p' t' h' a a' N N' B B' L L' H H' E. destruct (C19_text_is_cash_addr p t h B) as (b & Eb & S & _), (C19_text_is_cash_addr p' t' h' B') as (b' & Eb' & S' & _).
  rewrite H in Eb. rewrite H' in Eb'. injection Eb as <-. injection Eb' as <-. rewrite <- E in S'. eapply cash_addr_text_inj; eauto.
Qed.
Print Assumptions C19_text_injective.

Theorem C19_with_prefix : forall a prefix, bytes_ok (ba_data (ad_hash a)) ->
  exists b, with_prefix a prefix = Ok b /\ ad_type b = ad_type a /\ ad_hash b = ad_hash a /\ ad_prefix b = prefix /\ cash_addr_text prefix (ad_type a) (ba_data (ad_hash a)) (ad_text b).
Proof.
  intros a p H. destruct (C19_text_is_cash_addr p (ad_type a) (ad_hash a) H) as (b & E & S & A1 & A2 & A3). exists b. auto.
Qed.
Print Assumptions C19_with_prefix.

Definition ex_hash : list Z := [0xf5;0xbf;0x48;0xb3;0x97;0xda;0xe7;0x0b;0xe8;0x2b;0x3c;0xca;0x47;0x93;0xf8;0xeb;0x2b;0x6c;0xda;0xc9].
Definition ex_text : list Z := text "bitcoincash:qr6m7j9njldwwzlg9v7v53unlr4jkmx6eylep8ekg2".
Example C19_nonvacuous :
  from_hash (text "bitcoincash") P2PKH (ba_unnamed ex_hash) = Ok (Address P2PKH (ba_unnamed ex_hash) ex_text (text "bitcoincash") (Some BitcoinCash)) /\
  from_cash_addr (text "QR6M7J9NJLDWWZLG9V7V53UNLR4JKMX6EYLEP8EKG2") =
    Ok (Address P2PKH (ba_unnamed ex_hash) (text "QR6M7J9NJLDWWZLG9V7V53UNLR4JKMX6EYLEP8EKG2") (text "bitcoincash") (Some BitcoinCash)).
Proof. vm_compute. split; reflexivity. Qed.

(** C19, false beyond that: a prefix with an upper-case letter or a colon does not survive the round trip. *)
Theorem C19_upper_case_prefix_refuted : exists prefix t hash a b, bytes_ok (ba_data hash) /\ length (ba_data hash) = 20%nat /\
  from_hash prefix t hash = Ok a /\ from_cash_addr (ad_text a) = Ok b /\ ad_prefix b <> prefix.
Proof.
  exists (text "BitcoinCash"), P2PKH, (ba_unnamed ex_hash). eexists. eexists. split; [repeat constructor; cbn; lia|]. split; [reflexivity|].
  split; [vm_compute; reflexivity|]. split; [vm_compute; reflexivity|]. discriminate.
Qed.
Print Assumptions C19_upper_case_prefix_refuted.
Theorem C19_colon_prefix_refuted : exists prefix t hash a i x, bytes_ok (ba_data hash) /\ length (ba_data hash) = 20%nat /\
  from_hash prefix t hash = Ok a /\ from_cash_addr (ad_text a) = Err (EInvalidCashAddr (AInvalidBase32Letter i x)).
Proof.
  exists (text "a:b"), P2PKH, (ba_unnamed ex_hash). eexists. exists 0, 98. split; [repeat constructor; cbn; lia|]. split; [reflexivity|].
  split; [vm_compute; reflexivity|]. vm_compute. reflexivity.
Qed.
Print Assumptions C19_colon_prefix_refuted.

(** C20: any change inside a window of at most 8 consecutive payload characters is rejected. *)
Theorem C20_burst_detected : forall pre w v post a,
  from_cash_addr (pre ++ w ++ post) = Ok a -> length w = length v -> (length w <= 8)%nat ->
  (In 58 pre \/ (~ In 58 (pre ++ w ++ post) /\ ~ In 58 (pre ++ v ++ post))) -> ~ same_letters w v ->
  exists e, letter_or_checksum e /\ from_cash_addr (pre ++ v ++ post) = Err e.
Proof. exact from_cash_addr_burst. Qed.
Print Assumptions C20_burst_detected.

(** C20: any one to four substituted payload characters, wherever they are, are rejected. *)
Theorem C20_four_substitutions_detected : forall pre w v a,
  from_cash_addr (pre ++ w) = Ok a -> length w = length v ->
  (In 58 pre \/ (pre = [] /\ ~ In 58 w /\ ~ In 58 v)) -> (1 <= changed w v <= 4)%nat ->
  exists e, letter_or_checksum e /\ from_cash_addr (pre ++ v) = Err e.
Proof. exact from_cash_addr_subst. Qed.
Print Assumptions C20_four_substitutions_detected.

(** C20: swapping two adjacent, different payload letters is rejected. *)
Theorem C20_transposition_detected : forall pre x y post a,
  from_cash_addr (pre ++ [x; y] ++ post) = Ok a -> In 58 pre -> letter_eqb x y = false ->
  exists e, letter_or_checksum e /\ from_cash_addr (pre ++ [y; x] ++ post) = Err e.
Proof.
  intros pre x y post a H Hi Hn. eapply from_cash_addr_burst; eauto; [cbn; lia|]. intros S. apply same_letters_lower in S. cbn in S. injection S as S _.
  rewrite letter_eqb_lower in Hn. apply Z.eqb_neq in Hn. congruence.
Qed.
Print Assumptions C20_transposition_detected.

Example C20_nonvacuous :
  (exists a, from_cash_addr (text "bitcoincash:" ++ text "qr6m7j9njldwwzlg9v7v53unlr4jkmx6eylep8ekg2") = Ok a) /\
  changed (text "qr6m7j9njldwwzlg9v7v53unlr4jkmx6eylep8ekg2") (text "qR6m7j0njldwwzlg9v7v53unzr4jkmx6eylep8ekq3") = 4%nat /\
  from_cash_addr (text "bitcoincash:qR6m7j0njldwwzlg9v7v53unzr4jkmx6eylep8ekq3") = Err (EInvalidCashAddr AInvalidChecksum).
Proof. split; [eexists; vm_compute; reflexivity|]. split; vm_compute; reflexivity. Qed.

(** C20, false for the prefix: only the low five bits of its characters are checksummed. *)
Theorem C20_prefix_typo_refuted : exists pre x y post a b,
  from_cash_addr (pre ++ [x] ++ post) = Ok a /\ letter_eqb x y = false /\ from_cash_addr (pre ++ [y] ++ post) = Ok b /\
  ad_prefix a = text "bitcoincash" /\ ad_prefix b = text "bitcoi.cash".
Proof.
  exists (text "bitcoi"), 110, 46, (text "cash:qr6m7j9njldwwzlg9v7v53unlr4jkmx6eylep8ekg2"). eexists. eexists.
  split; [vm_compute; reflexivity|]. split; [reflexivity|]. split; [vm_compute; reflexivity|]. split; reflexivity.
Qed.
Print Assumptions C20_prefix_typo_refuted.

(** C21: exactly which texts are accepted, and as what. *)
Theorem C21_accepted_iff : forall s a, from_cash_addr s = Ok a <->
  exists prefix syms t hash rest, valid_letters s prefix syms /\ (length syms = 42%nat \/ length syms = 43%nat) /\
     bitstring 5 syms = bitstring 8 (type_byte t :: hash) ++ rest /\ length hash = 20%nat /\ bytes_ok hash /\
     a = Address t (ba_unnamed hash) s prefix (from_prefix_str prefix).
Proof. exact from_cash_addr_ok_iff. Qed.
Print Assumptions C21_accepted_iff.

(** C21: exactly which texts make the parser panic: a valid checksum over the wrong number of symbols. *)
Theorem C21_panics_iff : forall s, from_cash_addr s = Panic <->
  exists prefix syms, valid_letters s prefix syms /\ length syms <> 42%nat /\ length syms <> 43%nat.
Proof. exact from_cash_addr_panic_iff. Qed.
Print Assumptions C21_panics_iff.

(** C21: an accepted text with 42 payload letters and zero padding bits is the canonical text of the
    resulting address, up to letter case and omission of the default prefix. *)
Theorem C21_accepted_canonical : forall s a prefix syms rest,
  from_cash_addr s = Ok a -> valid_letters s prefix syms -> length syms = 42%nat ->
  bitstring 5 syms = bitstring 8 (type_byte (ad_type a) :: ba_data (ad_hash a)) ++ false :: false :: rest ->
  exists x, cash_addr_text (ad_prefix a) (ad_type a) (ba_data (ad_hash a)) x /\
    (same_letters s x \/ (ad_prefix a = text "bitcoincash" /\ exists low, same_letters s low /\ x = text "bitcoincash:" ++ low)).
Proof.
  intros s a p syms rest H V L E. apply from_cash_addr_ok_iff in H. destruct H as (q & sy & t & h & r & V' & _ & _ & Lh & _ & ->).
  cbn [ad_prefix ad_type ad_hash ba_data ba_unnamed] in *. destruct (valid_letters_fun _ _ _ _ _ V V') as [<- <-].
  destruct (accepted_canonical s p syms t h rest V L E Lh) as (x & S & D). exists x. split; [assumption|]. destruct D as [D|(-> & low & D & ->)]; [auto|]. right. split; [reflexivity|]. exists low. auto.
Qed.
Print Assumptions C21_accepted_canonical.

Definition ex_syms : list Z := [0;3;26;27;30;18;5;19;18;31;13;14;14;2;31;8;5;12;30;12;20;17;28;19;31;3;21;18;22;27;6;26;25;4;31;25;1;7;25;22;8;10].
Definition ex_addr (txt : list Z) : address := Address P2PKH (ba_unnamed ex_hash) txt (text "bitcoincash") (Some BitcoinCash).
Example C21_nonvacuous : exists rest, from_cash_addr ex_text = Ok (ex_addr ex_text) /\ valid_letters ex_text (text "bitcoincash") ex_syms /\ bitstring 5 ex_syms = bitstring 8 (type_byte P2PKH :: ex_hash) ++ false :: false :: rest.
Proof.
  eexists (bitstring 5 (skipn 34 ex_syms)). split; [vm_compute; reflexivity|]. split; [|vm_compute; reflexivity].
  apply valid_letters_iff. eexists. split; [vm_compute; reflexivity|]. split; [|vm_compute; reflexivity]. apply from_b32_iff. vm_compute. reflexivity.
Qed.

(** C21, false in general: a text with a valid checksum makes the parser panic (8 letters after the colon). *)
Theorem C21_no_panic_refuted : from_cash_addr (text "bitcoincash:a5a8yrhz") = Panic.
Proof. vm_compute. reflexivity. Qed.
Print Assumptions C21_no_panic_refuted.
(** C21, false in general: three different texts are accepted for one address: the canonical one, one with
    non-zero padding bits and one with 43 letters. *)
Theorem C21_canonical_refuted : forall s, In s [ex_text; text "bitcoincash:qr6m7j9njldwwzlg9v7v53unlr4jkmx6e9v6cvq4mt"; text "bitcoincash:qr6m7j9njldwwzlg9v7v53unlr4jkmx6eyqdf2lmql7"] ->
  from_cash_addr s = Ok (ex_addr s).
Proof. intros s Hs. cbn [In] in Hs. destruct Hs as [<-|[<-|[<-|[]]]]; vm_compute; reflexivity. Qed.
Print Assumptions C21_canonical_refuted.
