(** C61: serde in binary formats (bincode, postcard, ...). *)
From Coq Require Import Lia.
From Verif Require Import Base BaseLemmas Model_Encoding Spec_Encoding Spec_Integer Model_Integer Model_ByteArray Proofs_ByteArray Model_Opcode Model_Script Spec_Script Proofs_Script
  Model_Code Spec_Code Spec_Wire Proofs_Wire Proofs_Codec Spec_Json Spec_JsonFile Model_Hash Spec_Hash Model_Address Model_AddressApi Spec_Address Spec_AddressApi Prop_AddressApi
  Model_TxBuilder Model_Slp Model_Serde Spec_Serde Proofs_Serde Proofs_Serde2 Prop_Serde Proofs_Preimage Model_Binary Spec_Binary Proofs_Binary Model_Preimage Spec_Preimage Prop_Preimage Prop_Code.
Local Open Scope string_scope.
Local Open Scope list_scope.
Local Open Scope Z_scope.

(** * Round trips *)
(** In every format that reads back the integers, lengths, tags and texts it writes, and whatever follows in the input. *)
Theorem C61_roundtrip : forall F, sound_format F ->
  round_trips (bw_unhashed_tx F) (br_unhashed_tx F) bin_tx (full_same_tx same_code) /\
  round_trips (bw_unsigned_input F) (br_unsigned_input F) unsigned_value same_unsigned /\
  round_trips (bw_slp_tx F) (br_slp_tx F) bin_slp_tx (same_slp_tx same_code) /\
  round_trips (bw_slp_utxo F) (br_slp_utxo F) utxo_value same_utxo /\
  round_trips (bw_token_meta F) (br_token_meta F) bin_meta eq /\
  round_trips (bw_script F) (br_script F) script_value same_code /\
  round_trips (bw_pubkey F) (br_pubkey F) (fun d => bytes_ok d /\ zlen d = 33) eq /\
  (forall n, 0 <= n -> round_trips (bw_hash F n) (br_hash F n) (fixed_value n) same_bytes).
Proof.
  intros F HF. repeat split; [apply rt_unhashed|apply rt_unsigned|apply rt_slp_tx|apply rt_utxo|apply rt_meta|apply rt_script|apply rt_pubkey|]; try exact HF. intros n Hn. now apply rt_hash.
Qed.
Print Assumptions C61_roundtrip.

(** A transaction that was written and read back has the same serialisation, the same id and the same messages to sign. *)
Theorem C61_effects : forall F t, sound_format F -> bin_tx t -> exists bs t', bw_unhashed_tx F t = Ok bs /\ br_unhashed_tx F bs = Ok (t', []) /\
  (forall si so a, c_ser (unhashed_tx_codec si so) t = Ok a -> exists a', c_ser (unhashed_tx_codec si so) t' = Ok a' /\ ba_data a' = ba_data a) /\
  (forall sha256d si so h, hash32 sha256d -> tx_hashed sha256d si so t = Ok h ->
     exists h', tx_hashed sha256d si so t' = Ok h' /\ ba_data (tx_hash h') = ba_data (tx_hash h)) /\
  (forall sha256d flags pss, hash32 sha256d -> tx_preimages sha256d t flags = Ok pss -> exists pss', tx_preimages sha256d t' flags = Ok pss' /\
     Forall2 (Forall2 (fun p p' => forall m, c_ser preimage_codec p = Ok m -> exists m', c_ser preimage_codec p' = Ok m' /\ ba_data m' = ba_data m)) pss pss').
Proof.
  intros F t HF V. destruct (rt_unhashed F HF t V) as (bs & E & K). destruct (K []) as (t' & E' & S). rewrite app_nil_r in E'. exists bs, t'. split; [exact E|]. split; [exact E'|].
  split; [intros si so a; now apply C58_roundtrip_bytes|]. split; [|intros sha flags pss Hs; now apply C58_roundtrip_signing].
  intros sha si so h Hs Eh. destruct (C58_roundtrip_txid sha t t' si so h Hs S Eh) as (h' & A & B & _). eauto.
Qed.
Print Assumptions C61_effects.

(** No transaction's bytes begin another transaction's bytes, and different transactions have different bytes. *)
Lemma code_per : per same_code.
Proof.
  apply per_Forall2. split.
  - intros a b (i & x & y & H1 & H2 & H3 & H4 & H5). exists i, y, x. auto.
  - intros a b c (i & x & y & H1 & H2 & H3 & H4 & H5) (j & x' & y' & G1 & G2 & G3 & G4 & G5). rewrite (means_fun _ _ _ G1 H2) in *. exists i, x, y'. repeat split; auto. congruence.
Qed.
Lemma tx_per : per (full_same_tx same_code).
Proof.
  destruct per_outpoint as [S1 T1], code_per as [S2 T2]. destruct (same_option_per _ code_per) as [S3 T3].
  assert (per (full_same_input same_code)) as I.
  { split; unfold full_same_input.
    - intros a b (A & B & C & D & E & F & G). repeat split; auto; apply S1; exact A.
    - intros a b c (A & B & C & D & E & F & G) (A' & B' & C' & D' & E' & F' & G').
      split; [eapply T1; eassumption|]. split; [eapply T2; eassumption|]. split; [congruence|]. split; [eapply T3; eassumption|]. repeat split; congruence. }
  assert (per (full_same_output same_code)) as O.
  { split; unfold full_same_output; [intros a b [A B]; split; [congruence|auto]|]. intros a b c [A B] [A' B']. split; [congruence|eapply T2; eassumption]. }
  destruct (F2_per _ I) as [S4 T4], (F2_per _ O) as [S5 T5]. split; unfold full_same_tx.
  - intros a b (A & B & C & D). auto.
  - intros a b c (A & B & C & D) (A' & B' & C' & D'). split; [congruence|]. split; [eapply T4; eassumption|]. split; [eapply T5; eassumption|congruence].
Qed.
Theorem C61_unambiguous : forall F t t' bs more, sound_format F -> bin_tx t -> bin_tx t' ->
  bw_unhashed_tx F t = Ok bs -> bw_unhashed_tx F t' = Ok (bs ++ more) -> more = [] /\ full_same_tx same_code t t'.
Proof.
  intros F t t' bs more HF V V' E E'. destruct (rt_unhashed F HF t V) as (b1 & E1 & K1). destruct (rt_unhashed F HF t' V') as (b2 & E2 & K2).
  rewrite E in E1. apply Proofs_Network2.Ok_inj in E1. subst b1. rewrite E' in E2. apply Proofs_Network2.Ok_inj in E2. subst b2.
  destruct (K1 more) as (x & X & Sx). destruct (K2 []) as (y & Y & Sy). rewrite app_nil_r in Y. rewrite X in Y. apply Proofs_Network2.Ok_inj in Y. apply pair_equal_spec in Y. destruct Y as [<- ->].
  split; [reflexivity|]. destruct tx_per as [S T]. eapply T; [exact Sx|]. now apply S.
Qed.
Print Assumptions C61_unambiguous.

(** Byte arrays, and hashed transactions, which contain one, need a reader that lends its input. *)
Theorem C61_borrowing_roundtrip : forall F, sound_format F -> lending F ->
  round_trips (bw_bytes F) (br_bytes F) (fun a => bytes_ok (ba_data a) /\ small (ba_data a)) same_bytes /\
  round_trips (bw_tx F) (br_tx F) bin_hashed_tx (same_hashed_tx same_code).
Proof. intros F HF HL. split; [now apply rt_byte_array|now apply rt_tx]. Qed.
Print Assumptions C61_borrowing_roundtrip.
(** So do addresses; type, hash and prefix are kept, and the text becomes the canonical one. *)
Theorem C61_address_roundtrip : forall F, sound_format F -> lending F -> round_trips (bw_address F) (br_address F) bin_address canonical_of.
Proof. intros F HF HL. now apply rt_address. Qed.
Print Assumptions C61_address_roundtrip.

(** * Reading anything *)
(** No bytes make a reader panic -- unlike the JSON form (C58_wrong_size_panics_refuted). *)
Theorem C61_never_panics : forall F bs, sound_format F ->
  br_unhashed_tx F bs <> Panic /\ br_tx F bs <> Panic /\ br_unsigned_input F bs <> Panic /\ br_slp_tx F bs <> Panic /\ br_slp_utxo F bs <> Panic /\
  br_token_meta F bs <> Panic /\ br_script F bs <> Panic /\ br_bytes F bs <> Panic /\ br_address F bs <> Panic /\ br_pubkey F bs <> Panic /\ (forall n, br_hash F n bs <> Panic).
Proof.
  intros F bs HF. repeat split; [apply quiet_unhashed|apply quiet_tx|apply quiet_unsigned|apply quiet_slp_tx|apply quiet_utxo|apply quiet_meta|apply quiet_script|apply quiet_bytes|apply quiet_address|apply quiet_pubkey|]; try exact HF.
  intros n. apply quiet_hash.
Qed.
Print Assumptions C61_never_panics.

(** * bincode *)
Theorem C61_bincode : sound_format (bincode true) /\ lending (bincode true) /\ sound_format (bincode false).
Proof. split; [apply bincode_sound|]. split; [apply bincode_lends|apply bincode_sound]. Qed.
Print Assumptions C61_bincode.

Section Layout.
Context (b : bool).
Notation F := (bincode b).
Lemma bi t v : in_range t v -> t <> I32 -> put_int F t v = le_bytes (int_size t) v.
Proof. intros H N. cbn [bincode put_int]. destruct t; try contradiction; cbn [in_range int_size] in *; rewrite Z.mod_small; try reflexivity; exact H. Qed.
Lemma vec_laid {A} (w : writer A) (P : A -> Prop) one : (forall a, P a -> exists x, w a = Ok x /\ one a x) -> forall l, Forall P l -> exists bs, bw_vec F w l = Ok bs /\ counted one l bs.
Proof.
  intros H l Hl. assert (exists xs, omap w l = Ok xs /\ Forall2 one l xs) as (xs & E & X).
  { induction Hl as [|a l Ha _ (xs & E & X)]; [exists []; split; [reflexivity|constructor]|]. destruct (H a Ha) as (x & Ex & Ox). exists (x :: xs). cbn [omap]. rewrite Ex. cbn [obind]. rewrite E. cbn [obind]. split; [reflexivity|now constructor]. }
  unfold bw_vec. rewrite E. cbn [obind]. eexists. split; [reflexivity|]. exists xs. auto.
Qed.
Lemma opt_laid {A} (w : writer A) (P : A -> Prop) one : (forall a, P a -> exists x, w a = Ok x /\ one a x) -> forall o, opt_all P o -> exists bs, bw_opt F w o = Ok bs /\ optional one o bs.
Proof.
  intros H [a|] Ho; cbn [bw_opt].
  - destruct (H a Ho) as (x & Ex & Ox). rewrite Ex. cbn [obind]. eexists. split; [reflexivity|]. cbn [optional]. exists x. auto.
  - eexists. split; reflexivity.
Qed.
Lemma bytes_laid d : bytes_ok d -> bw_vec F (bw_int F U8) d = Ok (le_bytes 8 (zlen d) ++ d).
Proof.
  intros H. unfold bw_vec. rewrite omap_bw_int. cbn [obind]. cbn [bincode put_len]. f_equal. f_equal.
  rewrite <- (put_bytes_map d H) at 2. reflexivity.
Qed.
Lemma script_laid s : script_value s -> exists bs, bw_script F s = Ok bs /\ laid_script s bs.
Proof.
  intros V. destruct (w_write _ _ _ _ script_wlaws s V) as (a & E & _). destruct (written_deser s (ba_data a) V (ex_intro _ a (conj E eq_refl))) as (Hok & _).
  unfold bw_script. rewrite E. cbn [obind]. rewrite (bytes_laid _ Hok). eexists. split; [reflexivity|]. exists (ba_data a). split; [exists a; auto|reflexivity].
Qed.
Lemma array_laid d : bytes_ok d -> bw_array F (zlen d) d = Ok d.
Proof. intros H. unfold bw_array, copy_from_slice. rewrite Z.eqb_refl. cbn [obind]. f_equal. exact (put_bytes_map d H). Qed.
Lemma outpoint_laid o : outpoint_value o -> bw_outpoint F o = Ok (laid_outpoint o).
Proof.
  intros ((H1 & H2) & H3). unfold bw_outpoint, bw_hash, laid_outpoint. unfold ba_len in H2. rewrite <- H2, (array_laid _ H1). cbn [obind]. rewrite (bi U32) by (exact H3 || discriminate). reflexivity.
Qed.
Lemma input_laid i : bin_input i -> exists bs, bw_input F i = Ok bs /\ laid_input i bs.
Proof.
  intros (((H1 & H2 & H3) & H4 & H5 & H6) & H7). unfold bw_input. rewrite (outpoint_laid _ H1). cbn [obind]. destruct (script_laid _ H2) as (s & Es & Ls). rewrite Es. cbn [obind]. unfold bw_int at 1. rewrite (bi U32) by (exact H3 || discriminate). cbn [obind].
  destruct (opt_laid (bw_script F) _ laid_script script_laid _ H4) as (k & Ek & Lk). rewrite Ek. cbn [obind].
  destruct (opt_laid (bw_int F U64) u64_ok (fun v x => x = le_bytes 8 v)) with (o := in_value i) as (v & Ev & Lv); [intros a Ha; unfold bw_int; rewrite (bi U64) by (exact Ha || discriminate); eauto|exact H5|]. rewrite Ev. cbn [obind].
  destruct (opt_laid (bw_bool F) (fun _ => True) (fun (b : bool) x => x = [if b then 1 else 0])) with (o := in_is_p2sh i) as (p & Ep & Lp); [intros a _; eexists; split; reflexivity|destruct (in_is_p2sh i); exact Logic.I|]. rewrite Ep. cbn [obind].
  destruct (opt_laid (bw_vec F (bw_flags F)) (Forall u32_ok) (counted (fun f x => x = le_bytes 4 f))) with (o := in_sig_hash_flags i) as (f & Ef & Lf); [|exact H6|].
  { apply vec_laid. intros a Ha. unfold bw_flags, bw_int. rewrite (bi U32) by (exact Ha || discriminate). eauto. }
  rewrite Ef. cbn [obind]. eexists. split; [reflexivity|]. exists s, k, v, p, f. auto 10.
Qed.
Lemma output_laid o : output_value o -> exists bs, bw_output F o = Ok bs /\ laid_output o bs.
Proof. intros (H1 & H2). unfold bw_output, bw_int. rewrite (bi U64) by (exact H1 || discriminate). cbn [obind]. destruct (script_laid _ H2) as (s & Es & Ls). rewrite Es. cbn [obind]. eexists. split; [reflexivity|]. exists s. auto. Qed.
(** The layout of a transaction in bincode. *)
Theorem C61_bincode_layout : forall t, bin_tx t -> exists bs, bw_unhashed_tx F t = Ok bs /\ laid_tx t bs.
Proof.
  intros t ((H1 & H2 & H3 & H4) & S1 & S2 & S3). unfold bw_unhashed_tx. unfold bw_int at 1. cbn [obind].
  destruct (vec_laid (bw_input F) bin_input laid_input input_laid (tx_inputs t)) as (i & Ei & Li); [clear -H2 S3; revert S3; induction H2; intros S3; inversion S3; subst; constructor; [split|]; auto|]. rewrite Ei. cbn [obind].
  destruct (vec_laid (bw_output F) output_value laid_output output_laid (tx_outputs t) H3) as (o & Eo & Lo). rewrite Eo. cbn [obind]. unfold bw_int. cbn [obind]. rewrite (bi U32) by (exact H4 || discriminate).
  eexists. split; [reflexivity|]. exists i, o. split; [exact Li|]. split; [exact Lo|]. f_equal. cbn [bincode put_int int_size]. f_equal. change (8 * Z.of_nat 4) with 32. unfold i32_ok in H1.
  destruct (Z.ltb_spec (tx_version t) 0); [|apply Z.mod_small; lia]. rewrite <- (Z_mod_plus_full (tx_version t) 1 (2 ^ 32)). rewrite Z.mod_small; lia.
Qed.
End Layout.
Print Assumptions C61_bincode_layout.

(** * Not guaranteed *)
(** Without a reader that lends its input -- bincode reading from a file, for example -- nothing that contains a byte array or an
    address can be read, not even what was just written. *)
Theorem C61_stream_refuted : forall F, (forall bs, get_bytes_ref F bs = None) -> (forall bs, get_str_ref F bs = None) ->
  (forall bs a rest, br_bytes F bs <> Ok (a, rest)) /\ (forall bs t rest, br_tx F bs <> Ok (t, rest)) /\ (forall bs a rest, br_address F bs <> Ok (a, rest)).
Proof.
  intros F H1 H2. assert (forall bs a rest, br_bytes F bs <> Ok (a, rest)) as K by (intros bs a rest; unfold br_bytes, of_opt; rewrite H1; discriminate).
  split; [exact K|]. split.
  - intros bs t rest E. unfold br_tx in E. apply obind_ok in E. destruct E as ((u & b1) & _ & E). apply obind_ok in E. destruct E as ((h & b2) & _ & E). apply obind_ok in E. destruct E as ((r & b3) & E & _). now apply K in E.
  - intros bs a rest E. unfold br_address in E. apply obind_ok in E. destruct E as ((u & b1) & _ & E). apply obind_ok in E. destruct E as ((h & b2) & _ & E). unfold of_opt in E. rewrite H2 in E. discriminate.
Qed.
Print Assumptions C61_stream_refuted.
(** bincode on a stream writes every hashed transaction, and refuses to read what it wrote. *)
Theorem C61_bincode_stream_refuted : forall t, bin_hashed_tx t -> exists bs, bw_tx (bincode false) t = Ok bs /\ forall rest, exists e, br_tx (bincode false) (bs ++ rest) = Err e.
Proof.
  intros t V. destruct (rt_tx (bincode true) (bincode_sound true) bincode_lends t V) as (bs & E & _). exists bs. split; [exact E|]. intros rest.
  pose proof (quiet_tx (bincode false) (bincode_sound false) (bs ++ rest)) as Q. destruct (C61_stream_refuted (bincode false) (fun _ => eq_refl) (fun _ => eq_refl)) as (_ & N & _).
  destruct (br_tx (bincode false) (bs ++ rest)) as [[x r]|e|] eqn:X; [now apply N in X|eauto|congruence].
Qed.
Print Assumptions C61_bincode_stream_refuted.
(** The id of a hashed transaction is not checked on reading. *)
Theorem C61_hash_checked_refuted : forall F sha256d si so, sound_format F -> lending F -> hash32 sha256d ->
  exists bs t h, br_tx F bs = Ok (t, []) /\ tx_hashed sha256d si so (tx_unhashed t) = Ok h /\ ba_data (tx_hash t) <> ba_data (tx_hash h).
Proof.
  intros F sha si so HF HL Hs. set (u := UnhashedTx 1 [] [] 0).
  assert (exists raw, c_ser (unhashed_tx_codec si so) u = Ok raw /\ ba_data raw = [1; 0; 0; 0; 0; 0; 0; 0; 0; 0]) as (raw & Er & Dr) by (eexists; split; [reflexivity|vm_compute; reflexivity]).
  destruct (Proofs_Preimage.digest_ok sha Hs raw) as (h & Eh & Dh). set (x := if list_eq_dec Z.eq_dec (sha (ba_data raw)) (repeat 0 32) then 1 else 0).
  assert (repeat x 32 <> sha (ba_data raw)) as N.
  { unfold x. destruct (list_eq_dec Z.eq_dec (sha (ba_data raw)) (repeat 0 32)) as [e|n]; [rewrite e; discriminate|congruence]. }
  assert (byte_ok x) as Bx by (unfold x, byte_ok; destruct (list_eq_dec Z.eq_dec (sha (ba_data raw)) (repeat 0 32)); lia). clearbody x.
  assert (bin_hashed_tx (Tx u (ba_unnamed (repeat x 32)) (ba_unnamed []))) as V.
  { assert (full_tx_value u) as Fu by (unfold u, full_tx_value, i32_ok, u32_ok; cbn [tx_version tx_inputs tx_outputs tx_lock_time]; repeat split; try lia; constructor).
    split; [split; [exact Fu|split; [split; [apply Forall_forall; intros y Hy; apply repeat_spec in Hy; subst y; exact Bx|reflexivity]|constructor]]|]. split; [|unfold small; cbn; lia]. split; [exact Fu|]. unfold small. cbn. split; [lia|]. split; [lia|constructor]. }
  destruct (rt_tx F HF HL _ V) as (bs & E & K). destruct (K []) as (t' & E' & (S1 & S2 & _)). rewrite app_nil_r in E'. cbn [tx_unhashed tx_hash] in S1, S2.
  assert (tx_hashed sha si so u = Ok (Tx u h raw)) as Eu by (unfold tx_hashed; rewrite Er; cbn [obind]; rewrite Eh; reflexivity).
  destruct (C58_roundtrip_txid sha u (tx_unhashed t') si so _ Hs S1 Eu) as (h' & A & B & _). exists bs, t', h'. split; [exact E'|]. split; [exact A|].
  rewrite B. cbn [tx_hash]. rewrite Dh. unfold same_bytes in S2. cbn [ba_data ba_unnamed] in S2. rewrite <- S2. exact N.
Qed.
Print Assumptions C61_hash_checked_refuted.

Example C61_nonvacuous : bin_tx ex_json_tx /\ (exists bs t', bw_unhashed_tx (bincode true) ex_json_tx = Ok bs /\ zlen bs = 136 /\ br_unhashed_tx (bincode true) (bs ++ [7; 8]) = Ok (t', [7; 8]) /\
    map in_value (tx_inputs t') = [Some 1000] /\ map in_sig_hash_flags (tx_inputs t') = [Some [0x41]]) /\
  (exists e, br_unhashed_tx (bincode true) [1; 0; 0; 0; 9] = Err e) /\ bin_hashed_tx (Tx ex_json_tx (ba_unnamed (repeat 3 32)) (ba_unnamed [1; 2])) /\
  bin_address (Address P2SH (ba_unnamed (repeat 9 20)) [] [98; 99; 104] None).
Proof.
  assert (bin_tx ex_json_tx) as V by (split; [apply C58_nonvacuous|]; unfold small, small_input; cbn; repeat split; try lia; repeat constructor; cbn; lia).
  split; [exact V|]. split; [|split; [|split]].
  - eexists. eexists. split; [vm_compute; reflexivity|]. split; [vm_compute; reflexivity|]. split; [vm_compute; reflexivity|]. split; reflexivity.
  - eexists. vm_compute. reflexivity.
  - split; [|split; [exact V|unfold small; cbn; lia]]. split; [apply V|]. split; [split; [repeat constructor; unfold byte_ok; lia|reflexivity]|]. repeat constructor; unfold byte_ok; cbn; lia.
  - unfold bin_address, small. cbn. repeat split; try lia; repeat constructor; unfold byte_ok; lia.
Qed.
