(** Round trips through binary formats. *)
From Coq Require Import Lia.
From Verif Require Import Base BaseLemmas Model_Encoding Spec_Encoding Proofs_Encoding Model_Integer Model_ByteArray Proofs_ByteArray Model_Opcode Model_Script Spec_Script Proofs_Script Model_Code Spec_Code Spec_Wire Proofs_Wire Proofs_Codec Spec_Json Spec_JsonFile Model_Hash
  Model_Address Model_AddressApi Spec_Address Prop_AddressApi Model_TxBuilder Model_Slp Model_Serde Spec_Serde Proofs_Serde Proofs_Serde2 Model_Binary Spec_Binary.
Local Open Scope string_scope.
Local Open Scope list_scope.
Local Open Scope Z_scope.

Section Format.
Context (F : format) (HF : sound_format F).
Notation rt := round_trips.

Lemma rt_weaken {A} (w : writer A) r (P Q : A -> Prop) (R S : A -> A -> Prop) : (forall v, Q v -> P v) -> (forall a b, R a b -> S a b) -> rt w r P R -> rt w r Q S.
Proof. intros H1 H2 H v Hv. destruct (H v (H1 v Hv)) as (bs & E & K). exists bs. split; [exact E|]. intros rest. destruct (K rest) as (v' & E' & S'). eauto. Qed.
Lemma rt_prim {A} (put : A -> list Z) get P : reads_back put get P -> rt (fun v => Ok (put v)) (of_opt get) P eq.
Proof. intros H v Hv. exists (put v). split; [reflexivity|]. intros rest. exists v. unfold of_opt. now rewrite H. Qed.
Lemma rt_int t : rt (bw_int F t) (br_int F t) (in_range t) eq.
Proof. exact (rt_prim _ _ _ (sf_int F HF t)). Qed.
Lemma rt_bool : rt (bw_bool F) (br_bool F) (fun _ => True) eq.
Proof. exact (rt_prim _ _ _ (sf_bool F HF)). Qed.
Lemma rt_opt {A} (w : writer A) r P R : rt w r P R -> rt (bw_opt F w) (br_opt F r) (opt_all P) (same_option R).
Proof.
  intros H [v|] Hv; cbn [bw_opt opt_all] in *.
  - destruct (H v Hv) as (bs & E & K). rewrite E. cbn [obind]. eexists. split; [reflexivity|]. intros rest. rewrite <- app_assoc. unfold br_opt, of_opt. rewrite (sf_tag F HF) by exact Logic.I. cbn [obind].
    destruct (K rest) as (v' & E' & S). rewrite E'. cbn [obind]. exists (Some v'). auto.
  - eexists. split; [reflexivity|]. intros rest. unfold br_opt, of_opt. rewrite (sf_tag F HF) by exact Logic.I. cbn [obind]. exists None. auto.
Qed.
Lemma rt_list {A} (w : writer A) r P R : rt w r P R -> forall l, Forall P l -> exists xs, omap w l = Ok xs /\ forall rest, exists l', get_n r (length l) (concat xs ++ rest) = Ok (l', rest) /\ Forall2 R l l'.
Proof.
  intros H. induction 1 as [|v l Hv _ (xs & E & K)]; [exists []; split; [reflexivity|]; intros rest; exists []; split; [reflexivity|constructor]|].
  destruct (H v Hv) as (bs & Eb & Kb). exists (bs :: xs). cbn [omap]. rewrite Eb. cbn [obind]. rewrite E. cbn [obind]. split; [reflexivity|]. intros rest. cbn [concat length get_n]. rewrite <- app_assoc.
  destruct (Kb (concat xs ++ rest)) as (v' & Ev & Sv). rewrite Ev. cbn [obind]. destruct (K rest) as (l' & El & Sl). rewrite El. cbn [obind]. exists (v' :: l'). split; [reflexivity|now constructor].
Qed.
Lemma rt_vec {A} (w : writer A) r P R : rt w r P R -> rt (bw_vec F w) (br_vec F r) (fun l => Forall P l /\ small l) (Forall2 R).
Proof.
  intros H l (Hl & Hs). destruct (rt_list w r P R H l Hl) as (xs & E & K). unfold bw_vec. rewrite E. cbn [obind]. eexists. split; [reflexivity|]. intros rest. rewrite <- app_assoc. unfold br_vec, of_opt.
  rewrite (sf_len F HF) by (unfold u64_ok; pose proof (zlen_nonneg l); unfold small in Hs; lia). cbn [obind]. unfold zlen. rewrite Nat2Z.id. apply K.
Qed.
Lemma F2_eq {A} (l l' : list A) : Forall2 eq l l' -> l = l'.
Proof. induction 1; congruence. Qed.
Lemma rt_bytes : rt (bw_vec F (bw_int F U8)) (br_vec F (br_int F U8)) (fun d => bytes_ok d /\ small d) eq.
Proof. eapply rt_weaken; [intros v Hv; exact Hv|apply F2_eq|exact (rt_vec _ _ _ _ (rt_int U8))]. Qed.
Lemma omap_bw_int t l : omap (bw_int F t) l = Ok (map (put_int F t) l).
Proof. induction l as [|x l IH]; [reflexivity|]. cbn [omap]. unfold bw_int at 1. cbn [obind]. rewrite IH. reflexivity. Qed.
Lemma rt_array n : 0 <= n -> rt (bw_array F n) (br_array F n) (fun d => bytes_ok d /\ zlen d = n) eq.
Proof.
  intros Hn d (Hd & Hl). unfold bw_array, copy_from_slice. rewrite Hl, Z.eqb_refl. cbn [obind]. eexists. split; [reflexivity|]. intros rest. unfold br_array.
  destruct (rt_list _ _ _ _ (rt_int U8) d Hd) as (xs & E & K). rewrite omap_bw_int in E. apply Proofs_Network2.Ok_inj in E. subst xs. destruct (K rest) as (l' & El & S). apply F2_eq in S. subst l'.
  exists d. split; [|reflexivity]. rewrite <- Hl. unfold zlen. rewrite Nat2Z.id. exact El.
Qed.
Lemma rt_hash n : 0 <= n -> rt (bw_hash F n) (br_hash F n) (fixed_value n) same_bytes.
Proof.
  intros Hn h (Hb & Hl). destruct (rt_array n Hn (ba_data h)) as (bs & E & K); [split; [exact Hb|exact Hl]|]. exists bs. split; [exact E|]. intros rest. unfold br_hash.
  destruct (K rest) as (d & E' & <-). rewrite E'. cbn [obind]. eexists. split; [reflexivity|reflexivity].
Qed.
Lemma varint_len n : u64_ok n -> zlen (encode_var_int n) <= 9.
Proof.
  intros H. unfold encode_var_int. repeat (match goal with |- context [if ?b then _ else _] => destruct b end); rewrite ?zlen_cons, ?le_bytes_zlen, ?zlen_nil; lia.
Qed.
Lemma written_small s a : script_value s -> c_ser script_codec s = Ok a -> small (ba_data a).
Proof.
  intros (_ & Hm) E. cbn [script_codec c_ser] in E. destruct (script_ser_ops s) as [b| |] eqn:Es; try discriminate. specialize (Hm b eq_refl). cbn [obind bytearray_codec c_ser] in E. apply Proofs_Network2.Ok_inj in E. subst a.
  unfold small. rewrite concat_data. cbn [ba_data ba_new]. rewrite zlen_app. unfold in_memory, ba_len in *. pose proof (zlen_nonneg (ba_data b)).
  pose proof (varint_len (zlen (ba_data b))) as V. unfold u64_ok in V. change (2 ^ 63) with 9223372036854775808 in *. change (2 ^ 64) with 18446744073709551616 in *. specialize (V ltac:(lia)). lia.
Qed.
Lemma rt_script : rt (bw_script F) (br_script F) script_value same_code.
Proof.
  intros s V. destruct (w_write _ _ _ _ script_wlaws s V) as (a & E & _). destruct (written_deser s (ba_data a) V (ex_intro _ a (conj E eq_refl))) as (Hok & s' & Es & Sc).
  unfold bw_script. rewrite E. cbn [obind]. destruct (rt_bytes (ba_data a)) as (bs & Eb & K); [split; [exact Hok|eapply written_small; eassumption]|]. exists bs. split; [exact Eb|]. intros rest.
  unfold br_script. destruct (K rest) as (d & Ed & <-). rewrite Ed. cbn [obind]. rewrite Es. cbn [obind]. exists s'. auto.
Qed.
Lemma rt_enum {A} (index : A -> Z) variants : (forall a, 0 <= index a < 1000 /\ nth_error variants (Z.to_nat (index a)) = Some a) ->
  rt (fun a => Ok (put_variant F (index a))) (br_enum F variants) (fun _ => True) eq.
Proof.
  intros H a _. destruct (H a) as (B & E). eexists. split; [reflexivity|]. intros rest. unfold br_enum, of_opt. rewrite (sf_variant F HF) by (unfold u32_ok; lia). cbn [obind].
  destruct (Z.ltb_spec (index a) 0); [lia|]. rewrite E. exists a. auto.
Qed.

(** Structs: take the fields' round trips one after the other. *)
Ltac step H := let bs := fresh "bs" in let E := fresh "E" in let K := fresh "K" in destruct H as (bs & E & K);
  [try assumption; try exact Logic.I; eauto .. | rewrite E; cbn [obind]].
Ltac back := intros rest; rewrite <- ?app_assoc.
Ltac pull := match goal with K : forall rest, exists v', ?r (?bs ++ rest) = _ /\ _ |- context [?r (?bs ++ ?x)] =>
  let v := fresh "v" in let E := fresh "E" in let S := fresh "S" in destruct (K x) as (v & E & S); rewrite E; cbn [obind]; clear K end.

Lemma rt_outpoint : rt (bw_outpoint F) (br_outpoint F) outpoint_value same_outpoint.
Proof.
  intros o (H1 & H2). unfold bw_outpoint. step (rt_hash 32 ltac:(lia) (op_tx_hash o)). eexists. split; [reflexivity|]. back. unfold br_outpoint. pull.
  destruct (rt_int U32 (op_vout o) H2) as (bs2 & E2 & K2). apply Proofs_Network2.Ok_inj in E2. rewrite E2. pull. subst v0. eexists. split; [reflexivity|]. split; [exact S|reflexivity].
Qed.
Lemma rt_flags : rt (bw_flags F) (br_flags F) u32_ok eq. Proof. exact (rt_int U32). Qed.
Lemma same_option_eq' {A} (a b : option A) : same_option eq a b -> a = b.
Proof. destruct a, b; cbn; intros; congruence || contradiction || reflexivity. Qed.
Lemma same_option_F2 {A} (a b : option (list A)) : same_option (Forall2 eq) a b -> a = b.
Proof. destruct a, b; cbn; intros H; try contradiction; [apply F2_eq in H; congruence|reflexivity]. Qed.
Lemma rt_input : rt (bw_input F) (br_input F) bin_input (full_same_input same_code).
Proof.
  intros i (((H1 & H2 & H3) & H4 & H5 & H6) & H7). unfold bw_input.
  step (rt_outpoint (in_prev_out i) H1). step (rt_script (in_script i) H2). step (rt_int U32 (in_sequence i) H3). step (rt_opt _ _ _ _ rt_script (in_lock_script i) H4).
  step (rt_opt _ _ _ _ (rt_int U64) (in_value i) H5). step (rt_opt _ _ _ _ rt_bool (in_is_p2sh i)); [destruct (in_is_p2sh i); exact Logic.I|].
  step (rt_opt _ _ _ _ (rt_vec _ _ _ _ rt_flags) (in_sig_hash_flags i)); [unfold small_input in H7; destruct (in_sig_hash_flags i); [split; assumption|exact Logic.I]|].
  eexists. split; [reflexivity|]. back. unfold br_input. do 7 pull. eexists. split; [reflexivity|]. unfold full_same_input. cbn [in_prev_out in_script in_sequence in_lock_script in_value in_is_p2sh in_sig_hash_flags].
  split; [assumption|]. split; [assumption|]. split; [assumption|]. split; [assumption|]. split; [now apply same_option_eq'|]. split; [now apply same_option_eq'|now apply same_option_F2].
Qed.
Lemma rt_output : rt (bw_output F) (br_output F) output_value (full_same_output same_code).
Proof.
  intros o (H1 & H2). unfold bw_output. step (rt_int U64 (out_value o) H1). step (rt_script (out_script o) H2). eexists. split; [reflexivity|]. back. unfold br_output. do 2 pull. eexists. split; [reflexivity|]. split; assumption.
Qed.
Lemma rt_unhashed : rt (bw_unhashed_tx F) (br_unhashed_tx F) bin_tx (full_same_tx same_code).
Proof.
  intros t ((H1 & H2 & H3 & H4) & S1 & S2 & S3). unfold bw_unhashed_tx. step (rt_int I32 (tx_version t) H1).
  step (rt_vec _ _ _ _ rt_input (tx_inputs t)); [split; [|exact S1]; clear -H2 S3; revert S3; induction H2; intros S3; inversion S3; subst; constructor; [split|]; auto|].
  step (rt_vec _ _ _ _ rt_output (tx_outputs t)). step (rt_int U32 (tx_lock_time t) H4). eexists. split; [reflexivity|]. back. unfold br_unhashed_tx. do 4 pull. eexists. split; [reflexivity|].
  unfold full_same_tx. cbn [tx_version tx_inputs tx_outputs tx_lock_time]. repeat (split; [assumption|]). assumption.
Qed.
Lemma rt_unsigned : rt (bw_unsigned_input F) (br_unsigned_input F) unsigned_value same_unsigned.
Proof.
  intros i (H1 & H2 & H3). unfold bw_unsigned_input. step (rt_outpoint (ui_prev_out i) H1). step (rt_int U32 (ui_sequence i) H2). step (rt_int U64 (ui_value i) H3). eexists. split; [reflexivity|]. back. unfold br_unsigned_input. do 3 pull.
  eexists. split; [reflexivity|]. unfold same_unsigned. cbn [ui_prev_out ui_sequence ui_value]. auto.
Qed.
Lemma rt_action : rt (bw_action F) (br_enum F actions) (fun _ => True) eq.
Proof. apply (rt_enum action_index). intros []; (split; [cbn; lia|reflexivity]). Qed.
Lemma rt_token_type : rt (bw_token_type F) (br_token_type F) (fun _ => True) eq.
Proof. apply (rt_enum token_type_index). intros []; (split; [cbn; lia|reflexivity]). Qed.
Lemma rt_token : rt (bw_token F) (br_token F) token_value eq.
Proof.
  intros t H. unfold bw_token. step (rt_int U64 (k_amount t) H). step (rt_bool (k_is_mint_baton t)). step (rt_action (k_action t)). eexists. split; [reflexivity|]. back. unfold br_token. do 3 pull. subst. eexists. split; [reflexivity|]. now destruct t.
Qed.
Lemma rt_data : rt (bw_slp_data F) (br_slp_data F) data_value same_data.
Proof. intros d H. destruct (rt_hash 32 ltac:(lia) (sd_token_id d) H) as (bs & E & K). exists bs. split; [exact E|]. intros rest. unfold br_slp_data. pull. eexists. split; [reflexivity|exact S]. Qed.
Lemma rt_slp_input : rt (bw_slp_input F) (br_slp_input F) (fun i => slp_input_value i /\ small_input (fi_input i)) (same_slp_input same_code).
Proof.
  intros i ((H1 & H2 & H3 & H4) & H5). unfold bw_slp_input. step (rt_int U64 (fi_index i) H1). step (rt_token (fi_token i) H2). step (rt_input (fi_input i) (conj H3 H5)). step (rt_script (fi_prev_script i) H4).
  eexists. split; [reflexivity|]. back. unfold br_slp_input. do 4 pull. eexists. split; [reflexivity|]. unfold same_slp_input. cbn [fi_index fi_token fi_input fi_prev_script]. auto.
Qed.
Lemma rt_slp_output : rt (bw_slp_output F) (br_slp_output F) slp_output_value (same_slp_output same_code).
Proof. intros o (H1 & H2). unfold bw_slp_output. step (rt_token (fo_token o) H1). step (rt_output (fo_output o) H2). eexists. split; [reflexivity|]. back. unfold br_slp_output. do 2 pull. eexists. split; [reflexivity|]. split; assumption. Qed.
Lemma rt_slp_tx : rt (bw_slp_tx F) (br_slp_tx F) bin_slp_tx (same_slp_tx same_code).
Proof.
  intros t ((H1 & H2 & H3 & H4 & H5 & H6) & S1 & S2 & S3). unfold bw_slp_tx. step (rt_int I32 (ft_version t) H1).
  step (rt_vec _ _ _ _ rt_slp_input (ft_inputs t)); [split; [|exact S1]; clear -H2 S3; revert S3; induction H2; intros S3; inversion S3; subst; constructor; [split|]; auto|].
  step (rt_vec _ _ _ _ rt_slp_output (ft_outputs t)). step (rt_int U32 (ft_lock_time t) H4). step (rt_opt _ _ _ _ rt_data (ft_slp_data t) H5). step (rt_hash 32 ltac:(lia) (ft_tx_hash t)).
  eexists. split; [reflexivity|]. back. unfold br_slp_tx. do 6 pull. eexists. split; [reflexivity|]. unfold same_slp_tx. cbn [ft_version ft_inputs ft_outputs ft_lock_time ft_slp_data ft_tx_hash]. repeat (split; [assumption|]). assumption.
Qed.
Lemma rt_utxo : rt (bw_slp_utxo F) (br_slp_utxo F) utxo_value same_utxo.
Proof.
  intros u (H1 & H2 & H3). unfold bw_slp_utxo. step (rt_unsigned (su_input u) H1). step (rt_token (su_token u) H2). step (rt_opt _ _ _ _ rt_data (su_data u) H3). eexists. split; [reflexivity|]. back. unfold br_slp_utxo. do 3 pull.
  eexists. split; [reflexivity|]. unfold same_utxo. cbn [su_input su_token su_data]. auto.
Qed.
Lemma text_bytes_ok s : bytes_ok (text_bytes s).
Proof. unfold text_bytes. apply Forall_map, Forall_forall. intros a _. pose proof (Ascii.nat_ascii_bounded a). unfold byte_ok. lia. Qed.
Lemma text_back s : bytes_text (text_bytes s) = s.
Proof.
  unfold bytes_text, text_bytes. rewrite map_map. rewrite (map_ext _ (fun a => a)); [rewrite map_id; apply string_of_list_ascii_of_string|]. intros a. now rewrite Nat2Z.id, Ascii.ascii_nat_embedding.
Qed.
Lemma rt_text : rt (bw_text F) (br_text F) (fun s => small (text_bytes s)) eq.
Proof.
  intros s H. eexists. split; [reflexivity|]. intros rest. unfold br_text, of_opt. rewrite (sf_str F HF); [|split; [apply text_bytes_ok|unfold u64_ok; pose proof (zlen_nonneg (text_bytes s)); unfold small in H; lia]]. cbn [obind].
  rewrite text_back. exists s. auto.
Qed.
Lemma rt_meta : rt (bw_token_meta F) (br_token_meta F) bin_meta eq.
Proof.
  intros m ((H1 & H2) & S1 & S2 & S3 & S4). unfold bw_token_meta. step (rt_text (tm_ticker m) S2). step (rt_text (tm_name m) S3). step (rt_text (tm_document_url m) S4). step (rt_bytes (tm_document_hash m)). step (rt_int U8 (tm_decimals m) H2). step (rt_token_type (tm_token_type m)).
  eexists. split; [reflexivity|]. back. unfold br_token_meta. do 6 pull. subst. eexists. split; [reflexivity|]. now destruct m.
Qed.
Lemma rt_pubkey : rt (bw_pubkey F) (br_pubkey F) (fun d => bytes_ok d /\ zlen d = 33) eq.
Proof.
  intros d (H & Hl). destruct (rt_bytes d) as (bs & E & K); [split; [exact H|unfold small; lia]|]. exists bs. split; [exact E|]. intros rest. unfold br_pubkey. pull. subst v. rewrite Hl. cbn [Z.eqb Pos.eqb]. exists d. auto.
Qed.

Context (HL : lending F).
Lemma rt_byte_array : rt (bw_bytes F) (br_bytes F) (fun a => bytes_ok (ba_data a) /\ small (ba_data a)) same_bytes.
Proof.
  intros a (H & Hs). unfold bw_bytes, bw_vec. rewrite omap_bw_int. cbn [obind]. eexists. split; [reflexivity|]. intros rest. unfold br_bytes, of_opt.
  rewrite (proj1 HL); [|split; [exact H|unfold u64_ok; pose proof (zlen_nonneg (ba_data a)); unfold small in Hs; lia]]. cbn [obind]. eexists. split; [reflexivity|reflexivity].
Qed.
Lemma rt_tx : rt (bw_tx F) (br_tx F) bin_hashed_tx (same_hashed_tx same_code).
Proof.
  intros t ((H1 & H2 & H3) & H4 & H5). unfold bw_tx. step (rt_unhashed (tx_unhashed t) H4). step (rt_hash 32 ltac:(lia) (tx_hash t) H2). step (rt_byte_array (tx_raw t)). eexists. split; [reflexivity|]. back. unfold br_tx. do 3 pull.
  eexists. split; [reflexivity|]. unfold same_hashed_tx. cbn [tx_unhashed tx_hash tx_raw]. auto.
Qed.

(** Addresses: what is read back has the canonical text. *)
Lemma rt_array20 : rt (bw_array F 20) (br_array F 20) (fun d => bytes_ok d /\ zlen d = 20) eq.
Proof. apply rt_array. lia. Qed.
Lemma rt_address : rt (bw_address F) (br_address F) bin_address canonical_of.
Proof.
  intros a (Hb & Hl & Hp & Hs). destruct (C47_binary_form a Hb Hl) as (s & b & Es & S1 & S2 & S3 & Eb & Ib & Iff). unfold bw_address. rewrite Es. cbn [obind].
  destruct (rt_array20 (sa_hash s)) as (hs & Eh & Kh); [rewrite S2; split; assumption|]. rewrite Eh. cbn [obind]. eexists. split; [reflexivity|]. back. unfold br_address.
  assert (T : rt (fun t => Ok (put_variant F (address_type_index t))) (br_enum F [P2PKH; P2SH]) (fun _ => True) eq) by (apply rt_enum; intros []; (split; [cbn; lia|reflexivity])).
  destruct (T (sa_type s) Logic.I) as (bt & Et & Kt). apply Proofs_Network2.Ok_inj in Et. rewrite Et. pull. subst v. pull. subst v. unfold of_opt. rewrite (proj2 HL); [|rewrite S3; split; [exact Hp|unfold u64_ok; pose proof (zlen_nonneg (ad_prefix a)); unfold small in Hs; lia]].
  cbn [obind]. assert (SerAddress (sa_type s) (sa_hash s) (sa_prefix s) = s) as -> by now destruct s. rewrite Eb. cbn [obind]. exists b. split; [reflexivity|]. split; [exact Ib|exact Iff].
Qed.
End Format.

(** * No panics *)
Section Calm.
Context (F : format) (HF : sound_format F).
Definition quiet {A} (r : reader A) : Prop := forall bs, r bs <> Panic.
Lemma quiet_opt {A} (f : list Z -> option (A * list Z)) : quiet (of_opt f).
Proof. intros bs. unfold of_opt. destruct (f bs) as [[]|]; discriminate. Qed.
Lemma quiet_bind {A B} (r : reader A) (k : A -> reader B) : quiet r -> (forall a, quiet (k a)) -> quiet (fun bs => do (a, bs) <- r bs; k a bs).
Proof. intros H K bs. pose proof (H bs). destruct (r bs) as [[a bs']| |]; cbn [obind]; [apply K|discriminate|congruence]. Qed.
Lemma quiet_ok {A} (a : A) : quiet (fun bs => Ok (a, bs)). Proof. intros bs. discriminate. Qed.
Lemma quiet_n {A} (r : reader A) n : quiet r -> quiet (get_n r n).
Proof. intros H. induction n as [|n IH]; cbn [get_n]; [apply quiet_ok|]. apply quiet_bind; [exact H|]. intros a. apply quiet_bind; [exact IH|]. intros l. apply quiet_ok. Qed.
Lemma quiet_int t : quiet (br_int F t). Proof. apply quiet_opt. Qed.
Lemma quiet_bool : quiet (br_bool F). Proof. apply quiet_opt. Qed.
Lemma quiet_option {A} (r : reader A) : quiet r -> quiet (br_opt F r).
Proof. intros H. unfold br_opt. apply quiet_bind; [apply quiet_opt|]. intros [|]; [|apply quiet_ok]. apply quiet_bind; [exact H|]. intros a. apply quiet_ok. Qed.
Lemma quiet_vec {A} (r : reader A) : quiet r -> quiet (br_vec F r).
Proof. intros H. unfold br_vec. apply quiet_bind; [apply quiet_opt|]. intros n. now apply quiet_n. Qed.
Lemma quiet_enum {A} (vs : list A) : quiet (br_enum F vs).
Proof. unfold br_enum. apply quiet_bind; [apply quiet_opt|]. intros n bs. destruct (n <? 0); [discriminate|]. destruct (nth_error _ _); discriminate. Qed.
Lemma quiet_hash n : quiet (br_hash F n).
Proof. unfold br_hash. apply quiet_bind; [apply quiet_n, quiet_int|]. intros a. apply quiet_ok. Qed.
Lemma read_n_bytes n bs l rest : get_n (br_int F U8) n bs = Ok (l, rest) -> bytes_ok l /\ zlen l = Z.of_nat n.
Proof.
  revert bs l. induction n as [|n IH]; intros bs l E; cbn [get_n] in E.
  - apply Proofs_Network2.Ok_inj in E. injection E as <- _. split; [constructor|reflexivity].
  - apply obind_ok in E. destruct E as ((a & b1) & E1 & E). apply obind_ok in E. destruct E as ((l1 & b2) & E2 & E). apply Proofs_Network2.Ok_inj in E. injection E as <- <-.
    unfold br_int, of_opt in E1. destruct (get_int F U8 bs) as [[v r]|] eqn:G; [|discriminate]. apply Proofs_Network2.Ok_inj in E1. injection E1 as -> ->. apply (sf_int_range F HF) in G.
    destruct (IH _ _ E2) as (I1 & I2). split; [constructor; assumption|]. rewrite zlen_cons, I2. lia.
Qed.
Lemma quiet_script : quiet (br_script F).
Proof.
  intros bs E. unfold br_script in E. pose proof (quiet_vec _ (quiet_int U8) bs). destruct (br_vec F (br_int F U8) bs) as [[d b']| |] eqn:G; cbn [obind] in E; [|discriminate|congruence].
  unfold br_vec in G. apply obind_ok in G. destruct G as ((n & b1) & _ & G). apply read_n_bytes in G. destruct G as (Hd & _).
  destruct (c_deser script_codec (ba_unnamed d)) as [s| |] eqn:G; cbn [obind] in E; [discriminate|discriminate|].
  unfold c_deser in G. pose proof (wl_no_panic_script (ba_unnamed d) Hd). destruct (c_deser_rest script_codec (ba_unnamed d)) as [[s r]| |]; cbn [obind] in G; [destruct (ba_len r =? 0); discriminate|discriminate|congruence].
Qed.
Lemma quiet_bytes : quiet (br_bytes F).
Proof. unfold br_bytes. apply quiet_bind; [apply quiet_opt|]. intros d. apply quiet_ok. Qed.
Lemma quiet_address : quiet (br_address F).
Proof.
  unfold br_address. apply quiet_bind; [apply quiet_enum|]. intros t bs E. pose proof (quiet_n _ (Z.to_nat 20) (quiet_int U8) bs). unfold br_array in E.
  destruct (get_n (br_int F U8) (Z.to_nat 20) bs) as [[h b1]| |] eqn:G; cbn [obind] in E; [|discriminate|congruence]. apply read_n_bytes in G. destruct G as (Hb & Hl).
  destruct (of_opt (get_str_ref F) b1) as [[p b2]| |] eqn:G; cbn [obind] in E; [|discriminate|now apply quiet_opt in G].
  destruct (C47_binary_total (SerAddress t h p) Hb Hl) as (a & Ea & _). rewrite Ea in E. discriminate.
Qed.
Ltac hush := repeat first [apply quiet_ok | apply quiet_int | apply quiet_bool | apply quiet_script | apply quiet_hash | apply quiet_enum | apply quiet_bytes | apply quiet_opt
  | apply quiet_vec | apply quiet_option | apply quiet_bind; [|intros ?]].
Lemma quiet_outpoint : quiet (br_outpoint F). Proof. unfold br_outpoint. hush. Qed.
Lemma quiet_input : quiet (br_input F).
Proof. unfold br_input. apply quiet_bind; [apply quiet_outpoint|intros ?]. hush. Qed.
Lemma quiet_output : quiet (br_output F). Proof. unfold br_output. hush. Qed.
Lemma quiet_unhashed : quiet (br_unhashed_tx F). Proof. unfold br_unhashed_tx. hush. Qed.
Lemma quiet_tx : quiet (br_tx F). Proof. unfold br_tx. apply quiet_bind; [apply quiet_unhashed|intros ?]. hush. Qed.
Lemma quiet_unsigned : quiet (br_unsigned_input F). Proof. unfold br_unsigned_input. apply quiet_bind; [apply quiet_outpoint|intros ?]. hush. Qed.
Lemma quiet_token : quiet (br_token F). Proof. unfold br_token. hush. Qed.
Lemma quiet_data : quiet (br_slp_data F). Proof. unfold br_slp_data. hush. Qed.
Lemma quiet_slp_input : quiet (br_slp_input F).
Proof. unfold br_slp_input. apply quiet_bind; [apply quiet_int|intros ?]. apply quiet_bind; [apply quiet_token|intros ?]. apply quiet_bind; [apply quiet_input|intros ?]. hush. Qed.
Lemma quiet_slp_output : quiet (br_slp_output F).
Proof. unfold br_slp_output. apply quiet_bind; [apply quiet_token|intros ?]. apply quiet_bind; [apply quiet_output|intros ?]. hush. Qed.
Lemma quiet_slp_tx : quiet (br_slp_tx F). Proof. unfold br_slp_tx. hush. Qed.
Lemma quiet_utxo : quiet (br_slp_utxo F).
Proof. unfold br_slp_utxo. apply quiet_bind; [apply quiet_unsigned|intros ?]. apply quiet_bind; [apply quiet_token|intros ?]. hush. Qed.
Lemma quiet_text : quiet (br_text F). Proof. unfold br_text. hush. Qed.
Lemma quiet_meta : quiet (br_token_meta F). Proof. unfold br_token_meta. do 3 (apply quiet_bind; [apply quiet_text|intros ?]). unfold br_token_type. hush. Qed.
Lemma quiet_pubkey : quiet (br_pubkey F).
Proof. unfold br_pubkey. apply quiet_bind; [hush|]. intros d bs. destruct (zlen d =? 33); discriminate. Qed.
End Calm.

(** * bincode *)
Lemma some_inj {A} (a b : A) : Some a = Some b -> a = b. Proof. congruence. Qed.
Lemma take_int_back n v rest : 0 <= v < 2 ^ (8 * Z.of_nat n) -> take_int n (le_bytes n v ++ rest) = Some (v, rest).
Proof.
  intros H. unfold take_int. pose proof (le_bytes_length n v) as L. rewrite zlen_app, le_bytes_zlen. pose proof (zlen_nonneg rest). destruct (Z.ltb_spec (Z.of_nat n + zlen rest) (Z.of_nat n)); [lia|]. cbn [orb].
  pose proof (firstn_app_exact (le_bytes n v) rest) as X1. pose proof (skipn_app_exact (le_bytes n v) rest) as X2. rewrite L in X1, X2. rewrite X1, X2.
  assert (forallb (fun b => (0 <=? b) && (b <? 256)) (le_bytes n v) = true) as ->.
  { apply forallb_forall. intros b Hb. pose proof (le_bytes_ok n v) as K. unfold bytes_ok in K. rewrite Forall_forall in K. specialize (K b Hb). unfold byte_ok in K. apply andb_true_intro. split; [apply Z.leb_le|apply Z.ltb_lt]; lia. }
  cbn [negb]. rewrite le_value_bytes_small by exact H. reflexivity.
Qed.
Lemma take_int_range n bs v rest : take_int n bs = Some (v, rest) -> 0 <= v < 2 ^ (8 * Z.of_nat n).
Proof.
  unfold take_int. destruct (Z.ltb_spec (zlen bs) (Z.of_nat n)); [discriminate|]. cbn [orb]. destruct (forallb _ (firstn n bs)) eqn:B; [|discriminate]. cbn [negb]. intros E. apply some_inj in E. apply pair_equal_spec in E. destruct E as [<- _].
  assert (bytes_ok (firstn n bs)) as K. { apply Forall_forall. intros b Hb. eapply forallb_forall in B; [|exact Hb]. apply andb_true_iff in B. rewrite Z.leb_le, Z.ltb_lt in B. exact B. }
  pose proof (le_value_bound _ K) as V. unfold zlen in V at 1. rewrite firstn_length, Nat2Z.inj_min in V. rewrite Z.min_l in V; [exact V|exact H].
Qed.
Lemma take_bytes_back s rest : u64_ok (zlen s) -> take_bytes (le_bytes 8 (zlen s) ++ s ++ rest) = Some (s, rest).
Proof.
  intros H. unfold take_bytes. rewrite take_int_back by exact H. pose proof (zlen_nonneg rest). rewrite zlen_app. destruct (Z.ltb_spec (zlen s + zlen rest) (zlen s)); [lia|]. unfold zlen. rewrite Nat2Z.id, firstn_app_exact, skipn_app_exact. reflexivity.
Qed.
Lemma bincode_sound b : sound_format (bincode b).
Proof.
  constructor; unfold reads_back; cbn [bincode put_int get_int put_bool get_bool put_tag get_tag put_len get_len put_variant get_variant put_str get_str].
  - intros t v rest H. rewrite take_int_back; [|apply Z.mod_pos_bound; apply Z.pow_pos_nonneg; lia].
    destruct t; cbn [in_range int_size] in *; unfold byte_ok, u32_ok, u64_ok, i32_ok in H; change (8 * Z.of_nat 1) with 8; change (8 * Z.of_nat 4) with 32; change (8 * Z.of_nat 8) with 64; try (rewrite Z.mod_small by exact H; reflexivity).
    f_equal. f_equal. unfold wrap32. rewrite Zplus_mod_idemp_l. rewrite Z.mod_small; lia.
  - intros t bs v rest E. destruct (take_int (int_size t) bs) as [[u r]|] eqn:G; [|discriminate]. apply take_int_range in G. apply some_inj in E. apply pair_equal_spec in E. destruct E as [<- _].
    destruct t; cbn [in_range int_size] in *; unfold byte_ok, u32_ok, u64_ok, i32_ok; try exact G. unfold wrap32. pose proof (Z.mod_pos_bound (u + 2 ^ 31) (2 ^ 32)). lia.
  - intros [|] rest _; reflexivity.
  - intros [|] rest _; reflexivity.
  - intros v rest H. now apply take_int_back.
  - intros v rest H. now apply take_int_back.
  - intros s rest (_ & H). rewrite <- app_assoc. now apply take_bytes_back.
Qed.
Lemma put_bytes_map d : bytes_ok d -> concat (map (put_int (bincode true) U8) d) = d.
Proof.
  induction 1 as [|x d Hx _ IH]; [reflexivity|]. cbn [map concat]. rewrite IH. cbn [bincode put_int int_size]. change (8 * Z.of_nat 1) with 8. change (2 ^ 8) with 256. cbn [le_bytes]. rewrite Zmod_mod, Z.mod_small by exact Hx. reflexivity.
Qed.
Lemma bincode_lends : lending (bincode true).
Proof.
  split; unfold reads_back.
  - intros d rest (Hd & Hl). rewrite (put_bytes_map d Hd). cbn [bincode put_len get_bytes_ref]. rewrite <- app_assoc. now apply take_bytes_back.
  - intros s rest (_ & H). cbn [bincode put_str get_str_ref]. rewrite <- app_assoc. now apply take_bytes_back.
Qed.
