(** Property C64: the recorded origins of serialised values and signature hashes name their parts. *)
From Verif Require Import Base BaseLemmas Spec_Encoding Model_ByteArray Model_Opcode Model_Script Model_Code Spec_Code Spec_Wire Proofs_Wire Spec_Parts Model_Address Spec_Text
  Model_Destination Model_Preimage Spec_Preimage Proofs_Preimage Prop_Preimage Proofs_ByteArray Proofs_Code Spec_Labels Proofs_Labels.
Local Open Scope string_scope.
Local Open Scope list_scope.
Local Open Scope Z_scope.

(** Scripts, transactions and signature messages: the parts of what serialisation gives. *)
Theorem C64_script_parts : forall s, script_value s -> exists a, c_ser script_codec s = Ok a /\ script_parts s (parts a).
Proof. intros s H. destruct (w_write _ _ _ _ script_wlaws s H) as (a & E & _). exists a. split; [exact E|]. exact (proj2 (script_parts_ok s a "" H E)). Qed.
Print Assumptions C64_script_parts.

Theorem C64_transaction_parts : forall si so t, tx_value si so t -> exists a, c_ser (unhashed_tx_codec si so) t = Ok a /\ tx_parts t (parts a).
Proof. intros si so t H. destruct (w_write _ _ _ _ (tx_wlaws si so) t H) as (a & E & _). exists a. split; [exact E|]. exact (tx_parts_ok si so t a H E). Qed.
Print Assumptions C64_transaction_parts.

Theorem C64_message_parts : forall p, preimage_value p -> exists a, c_ser preimage_codec p = Ok a /\ preimage_parts p (parts a).
Proof. intros p H. destruct (w_write _ _ _ _ preimage_wlaws p H) as (a & E & _). exists a. split; [exact E|]. exact (preimage_parts_ok p a H E). Qed.
Print Assumptions C64_message_parts.

(** A transaction id records the transaction it is the hash of. *)
Theorem C64_transaction_id : forall sha256d si so t T, tx_value si so t -> tx_hashed sha256d si so t = Ok T ->
  hash_of sha256d None None (tx_parts t) (tx_hash T) /\ ba_preimage (tx_hash T) = Some [tx_raw T].
Proof.
  intros sha si so t T H E. unfold tx_hashed in E. apply obind_ok in E. destruct E as (raw & Er & E). apply obind_ok in E. destruct E as (h & Eh & E). apply okinj in E. subst T.
  cbn [tx_hash tx_raw]. apply digest_is in Eh. subst h. split; [|reflexivity]. exists raw. split; [reflexivity|]. split; [exact (tx_unnamed si so t raw Er)|]. exact (tx_parts_ok si so t raw H Er).
Qed.
Print Assumptions C64_transaction_id.

(** The three hashes in the message for input [idx] under the flags [f]. *)
Theorem C64_signature_hashes : forall sha256d t pss idx i k f ps p, sig_value t -> build_preimages sha256d t = Ok pss ->
  nth_error (st_inputs t) idx = Some i -> nth_error (si_flags i) k = Some f -> nth_error pss idx = Some ps -> nth_error ps k = Some p ->
  (anyone_can_pay f -> pi_hash_prevouts p = labelled "hashPrevouts" zeros32) /\
  (~ anyone_can_pay f -> hash_of sha256d (Some "hashPrevouts") (Some "prevouts") (prevouts_parts t) (pi_hash_prevouts p)) /\
  (anyone_can_pay f \/ is_none f \/ is_single f -> pi_hash_sequence p = labelled "hashSequence" zeros32) /\
  (~ anyone_can_pay f -> ~ is_none f -> ~ is_single f -> hash_of sha256d (Some "hashSequence") (Some "sequences") (sequences_parts t) (pi_hash_sequence p)) /\
  (is_none f -> pi_hash_outputs p = labelled "hashOutputs" zeros32) /\
  (is_single f -> nth_error (st_outputs t) idx = None -> pi_hash_outputs p = labelled "hashOutputs" zeros32) /\
  (is_single f -> forall o, nth_error (st_outputs t) idx = Some o -> hash_of sha256d None None (output_parts o) (pi_hash_outputs p)) /\
  (~ is_none f -> ~ is_single f -> hash_of sha256d (Some "hashOutputs") (Some "outputs") (outputs_parts t) (pi_hash_outputs p)).
Proof.
  intros sha t pss idx i k f ps p (_ & _ & Ho & _) B En Ef Eps Ep. rewrite build_preimages_eq in B. apply obind_ok in B. destruct B as ([[hp hs] ho] & Epr & B).
  assert (Hne : st_inputs t <> []) by (intros E; rewrite E in En; destruct idx; discriminate).
  unfold pres in Epr. apply obind_ok in Epr. destruct Epr as (hp' & E1 & Epr). apply obind_ok in Epr. destruct Epr as (hs' & E2 & Epr). apply obind_ok in Epr. destruct Epr as (ho' & E3 & Epr).
  apply okinj in Epr. injection Epr as -> -> ->. apply prevouts_ok in E1; [|exact Hne]. apply sequences_ok in E2; [|exact Hne]. apply outputs_ok in E3; [|exact Ho].
  destruct (build_inputs_nth sha t hp hs ho _ _ _ B) as [_ N]. destruct (N idx i En) as (ps' & Eps' & O). rewrite Eps in Eps'. injection Eps' as <-. cbn [Nat.add] in O.
  destruct (omap_nth _ _ _ _ _ O Ef) as (p' & Ep' & Ebp). rewrite Ep in Ep'. injection Ep' as <-.
  assert (X : exists lock v, si_lock_script i = Some lock /\ si_value i = Some v).
  { unfold build_preimage in Ebp. apply obind_ok in Ebp. destruct Ebp as (h & _ & Ebp). destruct (si_lock_script i) as [lock|]; [|discriminate Ebp]. cbn [expect obind] in Ebp.
    destruct (si_value i) as [v|]; [|discriminate Ebp]. eauto. }
  destruct X as (lock & v & El & Ev). rewrite (build_preimage_eq sha t hp hs ho idx i f lock v El Ev) in Ebp. apply obind_ok in Ebp. destruct Ebp as (h & Eh & Ebp). apply okinj in Ebp. subst p.
  cbn [pi_hash_prevouts pi_hash_sequence pi_hash_outputs]. unfold anyone_can_pay, is_none, is_single, base_type in *.
  unfold outs_hash in Eh. rewrite masked_mod in Eh. unfold SIGHASH_SINGLE, SIGHASH_NONE in *.
  split; [intros ->; reflexivity|]. split; [destruct (Z.testbit f 7); [congruence|intros _; exact E1]|].
  split. { intros H. destruct (Z.testbit f 7); [reflexivity|]. cbn [negb andb]. destruct H as [H|[H|H]]; [discriminate H|rewrite H; reflexivity|rewrite H; reflexivity]. }
  split. { intros H1 H2 H3. destruct (Z.testbit f 7); [congruence|]. apply Z.eqb_neq in H2, H3. rewrite H2, H3. exact E2. }
  split. { intros H. rewrite H in Eh. cbn [Z.eqb Pos.eqb negb andb] in Eh. apply okinj in Eh. now subst h. }
  split. { intros H Hn. rewrite H in Eh. cbn [Z.eqb Pos.eqb negb andb] in Eh. apply nth_error_None in Hn. rewrite (proj2 (Nat.ltb_ge _ _) Hn) in Eh. apply okinj in Eh. now subst h. }
  split.
  { intros H o Hn. rewrite H in Eh. cbn [Z.eqb Pos.eqb negb andb] in Eh. assert (L : (idx < length (st_outputs t))%nat) by (apply nth_error_Some; congruence).
    apply Nat.ltb_lt in L. rewrite L, Hn in Eh. apply obind_ok in Eh. destruct Eh as (s & Es & Eh). apply digest_is in Eh. subst h. exists s.
    split; [reflexivity|]. split; [exact (output_unnamed o s Es)|]. exact (proj2 (output_parts_ok o s "" (proj1 (Forall_forall _ _) Ho o (nth_error_In _ _ Hn)) Es)). }
  intros H1 H2. apply Z.eqb_neq in H1, H2. rewrite H1, H2 in Eh. apply okinj in Eh. subst h. exact E3.
Qed.
Print Assumptions C64_signature_hashes.

(** Names of groups are not kept: what [prevouts] records are the fields of the outpoints only -- the names the code gives to
    the outpoints themselves ([outpoint_0], ...) appear nowhere; the same holds of the outputs and of the fields of a transaction
    that are structures. *)
Theorem C64_group_names_lost_refuted : exists t pss ps p m, sig_value t /\ build_preimages ex_sha t = Ok pss /\ nth_error pss 0 = Some ps /\ nth_error ps 0 = Some p /\
  ba_preimage (pi_hash_prevouts p) = Some [m] /\
  ba_preimage m = Some [bare []; labelled "tx_hash" (repeat 1 32); labelled "vout" [1;0;0;0]; labelled "tx_hash" (repeat 2 32); labelled "vout" [2;0;0;0]].
Proof. exists ex_sig_tx. do 4 eexists. split; [exact ex_sig_value|]. split; [vm_compute; reflexivity|]. split; [reflexivity|]. split; [reflexivity|]. split; [reflexivity|]. reflexivity. Qed.
Print Assumptions C64_group_names_lost_refuted.
(** Nor is the name of a pushed array when the push is a single opcode. *)
Theorem C64_short_push_name_lost_refuted : exists a r, ba_name a = Some "counter" /\ serialize_op (OPushArray a true) = Ok r /\ parts r = [bare [0x55]].
Proof. exists (labelled "counter" [5]). eexists. split; [reflexivity|]. split; reflexivity. Qed.
Print Assumptions C64_short_push_name_lost_refuted.

(** The named flags mean what they say: with FORKID, and ANYONECANPAY or not, ALL, NONE and SINGLE select what is signed; every
    such combination is recognised when read from a signature; DEFAULT is ALL with FORKID. *)
Theorem C24_named_flags : forall base any, In base [SIGHASH_ALL; SIGHASH_NONE; SIGHASH_SINGLE] -> In any [0; SIGHASH_ANYONECANPAY] ->
  let f := Z.lor (Z.lor base SIGHASH_FORKID) any in
  Z.testbit f 6 = true /\ u32_ok f /\ sighash_from_bits f = Some f /\ base_type f = base /\ (anyone_can_pay f <-> any = SIGHASH_ANYONECANPAY) /\
  (is_none f <-> base = SIGHASH_NONE) /\ (is_single f <-> base = SIGHASH_SINGLE) /\
  (f = SIGHASH_DEFAULT <-> base = SIGHASH_ALL /\ any = 0).
Proof.
  intros base any Hb Ha f. unfold f, is_none, is_single, anyone_can_pay, base_type, u32_ok.
  destruct Hb as [<-|[<-|[<-|[]]]], Ha as [<-|[<-|[]]]; vm_compute; intuition (discriminate || congruence).
Qed.
Print Assumptions C24_named_flags.
(** The protocol's numbers of the flags. *)
Theorem C24_flag_numbers : SIGHASH_ALL = 1 /\ SIGHASH_NONE = 2 /\ SIGHASH_SINGLE = 3 /\ SIGHASH_FORKID = 64 /\ SIGHASH_ANYONECANPAY = 128 /\ SIGHASH_DEFAULT = 65.
Proof. repeat split. Qed.
Print Assumptions C24_flag_numbers.
(** The default value of the type of flags, on the other hand, is none of these: no FORKID, so no valid Bitcoin Cash signature. *)
Theorem C24_default_value_refuted : Z.testbit sighash_derived_default 6 = false /\ sighash_derived_default <> SIGHASH_DEFAULT.
Proof. split; [reflexivity|discriminate]. Qed.
Print Assumptions C24_default_value_refuted.
(** The message used to estimate sizes before anything is known: zeros everywhere but for the script and the flags (ALL). *)
Theorem C24_empty_message : forall lock m, script_value lock -> c_ser preimage_codec (empty_with_script lock) = Ok m ->
  exists code script, script_code_of lock code /\ wire_script true code script /\
    ba_data m = repeat 0 4 ++ repeat 0 32 ++ repeat 0 32 ++ repeat 0 36 ++ script ++ repeat 0 8 ++ repeat 0 4 ++ repeat 0 32 ++ repeat 0 4 ++ [1; 0; 0; 0].
Proof.
  intros lock m Hl E. exists (to_script_code_first lock). pose proof (code_value lock _ Hl (script_code_first_spec lock)) as Hs.
  destruct (w_write _ _ _ _ script_wlaws _ Hs) as (a & Ea & W). exists (ba_data a). split; [apply script_code_first_spec|]. split; [exact W|].
  cbn [c_ser preimage_codec i32_codec u32_codec u64_codec int_codec sha256d_codec fixed_codec outpoint_codec obind empty_with_script pi_version pi_hash_prevouts pi_hash_sequence
    pi_outpoint pi_script_code pi_value pi_sequence pi_hash_outputs pi_lock_time pi_sig_hash_type op_tx_hash op_vout] in E.
  rewrite Ea in E. cbn [obind] in E. apply okinj in E. subst m. rewrite from_parts_data. cbn [map concat]. rewrite !named_data, from_parts_data. cbn [map concat]. rewrite !named_data, !app_nil_r.
  reflexivity.
Qed.
Print Assumptions C24_empty_message.

Example C64_nonvacuous : sig_value ex_sig_tx /\ exists pss ps p m, build_preimages ex_sha ex_sig_tx = Ok pss /\ nth_error pss 0 = Some ps /\ nth_error ps 0 = Some p /\
  ba_preimage (pi_hash_sequence p) = Some [m] /\
  parts m = [bare []; labelled "sequence_0" [0xfe;0xff;0xff;0xff]; labelled "sequence_1" [0xfd;0xff;0xff;0xff]] /\
  (exists a, c_ser preimage_codec p = Ok a /\ map ba_name (parts a) =
     [Some "version"; Some "hash_prevouts"; Some "hash_sequence"; Some "tx_hash"; Some "vout"; Some "size"; Some "OP_CHECKSIG"; Some "value"; Some "sequence"; Some "hash_outputs"; Some "lock_time"; Some "sig_hash_type"]).
Proof. split; [exact ex_sig_value|]. do 4 eexists. split; [vm_compute; reflexivity|]. split; [reflexivity|]. split; [reflexivity|]. split; [reflexivity|]. split; [reflexivity|]. eexists. split; [vm_compute; reflexivity|]. reflexivity. Qed.
