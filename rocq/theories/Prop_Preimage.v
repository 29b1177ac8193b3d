(** Properties C24, C25: signature hash messages. *)
From Verif Require Import Base BaseLemmas Model_Encoding Spec_Encoding Proofs_Encoding Spec_Integer
  Model_ByteArray Proofs_ByteArray Model_Opcode Model_Script Spec_Script Proofs_Script Model_Code Spec_Code Spec_Wire
  Proofs_Code Proofs_Wire Proofs_Codec Model_Address Model_Destination Model_Preimage Spec_Preimage Proofs_Preimage Prop_Code.
Local Open Scope Z_scope.

(** C24: for every transaction, input and flag set, the preimage built is the specified message. *)
Theorem C24_preimages_are_sighash_messages : forall sha256d t, hash32 sha256d -> sig_value t ->
  exists pss, build_preimages sha256d t = Ok pss /\
    Forall2 (fun i ps => length ps = length (si_flags i)) (st_inputs t) pss /\
    forall idx i k flags, nth_error (st_inputs t) idx = Some i -> nth_error (si_flags i) k = Some flags ->
      exists ps p msg, nth_error pss idx = Some ps /\ nth_error ps k = Some p /\
        c_ser preimage_codec p = Ok msg /\ sighash_message sha256d t idx flags (ba_data msg).
Proof.
  intros sha t H V. destruct (build_preimages_spec sha H t V) as (pss & E & HF & HN). exists pss. split; [exact E|]. split; [exact HF|].
  intros idx i k f En Ek. destruct (HN idx i k f En Ek) as (ps & p & m & A & B & _ & C & D). exists ps, p, m. auto.
Qed.
Print Assumptions C24_preimages_are_sighash_messages.

(** C24 for [UnhashedTx::preimages] (and [Tx::preimages]): one preimage per input and flag set. *)
Theorem C24_transaction_preimages : forall sha256d si so t flags, hash32 sha256d -> tx_value si so t -> Forall u32_ok flags ->
  Forall (fun i => (exists v, in_value i = Some v /\ u64_ok v) /\ (exists s, in_lock_script i = Some s /\ script_value s)) (tx_inputs t) ->
  exists pss, tx_preimages sha256d t flags = Ok pss /\ length pss = length (tx_inputs t) /\
    forall idx k f, (idx < length (tx_inputs t))%nat -> nth_error flags k = Some f ->
      exists ps p msg, nth_error pss idx = Some ps /\ length ps = length flags /\ nth_error ps k = Some p /\
        c_ser preimage_codec p = Ok msg /\ sighash_message sha256d (sig_tx_of t flags) idx f (ba_data msg).
Proof.
  intros sha si so t flags H (Vv & (Vi & _) & (Vo & _) & Vl) Hf HK.
  assert (V : sig_value (sig_tx_of t flags)).
  { unfold sig_value, sig_tx_of. cbn [st_version st_inputs st_outputs st_lock_time]. split; [exact Vv|]. split; [|split; [exact Vo|exact Vl]].
    apply Forall_map. rewrite Forall_forall in *. intros i Hi. destruct (Vi i Hi) as (A & _ & B). destruct (HK i Hi) as (C & D).
    unfold sig_input_value. cbn [si_outpoint si_sequence si_flags si_value si_lock_script]. split; [exact A|]. split; [exact B|]. split; [now apply Forall_forall|]. split; [exact C|exact D]. }
  destruct (C24_preimages_are_sighash_messages sha _ H V) as (pss & E & HF & HN). exists pss. split; [exact E|].
  pose proof (Forall2_len _ _ _ HF) as L. unfold sig_tx_of in L. cbn [st_inputs] in L. rewrite map_length in L. split; [congruence|].
  intros idx k f Hi Hk. destruct (nth_error (tx_inputs t) idx) as [i|] eqn:En; [|apply nth_error_None in En; lia].
  assert (nth_error (st_inputs (sig_tx_of t flags)) idx = Some (SigInput (in_prev_out i) (in_sequence i) flags (in_value i) (in_lock_script i))) as En'.
  { unfold sig_tx_of. cbn [st_inputs]. now rewrite nth_error_map, En. }
  destruct (HN idx _ k f En' Hk) as (ps & p & m & A & B & C & D). exists ps, p, m. split; [exact A|]. split; [|auto].
  clear - HF A En'. revert idx A En'. induction HF as [|x y l l' Hx _ IH]; intros [|idx] A En'; cbn in *; try discriminate; [injection A as ->; injection En' as ->; exact Hx|eauto].
Qed.
Print Assumptions C24_transaction_preimages.

(** C24: an input whose value or locking script is unknown cannot be signed: no preimages are returned. *)
Theorem C24_unknown_value_or_script_panics : forall sha256d t flags pss, flags <> [] -> tx_preimages sha256d t flags = Ok pss ->
  Forall (fun i => in_value i <> None /\ in_lock_script i <> None) (tx_inputs t).
Proof.
  intros sha t flags pss Hne E. unfold tx_preimages in E. rewrite build_preimages_eq in E. apply obind_ok in E. destruct E as ([[hp hs] ho] & _ & E).
  destruct (build_inputs_nth sha _ _ _ _ _ _ _ E) as [_ N]. apply Forall_forall. intros i Hi. apply In_nth_error in Hi. destruct Hi as (k & Hk).
  assert (nth_error (st_inputs (sig_tx_of t flags)) k = Some (SigInput (in_prev_out i) (in_sequence i) flags (in_value i) (in_lock_script i))) as En'.
  { unfold sig_tx_of. cbn [st_inputs]. now rewrite nth_error_map, Hk. }
  destruct (N k _ En') as (ps & _ & O). cbn [si_flags] in O. destruct flags as [|f fl]; [congruence|]. cbn [omap] in O. apply obind_ok in O. destruct O as (p & Ep & _).
  unfold build_preimage in Ep. apply obind_ok in Ep. destruct Ep as (h & _ & Ep). cbn [si_lock_script si_value] in Ep.
  destruct (in_lock_script i), (in_value i); cbn in Ep; try discriminate. split; congruence.
Qed.
Print Assumptions C24_unknown_value_or_script_panics.

(** A concrete 2-input, 1-output transaction, and a stand-in 32-byte hash. *)
Definition ex_sha (m : list Z) : list Z := repeat (fold_left (fun a b => (a * 31 + b + 1) mod 256) m 7) 32.
Lemma ex_sha32 : hash32 ex_sha.
Proof.
  intros m. unfold ex_sha. rewrite repeat_length. split; [reflexivity|].
  assert (forall x, byte_ok x -> byte_ok (fold_left (fun a b => (a * 31 + b + 1) mod 256) m x)) as X.
  { induction m as [|b m IH]; intros x Hx; [exact Hx|]. cbn [fold_left]. apply IH. unfold byte_ok. apply Z.mod_pos_bound. lia. }
  apply Forall_forall. intros x Hx. apply repeat_spec in Hx. subst x. apply X. unfold byte_ok. lia.
Qed.
Definition ex_lock : script := map tagged_from_op [OCode OP_DUP; OCode OP_CODESEPARATOR; OCode OP_CHECKSIG].
Definition ex_sig_in (n v : Z) : sig_input := SigInput (TxOutpoint (ba_unnamed (repeat n 32)) n) (0xffffffff - n) [0x41; 0xc1; 0x42; 0x43; 0xc3] (Some v) (Some ex_lock).
Definition ex_sig_tx : sig_tx := SigTx 2 [ex_sig_in 1 5000; ex_sig_in 2 6000] [TxOutput 10000 ex_lock] 77.
Lemma ex_lock_value : script_value ex_lock.
Proof. split; [repeat constructor; discriminate|]. intros a E. vm_compute in E. injection E as <-. vm_compute. discriminate. Qed.
Lemma ex_in_value n v : byte_ok n -> u64_ok v -> sig_input_value (ex_sig_in n v).
Proof.
  intros Hn Hv. unfold byte_ok in Hn. split; [split; [split; [apply Forall_forall; intros x Hx; apply repeat_spec in Hx; now subst|reflexivity]|unfold u32_ok; cbn; lia]|].
  split; [unfold u32_ok; cbn [ex_sig_in si_sequence]; change (2 ^ 32) with 4294967296; lia|]. split; [repeat constructor; vm_compute; discriminate|].
  split; [exists v; auto|]. exists ex_lock. split; [reflexivity|exact ex_lock_value].
Qed.
Lemma ex_sig_value : sig_value ex_sig_tx.
Proof.
  split; [unfold i32_ok; cbn; lia|]. split.
  - constructor; [apply ex_in_value; unfold byte_ok, u64_ok; lia|]. constructor; [apply ex_in_value; unfold byte_ok, u64_ok; lia|constructor].
  - split; [|unfold u32_ok; cbn; lia]. constructor; [|constructor]. split; [unfold u64_ok; cbn; lia|exact ex_lock_value].
Qed.
Example C24_nonvacuous : hash32 ex_sha /\ sig_value ex_sig_tx /\
  exists pss ps p m, build_preimages ex_sha ex_sig_tx = Ok pss /\ nth_error pss 1 = Some ps /\ nth_error ps 4 = Some p /\ c_ser preimage_codec p = Ok m /\
    ba_data m = [2;0;0;0] ++ zeros32 ++ zeros32 ++ repeat 2 32 ++ [2;0;0;0] ++ [1; 0xac] ++ [0x70;0x17;0;0;0;0;0;0] ++ [0xfd;0xff;0xff;0xff] ++ zeros32 ++ [77;0;0;0] ++ [0xc3;0;0;0].
Proof.
  split; [exact ex_sha32|]. split; [exact ex_sig_value|]. do 4 eexists. split; [vm_compute; reflexivity|]. split; [reflexivity|]. split; [reflexivity|].
  split; [vm_compute; reflexivity|]. reflexivity.
Qed.

(** C25: if two signature messages agree then, unless a collision of the hash function has been found,
    the signed contents agree ([commits], Spec_Preimage). *)
Theorem C25_signature_commits : forall sha256d t t' idx idx' k k' pss pss' ps ps' p p' m m' i i' f f',
  hash32 sha256d -> sig_value t -> sig_value t' ->
  build_preimages sha256d t = Ok pss -> build_preimages sha256d t' = Ok pss' ->
  nth_error (st_inputs t) idx = Some i -> nth_error (st_inputs t') idx' = Some i' ->
  nth_error (si_flags i) k = Some f -> nth_error (si_flags i') k' = Some f' ->
  nth_error pss idx = Some ps -> nth_error ps k = Some p -> nth_error pss' idx' = Some ps' -> nth_error ps' k' = Some p' ->
  c_ser preimage_codec p = Ok m -> c_ser preimage_codec p' = Ok m' -> ba_data m = ba_data m' ->
  collision sha256d \/ commits t t' idx idx' f f'.
Proof.
  intros sha t t' idx idx' k k' pss pss' ps ps' p p' m m' i i' f f' H V V' B B' En En' Ek Ek' E1 E2 E1' E2' Em Em' D.
  destruct (build_preimages_spec sha H t V) as (x & X & _ & HN). rewrite B in X. injection X as <-.
  destruct (build_preimages_spec sha H t' V') as (x & X & _ & HN'). rewrite B' in X. injection X as <-.
  destruct (HN idx i k f En Ek) as (q & r & n & A1 & A2 & _ & A3 & A4). destruct (HN' idx' i' k' f' En' Ek') as (q' & r' & n' & A1' & A2' & _ & A3' & A4').
  rewrite E1 in A1. injection A1 as <-. rewrite E2 in A2. injection A2 as <-. rewrite Em in A3. injection A3 as <-.
  rewrite E1' in A1'. injection A1' as <-. rewrite E2' in A2'. injection A2' as <-. rewrite Em' in A3'. injection A3' as <-.
  rewrite <- D in A4'.
  assert (u32_ok f /\ u32_ok f') as [U U'].
  { destruct V as (_ & Vi & _), V' as (_ & Vi' & _). rewrite Forall_forall in Vi, Vi'.
    destruct (Vi i (nth_error_In _ _ En)) as (_ & _ & Vf & _). destruct (Vi' i' (nth_error_In _ _ En')) as (_ & _ & Vf' & _).
    rewrite Forall_forall in Vf, Vf'. split; [apply Vf|apply Vf']; eapply nth_error_In; eauto. }
  exact (message_commits sha H t t' idx idx' f f' _ V V' U U' A4 A4').
Qed.
Print Assumptions C25_signature_commits.

(** C25, the other direction: exactly what a message depends on. *)
Theorem C25_message_depends_only_on : forall sha256d t t' idx idx' i i' k k' f pss pss',
  build_preimages sha256d t = Ok pss -> build_preimages sha256d t' = Ok pss' ->
  nth_error (st_inputs t) idx = Some i -> nth_error (st_inputs t') idx' = Some i' ->
  nth_error (si_flags i) k = Some f -> nth_error (si_flags i') k' = Some f ->
  st_version t = st_version t' -> st_lock_time t = st_lock_time t' ->
  si_outpoint i = si_outpoint i' -> si_sequence i = si_sequence i' -> si_value i = si_value i' -> si_lock_script i = si_lock_script i' ->
  anyone_can_pay f \/ map si_outpoint (st_inputs t) = map si_outpoint (st_inputs t') ->
  anyone_can_pay f \/ is_none f \/ is_single f \/ map si_sequence (st_inputs t) = map si_sequence (st_inputs t') ->
  is_none f \/ (is_single f /\ nth_error (st_outputs t) idx = nth_error (st_outputs t') idx') \/ (~ is_single f /\ st_outputs t = st_outputs t') ->
  exists ps ps' p, nth_error pss idx = Some ps /\ nth_error pss' idx' = Some ps' /\ nth_error ps k = Some p /\ nth_error ps' k' = Some p.
Proof. exact preimage_depends. Qed.
Print Assumptions C25_message_depends_only_on.

Theorem C25_anyone_can_pay_ignores_other_inputs : forall sha256d v inputs inputs' outputs lt idx i k f pss pss',
  build_preimages sha256d (SigTx v inputs outputs lt) = Ok pss -> build_preimages sha256d (SigTx v inputs' outputs lt) = Ok pss' ->
  nth_error inputs idx = Some i -> nth_error inputs' idx = Some i -> nth_error (si_flags i) k = Some f -> anyone_can_pay f ->
  exists ps ps' p, nth_error pss idx = Some ps /\ nth_error pss' idx = Some ps' /\ nth_error ps k = Some p /\ nth_error ps' k = Some p.
Proof.
  intros sha v ins ins' outs lt idx i k f pss pss' B B' En En' Ek A. eapply preimage_depends; eauto; cbn [st_outputs].
  destruct (Z.eq_dec (base_type f) 3) as [e|n]; [right; left; auto|right; right; auto].
Qed.
Print Assumptions C25_anyone_can_pay_ignores_other_inputs.

Theorem C25_none_ignores_outputs : forall sha256d v inputs outputs outputs' lt idx i k f pss pss',
  build_preimages sha256d (SigTx v inputs outputs lt) = Ok pss -> build_preimages sha256d (SigTx v inputs outputs' lt) = Ok pss' ->
  nth_error inputs idx = Some i -> nth_error (si_flags i) k = Some f -> is_none f ->
  exists ps ps' p, nth_error pss idx = Some ps /\ nth_error pss' idx = Some ps' /\ nth_error ps k = Some p /\ nth_error ps' k = Some p.
Proof. intros sha v ins outs outs' lt idx i k f pss pss' B B' En Ek A. eapply preimage_depends; eauto. Qed.
Print Assumptions C25_none_ignores_outputs.

(** with SINGLE, only the output of the same index matters (in particular none, when there is no such output) *)
Theorem C25_single_ignores_other_outputs : forall sha256d v inputs outputs outputs' lt idx i k f pss pss',
  build_preimages sha256d (SigTx v inputs outputs lt) = Ok pss -> build_preimages sha256d (SigTx v inputs outputs' lt) = Ok pss' ->
  nth_error inputs idx = Some i -> nth_error (si_flags i) k = Some f -> is_single f -> nth_error outputs idx = nth_error outputs' idx ->
  exists ps ps' p, nth_error pss idx = Some ps /\ nth_error pss' idx = Some ps' /\ nth_error ps k = Some p /\ nth_error ps' k = Some p.
Proof. intros sha v ins outs outs' lt idx i k f pss pss' B B' En Ek A E. eapply preimage_depends; eauto. Qed.
Print Assumptions C25_single_ignores_other_outputs.

(** NONE and SINGLE also leave the other inputs' sequences free. *)
Theorem C25_none_single_ignore_other_sequences : forall sha256d v inputs inputs' outputs lt idx i k f pss pss',
  build_preimages sha256d (SigTx v inputs outputs lt) = Ok pss -> build_preimages sha256d (SigTx v inputs' outputs lt) = Ok pss' ->
  nth_error inputs idx = Some i -> nth_error inputs' idx = Some i -> nth_error (si_flags i) k = Some f -> is_none f \/ is_single f ->
  map si_outpoint inputs = map si_outpoint inputs' ->
  exists ps ps' p, nth_error pss idx = Some ps /\ nth_error pss' idx = Some ps' /\ nth_error ps k = Some p /\ nth_error ps' k = Some p.
Proof.
  intros sha v ins ins' outs lt idx i k f pss pss' B B' En En' Ek A E. eapply preimage_depends; eauto; cbn [st_outputs].
  - right. destruct A; auto.
  - destruct A as [A|A]; [left; exact A|right; left; auto].
Qed.
Print Assumptions C25_none_single_ignore_other_sequences.

Example C25_nonvacuous :
  exists pss pss' ps ps' p q q', build_preimages ex_sha ex_sig_tx = Ok pss /\
    build_preimages ex_sha (SigTx 2 [ex_sig_in 3 1; ex_sig_in 2 6000] [TxOutput 9 []] 77) = Ok pss' /\
    nth_error pss 1 = Some ps /\ nth_error pss' 1 = Some ps' /\ nth_error ps 4 = Some p /\ nth_error ps' 4 = Some p /\
    nth_error ps 0 = Some q /\ nth_error ps' 0 = Some q' /\ ba_data (pi_hash_outputs q) <> ba_data (pi_hash_outputs q') /\
    anyone_can_pay 0xc3 /\ is_single 0xc3 /\ ~ is_none 0x41 /\ ~ is_single 0x41 /\ ~ anyone_can_pay 0x41.
Proof.
  do 7 eexists. split; [vm_compute; reflexivity|]. split; [vm_compute; reflexivity|]. do 6 (split; [reflexivity|]). split; [vm_compute; discriminate|].
  repeat split; unfold is_none, is_single, anyone_can_pay; vm_compute; discriminate.
Qed.
