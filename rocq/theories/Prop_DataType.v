(** Properties C45 and C46: pushing API values, equality of ops and scripts. *)
From Verif Require Import Base BaseLemmas Model_Encoding Spec_Encoding Proofs_Encoding Spec_Integer Model_Integer
  Model_ByteArray Proofs_ByteArray Model_Opcode Model_Script Spec_Script Proofs_Script Model_Code Spec_Code Proofs_Code
  Model_Hash Model_DataType Spec_DataType.
From Coq Require Import ZifyBool.
Local Open Scope Z_scope.

Lemma one_byte_minimal c d : chunk c (Push d) -> (length c <= 1)%nat -> minimal_push c d.
Proof.
  intros H L. split; [exact H|]. intros c' _ H'. pose proof (chunk_ne _ _ H'). destruct c'; [congruence|]. cbn. lia.
Qed.
Lemma push_bytes_minimal d : bytes_ok d -> zlen d < 2 ^ 32 -> minimal_push (push_bytes d true) d.
Proof.
  intros Hok Hl. assert (zlen (push_bytes d true) = head_len d) as E.
  { change (2 ^ 32) with 4294967296 in Hl. unfold push_bytes, head_len. cbn [andb]. destruct (one_op d) eqn:E; [reflexivity|].
    rewrite zlen_app. unfold nonmin_prefix.
    destruct (Z.eqb_spec (zlen d) 0) as [Hz|]; [apply zlen_0 in Hz; subst d; discriminate|].
    destruct (Z.leb_spec (zlen d) 75); [reflexivity|]. destruct (Z.leb_spec (zlen d) 255); [reflexivity|].
    destruct (Z.leb_spec (zlen d) 65535); rewrite zlen_cons, le_bytes_zlen; lia. }
  split; [apply push_chunk; exact Hl|]. intros c' Hok' Hc'. destruct (chunk_min _ _ Hc' Hok') as [Hm _].
  apply Nat2Z.inj_le. change (zlen (push_bytes d true) <= zlen c'). lia.
Qed.
Lemma ser_minimal o d : op_ok o -> means o (Push d) -> (forall a m, o = OPushArray a m -> m = true) ->
  exists s, serialize_op o = Ok s /\ minimal_push (ba_data s) d.
Proof.
  intros Hok Hm Hflag. destruct (ser_op_ok o Hok) as (s & i & Es & Hi & Hc & _).
  rewrite (means_fun _ _ _ Hi Hm) in Hc. exists s. split; [exact Es|].
  destruct o as [c|b|a m|b|n].
  - injection Es as <-. apply one_byte_minimal; [exact Hc|cbn; lia].
  - injection Es as <-. apply one_byte_minimal; [exact Hc|cbn; lia].
  - specialize (Hflag a m eq_refl). subst m. inversion Hm; subst. destruct Hok as [H1 H2].
    destruct (ser_push a true H1 H2) as (r & Er & Dr). rewrite Es in Er. injection Er as <-. rewrite Dr.
    apply push_bytes_minimal; assumption.
  - injection Es as <-. apply one_byte_minimal; [exact Hc|destruct b; cbn; lia].
  - cbn [serialize_op] in Es.
    destruct (n =? -1); [injection Es as <-; apply one_byte_minimal; [exact Hc|cbn; lia]|].
    destruct (n =? 0); [injection Es as <-; apply one_byte_minimal; [exact Hc|cbn; lia]|].
    destruct ((1 <=? n) && (n <=? 16)).
    { destruct (opcode_from_u8 (opcode_u8 OP_1 + n - 1)); [|discriminate]. injection Es as <-. apply one_byte_minimal; [exact Hc|cbn; lia]. }
    destruct (n =? -0x80000000); [discriminate|]. cbn in Hok. unfold script_int in Hok.
    destruct (encode_int_correct n) as (E1 & E2 & E3 & E4); [lia|].
    assert (zlen (encode_int n) < 2 ^ 32) as Hl by (unfold zlen; change (2 ^ 32) with 4294967296; lia).
    destruct (ser_push (ba_unnamed (encode_int n)) true E3 Hl) as (r & Er & Dr). cbn [serialize_op] in Er. rewrite Es in Er. injection Er as <-.
    rewrite Dr. cbn [ba_data ba_unnamed]. inversion Hm as [| | |? d' H1 H2 H3| | | | |]; subst.
    assert (encode_int (script_num d) = d) as -> by (apply minimal_unique; auto; congruence).
    apply push_bytes_minimal; [exact H1|]. rewrite <- (minimal_unique (encode_int (script_num d)) d) by (auto; congruence). exact Hl.
Qed.
Lemma api_push v : api_ok v -> ~ no_number v -> exists o d, to_pushop v = Ok o /\ stands_for v d /\ means o (Push d) /\ op_ok o /\
  (forall a m, o = OPushArray a m -> m = true).
Proof.
  assert (forall i, script_int i -> exists d, bytes_ok d /\ minimal_num d /\ script_num d = i) as Hint.
  { intros i Hi. unfold script_int in Hi. destruct (encode_int_correct i) as (E1 & E2 & E3 & _); [lia|]. exists (encode_int i). auto. }
  destruct v as [i|r|n|b|s|a|h|pk|p]; cbn [api_ok no_number to_pushop]; intros H Hn.
  - destruct (Hint i H) as (d & D1 & D2 & D3). exists (OPushInt i), d. split; [reflexivity|]; split; [constructor; auto|]; split; [constructor; auto|]; split; [assumption|]; discriminate.
  - destruct r as [i|e|]; [|tauto|tauto]. destruct (Hint i H) as (d & D1 & D2 & D3). exists (OPushInt i), d. split; [reflexivity|]; split; [constructor; auto|]; split; [constructor; auto|]; split; [assumption|]; discriminate.
  - assert (script_int n) as Hs by (unfold script_int, i32_ok in *; lia). rewrite (integer_new_ok n Hs). cbn.
    destruct (Hint n Hs) as (d & D1 & D2 & D3). exists (OPushInt n), d. split; [reflexivity|]; split; [constructor; auto|]; split; [constructor; auto|]; split; [assumption|]; discriminate.
  - exists (OPushBool b). destruct b; eexists; (split; [reflexivity|]); repeat split; try constructor; discriminate.
  - exists (op_from_array (ba_unnamed s)), s. split; [reflexivity|]. split; [constructor|]. split; [exact (MPush (ba_unnamed s) true)|]. split; [exact H|]. intros a m E. now injection E.
  - exists (op_from_array a), (ba_data a). split; [reflexivity|]. split; [constructor|]. split; [constructor|]. split; [exact H|]. intros a' m E. now injection E.
  - exists (op_from_array h), (ba_data h). split; [reflexivity|]. split; [constructor|]. split; [constructor|]. split; [exact H|]. intros a' m E. now injection E.
  - exists (op_from_array (pubkey_array pk)), pk. split; [reflexivity|]. split; [constructor|]. split; [exact (MPush (pubkey_array pk) true)|].
    split; [|intros a' m E; now injection E]. cbn. change (2 ^ 32) with 4294967296. destruct H as [H1 H2]. split; [exact H1|lia].
  - destruct H as [Hp Hs]. destruct (proj1 preimage_laws p Hp) as (s & Es & Ob & _). exists (op_from_array s), (ba_data s).
    rewrite Es. cbn [obind]. split; [reflexivity|]. split; [constructor; exact Es|]. split; [constructor|]. split; [split; [exact Ob|auto]|].
    intros a' m E. now injection E.
Qed.

(** C45: [to_pushop] of every value that is a script number, boolean, byte string, hash, public key or preimage is an
    op that, serialised, is a shortest push of exactly the stack item the value stands for. *)
Theorem C45_pushes_value : forall v, api_ok v -> ~ no_number v ->
  exists o d s, to_pushop v = Ok o /\ stands_for v d /\ means o (Push d) /\
    serialize_op o = Ok s /\ minimal_push (ba_data s) d.
Proof.
  intros v Hv Hn. destruct (api_push v Hv Hn) as (o & d & E & Hs & Hm & Hok & Hf).
  destruct (ser_minimal o d Hok Hm Hf) as (s & Es & Hmin). exists o, d, s. auto.
Qed.
Print Assumptions C45_pushes_value.

(** C45: a list of values pushed one after the other (a script's inputs) serialises to bytes that Script reads as
    exactly those pushes in that order. *)
Theorem C45_pushes_values : forall vs, Forall (fun v => api_ok v /\ ~ no_number v) vs ->
  exists ops ds a, omap to_pushop vs = Ok ops /\ Forall2 stands_for vs ds /\
    serialize_ops ops = Ok a /\ reads_as (ba_data a) (map Push ds).
Proof.
  intros vs H. assert (exists ops ds, omap to_pushop vs = Ok ops /\ Forall2 stands_for vs ds /\ Forall op_ok ops /\ Forall2 means ops (map Push ds)) as (ops & ds & E & Hs & Hok & Hm).
  { induction H as [|v vs [Hv Hn] _ (ops & ds & E & Hs & Hok & Hm)]; [exists [], []; repeat split; constructor|].
    destruct (api_push v Hv Hn) as (o & d & E1 & H1 & H2 & H3 & _). exists (o :: ops), (d :: ds). cbn [omap]. rewrite E1. cbn [obind]. rewrite E.
    cbn [obind]. repeat split; constructor; auto. }
  destruct (ser_ops_ok ops Hok) as (a & chunks & is & Ea & Hd & Hc & Hms & _). exists ops, ds, a. repeat split; auto.
  exists chunks. split; [exact Hd|]. replace (map Push ds) with is; [exact Hc|].
  clear - Hm Hms. revert ds Hm. induction Hms as [|o i ops is H _ IH]; intros ds Hm; inversion Hm as [|? j ? js H1 H2 E1 E2]; subst; destruct ds as [|d ds]; try discriminate; [reflexivity|].
  cbn in E2. injection E2 as E2a E2b. subst j js. cbn. f_equal; [eapply means_fun; eassumption|auto].
Qed.
Print Assumptions C45_pushes_values.

(** C45: [to_data] is the stack item that [to_pushop] pushes, as read back from the op. *)
Theorem C45_data_is_pushed : forall v o, to_pushop v = Ok o -> exists d, to_data v = Ok d /\ stack_of_op o = Ok d.
Proof.
  intros v o H. destruct v as [i|r|n|b|s|a|h|pk|p]; cbn [to_pushop to_data] in *;
   try (injection H as <-; eexists; split; reflexivity);
   apply obind_ok in H; destruct H as (x & E & H); rewrite E; injection H as <-; eexists; split; reflexivity.
Qed.
Print Assumptions C45_data_is_pushed.

(** C45: a known length announced by [to_data_type] is the length of the stack item. *)
Theorem C45_announced_length : forall v n d, to_data_type v = DByteArray (Some n) -> stands_for v d -> zlen d = n.
Proof. intros v n d H S. destruct S; cbn in H; try discriminate; injection H as <-; reflexivity. Qed.
Print Assumptions C45_announced_length.
(** C45: the announced data type: numbers are integers, booleans booleans, and everything else a byte string, whose
    length is announced for byte arrays, hashes and public keys and left open for slices and preimages. *)
Theorem C45_announced_type : forall v d, stands_for v d ->
  match v with
  | AInteger _ | AIntegerResult _ | AI32 _ => to_data_type v = DInteger
  | ABool _ => to_data_type v = DBoolean
  | AArray _ | AHash _ | APubkey _ => to_data_type v = DByteArray (Some (zlen d))
  | ASlice _ | APreimage _ => to_data_type v = DByteArray None
  end.
Proof. intros v d S. destruct S; reflexivity. Qed.
Print Assumptions C45_announced_type.

(** C45: [to_pushop] and [to_data] panic exactly on values that are no script number (a failed [IntegerResult], and
    i32::MIN), and never return an error. *)
Theorem C45_panics_iff : forall v, api_ok v ->
  (to_pushop v = Panic <-> no_number v) /\ (to_data v = Panic <-> no_number v) /\ forall e, to_pushop v <> Err e /\ to_data v <> Err e.
Proof.
  intros v Hv.
  assert (~ no_number v -> exists o d, to_pushop v = Ok o /\ to_data v = Ok d) as K.
  { intros Hn. destruct (api_push v Hv Hn) as (o & d & E & _). destruct (C45_data_is_pushed v o E) as (x & E2 & _). eauto. }
  assert (no_number v -> to_pushop v = Panic /\ to_data v = Panic) as K2.
  { destruct v as [i|r|n|b|s|a|h|pk|p]; cbn; try tauto.
    - destruct r; tauto.
    - intros ->. split; reflexivity. }
  assert (no_number v \/ ~ no_number v) as [D|D].
  { destruct v as [i|r|n|b|s|a|h|pk|p]; cbn; try tauto; [destruct r; tauto|lia]. }
  - destruct (K2 D) as [-> ->]. repeat split; auto; discriminate.
  - destruct (K D) as (o & d & -> & ->). repeat split; try discriminate; tauto.
Qed.
Print Assumptions C45_panics_iff.

(** C45: reading an op back as stack data panics exactly for ops that are not pushes of data. *)
Theorem C45_stack_data_panics_iff : forall o, stack_of_op o = Panic <-> (exists c, o = OCode c) \/ (exists b, o = OInvalid b).
Proof.
  intros [c|b|a m|b|i]; cbn; split; intros H; try discriminate; eauto; destruct H as [[x H]|[x H]]; discriminate.
Qed.
Print Assumptions C45_stack_data_panics_iff.

(** C45: [Op::from_int] pushes the number, and panics outside the script-number range. *)
Theorem C45_from_int : forall n, i64_ok n ->
  (script_int n -> op_from_int n = Ok (OPushInt n)) /\ (~ script_int n -> op_from_int n = Panic).
Proof.
  intros n Hn. unfold op_from_int. split; intros H; [rewrite (integer_new_ok n H); reflexivity|].
  unfold integer_new, in_i32, MIN_SCRIPT_INTEGER, MAX_SCRIPT_INTEGER, script_int in *.
  change (2 ^ 31) with 2147483648 in *. change (- (2147483648)) with (-2147483648). destruct ((-2147483648 <=? n) && (n <? 2147483648)) eqn:E.
  - assert ((-2147483647 <=? n) && (n <=? 2147483647) = false) as -> by lia. reflexivity.
  - destruct (in_i128 n); reflexivity.
Qed.
Print Assumptions C45_from_int.

Example C45_nonvacuous : api_ok (AI32 1000) /\ ~ no_number (AI32 1000) /\
  (exists o s, to_pushop (AI32 1000) = Ok o /\ serialize_op o = Ok s /\ ba_data s = [2; 0xe8; 3]) /\
  api_ok (APubkey (repeat 2 33)) /\ api_ok (ASlice [1; 2; 3]) /\ no_number (AI32 (- 2 ^ 31)) /\ api_ok (AI32 (- 2 ^ 31)).
Proof.
  split; [unfold api_ok, i32_ok; lia|]. split; [cbn; lia|]. split; [eexists; eexists; split; [vm_compute; reflexivity|]; split; [vm_compute; reflexivity|reflexivity]|].
  split; [split; [|reflexivity]; apply Forall_forall; intros x Hx; apply repeat_spec in Hx; subst; unfold byte_ok; lia|].
  split; [split; [repeat constructor; unfold byte_ok; lia|cbn; lia]|]. split; [reflexivity|unfold api_ok, i32_ok; lia].
Qed.

(* ---------- C46 ---------- *)
(** The same push or opcode, whatever the minimality flag and the provenance of the array. *)
Lemma op_eqb_iff o o' : op_eqb o o' = true <->
  match o, o' with
  | OCode c, OCode c' => c = c' | OInvalid b, OInvalid b' => b = b' | OPushArray a _, OPushArray a' _ => ba_data a = ba_data a'
  | OPushBool b, OPushBool b' => b = b' | OPushInt i, OPushInt i' => i = i' | _, _ => False
  end.
Proof.
  destruct o as [c|b|a m|b|i], o' as [c'|b'|a' m'|b'|i']; cbn [op_eqb]; try (split; [discriminate|tauto]).
  - apply opcode_eqb_spec.
  - apply Z.eqb_eq.
  - apply ba_eqb_spec.
  - apply Bool.eqb_true_iff.
  - apply Z.eqb_eq.
Qed.
Lemma script_eqb_iff s s' : script_eqb s s' = true <-> Forall2 (fun t t' => op_eqb (t_op t) (t_op t') = true) s s'.
Proof.
  revert s'. induction s as [|t s IH]; intros [|t' s']; cbn [script_eqb]; split; intros H; try discriminate; try (inversion H; fail); try constructor.
  - apply andb_true_iff in H. apply H.
  - apply andb_true_iff in H. apply IH. apply H.
  - inversion H; subst. apply andb_true_iff. split; [assumption|now apply IH].
Qed.

(** C46: [==] on ops, tagged ops and scripts is an equivalence relation. *)
Theorem C46_equality_is_equivalence :
  (forall s, script_eqb s s = true) /\ (forall s s', script_eqb s s' = script_eqb s' s) /\
  (forall a b c, script_eqb a b = true -> script_eqb b c = true -> script_eqb a c = true).
Proof.
  assert (forall o, op_eqb o o = true) as R by (intros o; apply op_eqb_iff; destruct o; reflexivity).
  assert (forall o o', op_eqb o o' = true -> op_eqb o' o = true) as S.
  { intros o o' H. apply op_eqb_iff in H. apply op_eqb_iff. destruct o, o'; try contradiction; congruence. }
  assert (forall a b c, op_eqb a b = true -> op_eqb b c = true -> op_eqb a c = true) as T.
  { intros a b c H1 H2. apply op_eqb_iff in H1, H2. apply op_eqb_iff. destruct a, b, c; try contradiction; congruence. }
  assert (forall s s', script_eqb s s' = true -> script_eqb s' s = true) as S'.
  { intros s s' H. apply script_eqb_iff in H. apply script_eqb_iff. induction H; constructor; auto. }
  split; [|split].
  - intros s. apply script_eqb_iff. induction s; constructor; auto.
  - intros s s'. destruct (script_eqb s s') eqn:E; [symmetry; now apply S'|]. destruct (script_eqb s' s) eqn:E'; [|reflexivity]. apply S' in E'. congruence.
  - intros a b c H1 H2. apply script_eqb_iff in H1, H2. apply script_eqb_iff. revert c H2. induction H1; intros c H2; inversion H2; subst; constructor; eauto.
Qed.
Print Assumptions C46_equality_is_equivalence.

(** C46: equal scripts are the same sequence of instructions; source locations and stack item names do not matter. *)
Theorem C46_equal_means_same_instructions : forall s s', Forall op_ok (map t_op s) -> script_eqb s s' = true -> same_script s s'.
Proof.
  intros s s' Hok H. apply script_eqb_iff in H. induction H as [|t t' s s' H _ IH]; [constructor|]. cbn in Hok. inversion Hok as [|? ? H1 H2]; subst.
  constructor; [|exact (IH H2)]. destruct (ser_op_ok _ H1) as (a & i & _ & Hm & _). exists i. split; [exact Hm|].
  apply op_eqb_iff in H. destruct (t_op t), (t_op t'); try contradiction; subst; try exact Hm.
  inversion Hm; subst. rewrite H. constructor.
Qed.
Print Assumptions C46_equal_means_same_instructions.

(** C46: two ops differ only in provenance and minimality flag exactly when they are equal. *)
Theorem C46_op_equality : forall o o', op_eqb o o' = true <->
  same_op o o' \/ exists a b m, o = OPushArray a m /\ o' = OPushArray b (negb m) /\ ba_data a = ba_data b.
Proof.
  intros o o'. rewrite op_eqb_iff. split.
  - destruct o as [c|b|a m|b|i], o' as [c'|b'|a' m'|b'|i']; intros H; try contradiction; subst; try (left; constructor; assumption).
    destruct (Bool.bool_dec m m') as [->|Hne]; [left; constructor; exact H|]. right. exists a, a', m. split; [reflexivity|]. split; [|exact H].
    destruct m, m'; try congruence; reflexivity.
  - intros [H|(a & b & m & -> & -> & H)]; [destruct H; auto|exact H].
Qed.
Print Assumptions C46_op_equality.

(** C46: equality looks only at the ops: a script compares equal to the same ops with any tags. *)
Theorem C46_tags_ignored : forall s s', map t_op s = map t_op s' -> script_eqb s s' = true.
Proof.
  intros s s' H. apply script_eqb_iff. revert s' H. induction s as [|t s IH]; intros [|t' s'] H; try discriminate; constructor.
  - injection H as -> _. apply op_eqb_iff. destruct (t_op t'); reflexivity.
  - apply IH. now injection H.
Qed.
Print Assumptions C46_tags_ignored.

(** C46, exceptions: equal scripts may have different bytes (the minimality flag is ignored), hence different hashes;
    and scripts with the same bytes may compare unequal ([PushInteger 1], [Code OP_1] and [PushBoolean true]). *)
Theorem C46_equal_scripts_same_bytes_refuted : exists s s' a a', Forall op_ok (map t_op s) /\ Forall op_ok (map t_op s') /\
  script_eqb s s' = true /\ script_ser_ops s = Ok a /\ script_ser_ops s' = Ok a' /\ ba_data a <> ba_data a'.
Proof.
  exists (script_from_ops [OPushArray (ba_unnamed [1]) true]), (script_from_ops [OPushArray (ba_unnamed [1]) false]).
  do 2 eexists. split; [|split; [|split; [reflexivity|split; [vm_compute; reflexivity|split; [vm_compute; reflexivity|discriminate]]]]];
  (constructor; [|constructor]; split; [repeat constructor; unfold byte_ok; lia|cbn; lia]).
Qed.
Print Assumptions C46_equal_scripts_same_bytes_refuted.
Theorem C46_same_bytes_equal_scripts_refuted : exists s s' a a',
  script_ser_ops s = Ok a /\ script_ser_ops s' = Ok a' /\ ba_data a = ba_data a' /\ script_eqb s s' = false.
Proof.
  exists (script_from_ops [OPushInt 1]), (script_from_ops [OCode OP_1]). do 2 eexists.
  split; [vm_compute; reflexivity|]. split; [vm_compute; reflexivity|]. split; reflexivity.
Qed.
Print Assumptions C46_same_bytes_equal_scripts_refuted.

Example C46_nonvacuous : let s := [tagged_named (tagged_from_op (OPushInt 5)) "x"; tagged_from_op (OCode OP_DUP)] in
  let s' := script_from_ops [OPushInt 5; OCode OP_DUP] in
  Forall op_ok (map t_op s) /\ script_eqb s s' = true /\ s <> s' /\ map t_op s = map t_op s'.
Proof.
  split; [|split; [reflexivity|split; [discriminate|reflexivity]]].
  constructor; [cbn [t_op tagged_named tagged_from_op op_ok]; unfold script_int; lia|]. constructor; [cbn; repeat split; discriminate|constructor].
Qed.
