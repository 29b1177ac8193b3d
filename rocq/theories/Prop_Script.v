(** Properties C10-C14, C40, C41: opcodes, ops and scripts. *)
From Verif Require Import Base BaseLemmas Spec_Encoding Spec_Integer Model_Encoding Model_ByteArray Model_Opcode
  Model_Script Spec_Script Proofs_Script Proofs_ByteArray.
Local Open Scope Z_scope.

(** C10: serialising any list of ops gives bytes that Script's grammar reads as the instructions the ops
    stand for, each written with the shortest length prefix. *)
Theorem C10_serialise_meaning : forall ops, Forall op_ok ops ->
  exists a is, serialize_ops ops = Ok a /\ bytes_ok (ba_data a) /\ reads_as (ba_data a) is /\
    Forall2 means ops is /\ shortest_script (ba_data a).
Proof.
  intros ops H. destruct (ser_ops_ok ops H) as (a & chunks & is & E & Hd & Hc & Hm & Hs & Hok).
  exists a, is. repeat split; auto; [exists chunks; auto|exists chunks, is; auto].
Qed.
Print Assumptions C10_serialise_meaning.

(** C10: parse after serialise: same number of ops, pairwise the same instruction; and a fixpoint of
    serialise-parse-serialise.  [t] is any byte array with those bytes, whatever its provenance. *)
Theorem C10_serialise_then_parse : forall ops, Forall op_ok ops ->
  exists a, serialize_ops ops = Ok a /\
  forall t, ba_data t = ba_data a -> exists ops', deserialize_ops_ba t = Ok ops' /\
    Forall2 (fun o o' => exists i, means o i /\ means o' i) ops ops' /\
    Forall op_ok ops' /\
    exists a', serialize_ops ops' = Ok a' /\ ba_data a' = ba_data a.
Proof.
  intros ops H. destruct (ser_deser ops H) as (a & ops0 & E & Hb & E0 & Heq & Hoo & a' & E1 & E2).
  exists a. split; [assumption|]. intros t Ht.
  pose proof (deserialize_agree t) as Ha. rewrite Ht, E0 in Ha. destruct (Ha Hb) as (ops' & Ed & Hs).
  exists ops'. split; [assumption|]. 
  assert (forall o o', same_op o o' -> (forall i, means o i -> means o' i) /\ (op_ok o -> op_ok o') /\
     (forall r, serialize_op o = Ok r -> exists r', serialize_op o' = Ok r' /\ ba_data r' = ba_data r)) as Hsame.
  { intros o o' Hso. destruct Hso as [c|b|x y m Hxy|b|i]. 1,2,4,5: (split; [auto|split; [auto|eauto]]).
    split; [|split].
    - intros i Hi. inversion Hi; subst. rewrite Hxy. constructor.
    - cbn. now rewrite Hxy.
    - cbn [serialize_op]. unfold serialize_push_bytes. rewrite Hxy. intros r Hr.
      apply obind_ok in Hr. destruct Hr as ((v & tl) & Hp & Hr). rewrite Hp. cbn [obind].
      eexists. split; [reflexivity|]. injection Hr as <-. destruct tl; [|reflexivity].
      rewrite !concat_data. congruence. }
  split; [|split].
  - clear - Heq Hs Hsame. revert ops' Hs. induction Heq as [|o o0 ops ops0 Ho _ IH]; intros ops' Hs;
      inversion Hs as [|? o' ? ops'' H1 H2]; subst; constructor; auto.
    destruct Ho as (i & Hi1 & Hi2). exists i. split; [assumption|]. now apply (Hsame o0 o').
  - clear - Hoo Hs Hsame. induction Hs as [|o0 o' l l' H1 _ IH]; constructor; inversion Hoo; subst; [|auto].
    now apply (Hsame o0 o').
  - assert (exists ps ps', omap serialize_op ops0 = Ok ps /\ omap serialize_op ops' = Ok ps' /\ map ba_data ps = map ba_data ps') as (ps & ps' & P1 & P2 & P3).
    { clear - Hs E1 Hsame. unfold serialize_ops in E1. apply obind_ok in E1. destruct E1 as (ps & P1 & _).
      exists ps. revert ps P1. induction Hs as [|o0 o' l l' H1 _ IH]; intros ps P1.
      - injection P1 as <-. exists []. auto.
      - cbn in P1. apply obind_ok in P1. destruct P1 as (y & Y1 & P1). apply obind_ok in P1. destruct P1 as (ys & Y2 & P1).
        injection P1 as <-. destruct (Hsame o0 o' H1) as (_ & _ & Hr). destruct (Hr y Y1) as (y' & Y1' & Yd).
        destruct (IH ys Y2) as (ps' & Q1 & Q2 & Q3). exists (y' :: ps'). cbn. rewrite Y1', Y1. cbn. rewrite Q2, Y2. cbn.
        repeat split. congruence. }
    unfold serialize_ops in *. rewrite P1 in E1. rewrite P2. cbn [obind] in *. injection E1 as <-.
    eexists. split; [reflexivity|]. rewrite from_parts_data in *. congruence.
Qed.
Print Assumptions C10_serialise_then_parse.

(** C10: a parsed push carries [is_minimal = true] exactly when it was written as a shortest push. *)
Theorem C10_minimal_flag : forall bs ops, bytes_ok bs -> deserialize_ops bs = Ok ops ->
  exists chunks, bs = concat chunks /\
    Forall2 (fun c o => forall a m, o = OPushArray a m ->
               chunk c (Push (ba_data a)) /\ (m = true <-> minimal_push c (ba_data a))) chunks ops.
Proof.
  intros bs ops Hok E. destruct (deserialize_ops_total bs Hok) as [(chunks & is & ops' & -> & Hc & Hm & Hp & E')|[_ E']]; [|congruence].
  rewrite E in E'. injection E' as <-. exists chunks. split; [reflexivity|].
  clear E Hm. revert is Hc. induction Hp as [|c o chunks ops Ho _ IH]; intros is Hc; constructor;
    inversion Hc as [|? i ? is' H1 H2]; subst; cbn in Hok; apply bytes_ok_app in Hok.
  - apply (parsed_flag c o i); tauto.
  - eapply IH; [tauto|eassumption].
Qed.
Print Assumptions C10_minimal_flag.

(** C10: why [op_ok] excludes bare PUSHDATA opcodes: [Op::Code(OP_PUSHDATA1)] swallows what follows. *)
Theorem C10_bare_pushdata_refuted : exists ops a, serialize_ops ops = Ok a /\
  exists ops', deserialize_ops (ba_data a) = Ok ops' /\ length ops' <> length ops.
Proof.
  exists [OCode OP_PUSHDATA1; OCode OP_0]. eexists. split; [vm_compute; reflexivity|].
  eexists. split; [vm_compute; reflexivity|]. cbn. discriminate.
Qed.
Print Assumptions C10_bare_pushdata_refuted.

Definition sample_ops : list op :=
  [OCode OP_DUP; OPushArray (ba_unnamed [1; 2; 3]) true; OPushArray (ba_unnamed [5]) true; OPushArray (ba_unnamed [5]) false;
   OPushArray (ba_unnamed []) false; OPushBool true; OPushInt (-1000); OPushInt 16; OInvalid 0xff;
   OPushArray (ba_unnamed (repeat 7 80)) true].
Example C10_nonvacuous : Forall op_ok sample_ops /\
  exists a, serialize_ops sample_ops = Ok a /\
   ba_data a = [0x76; 3; 1; 2; 3; 0x55; 1; 5; 0x4c; 0; 0x51; 2; 0xe8; 0x83; 0x60; 0xff; 0x4c; 80] ++ repeat 7 80.
Proof.
  split.
  - repeat constructor; cbn; try discriminate; unfold byte_ok, script_int; try lia.
  - eexists. split; vm_compute; reflexivity.
Qed.

(** C11: re-serialising a parsed script reproduces the bytes exactly when every push used the shortest
    length prefix; otherwise the result is a script of at most the same length... *)
Theorem C11_parse_then_serialise : forall bs ops, bytes_ok bs -> deserialize_ops bs = Ok ops ->
  exists a, serialize_ops ops = Ok a /\ (ba_data a = bs <-> shortest_script bs) /\
    (length (ba_data a) <= length bs)%nat.
Proof. exact deser_ser_iff. Qed.
Print Assumptions C11_parse_then_serialise.

(** ...with the same instructions, and doing it again changes nothing more. *)
Theorem C11_normalisation_idempotent : forall bs ops a, bytes_ok bs ->
  deserialize_ops bs = Ok ops -> serialize_ops ops = Ok a ->
  (forall is, reads_as bs is <-> reads_as (ba_data a) is) /\
  exists ops' a', deserialize_ops (ba_data a) = Ok ops' /\ serialize_ops ops' = Ok a' /\ ba_data a' = ba_data a.
Proof.
  intros bs ops a Hok E Ea. destruct (deser_ser_idem bs ops a Hok E Ea) as (Hoka & ops' & a' & E1 & Heq & E2 & E3).
  split; [|exists ops', a'; auto].
  destruct (deserialize_reads bs ops Hok E) as (is0 & R0 & M0).
  destruct (deserialize_reads (ba_data a) ops' Hoka E1) as (is1 & R1 & M1).
  assert (is0 = is1) as <-.
  { clear - Heq M0 M1. revert is0 is1 M0 M1. induction Heq as [|o o' l l' (i & I1 & I2) _ IH]; intros is0 is1 M0 M1;
    inversion M0 as [|? i0 ? is0' A0 B0]; inversion M1 as [|? i1 ? is1' A1 B1]; subst; [reflexivity|].
    rewrite (means_fun _ _ _ A0 I1), (means_fun _ _ _ A1 I2). f_equal. now apply IH. }
  intros is; split; intros H.
  - now rewrite (reads_as_fun bs is is0 Hok H R0).
  - now rewrite (reads_as_fun _ is is0 Hoka H R1).
Qed.
Print Assumptions C11_normalisation_idempotent.

Theorem C11_exact_roundtrip_refuted : exists bs ops a, bytes_ok bs /\
  deserialize_ops bs = Ok ops /\ serialize_ops ops = Ok a /\ ba_data a <> bs.
Proof.
  exists [0x4c; 1; 7]. do 2 eexists. split; [repeat constructor; unfold byte_ok; lia|].
  split; [vm_compute; reflexivity|]. split; [vm_compute; reflexivity|]. vm_compute. discriminate.
Qed.
Print Assumptions C11_exact_roundtrip_refuted.

Example C11_nonvacuous : shortest_script [0x76; 2; 9; 9; 0x4c; 0; 0x87] /\
  deserialize_ops [0x76; 2; 9; 9; 0x4c; 0; 0x87] =
    Ok [OCode OP_DUP; OPushArray (ba_unnamed [9; 9]) true; OPushArray (ba_unnamed []) false; OCode OP_EQUAL].
Proof.
  split; [|vm_compute; reflexivity].
  exists [[0x76]; [2; 9; 9]; [0x4c; 0]; [0x87]], [Exec 0x76; Push [9; 9]; Push []; Exec 0x87].
  split; [reflexivity|]. split.
  - constructor; [apply CkExec; lia|]. constructor; [apply (CkDirect 2 [9;9]); [lia|reflexivity]|].
    constructor; [apply (CkData1 [0] []); [repeat constructor; unfold byte_ok; lia|reflexivity|reflexivity]|].
    constructor; [apply CkExec; lia|constructor].
  - constructor; [apply SpShort; discriminate|]. constructor; [apply SpShort; discriminate|].
    constructor; [apply (Sp1 [0] []); [reflexivity|reflexivity|left; reflexivity]|].
    constructor; [apply SpShort; discriminate|constructor].
Qed.

(** C12: both parsers accept the same byte strings and give the same ops, for every provenance. *)
Theorem C12_parsers_agree : forall t, bytes_ok (ba_data t) ->
  (forall ops, deserialize_ops (ba_data t) = Ok ops ->
     exists ops', deserialize_ops_ba t = Ok ops' /\ Forall2 same_op ops ops') /\
  (forall ops', deserialize_ops_ba t = Ok ops' ->
     exists ops, deserialize_ops (ba_data t) = Ok ops /\ Forall2 same_op ops ops') /\
  deserialize_ops_ba t <> Panic.
Proof.
  intros t Hok. pose proof (deserialize_agree t Hok) as H.
  destruct (deserialize_ops (ba_data t)) as [ops|e|].
  - destruct H as (ops' & E & HF). rewrite E. repeat split; [|eauto|discriminate].
    + intros o Eo. injection Eo as <-. eauto.
    + intros o Eo. injection Eo as <-. eauto.
  - destruct H as (e' & E). rewrite E. repeat split; discriminate.
  - contradiction.
Qed.
Print Assumptions C12_parsers_agree.

Example C12_nonvacuous :
  let t := ba_concat (ba_new "x" [0x76; 2; 9]) (ba_concat (ba_new "y" [8; 0x87]) (ba_unnamed [])) in
  bytes_ok (ba_data t) /\
  deserialize_ops_ba t = Ok [OCode OP_DUP;
     OPushArray (BA [9; 8] None FPlain (Some [BA [9] None FPlain None; BA [8] None FPlain None])) true; OCode OP_EQUAL].
Proof. cbv zeta. split; [repeat constructor; unfold byte_ok; lia|vm_compute; reflexivity]. Qed.

(** C13: the parser never panics, fails exactly on truncated pushes, and otherwise consumes every byte
    with exactly one op per encoded instruction. *)
Theorem C13_parser_total : forall bs, bytes_ok bs ->
  (deserialize_ops bs = Err EEof <-> truncated_script bs) /\
  (deserialize_ops bs <> Err EEof -> exists ops chunks is, deserialize_ops bs = Ok ops /\
     bs = concat chunks /\ Forall2 chunk chunks is /\ Forall2 means ops is).
Proof.
  intros bs Hok. split; [now apply truncated_iff|].
  - intros Hne. destruct (deserialize_ops_total bs Hok) as [(chunks & is & ops & E1 & E2 & E3 & E4 & E5)|[_ E]]; [|contradiction].
    exists ops, chunks, is. auto.
Qed.
Print Assumptions C13_parser_total.

(** C13: the instruction sequence is determined by the bytes, and exists iff parsing succeeds. *)
Theorem C13_parse_iff_grammar : forall bs, bytes_ok bs ->
  ((exists ops, deserialize_ops bs = Ok ops) <-> exists is, reads_as bs is) /\
  (forall is js, reads_as bs is -> reads_as bs js -> is = js).
Proof.
  intros bs Hok. split; [|intros; eapply reads_as_fun; eauto]. split.
  - intros (ops & E). destruct (deserialize_reads bs ops Hok E) as (is & R & _). eauto.
  - intros (is & R). destruct (reads_deserialize bs is Hok R) as (ops & E & _). eauto.
Qed.
Print Assumptions C13_parse_iff_grammar.

Example C13_nonvacuous : truncated_script [0x76; 0x4d; 3; 0; 1; 2] /\
  deserialize_ops [0x76; 0x4d; 3; 0; 1; 2] = Err EEof /\
  deserialize_ops [0x76; 0x4d; 3; 0; 1; 2; 3] = Ok [OCode OP_DUP; OPushArray (ba_unnamed [1; 2; 3]) false].
Proof.
  split; [|split; vm_compute; reflexivity].
  exists [[0x76]], [Exec 0x76], [0x4d; 3; 0; 1; 2]. split; [reflexivity|]. split.
  - constructor; [apply CkExec; lia|constructor].
  - apply (TrData 0x4d 2 [3; 0] [1; 2]); [right; left; reflexivity|reflexivity|reflexivity].
Qed.

(** C14 *)
Theorem C14_script_code_none : forall s, to_script_code s None = Ok s.
Proof. reflexivity. Qed.
Print Assumptions C14_script_code_none.
Theorem C14_script_code_nth : forall pre t post, t_op t = OCode OP_CODESEPARATOR ->
  to_script_code (pre ++ t :: post) (Some (count_sep pre)) = Ok (t :: post).
Proof.
  intros pre t post Ht. unfold to_script_code. rewrite (find_codesep_found pre t post Ht) by reflexivity.
  cbn [Nat.add]. now rewrite skipn_app_len.
Qed.
Print Assumptions C14_script_code_nth.
Theorem C14_script_code_missing_panics : forall s n, (count_sep s <= n)%nat -> to_script_code s (Some n) = Panic.
Proof. intros s n H. unfold to_script_code. now rewrite find_codesep_none. Qed.
Print Assumptions C14_script_code_missing_panics.
Theorem C14_script_code_first : forall s,
  (forall pre t post, s = pre ++ t :: post -> count_sep pre = O -> t_op t = OCode OP_CODESEPARATOR ->
     to_script_code_first s = post) /\
  (count_sep s = O -> to_script_code_first s = s).
Proof.
  intros s. split; [intros pre t post -> H1 H2; now apply script_code_first_found|apply script_code_first_none].
Qed.
Print Assumptions C14_script_code_first.
(** C14: the two conventions disagree about the separator itself. *)
Theorem C14_conventions_differ : forall pre t post, t_op t = OCode OP_CODESEPARATOR -> count_sep pre = O ->
  to_script_code (pre ++ t :: post) (Some O) = Ok (t :: to_script_code_first (pre ++ t :: post)).
Proof.
  intros pre t post Ht Hc. rewrite (script_code_first_found pre t post Ht Hc).
  pose proof (C14_script_code_nth pre t post Ht) as H. now rewrite Hc in H.
Qed.
Print Assumptions C14_conventions_differ.
Example C14_nonvacuous :
  let s := script_from_ops [OCode OP_DUP; OCode OP_CODESEPARATOR; OCode OP_ADD; OCode OP_CODESEPARATOR; OCode OP_SUB] in
  to_script_code s (Some 1%nat) = Ok (script_from_ops [OCode OP_CODESEPARATOR; OCode OP_SUB]) /\
  to_script_code s (Some 2%nat) = Panic /\
  to_script_code_first s = script_from_ops [OCode OP_ADD; OCode OP_CODESEPARATOR; OCode OP_SUB].
Proof. vm_compute. auto. Qed.

(** C40 *)
Theorem C40_opcode_byte_roundtrip : forall o, opcode_from_u8 (opcode_u8 o) = Some o.
Proof. exact opcode_roundtrip. Qed.
Print Assumptions C40_opcode_byte_roundtrip.
Theorem C40_byte_opcode : forall b, byte_ok b ->
  ((exists o, opcode_from_u8 b = Some o) <-> (b = 0 \/ 0x4c <= b <= 0xbd)) /\
  (forall o, opcode_from_u8 b = Some o -> opcode_u8 o = b).
Proof.
  intros b Hb. pose proof (opcode_from_spec b Hb) as H. split.
  - split.
    + intros (o & E). rewrite E in H. subst b. apply opcode_u8_range.
    + intros Hr. destruct (opcode_from_u8 b); [eauto|lia].
  - intros o E. rewrite E in H. exact H.
Qed.
Print Assumptions C40_byte_opcode.
Theorem C40_table_is_the_specification : 
  (forall name b, In (name, b) bch_opcodes -> exists o, opcode_from_u8 b = Some o /\ opcode_u8 o = b /\ opcode_name o = name) /\
  (forall o, o <> FIRST_UNDEFINED_OP_VALUE -> In (opcode_name o, opcode_u8 o) bch_opcodes).
Proof. split; [exact opcode_table_spec|exact opcode_in_table]. Qed.
Print Assumptions C40_table_is_the_specification.
Theorem C40_disabled : forall o, opcode_is_disabled o = true <-> In (opcode_u8 o) bch_disabled.
Proof. exact disabled_iff. Qed.
Print Assumptions C40_disabled.
Theorem C40_lookup_by_name : forall name o, opcode_by_name name = Some o <->
  name = opcode_name o /\ (o = OP_0 \/ o = OP_1NEGATE \/ 0x51 <= opcode_u8 o < 0xbd).
Proof. exact opcode_by_name_iff. Qed.
Print Assumptions C40_lookup_by_name.
Example C40_nonvacuous : opcode_by_name "OP_CHECKSIG" = Some OP_CHECKSIG /\ opcode_by_name "OP_PUSHDATA1" = None /\
  opcode_from_u8 0xbd = Some FIRST_UNDEFINED_OP_VALUE /\ opcode_from_u8 0xbe = None.
Proof. vm_compute. auto. Qed.

(** C41 *)
Theorem C41_to_integer_push : forall o d, op_ok o -> means o (Push d) -> zlen d <= 4 ->
  op_to_integer o = Ok (Some (script_num d)).
Proof. exact to_integer_push. Qed.
Print Assumptions C41_to_integer_push.
Theorem C41_to_integer_exec : forall o b, means o (Exec b) -> op_to_integer o = Ok None.
Proof. exact to_integer_exec. Qed.
Print Assumptions C41_to_integer_exec.
(** C41: pushes of more than 4 bytes are not numbers Script would accept, yet some give a (wrong) number. *)
Theorem C41_to_integer_long_refuted : exists o d, op_ok o /\ means o (Push d) /\ 4 < zlen d /\
  exists v, op_to_integer o = Ok (Some v) /\ v <> script_num d.
Proof.
  exists (OPushArray (ba_unnamed [0xff; 0xff; 0xff; 0xff; 0]) true), [0xff; 0xff; 0xff; 0xff; 0].
  split; [cbn; split; [repeat constructor; unfold byte_ok; lia|reflexivity]|].
  split; [apply (MPush (ba_unnamed [0xff; 0xff; 0xff; 0xff; 0]))|]. split; [reflexivity|].
  eexists. split; [vm_compute; reflexivity|]. vm_compute. discriminate.
Qed.
Print Assumptions C41_to_integer_long_refuted.
Example C41_nonvacuous : op_ok (OPushArray (ba_unnamed [0xe8; 0x83]) true) /\
  op_to_integer (OPushArray (ba_unnamed [0xe8; 0x83]) true) = Ok (Some (-1000)) /\ op_to_integer (OCode OP_7) = Ok (Some 7).
Proof. repeat split; try (vm_compute; reflexivity). cbn. repeat constructor; unfold byte_ok; lia. Qed.
