From Verif Require Import Base BaseLemmas Model_Encoding Spec_Encoding Proofs_Encoding Spec_Integer
  Model_ByteArray Proofs_ByteArray Model_Opcode Model_Script Spec_Script.
From Coq Require Import ZifyBool ZifyNat.
Local Open Scope Z_scope.

(* ---------- opcodes ---------- *)
Lemma opcode_roundtrip c : opcode_from_u8 (opcode_u8 c) = Some c.
Proof. destruct c; reflexivity. Qed.
Lemma opcode_u8_inj a b : opcode_u8 a = opcode_u8 b -> a = b.
Proof. intros H. pose proof (opcode_roundtrip a) as Ha. rewrite H, opcode_roundtrip in Ha. congruence. Qed.
Lemma opcode_eqb_spec a b : opcode_eqb a b = true <-> a = b.
Proof. unfold opcode_eqb. rewrite Z.eqb_eq. split; [apply opcode_u8_inj|congruence]. Qed.
Lemma opcode_u8_range c : opcode_u8 c = 0 \/ 0x4c <= opcode_u8 c <= 0xbd.
Proof. destruct c; cbn; lia. Qed.
Lemma opcode_from_spec b : byte_ok b ->
  match opcode_from_u8 b with
  | Some c => opcode_u8 c = b
  | None => 1 <= b <= 0x4b \/ 0xbe <= b <= 0xff
  end.
Proof.
  intros Hb.
  assert (H : (match opcode_from_u8 b with
               | Some c => opcode_u8 c =? b
               | None => ((1 <=? b) && (b <=? 0x4b)) || ((0xbe <=? b) && (b <=? 0xff)) end) = true)
    by (revert b Hb; apply byte_sweep; vm_compute; reflexivity).
  destruct (opcode_from_u8 b); lia.
Qed.

(* ---------- cursor ---------- *)
Lemma take_bytes_app l r n : zlen l = n -> take_bytes n (l ++ r) = Ok (l, r).
Proof.
  intros <-. unfold take_bytes. rewrite zlen_app. pose proof (zlen_nonneg r).
  destruct (Z.ltb_spec (zlen l + zlen r) (zlen l)); [lia|].
  unfold zlen at 1 2. rewrite Nat2Z.id. now rewrite firstn_app_exact, skipn_app_exact.
Qed.
Lemma take_bytes_short l n : zlen l < n -> take_bytes n l = Err EEof.
Proof. intros H. unfold take_bytes. destruct (Z.ltb_spec (zlen l) n); [reflexivity|lia]. Qed.
Lemma take_bytes_cases n l : 0 <= n -> (zlen l < n /\ take_bytes n l = Err EEof) \/
  exists a b, l = a ++ b /\ zlen a = n /\ take_bytes n l = Ok (a, b).
Proof.
  intros Hn. unfold take_bytes. destruct (Z.ltb_spec (zlen l) n); [left; auto|right].
  exists (firstn (Z.to_nat n) l), (skipn (Z.to_nat n) l). repeat split.
  - symmetry; apply firstn_skipn.
  - unfold zlen in *. rewrite firstn_length_le; lia.
Qed.

(* ---------- push prefix ---------- *)
Definition nonmin_prefix (d : list Z) : list Z :=
  if zlen d =? 0 then [0x4c; 0] else if zlen d <=? 75 then [zlen d]
  else if zlen d <=? 255 then [0x4c; zlen d] else if zlen d <=? 65535 then 0x4d :: le_bytes 2 (zlen d)
  else 0x4e :: le_bytes 4 (zlen d).
Definition one_op (d : list Z) : bool :=
  match d with [] => true | [x] => ((1 <=? x) && (x <=? 16)) || (x =? 0x81) | _ => false end.

Lemma zlen_ge2 {A} (x y : A) l : 2 <= zlen (x :: y :: l).
Proof. rewrite !zlen_cons. pose proof (zlen_nonneg l). lia. Qed.

Lemma prefix_false d : zlen d < 2 ^ 32 -> serialize_push_prefix d false = Ok (nonmin_prefix d, true).
Proof.
  intros Hd. change (2 ^ 32) with 4294967296 in Hd. pose proof (zlen_nonneg d).
  unfold serialize_push_prefix, nonmin_prefix. cbv zeta. rewrite !andb_false_r, andb_true_r. cbn [negb].
  destruct (Z.eqb_spec (zlen d) 0); [reflexivity|].
  destruct (Z.leb_spec (zlen d) 0x4b); [reflexivity|].
  destruct (Z.leb_spec (zlen d) 0xff); [reflexivity|].
  destruct (Z.leb_spec (zlen d) 0xffff); [reflexivity|].
  destruct (Z.leb_spec (zlen d) 0xffffffff); [reflexivity|lia].
Qed.
Lemma prefix_true_one d : one_op d = true -> serialize_push_prefix d true = Ok ([push_head d], false).
Proof.
  destruct d as [|x [|y d]]; intros H; [reflexivity| |discriminate].
  unfold one_op in H. unfold serialize_push_prefix. change (zlen [x]) with 1. cbn -[Z.add Z.sub].
  destruct (Z.ltb_spec 0 x); destruct (Z.leb_spec x 16); destruct (Z.eqb_spec x 129); destruct (Z.leb_spec 1 x);
    cbn in *; try discriminate; try lia; do 3 f_equal; lia.
Qed.
Lemma prefix_true_long d : bytes_ok d -> zlen d < 2 ^ 32 -> one_op d = false ->
  serialize_push_prefix d true = Ok (nonmin_prefix d, true).
Proof.
  intros Hok Hd H. change (2 ^ 32) with 4294967296 in Hd.
  destruct d as [|x [|y d]]; [discriminate| |].
  - unfold one_op in H. inversion Hok; subst. unfold byte_ok in *.
    unfold serialize_push_prefix, nonmin_prefix. change (zlen [x]) with 1. cbn.
    destruct (Z.ltb_spec 0 x); destruct (Z.leb_spec x 16); destruct (Z.eqb_spec x 129); destruct (Z.leb_spec 1 x);
    cbn in *; try discriminate; try reflexivity; lia.
  - pose proof (zlen_ge2 x y d). set (dd := x :: y :: d) in *.
    unfold serialize_push_prefix, nonmin_prefix. cbv zeta.
    destruct (Z.eqb_spec (zlen dd) 0); [lia|]. destruct (Z.eqb_spec (zlen dd) 1); [lia|]. cbn [andb].
    destruct (Z.leb_spec (zlen dd) 0x4b); [reflexivity|].
    destruct (Z.leb_spec (zlen dd) 0xff); [reflexivity|].
    destruct (Z.leb_spec (zlen dd) 0xffff); [reflexivity|].
    destruct (Z.leb_spec (zlen dd) 0xffffffff); [reflexivity|lia].
Qed.
Lemma one_op_short d : one_op d = true -> zlen d <= 1.
Proof. destruct d as [|x [|y d]]; cbn; try discriminate; unfold zlen; cbn; lia. Qed.

Lemma prefix_head d : bytes_ok d -> zlen d < 2 ^ 32 ->
  exists p t, serialize_push_prefix d true = Ok (p, t) /\ nth 0 p 0 = push_head d.
Proof.
  intros Hok Hd. destruct (one_op d) eqn:E.
  - rewrite prefix_true_one by assumption. eauto.
  - rewrite prefix_true_long by assumption. do 2 eexists. split; [reflexivity|].
    destruct d as [|x [|y d]]; [discriminate| |].
    + unfold nonmin_prefix, push_head. change (zlen [x]) with 1. cbn in *.
      destruct ((1 <=? x) && (x <=? 16)); [discriminate|]. cbn in E. rewrite E. reflexivity.
    + pose proof (zlen_ge2 x y d). unfold push_head, nonmin_prefix. set (dd := x :: y :: d) in *.
      destruct (Z.eqb_spec (zlen dd) 0); [lia|].
      destruct (Z.leb_spec (zlen dd) 75); [reflexivity|]. destruct (Z.leb_spec (zlen dd) 255); [reflexivity|].
      destruct (Z.leb_spec (zlen dd) 65535); reflexivity.
Qed.

Definition push_bytes (d : list Z) (m : bool) : list Z :=
  if m && one_op d then [push_head d] else nonmin_prefix d ++ d.

Lemma ser_push a m : bytes_ok (ba_data a) -> zlen (ba_data a) < 2 ^ 32 ->
  exists r, serialize_op (OPushArray a m) = Ok r /\ ba_data r = push_bytes (ba_data a) m.
Proof.
  intros Hok Hl. unfold serialize_op, serialize_push_bytes, push_bytes. destruct m; cbn [andb].
  - destruct (one_op (ba_data a)) eqn:E.
    + rewrite prefix_true_one by assumption. cbn [obind]. eauto.
    + rewrite prefix_true_long by assumption. cbn [obind]. eexists. split; [reflexivity|].
      rewrite concat_data. reflexivity.
  - rewrite prefix_false by assumption. cbn [obind]. eexists. split; [reflexivity|].
    rewrite concat_data. reflexivity.
Qed.

Lemma le1 n : [n mod 256] = le_bytes 1 n. Proof. reflexivity. Qed.
Lemma le_value1 n : le_value [n] = n. Proof. cbn. lia. Qed.
Lemma bytes1 n : 0 <= n < 256 -> bytes_ok [n].
Proof. intros. repeat constructor; unfold byte_ok; lia. Qed.

Lemma nonmin_chunk d : zlen d < 2 ^ 32 -> 
  chunk (nonmin_prefix d ++ d) (Push d) /\ shortest_prefix (nonmin_prefix d ++ d).
Proof.
  intros Hl. change (2 ^ 32) with 4294967296 in Hl. pose proof (zlen_nonneg d). unfold nonmin_prefix.
  destruct (Z.eqb_spec (zlen d) 0).
  { change ([76; 0] ++ d) with (76 :: [0] ++ d). split.
    - constructor; [apply bytes1; lia|reflexivity|rewrite le_value1; lia].
    - constructor; [reflexivity|rewrite le_value1; lia|lia]. }
  destruct (Z.leb_spec (zlen d) 75).
  { split; [constructor; lia|]. cbn. constructor; lia. }
  destruct (Z.leb_spec (zlen d) 255).
  { change ([76; zlen d] ++ d) with (76 :: [zlen d] ++ d). split.
    - constructor; [apply bytes1; lia|reflexivity|rewrite le_value1; lia].
    - constructor; [reflexivity|rewrite le_value1; lia|lia]. }
  destruct (Z.leb_spec (zlen d) 65535).
  { change ((77 :: le_bytes 2 (zlen d)) ++ d) with (77 :: le_bytes 2 (zlen d) ++ d).
    assert (le_value (le_bytes 2 (zlen d)) = zlen d)
      by (rewrite le_value_bytes_small; [reflexivity|change (2 ^ (8 * Z.of_nat 2)) with 65536; lia]).
    split; [apply CkData2|apply Sp2]; auto using le_bytes_ok, le_bytes_length. lia. }
  change ((78 :: le_bytes 4 (zlen d)) ++ d) with (78 :: le_bytes 4 (zlen d) ++ d).
  assert (le_value (le_bytes 4 (zlen d)) = zlen d)
    by (rewrite le_value_bytes_small; [reflexivity|change (2 ^ (8 * Z.of_nat 4)) with 4294967296; lia]).
  split; [apply CkData4|apply Sp4]; auto using le_bytes_ok, le_bytes_length. lia.
Qed.
Lemma one_op_chunk d : one_op d = true -> chunk [push_head d] (Push d) /\ shortest_prefix [push_head d].
Proof.
  destruct d as [|x [|y d]]; intros H; [split; constructor; cbn; lia| |discriminate].
  unfold push_head. cbn in H. destruct ((1 <=? x) && (x <=? 16)) eqn:E.
  - split; [constructor; lia|constructor; lia].
  - cbn in H. rewrite H. apply Z.eqb_eq in H. subst x. split; constructor; lia.
Qed.
Lemma push_chunk d m : zlen d < 2 ^ 32 -> chunk (push_bytes d m) (Push d) /\ shortest_prefix (push_bytes d m).
Proof.
  intros Hl. unfold push_bytes. destruct (m && one_op d) eqn:E.
  - apply one_op_chunk. destruct m; [assumption|discriminate].
  - now apply nonmin_chunk.
Qed.

(* ---------- one instruction: reading ---------- *)
(** The op produced by the plain parser for a chunk. *)
Inductive parsed : list Z -> op -> Prop :=
| PaByte b : b = 0 \/ 0x4f <= b -> parsed [b] (op_of_byte b)
| PaPush b l d : (l = [] /\ 1 <= b <= 75 /\ zlen d = b) \/
    ((b, length l) = (0x4c, 1%nat) \/ (b, length l) = (0x4d, 2%nat) \/ (b, length l) = (0x4e, 4%nat)) /\ le_value l = zlen d ->
    parsed (b :: l ++ d) (OPushArray (ba_unnamed d) (push_head d =? b)).

Lemma le_small l n : bytes_ok l -> length l = n -> (n <= 4)%nat -> 0 <= le_value l < 2 ^ 32.
Proof.
  intros Hok Hl Hn. pose proof (le_value_bound l Hok). split; [lia|].
  eapply Z.lt_le_trans; [apply H|]. apply Z.pow_le_mono_r; unfold zlen; lia.
Qed.

Lemma deser_op_chunk c i rest : chunk c i -> bytes_ok c ->
  exists o, deser_op (c ++ rest) = Ok (o, rest) /\ parsed c o /\ means o i.
Proof.
  intros Hc Hok. destruct Hc as [|n d Hn Hl|l d Hlo Hll Hlv|l d Hlo Hll Hlv|l d Hlo Hll Hlv| |n Hn|b Hb].
  - exists (OCode OP_0). repeat split; [change (OCode OP_0) with (op_of_byte 0); constructor; lia|constructor].
  - apply bytes_ok_cons in Hok. destruct Hok as [_ Hd].
    destruct (prefix_head d Hd) as (p & t & Hp & Hh); [change (2 ^ 32) with 4294967296; lia|].
    exists (OPushArray (ba_unnamed d) (push_head d =? n)). split; [|split].
    + cbn [app deser_op]. destruct (Z.eqb_spec n 0); [lia|].
      destruct (Z.leb_spec 1 n); [|lia]. destruct (Z.leb_spec n 0x4b); [|lia]. cbn [andb obind].
      rewrite take_bytes_app by assumption. cbn [obind]. rewrite Hp. cbn [obind]. now rewrite Hh.
    + change (n :: d) with (n :: [] ++ d). constructor. left. auto.
    + apply (MPush (ba_unnamed d)).
  - apply bytes_ok_cons in Hok. destruct Hok as [_ Hd]. apply bytes_ok_app in Hd. destruct Hd as [_ Hd].
    destruct (prefix_head d Hd) as (p & t & Hp & Hh); [rewrite <- Hlv; eapply le_small; eauto; lia|].
    exists (OPushArray (ba_unnamed d) (push_head d =? 0x4c)). split; [|split].
    + cbn -[take_bytes le_value]. rewrite <- app_assoc, take_bytes_app by (unfold zlen; lia). cbn -[take_bytes le_value].
      rewrite take_bytes_app by lia. cbn [obind]. rewrite Hp. cbn [obind]. now rewrite Hh.
    + constructor. right. split; [left; congruence|assumption].
    + apply (MPush (ba_unnamed d)).
  - apply bytes_ok_cons in Hok. destruct Hok as [_ Hd]. apply bytes_ok_app in Hd. destruct Hd as [_ Hd].
    destruct (prefix_head d Hd) as (p & t & Hp & Hh); [rewrite <- Hlv; eapply le_small; eauto; lia|].
    exists (OPushArray (ba_unnamed d) (push_head d =? 0x4d)). split; [|split].
    + cbn -[take_bytes le_value]. rewrite <- app_assoc, take_bytes_app by (unfold zlen; lia). cbn -[take_bytes le_value].
      rewrite take_bytes_app by lia. cbn [obind]. rewrite Hp. cbn [obind]. now rewrite Hh.
    + constructor. right. split; [right; left; congruence|assumption].
    + apply (MPush (ba_unnamed d)).
  - apply bytes_ok_cons in Hok. destruct Hok as [_ Hd]. apply bytes_ok_app in Hd. destruct Hd as [_ Hd].
    destruct (prefix_head d Hd) as (p & t & Hp & Hh); [rewrite <- Hlv; eapply le_small; eauto; lia|].
    exists (OPushArray (ba_unnamed d) (push_head d =? 0x4e)). split; [|split].
    + cbn -[take_bytes le_value]. rewrite <- app_assoc, take_bytes_app by (unfold zlen; lia). cbn -[take_bytes le_value].
      rewrite take_bytes_app by lia. cbn [obind]. rewrite Hp. cbn [obind]. now rewrite Hh.
    + constructor. right. split; [right; right; congruence|assumption].
    + apply (MPush (ba_unnamed d)).
  - exists (OCode OP_1NEGATE). repeat split; [change (OCode OP_1NEGATE) with (op_of_byte 0x4f); constructor; lia|constructor].
  - exists (op_of_byte (0x50 + n)). apply bytes_ok_cons in Hok; destruct Hok as [Hb _]. pose proof (opcode_from_spec _ Hb) as Hs.
    split; [|split].
    + unfold deser_op. cbn [app]. change (opcode_u8 OP_PUSHDATA1) with 76. change (opcode_u8 OP_PUSHDATA2) with 77.
      change (opcode_u8 OP_PUSHDATA4) with 78.
      destruct (Z.eqb_spec (0x50 + n) 0); [lia|]. destruct (Z.leb_spec 1 (0x50 + n)); [|lia].
      destruct (Z.leb_spec (0x50 + n) 0x4b); [lia|]. destruct (Z.eqb_spec (0x50 + n) 76); [lia|].
      destruct (Z.eqb_spec (0x50 + n) 77); [lia|]. destruct (Z.eqb_spec (0x50 + n) 78); [lia|]. reflexivity.
    + constructor. lia.
    + unfold op_of_byte. revert Hs. destruct (opcode_from_u8 (80 + n)) as [c|]; intros Hs; [|lia]. now constructor.
  - exists (op_of_byte b). apply bytes_ok_cons in Hok; destruct Hok as [Hbo _]. pose proof (opcode_from_spec _ Hbo) as Hs.
    split; [|split].
    + unfold deser_op. cbn [app]. change (opcode_u8 OP_PUSHDATA1) with 76. change (opcode_u8 OP_PUSHDATA2) with 77.
      change (opcode_u8 OP_PUSHDATA4) with 78.
      destruct (Z.eqb_spec b 0); [lia|]. destruct (Z.leb_spec 1 b); [|lia].
      destruct (Z.leb_spec b 0x4b); [lia|]. destruct (Z.eqb_spec b 76); [lia|].
      destruct (Z.eqb_spec b 77); [lia|]. destruct (Z.eqb_spec b 78); [lia|]. reflexivity.
    + constructor. lia.
    + unfold op_of_byte. revert Hs. destruct (opcode_from_u8 b) as [c|]; intros Hs.
      * rewrite <- Hs. constructor. lia.
      * constructor. lia.
Qed.

Lemma deser_op_truncated t : truncated t -> deser_op t = Err EEof.
Proof.
  intros H. destruct H as [n d Hn Hl|b n l Hb Hl|b n l d Hb Hl Hd].
  - unfold deser_op. destruct (Z.eqb_spec n 0); [lia|].
    destruct (Z.leb_spec 1 n); [|lia]. destruct (Z.leb_spec n 0x4b); [|lia]. cbn [andb obind].
    now rewrite take_bytes_short.
  - destruct Hb as [Hb|[Hb|Hb]]; injection Hb as -> ->; cbn -[take_bytes]; now rewrite take_bytes_short.
  - destruct Hb as [Hb|[Hb|Hb]]; injection Hb as -> ->; cbn -[take_bytes le_value];
      (rewrite take_bytes_app by (unfold zlen; lia)); cbn -[take_bytes le_value]; now rewrite take_bytes_short.
Qed.

Lemma split_at {A} (l : list A) n : 0 <= n <= zlen l -> exists a b, l = a ++ b /\ zlen a = n.
Proof.
  intros H. exists (firstn (Z.to_nat n) l), (skipn (Z.to_nat n) l). split; [symmetry; apply firstn_skipn|].
  unfold zlen in *. rewrite firstn_length_le; lia.
Qed.
Lemma zlen_nat {A} (l : list A) k : zlen l = Z.of_nat k -> length l = k.
Proof. unfold zlen. lia. Qed.

Lemma chunk_or_truncated bs : bytes_ok bs -> bs <> [] ->
  (exists c i rest, bs = c ++ rest /\ chunk c i) \/ truncated bs.
Proof.
  intros Hok Hne. destruct bs as [|b r]; [congruence|]. apply bytes_ok_cons in Hok. destruct Hok as [Hb Hr].
  unfold byte_ok in Hb.
  destruct (Z.eq_dec b 0) as [->|]; [left; exists [0], (Push []), r; split; [reflexivity|constructor]|].
  destruct (Z.le_gt_cases b 75).
  { destruct (Z.lt_ge_cases (zlen r) b); [right; constructor; lia|].
    destruct (split_at r b) as (x & y & -> & Hx); [lia|]. left. exists (b :: x), (Push x), y.
    split; [reflexivity|constructor; lia]. }
  destruct (Z.eq_dec b 0x4f) as [->|]; [left; exists [0x4f], (Push [0x81]), r; split; [reflexivity|constructor]|].
  assert (Hdata : forall k, (b = 0x4c /\ k = 1%nat) \/ (b = 0x4d /\ k = 2%nat) \/ (b = 0x4e /\ k = 4%nat) ->
      (exists c i rest, b :: r = c ++ rest /\ chunk c i) \/ truncated (b :: r)).
  { intros k Hbn. destruct (Z.lt_ge_cases (zlen r) (Z.of_nat k)).
    { right. apply TrLen with (n := Z.of_nat k); [|assumption].
      destruct Hbn as [[-> ->]|[[-> ->]|[-> ->]]]; [left|right; left|right; right]; reflexivity. }
    destruct (split_at r (Z.of_nat k)) as (l & y & -> & Hx); [lia|]. apply zlen_nat in Hx.
    apply bytes_ok_app in Hr. destruct Hr as [Hl Hy].
    destruct (Z.lt_ge_cases (zlen y) (le_value l)).
    { right. apply TrData with (n := k); [|assumption|assumption].
      destruct Hbn as [[-> ->]|[[-> ->]|[-> ->]]]; [left|right; left|right; right]; reflexivity. }
    destruct (split_at y (le_value l)) as (d & y' & -> & Hd); [pose proof (le_value_bound l Hl); lia|].
    left. exists (b :: l ++ d), (Push d), y'. split; [cbn; now rewrite app_assoc|].
    destruct Hbn as [[-> ->]|[[-> ->]|[-> ->]]]; constructor; auto. }
  destruct (Z.eq_dec b 0x4c); [apply (Hdata 1%nat); lia|].
  destruct (Z.eq_dec b 0x4d); [apply (Hdata 2%nat); lia|].
  destruct (Z.eq_dec b 0x4e); [apply (Hdata 4%nat); lia|].
  left. destruct (Z.le_gt_cases 0x51 b); [destruct (Z.le_gt_cases b 0x60)|].
  - exists [b], (Push [b - 0x50]), r. split; [reflexivity|].
    replace b with (0x50 + (b - 0x50)) at 1 by lia. constructor. lia.
  - exists [b], (Exec b), r. split; [reflexivity|constructor; lia].
  - exists [b], (Exec b), r. split; [reflexivity|constructor; lia].
Qed.

Lemma chunk_ne c i : chunk c i -> c <> [].
Proof. intros H; destruct H; discriminate. Qed.

(* ---------- serialising one op ---------- *)
Lemma ser_op_ok o : op_ok o -> exists a i, serialize_op o = Ok a /\ means o i /\
  chunk (ba_data a) i /\ shortest_prefix (ba_data a).
Proof.
  intros H. destruct o as [c|b|a m|b|i].
  - exists (serialize_opcode c). cbn in H. destruct H as (H1 & H2 & H3).
    assert (opcode_u8 c <> 0x4c) by (intros E; apply H1, opcode_u8_inj; assumption).
    assert (opcode_u8 c <> 0x4d) by (intros E; apply H2, opcode_u8_inj; assumption).
    assert (opcode_u8 c <> 0x4e) by (intros E; apply H3, opcode_u8_inj; assumption).
    pose proof (opcode_u8_range c) as Hr. cbn [serialize_op serialize_opcode ba_new ba_data].
    destruct (Z.eq_dec (opcode_u8 c) 0) as [E|].
    { replace c with OP_0 by (symmetry; apply opcode_u8_inj; assumption).
      exists (Push []). repeat split; constructor; cbn; lia. }
    destruct (Z.eq_dec (opcode_u8 c) 0x4f) as [E|].
    { replace c with OP_1NEGATE by (symmetry; apply opcode_u8_inj; assumption).
      exists (Push [0x81]). repeat split; constructor; cbn; lia. }
    destruct (Z.le_gt_cases 0x51 (opcode_u8 c)); [destruct (Z.le_gt_cases (opcode_u8 c) 0x60)|].
    + exists (Push [opcode_u8 c - 0x50]). repeat split.
      * constructor; lia.
      * replace (opcode_u8 c) with (0x50 + (opcode_u8 c - 0x50)) at 1 by lia. constructor. lia.
      * constructor; lia.
    + exists (Exec (opcode_u8 c)). repeat split; constructor; lia.
    + exists (Exec (opcode_u8 c)). repeat split; constructor; lia.
  - cbn in H. exists (ba_new "Invalid Opcode" [b]), (Exec b). repeat split; constructor; lia.
  - cbn in H. destruct H as [Hok Hl]. destruct (ser_push a m Hok Hl) as (r & Hr & Hd).
    exists r, (Push (ba_data a)). rewrite Hd. destruct (push_chunk (ba_data a) m Hl). repeat split; auto. constructor.
  - destruct b.
    + exists (ba_new "OP_TRUE" [opcode_u8 OP_1]), (Push [1]). repeat split; [constructor| |constructor; cbn; lia].
      change [opcode_u8 OP_1] with [0x50 + 1]. constructor; lia.
    + exists (ba_new "OP_FALSE" [opcode_u8 OP_0]), (Push []). repeat split; constructor; cbn; lia.
  - cbn in H. unfold script_int in H. change (2 ^ 31) with 2147483648 in H. cbn [serialize_op].
    destruct (encode_int_correct i) as (Henc & Hmin & Hok & Hlen); [change (2 ^ 31) with 2147483648; lia|].
    destruct (Z.eqb_spec i (-1)) as [->|].
    { exists (serialize_opcode OP_1NEGATE), (Push [0x81]). split; [reflexivity|]. split; [|split].
      - constructor; [apply bytes1; lia| |reflexivity].
        right. exists [], 0x81. split; [reflexivity|left; discriminate].
      - apply CkNeg1.
      - apply SpShort; discriminate. }
    destruct (Z.eqb_spec i 0) as [->|].
    { exists (serialize_opcode OP_0), (Push []). split; [reflexivity|]. split; [|split].
      - constructor; [constructor|now left|reflexivity].
      - apply CkEmpty.
      - apply SpShort; discriminate. }
    destruct ((1 <=? i) && (i <=? 16)) eqn:E.
    { change (opcode_u8 OP_1 + i - 1) with (0x51 + i - 1).
      assert (byte_ok (0x51 + i - 1)) as Hb by (unfold byte_ok; lia).
      pose proof (opcode_from_spec _ Hb) as Hs. revert Hs. destruct (opcode_from_u8 (0x51 + i - 1)) as [c|]; intros Hs; [|lia].
      exists (serialize_opcode c), (Push [i]). cbn [serialize_opcode ba_new ba_data]. rewrite Hs. repeat split.
      - constructor; [apply bytes1; lia| |].
        + right. exists [], i. split; [reflexivity|left; rewrite Z.mod_small; lia].
        + unfold script_num. rewrite le_value1. change (2 ^ (8 * zlen [i] - 1)) with 128.
          destruct (Z.ltb_spec i 128); lia.
      - replace (0x51 + i - 1) with (0x50 + i) by lia. constructor. lia.
      - constructor; lia. }
    destruct (Z.eqb_spec i (-0x80000000)); [lia|].
    destruct (ser_push (ba_unnamed (encode_int i)) true) as (r & Hr & Hd).
    { assumption. }
    { cbn [ba_data ba_unnamed]. unfold zlen. change (2 ^ 32) with 4294967296. lia. }
    cbn [serialize_op] in Hr. exists r, (Push (encode_int i)). rewrite Hd. cbn [ba_data ba_unnamed].
    destruct (push_chunk (encode_int i) true); [unfold zlen; change (2 ^ 32) with 4294967296; lia|].
    repeat split; auto. constructor; auto.
Qed.

(* ---------- parsed ops serialise ---------- *)
Lemma push_head_not d b : one_op d = true -> (1 <= b <= 75 \/ b = 0x4c \/ b = 0x4d \/ b = 0x4e) -> push_head d <> b.
Proof.
  destruct d as [|x [|y d]]; intros H Hb; [cbn; lia| |discriminate]. unfold push_head. cbn in H.
  destruct ((1 <=? x) && (x <=? 16)) eqn:E; [lia|]. cbn in H. rewrite H. lia.
Qed.
Lemma app_inj {A} (a b c d : list A) : length a = length c -> a ++ b = c ++ d -> a = c /\ b = d.
Proof.
  revert c; induction a as [|x a IH]; intros [|y c] Hl H; try discriminate Hl; [auto|].
  cbn in H. injection H as -> H. injection Hl as Hl. destruct (IH c Hl H). subst. auto.
Qed.
Lemma le_unique l n : bytes_ok l -> l = le_bytes (length l) n \/ le_value l <> n \/ ~ 0 <= n < 2 ^ (8 * zlen l).
Proof. intros H. destruct (Z.eq_dec (le_value l) n) as [<-|]; [left; symmetry; now apply le_bytes_value|right; left; assumption]. Qed.

Lemma nonmin_eq b l d : bytes_ok l -> 
  ((l = [] /\ 1 <= b <= 75 /\ zlen d = b) \/
    ((b, length l) = (0x4c, 1%nat) \/ (b, length l) = (0x4d, 2%nat) \/ (b, length l) = (0x4e, 4%nat)) /\ le_value l = zlen d) ->
  shortest_prefix (b :: l ++ d) -> nonmin_prefix d = b :: l.
Proof.
  intros Hok H Hs. unfold nonmin_prefix. pose proof (zlen_nonneg d).
  destruct H as [(-> & Hb & Hd)|[Hb Hv]].
  { destruct (Z.eqb_spec (zlen d) 0); [lia|]. destruct (Z.leb_spec (zlen d) 75); [congruence|lia]. }
  pose proof (le_value_bound l Hok) as Hbd.
  assert (Hl : l = le_bytes (length l) (zlen d)) by (rewrite <- Hv; symmetry; now apply le_bytes_value).
  destruct Hb as [Hb|[Hb|Hb]]; injection Hb as -> Hll; unfold zlen in Hbd; rewrite Hll in Hl, Hbd.
  - change (2 ^ (8 * Z.of_nat 1)) with 256 in Hbd.
    assert (zlen d = 0 \/ 76 <= zlen d) as Hz.
    { inversion Hs as [? ? n1 n2 n3|l' d' Hl' Hv' Hd' E|l' d' Hl' Hv' Hd' E|l' d' Hl' Hv' Hd' E]; subst; try lia.
      apply app_inj in E; [destruct E; subst; assumption|congruence]. }
    rewrite Hl. cbn [le_bytes]. rewrite Z.mod_small by lia.
    destruct (Z.eqb_spec (zlen d) 0) as [->|]; [reflexivity|]. destruct (Z.leb_spec (zlen d) 75); [lia|].
    destruct (Z.leb_spec (zlen d) 255); [reflexivity|lia].
  - change (2 ^ (8 * Z.of_nat 2)) with 65536 in Hbd.
    assert (256 <= zlen d) as Hz.
    { inversion Hs as [? ? n1 n2 n3|l' d' Hl' Hv' Hd' E|l' d' Hl' Hv' Hd' E|l' d' Hl' Hv' Hd' E]; subst; try lia.
      apply app_inj in E; [destruct E; subst; assumption|congruence]. }
    destruct (Z.eqb_spec (zlen d) 0); [lia|]. destruct (Z.leb_spec (zlen d) 75); [lia|].
    destruct (Z.leb_spec (zlen d) 255); [lia|]. destruct (Z.leb_spec (zlen d) 65535); [now f_equal|lia].
  - change (2 ^ (8 * Z.of_nat 4)) with 4294967296 in Hbd.
    assert (65536 <= zlen d) as Hz.
    { inversion Hs as [? ? n1 n2 n3|l' d' Hl' Hv' Hd' E|l' d' Hl' Hv' Hd' E|l' d' Hl' Hv' Hd' E]; subst; try lia.
      apply app_inj in E; [destruct E; subst; assumption|congruence]. }
    destruct (Z.eqb_spec (zlen d) 0); [lia|]. destruct (Z.leb_spec (zlen d) 75); [lia|].
    destruct (Z.leb_spec (zlen d) 255); [lia|]. destruct (Z.leb_spec (zlen d) 65535); [lia|now f_equal].
Qed.

Lemma nonmin_len b l d : bytes_ok l -> 
  ((l = [] /\ 1 <= b <= 75 /\ zlen d = b) \/
    ((b, length l) = (0x4c, 1%nat) \/ (b, length l) = (0x4d, 2%nat) \/ (b, length l) = (0x4e, 4%nat)) /\ le_value l = zlen d) ->
  (length (nonmin_prefix d) <= length (b :: l))%nat /\ zlen d < 2 ^ 32.
Proof.
  intros Hok H. pose proof (zlen_nonneg d). unfold nonmin_prefix.
  destruct H as [(-> & Hb & Hd)|[Hb Hv]].
  { destruct (Z.eqb_spec (zlen d) 0); [lia|]. destruct (Z.leb_spec (zlen d) 75); [cbn; split; lia|lia]. }
  pose proof (le_value_bound l Hok) as Hbd.
  destruct Hb as [Hb|[Hb|Hb]]; injection Hb as -> Hll; unfold zlen in Hbd; rewrite Hll in Hbd; cbn [length]; rewrite Hll;
   [change (2 ^ (8 * Z.of_nat 1)) with 256 in Hbd|change (2 ^ (8 * Z.of_nat 2)) with 65536 in Hbd|change (2 ^ (8 * Z.of_nat 4)) with 4294967296 in Hbd];
   change (2 ^ 32) with 4294967296;
   (destruct (Z.eqb_spec (zlen d) 0); [cbn; lia|]; destruct (Z.leb_spec (zlen d) 75); [cbn; lia|];
    destruct (Z.leb_spec (zlen d) 255); [cbn; lia|]; destruct (Z.leb_spec (zlen d) 65535);
    [cbn [length]; rewrite le_bytes_length; lia|cbn [length]; rewrite ?le_bytes_length; lia]).
Qed.

Lemma parsed_ser c o : bytes_ok c -> parsed c o ->
  op_ok o /\ exists a, serialize_op o = Ok a /\ (ba_data a = c <-> shortest_prefix c) /\
    (length (ba_data a) <= length c)%nat.
Proof.
  intros Hok Hp. destruct Hp as [b Hb|b l d H].
  - apply bytes_ok_cons in Hok; destruct Hok as [Hbo _]. pose proof (opcode_from_spec b Hbo) as Hs.
    unfold op_of_byte. revert Hs. destruct (opcode_from_u8 b) as [k|] eqn:E; intros Hs.
    + split.
      * cbn. repeat split; intros ->; cbn in Hs; lia.
      * exists (serialize_opcode k). split; [reflexivity|]. cbn. rewrite Hs. split; [|lia].
        split; [intros _; apply SpShort; lia|reflexivity].
    + split; [cbn; unfold byte_ok in *; lia|].
      exists (ba_new "Invalid Opcode" [b]). split; [reflexivity|]. cbn. split; [|lia].
      split; [intros _; apply SpShort; lia|reflexivity].
  - apply bytes_ok_cons in Hok; destruct Hok as [Hbo Hok]. apply bytes_ok_app in Hok. destruct Hok as [Hl Hd].
    destruct (nonmin_len b l d Hl H) as [Hlen Hz].
    split; [cbn; auto|].
    destruct (ser_push (ba_unnamed d) (push_head d =? b)) as (r & Hr & Hrd); [assumption|assumption|].
    exists r. split; [assumption|]. rewrite Hrd. cbn [ba_data ba_unnamed].
    assert (push_bytes d (push_head d =? b) = nonmin_prefix d ++ d) as ->.
    { unfold push_bytes. destruct (one_op d) eqn:E; [|now rewrite andb_false_r].
      destruct (Z.eqb_spec (push_head d) b) as [Hh|]; [|reflexivity].
      exfalso. apply (push_head_not d b E); [|assumption].
      destruct H as [(_ & ? & _)|[[Hb|[Hb|Hb]] _]]; [lia| | |]; injection Hb as -> _; lia. }
    split.
    + split.
      * intros <-. now apply nonmin_chunk.
      * intros Hs. rewrite (nonmin_eq b l d Hl H Hs). reflexivity.
    + cbn [length] in *. rewrite !app_length. lia.
Qed.

(* ---------- whole scripts ---------- *)
Lemma deser_loop_cons k c i rest : chunk c i -> bytes_ok c ->
  exists o, parsed c o /\ means o i /\
    deser_loop (S k) (c ++ rest) = (do ops <- deser_loop k rest; Ok (o :: ops)).
Proof.
  intros Hc Hok. destruct (deser_op_chunk c i rest Hc Hok) as (o & Ho & Hp & Hm).
  exists o. split; [assumption|split; [assumption|]].
  destruct c as [|b c]; [now apply chunk_ne in Hc|].
  cbn [app deser_loop] in *. rewrite Ho. reflexivity.
Qed.

Lemma deser_loop_chunks chunks is : Forall2 chunk chunks is -> bytes_ok (concat chunks) ->
  forall k tail, (length (concat chunks) <= k)%nat ->
  exists ops k', (k <= k' + length (concat chunks))%nat /\ Forall2 parsed chunks ops /\ Forall2 means ops is /\
    deser_loop k (concat chunks ++ tail) = (do ops' <- deser_loop k' tail; Ok (ops ++ ops')).
Proof.
  induction 1 as [|c i chunks is Hc _ IH]; intros Hok k tail Hk.
  - exists [], k. cbn [concat app length] in *. split; [lia|]. split; [constructor|]. split; [constructor|]. destruct (deser_loop k tail); reflexivity.
  - cbn [concat] in *. apply bytes_ok_app in Hok. destruct Hok as [Hokc Hokr].
    rewrite app_length in *. pose proof (chunk_ne c i Hc). 
    destruct c as [|b c]; [congruence|]. cbn [length] in Hk. destruct k as [|k]; [lia|].
    rewrite <- app_assoc.
    destruct (deser_loop_cons k (b :: c) i (concat chunks ++ tail) Hc Hokc) as (o & Hp & Hm & ->).
    destruct (IH Hokr k tail) as (ops & k' & Hk' & Hps & Hms & ->); [lia|].
    exists (o :: ops), k'. split; [cbn [length]; lia|]. split; [now constructor|]. split; [now constructor|].
    destruct (deser_loop k' tail); reflexivity.
Qed.

Lemma deser_chunks chunks is : Forall2 chunk chunks is -> bytes_ok (concat chunks) ->
  exists ops, deserialize_ops (concat chunks) = Ok ops /\ Forall2 parsed chunks ops /\ Forall2 means ops is.
Proof.
  intros H Hok. destruct (deser_loop_chunks _ _ H Hok (length (concat chunks)) []) as (ops & k' & _ & Hp & Hm & E); [lia|].
  rewrite app_nil_r in E. exists ops. split; [|auto]. unfold deserialize_ops. rewrite E.
  destruct k'; cbn; now rewrite app_nil_r.
Qed.

Lemma deser_truncated bs : bytes_ok bs -> truncated_script bs -> deserialize_ops bs = Err EEof.
Proof.
  intros Hok (chunks & is & t & -> & H & Ht). apply bytes_ok_app in Hok. destruct Hok as [Hok _].
  assert (1 <= length t)%nat by (destruct Ht; cbn; lia).
  destruct (deser_loop_chunks _ _ H Hok (length (concat chunks ++ t)) t) as (ops & k' & Hk & _ & _ & E);
    [rewrite app_length; lia|].
  unfold deserialize_ops. rewrite E. rewrite app_length in Hk. destruct k' as [|k']; [lia|].
  pose proof (deser_op_truncated t Ht) as Hd. destruct t as [|b t]; [cbn in *; lia|].
  cbn [deser_loop]. rewrite Hd. reflexivity.
Qed.

Lemma decompose bs : bytes_ok bs ->
  (exists chunks is, bs = concat chunks /\ Forall2 chunk chunks is) \/ truncated_script bs.
Proof.
  remember (length bs) as n eqn:Hn. revert bs Hn.
  induction n as [n IH] using lt_wf_ind. intros bs -> Hok.
  destruct bs as [|b bs]; [left; exists [], []; split; constructor|].
  destruct (chunk_or_truncated (b :: bs) Hok) as [(c & i & rest & E & Hc)|Ht]; [discriminate| |].
  - rewrite E in *. apply bytes_ok_app in Hok. destruct Hok as [_ Hok]. pose proof (chunk_ne c i Hc).
    destruct (IH (length rest)) with (bs := rest) as [(chunks & is & -> & H2)|(chunks & is & t & -> & H2 & Ht)]; auto.
    { rewrite app_length. destruct c; [congruence|cbn; lia]. }
    + left. exists (c :: chunks), (i :: is). split; [reflexivity|now constructor].
    + right. exists (c :: chunks), (i :: is), t. split; [cbn; now rewrite app_assoc|]. split; [now constructor|assumption].
  - right. exists [], [], (b :: bs). split; [reflexivity|]. split; [constructor|assumption].
Qed.

(** Main parser theorem on bytes. *)
Lemma deserialize_ops_total bs : bytes_ok bs ->
  (exists chunks is ops, bs = concat chunks /\ Forall2 chunk chunks is /\ Forall2 means ops is /\
     Forall2 parsed chunks ops /\ deserialize_ops bs = Ok ops) \/
  (truncated_script bs /\ deserialize_ops bs = Err EEof).
Proof.
  intros Hok. destruct (decompose bs Hok) as [(chunks & is & -> & H)|Ht].
  - left. destruct (deser_chunks _ _ H Hok) as (ops & E & Hp & Hm). exists chunks, is, ops. auto.
  - right. split; [assumption|]. now apply deser_truncated.
Qed.

Lemma truncated_iff bs : bytes_ok bs -> (deserialize_ops bs = Err EEof <-> truncated_script bs).
Proof.
  intros Hok. split; [|now apply deser_truncated].
  destruct (deserialize_ops_total bs Hok) as [(chunks & is & ops & _ & _ & _ & _ & E)|[H _]]; [congruence|auto].
Qed.


Definition instr_ok (i : instr) : Prop := match i with Push d => bytes_ok d | Exec b => True end.
Lemma chunk_ok c i : chunk c i -> instr_ok i -> bytes_ok c.
Proof.
  intros H Hi; destruct H; cbn in Hi; repeat ((apply bytes_ok_cons; split) || (apply bytes_ok_app; split));
    auto; try apply bytes_ok_nil; unfold byte_ok; lia.
Qed.
Lemma means_ok o i : op_ok o -> means o i -> instr_ok i.
Proof.
  intros Ho H; destruct H; cbn in *; auto; try apply bytes_ok_nil; try (apply bytes1; lia). tauto.
Qed.
Lemma chunk_unique c1 i1 r1 c2 i2 r2 : chunk c1 i1 -> chunk c2 i2 -> bytes_ok c1 -> bytes_ok c2 ->
  c1 ++ r1 = c2 ++ r2 -> c1 = c2 /\ r1 = r2.
Proof.
  intros H1 H2 Hb1 Hb2 E. destruct (deser_op_chunk c1 i1 r1 H1 Hb1) as (o1 & E1 & _ & _).
  destruct (deser_op_chunk c2 i2 r2 H2 Hb2) as (o2 & E2 & _ & _). rewrite E in E1. rewrite E1 in E2.
  injection E2 as _ ->. split; [|reflexivity]. now apply app_inv_tail in E.
Qed.
Lemma chunks_unique a : forall b is js, Forall2 chunk a is -> Forall2 chunk b js -> bytes_ok (concat a) -> 
  concat a = concat b -> a = b.
Proof.
  induction a as [|c a IH]; intros b is js Ha Hb Hok E.
  - inversion Hb as [|c' j b' js' Hc' _]; subst; [reflexivity|]. cbn in E. symmetry in E. apply app_eq_nil in E.
    destruct E as [-> _]. now apply chunk_ne in Hc'.
  - inversion Ha as [|? i ? is' Hc Ha']; subst. inversion Hb as [|c' j b' js' Hc' Hb']; subst.
    { cbn in E. apply app_eq_nil in E. destruct E as [-> _]. now apply chunk_ne in Hc. }
    cbn in E. pose proof Hok as Hok2. cbn in Hok2. apply bytes_ok_app in Hok2. destruct Hok2 as [Hc1 Hc2].
    assert (bytes_ok (c' ++ concat b')) as Hok3 by (rewrite <- E; exact Hok). apply bytes_ok_app in Hok3.
    destruct (chunk_unique c i (concat a) c' j (concat b') Hc Hc') as [-> E']; try tauto. 
    f_equal. eapply IH; eauto.
Qed.

(* ---------- serialising scripts ---------- *)
Lemma omap_app_cons {A B} (f : A -> outcome B) x l y ys : f x = Ok y -> omap f l = Ok ys -> omap f (x :: l) = Ok (y :: ys).
Proof. intros H1 H2. cbn. rewrite H1. cbn. rewrite H2. reflexivity. Qed.

Lemma ser_ops_ok ops : Forall op_ok ops -> exists a chunks is, serialize_ops ops = Ok a /\
  ba_data a = concat chunks /\ Forall2 chunk chunks is /\ Forall2 means ops is /\
  Forall shortest_prefix chunks /\ bytes_ok (ba_data a).
Proof.
  intros H. unfold serialize_ops.
  assert (exists ps is, omap serialize_op ops = Ok ps /\ Forall2 chunk (map ba_data ps) is /\ Forall2 means ops is /\
    Forall shortest_prefix (map ba_data ps) /\ bytes_ok (concat (map ba_data ps))) as (ps & is & E & H1 & H2 & H3 & H4).
  { induction H as [|o ops Ho _ (ps & is & E & H1 & H2 & H3 & H4)].
    - exists [], []. repeat split; try constructor.
    - destruct (ser_op_ok o Ho) as (a & i & Ea & Hm & Hc & Hs).
      exists (a :: ps), (i :: is). split; [now apply omap_app_cons|].
      cbn [map concat]. repeat split; try (constructor; assumption).
      apply bytes_ok_app. split; [|assumption]. eapply chunk_ok; eauto. eapply means_ok; eauto. }
  exists (ba_from_parts ps), (map ba_data ps), is. rewrite E. cbn [obind]. rewrite from_parts_data. auto 7.
Qed.

Lemma ser_parsed chunks ops : Forall2 parsed chunks ops -> bytes_ok (concat chunks) ->
  Forall op_ok ops /\ exists a, serialize_ops ops = Ok a /\
    (ba_data a = concat chunks <-> Forall shortest_prefix chunks) /\
    (length (ba_data a) <= length (concat chunks))%nat.
Proof.
  intros H Hok. unfold serialize_ops.
  assert (Forall op_ok ops /\ exists ps, omap serialize_op ops = Ok ps /\
    (concat (map ba_data ps) = concat chunks <-> Forall shortest_prefix chunks) /\
    (length (concat (map ba_data ps)) <= length (concat chunks))%nat) as (Hoo & ps & E & Hi & Hl).
  { induction H as [|c o chunks ops Hp _ IH].
    - split; [constructor|]. exists []. split; [reflexivity|]. split; [|constructor].
      split; [constructor|reflexivity].
    - cbn [concat] in Hok. apply bytes_ok_app in Hok. destruct Hok as [Hc Hr].
      destruct (IH Hr) as (Hoo & ps & E & Hi & Hl). destruct (parsed_ser c o Hc Hp) as (Ho & a & Ea & Ha & Hla).
      split; [now constructor|]. exists (a :: ps). split; [now apply omap_app_cons|]. cbn [map concat].
      rewrite !app_length. split; [|lia]. split.
      + intros EE. assert (length (ba_data a) = length c) as Hlc.
        { apply (f_equal (@length Z)) in EE. rewrite !app_length in EE. lia. }
        destruct (app_inj _ _ _ _ Hlc EE) as [E1 E2]. constructor; [now apply Ha|now apply Hi].
      + intros HF. inversion HF as [|? ? Hc1 Hc2]; subst. apply Ha in Hc1. apply Hi in Hc2. congruence. }
  split; [assumption|]. exists (ba_from_parts ps). rewrite E. cbn [obind]. rewrite from_parts_data. auto.
Qed.

(* ---------- C10 ---------- *)
Lemma Forall2_len {A B} (R : A -> B -> Prop) l m : Forall2 R l m -> length l = length m.
Proof. induction 1; cbn; congruence. Qed.

Definition equivalent (o o' : op) : Prop := exists i, means o i /\ means o' i.

Lemma ser_deser ops : Forall op_ok ops ->
  exists a ops', serialize_ops ops = Ok a /\ bytes_ok (ba_data a) /\ deserialize_ops (ba_data a) = Ok ops' /\
    Forall2 equivalent ops ops' /\ Forall op_ok ops' /\
    exists a', serialize_ops ops' = Ok a' /\ ba_data a' = ba_data a.
Proof.
  intros H. destruct (ser_ops_ok ops H) as (a & chunks & is & E & Hd & Hc & Hm & Hs & Hok).
  rewrite Hd in *. destruct (deser_chunks chunks is Hc Hok) as (ops' & E' & Hp & Hm').
  destruct (ser_parsed chunks ops' Hp Hok) as (Hoo & a' & Ea & Hi & _).
  exists a, ops'. rewrite Hd. repeat split; auto.
  - clear - Hm Hm'. revert ops' Hm'. induction Hm as [|o i ops is Ho _ IH]; intros ops' Hm'; inversion Hm' as [|o' ? ops'' ? H1 H2]; subst; constructor.
    + exists i; auto.
    + now apply IH.
  - exists a'. split; [assumption|]. now apply Hi.
Qed.

(* ---------- C11 ---------- *)
Lemma deser_ser_iff bs ops : bytes_ok bs -> deserialize_ops bs = Ok ops ->
  exists a, serialize_ops ops = Ok a /\ (ba_data a = bs <-> shortest_script bs) /\
    (length (ba_data a) <= length bs)%nat.
Proof.
  intros Hok E. destruct (deserialize_ops_total bs Hok) as [(chunks & is & ops' & -> & Hc & Hm & Hp & E')|[_ E']]; [|congruence].
  rewrite E in E'. injection E' as <-.
  destruct (ser_parsed chunks ops Hp Hok) as (_ & a & Ea & Hi & Hl). exists a. split; [assumption|]. split; [|assumption].
  rewrite Hi. split.
  - intros HF. exists chunks, is. auto.
  - intros (ch & is2 & Eb & Hc2 & HF). assert (ch = chunks) as ->; [|assumption]. symmetry. eapply chunks_unique; eauto.
Qed.

Lemma deser_ser_idem bs ops a : bytes_ok bs -> deserialize_ops bs = Ok ops -> serialize_ops ops = Ok a ->
  bytes_ok (ba_data a) /\ exists ops' a', deserialize_ops (ba_data a) = Ok ops' /\ Forall2 equivalent ops ops' /\
    serialize_ops ops' = Ok a' /\ ba_data a' = ba_data a.
Proof.
  intros Hok E Ea. destruct (deserialize_ops_total bs Hok) as [(chunks & is & ops' & -> & Hc & Hm & Hp & E')|[_ E']]; [|congruence].
  rewrite E in E'. injection E' as <-.
  destruct (ser_parsed chunks ops Hp Hok) as (Hoo & _).
  destruct (ser_deser ops Hoo) as (a1 & ops' & E1 & Hb & E2 & Heq & _ & a2 & E3 & E4).
  rewrite Ea in E1. injection E1 as <-. split; [assumption|]. exists ops', a2. auto.
Qed.

Lemma means_fun o i j : means o i -> means o j -> i = j.
Proof.
  intros H1 H2; destruct H1; inversion H2; subst; auto;
    change (opcode_u8 OP_0) with 0 in *; change (opcode_u8 OP_1NEGATE) with 79 in *; try lia.
  - f_equal. apply minimal_unique; auto; congruence.
  - f_equal. f_equal. lia.
Qed.

(** Parsing preserves what the bytes say: same instruction sequence. *)
Lemma reads_as_fun bs is js : bytes_ok bs -> reads_as bs is -> reads_as bs js -> is = js.
Proof.
  intros Hok (c1 & -> & H1) (c2 & E & H2).
  assert (c1 = c2) as <- by (eapply chunks_unique; eauto).
  destruct (deser_chunks c1 is H1 Hok) as (ops & E1 & _ & M1).
  destruct (deser_chunks c1 js H2 Hok) as (ops' & E2 & _ & M2).
  rewrite E1 in E2. injection E2 as <-.
  clear - M1 M2. revert js M2. induction M1 as [|o i ops is Ho _ IH]; intros js M2; inversion M2 as [|? j ? js' H1 H2]; subst; [reflexivity|].
  f_equal; [|now apply IH]. eapply means_fun; eauto.
Qed.

Lemma deserialize_reads bs ops : bytes_ok bs -> deserialize_ops bs = Ok ops ->
  exists is, reads_as bs is /\ Forall2 means ops is.
Proof.
  intros Hok E. destruct (deserialize_ops_total bs Hok) as [(chunks & is & ops' & Hb & Hc & Hm & Hp & E')|[_ E']]; [|congruence].
  rewrite E in E'. injection E' as <-. exists is. split; [exists chunks; auto|assumption].
Qed.
Lemma reads_deserialize bs is : bytes_ok bs -> reads_as bs is -> exists ops, deserialize_ops bs = Ok ops /\ Forall2 means ops is.
Proof. intros Hok (chunks & -> & H). destruct (deser_chunks chunks is H Hok) as (ops & ? & _ & ?). eauto. Qed.

(* ---------- C12: the provenance-keeping parser ---------- *)
Lemma split_take t n : 0 <= n ->
  match take_bytes n (ba_data t) with
  | Ok (a, b) => exists l r, ba_split t n = Ok (l, r) /\ ba_data l = a /\ ba_data r = b
  | Err _ => exists e, ba_split t n = Err e
  | Panic => False
  end.
Proof.
  intros Hn. destruct (split_ok_iff t n Hn) as [H1 H2]. unfold take_bytes.
  destruct (Z.ltb_spec (zlen (ba_data t)) n) as [Hl|Hl].
  - eexists. apply H2. exact Hl.
  - apply H1 in Hl. exact Hl.
Qed.

Definition op_agree (x : outcome (op * list Z)) (y : outcome (op * barray)) : Prop :=
  match x with
  | Ok (o, r) => exists o' t, y = Ok (o', t) /\ same_op o o' /\ ba_data t = r
  | Err _ => exists e, y = Err e
  | Panic => False
  end.

Lemma deser_op_agree t : bytes_ok (ba_data t) -> ba_data t <> [] -> op_agree (deser_op (ba_data t)) (deser_op_ba t).
Proof.
  intros Hok Hne. unfold deser_op_ba, deser_op.
  pose proof (split_take t 1 ltac:(lia)) as Hs. destruct (ba_data t) as [|byte cur1] eqn:Ed; [congruence|].
  apply bytes_ok_cons in Hok. destruct Hok as [Hb Hc]. unfold byte_ok in Hb.
  change (byte :: cur1) with ([byte] ++ cur1) in Hs. rewrite take_bytes_app in Hs by reflexivity.
  destruct Hs as (h & t1 & -> & Hh & Ht1). cbn [obind]. rewrite Hh. change (nth 0 [byte] 0) with byte. subst cur1.
  change (opcode_u8 OP_PUSHDATA1) with 76. change (opcode_u8 OP_PUSHDATA2) with 77. change (opcode_u8 OP_PUSHDATA4) with 78.
  destruct (Z.eqb_spec byte 0) as [->|]; [cbn; eauto using SoCode|].
  assert (Hpush : forall n t2, 0 <= n < 2 ^ 32 -> bytes_ok (ba_data t2) ->
     op_agree (do (vec, cur3) <- take_bytes n (ba_data t2); do (prefix, _) <- serialize_push_prefix vec true;
               Ok (OPushArray (ba_unnamed vec) (nth 0 prefix 0 =? byte), cur3))
              (do (pushed, cur3) <- ba_split t2 n; do (prefix, _) <- serialize_push_prefix (ba_data pushed) true;
               Ok (OPushArray pushed (nth 0 prefix 0 =? byte), cur3))).
  { intros n' t2 Hn' Hb2. pose proof (split_take t2 n' ltac:(lia)) as Hs.
    destruct (take_bytes_cases n' (ba_data t2)) as [[_ E]|(v & r & E1 & E2 & E)]; [lia| |]; rewrite E in *.
    - destruct Hs as (e & ->). cbn. eauto.
    - destruct Hs as (l & r' & -> & Hl & Hr). cbn [obind]. rewrite Hl. 
      destruct (prefix_head v) as (p & tl & Hp & _); [rewrite E1 in Hb2; apply bytes_ok_app in Hb2; tauto|lia|].
      rewrite Hp. cbn [obind op_agree]. do 2 eexists. split; [reflexivity|]. split; [|assumption].
      constructor. cbn. congruence. }
  assert (Hlen : forall k, (k <= 4)%nat -> 
     op_agree (do (push_len, cur2) <- (do (l, c) <- take_bytes (Z.of_nat k) (ba_data t1); Ok (le_value l, c));
               do (vec, cur3) <- take_bytes push_len cur2; do (prefix, _) <- serialize_push_prefix vec true;
               Ok (OPushArray (ba_unnamed vec) (nth 0 prefix 0 =? byte), cur3))
              (do (push_len, cur2) <- (do (l, c) <- ba_split t1 (Z.of_nat k); Ok (le_value (ba_data l), c));
               do (pushed, cur3) <- ba_split cur2 push_len; do (prefix, _) <- serialize_push_prefix (ba_data pushed) true;
               Ok (OPushArray pushed (nth 0 prefix 0 =? byte), cur3))).
  { intros k Hk. pose proof (split_take t1 (Z.of_nat k) ltac:(lia)) as Hs.
    destruct (take_bytes_cases (Z.of_nat k) (ba_data t1)) as [[_ E]|(v & r & E1 & E2 & E)]; [lia| |]; rewrite E in *.
    - destruct Hs as (e & ->). cbn. eauto.
    - destruct Hs as (l & r' & -> & Hl & Hr). cbn [obind]. rewrite Hl, <- Hr.
      rewrite E1 in Hc. apply bytes_ok_app in Hc. apply Hpush; [|rewrite Hr; tauto].
      apply le_small with (n := k); [tauto|now apply zlen_nat|assumption]. }
  destruct (Z.leb_spec 1 byte); [destruct (Z.leb_spec byte 0x4b)|]; cbn [andb].
  - cbn [obind]. apply Hpush; [change (2 ^ 32) with 4294967296; lia|assumption].
  - destruct (Z.eqb_spec byte 76) as [->|].
    { specialize (Hlen 1%nat ltac:(lia)). change (Z.of_nat 1) with 1 in Hlen.
      pose proof (split_take t1 1 ltac:(lia)) as Hs.
      destruct (take_bytes_cases 1 (ba_data t1)) as [[_ E]|(v & r & E1 & E2 & E)]; [lia| |]; rewrite E in *.
      - destruct Hs as (e & ->). cbn. eauto.
      - destruct Hs as (l & r' & El & Hl & Hr). rewrite El in *. cbn [obind] in *.
        destruct v as [|x [|y v]]; [discriminate| |rewrite !zlen_cons in E2; pose proof (zlen_nonneg v); lia].
        rewrite Hl in *. rewrite le_value1 in *. change (nth 0 [x] 0) with x. exact Hlen. }
    destruct (Z.eqb_spec byte 77); [exact (Hlen 2%nat ltac:(lia))|].
    destruct (Z.eqb_spec byte 78); [exact (Hlen 4%nat ltac:(lia))|].
    cbn. exists (op_of_byte byte), t1. repeat split. unfold op_of_byte. destruct (opcode_from_u8 byte); constructor.
  - lia.
Qed.

Lemma deser_op_rest bs o r : bytes_ok bs -> deser_op bs = Ok (o, r) -> bytes_ok r /\ (length r < length bs)%nat.
Proof.
  intros Hok E. destruct bs as [|b bs]; [discriminate|].
  destruct (chunk_or_truncated (b :: bs) Hok) as [(c & i & rest & E2 & Hc)|Ht]; [discriminate| |].
  - rewrite E2 in *. apply bytes_ok_app in Hok. destruct (deser_op_chunk c i rest Hc) as (o' & E' & _); [tauto|].
    rewrite E in E'. injection E' as _ ->. split; [tauto|]. rewrite app_length. apply chunk_ne in Hc. destruct c; [congruence|cbn; lia].
  - rewrite (deser_op_truncated _ Ht) in E. discriminate.
Qed.

Lemma deser_loop_agree k : forall t, bytes_ok (ba_data t) ->
  match deser_loop k (ba_data t) with
  | Ok ops => exists ops', deser_loop_ba k t = Ok ops' /\ Forall2 same_op ops ops'
  | Err _ => exists e, deser_loop_ba k t = Err e
  | Panic => deser_loop_ba k t = Panic
  end.
Proof.
  induction k as [|k IH]; intros t Hok.
  - cbn. unfold ba_len. destruct (ba_data t) as [|b cur] eqn:E.
    + cbn. eauto.
    + destruct (Z.eqb_spec (zlen (b :: cur)) 0) as [Hz|]; [apply zlen_0 in Hz; discriminate|reflexivity].
  - cbn [deser_loop deser_loop_ba]. unfold ba_len. destruct (ba_data t) as [|b cur] eqn:E.
    + cbn. eauto.
    + destruct (Z.eqb_spec (zlen (b :: cur)) 0) as [Hz|_]; [apply zlen_0 in Hz; discriminate|].
      pose proof (deser_op_agree t) as Ha. rewrite E in Ha. specialize (Ha Hok ltac:(discriminate)).
      pose proof (deser_op_rest (b :: cur)) as Hr.
      destruct (deser_op (b :: cur)) as [[o r]|e|]; cbn [op_agree obind] in *.
      * destruct Ha as (o' & t' & -> & Hso & Ht'). cbn [obind].
        destruct (Hr o r Hok eq_refl) as [Hr1 _]. specialize (IH t'). rewrite Ht' in IH. specialize (IH Hr1).
        destruct (deser_loop k r) as [ops|e|]; cbn [obind].
        -- destruct IH as (ops' & -> & HF). cbn. eauto.
        -- destruct IH as (e' & ->). cbn. eauto.
        -- now rewrite IH.
      * destruct Ha as (e' & ->). cbn. eauto.
      * contradiction.
Qed.

Lemma deserialize_agree t : bytes_ok (ba_data t) ->
  match deserialize_ops (ba_data t) with
  | Ok ops => exists ops', deserialize_ops_ba t = Ok ops' /\ Forall2 same_op ops ops'
  | Err _ => exists e, deserialize_ops_ba t = Err e
  | Panic => False
  end.
Proof.
  intros Hok. pose proof (deser_loop_agree (length (ba_data t)) t Hok) as H. unfold deserialize_ops_ba.
  fold (deserialize_ops (ba_data t)) in *.
  destruct (deserialize_ops_total (ba_data t) Hok) as [(chunks & is & ops & _ & _ & _ & _ & E)|[_ E]]; unfold deserialize_ops in *; rewrite E in *; auto.
Qed.

(* ---------- C14 ---------- *)
Lemma sep_dec o : {o = OCode OP_CODESEPARATOR} + {o <> OCode OP_CODESEPARATOR}.
Proof.
  destruct o as [c| | | |]; try (right; discriminate).
  destruct (Z.eq_dec (opcode_u8 c) (opcode_u8 OP_CODESEPARATOR)) as [E|E].
  - left. f_equal. now apply opcode_u8_inj.
  - right. intros H. injection H as ->. auto.
Qed.
Lemma find_sep_yes t r idx n found : t_op t = OCode OP_CODESEPARATOR ->
  find_codesep (t :: r) idx n found = if Nat.eqb n found then Some idx else find_codesep r (S idx) n (S found).
Proof. intros H. cbn. now rewrite H. Qed.
Lemma find_sep_no t r idx n found : t_op t <> OCode OP_CODESEPARATOR ->
  find_codesep (t :: r) idx n found = find_codesep r (S idx) n found.
Proof.
  intros H. cbn. destruct (t_op t) as [c| | | |]; try reflexivity. destruct c; try reflexivity. congruence.
Qed.
Lemma count_sep_yes t r : t_op t = OCode OP_CODESEPARATOR -> count_sep (t :: r) = S (count_sep r).
Proof. intros H. cbn. now rewrite H. Qed.
Lemma count_sep_no t r : t_op t <> OCode OP_CODESEPARATOR -> count_sep (t :: r) = count_sep r.
Proof. intros H. cbn. destruct (t_op t) as [c| | | |]; try reflexivity. destruct c; try reflexivity. congruence. Qed.

Lemma find_codesep_found pre t post : t_op t = OCode OP_CODESEPARATOR -> forall idx n found,
  (n = found + count_sep pre)%nat -> find_codesep (pre ++ t :: post) idx n found = Some (idx + length pre)%nat.
Proof.
  intros Ht. induction pre as [|x pre IH]; intros idx n found Hn.
  - cbn [app length]. rewrite find_sep_yes by assumption. cbn in Hn. replace n with found by lia. rewrite Nat.eqb_refl. f_equal. lia.
  - cbn [app length]. destruct (sep_dec (t_op x)) as [Hx|Hx].
    + rewrite find_sep_yes by assumption. rewrite count_sep_yes in Hn by assumption.
      destruct (Nat.eqb_spec n found); [lia|]. rewrite IH by lia. f_equal. lia.
    + rewrite find_sep_no by assumption. rewrite count_sep_no in Hn by assumption. rewrite IH by assumption. f_equal. lia.
Qed.
Lemma find_codesep_none s : forall idx n found, (found + count_sep s <= n)%nat -> find_codesep s idx n found = None.
Proof.
  induction s as [|x s IH]; intros idx n found Hn; [reflexivity|].
  destruct (sep_dec (t_op x)) as [Hx|Hx].
  - rewrite find_sep_yes by assumption. rewrite count_sep_yes in Hn by assumption.
    destruct (Nat.eqb_spec n found); [lia|]. apply IH. lia.
  - rewrite find_sep_no by assumption. rewrite count_sep_no in Hn by assumption. apply IH. assumption.
Qed.
Lemma op_eqb_sep o : op_eqb o (OCode OP_CODESEPARATOR) = true <-> o = OCode OP_CODESEPARATOR.
Proof.
  destruct o as [c| | | |]; cbn; split; try discriminate.
  - intros H. apply opcode_eqb_spec in H. congruence.
  - intros H. injection H as ->. reflexivity.
Qed.
Lemma script_code_first_found pre t post : t_op t = OCode OP_CODESEPARATOR -> count_sep pre = O ->
  to_script_code_first (pre ++ t :: post) = post.
Proof.
  intros Ht Hc. unfold to_script_code_first.
  assert (position (fun t => op_eqb (t_op t) (OCode OP_CODESEPARATOR)) (pre ++ t :: post) = Some (length pre)) as ->.
  { induction pre as [|x pre IH].
    - cbn [app position length]. rewrite Ht. reflexivity.
    - cbn [app position length]. destruct (sep_dec (t_op x)) as [Hx|Hx]; [rewrite count_sep_yes in Hc by assumption; discriminate|].
      rewrite count_sep_no in Hc by assumption.
      destruct (op_eqb (t_op x) (OCode OP_CODESEPARATOR)) eqn:E; [apply op_eqb_sep in E; contradiction|].
      rewrite IH by assumption. reflexivity. }
  clear. induction pre as [|x pre IH]; [reflexivity|]. exact IH.
Qed.
Lemma script_code_first_none s : count_sep s = O -> to_script_code_first s = s.
Proof.
  intros Hc. unfold to_script_code_first.
  assert (position (fun t => op_eqb (t_op t) (OCode OP_CODESEPARATOR)) s = None) as ->; [|reflexivity].
  induction s as [|x s IH]; [reflexivity|]. cbn [position].
  destruct (sep_dec (t_op x)) as [Hx|Hx]; [rewrite count_sep_yes in Hc by assumption; discriminate|].
  rewrite count_sep_no in Hc by assumption.
  destruct (op_eqb (t_op x) (OCode OP_CODESEPARATOR)) eqn:E; [apply op_eqb_sep in E; contradiction|].
  rewrite IH by assumption. reflexivity.
Qed.
Lemma skipn_app_len {A} (a b : list A) : skipn (length a) (a ++ b) = b.
Proof. apply skipn_app_exact. Qed.

(* ---------- C40 ---------- *)
Lemma opcode_by_name_iff name o : opcode_by_name name = Some o <->
  name = opcode_name o /\ (o = OP_0 \/ o = OP_1NEGATE \/ 0x51 <= opcode_u8 o < 0xbd).
Proof.
  split.
  - unfold opcode_by_name. destruct name_map as [m|] eqn:E; [|discriminate].
    assert (forall k v, In (k, v) m -> k = opcode_name v /\ (v = OP_0 \/ v = OP_1NEGATE \/ 0x51 <= opcode_u8 v < 0xbd)) as H.
    { assert (forallb (fun kv => String.eqb (fst kv) (opcode_name (snd kv)) &&
         ((opcode_u8 (snd kv) =? 0) || (opcode_u8 (snd kv) =? 0x4f) || ((0x51 <=? opcode_u8 (snd kv)) && (opcode_u8 (snd kv) <? 0xbd)))) m = true) as Hf.
      { revert E. vm_compute name_map. intros E. injection E as <-. vm_compute. reflexivity. }
      intros k v Hin. rewrite forallb_forall in Hf. specialize (Hf _ Hin). cbn [fst snd] in Hf.
      apply andb_prop in Hf. destruct Hf as [Hk Hv]. apply String.eqb_eq in Hk. split; [assumption|].
      apply orb_prop in Hv. destruct Hv as [Hv|Hv]; [apply orb_prop in Hv; destruct Hv as [Hv|Hv]; apply Z.eqb_eq in Hv|].
      - left. now apply (opcode_u8_inj v OP_0).
      - right; left. now apply (opcode_u8_inj v OP_1NEGATE).
      - right; right. lia. }
    clear E. induction m as [|[k v] m IH]; [discriminate|]. cbn [assoc_str].
    destruct (String.eqb_spec k name) as [->|].
    + intros E. injection E as <-. apply H. now left.
    + apply IH. intros k' v' Hin. apply H. now right.
  - intros [-> H]. destruct o; try reflexivity; exfalso; destruct H as [H|[H|H]]; try discriminate; cbn in H; lia.
Qed.

Lemma disabled_iff o : opcode_is_disabled o = true <-> In (opcode_u8 o) bch_disabled.
Proof.
  split.
  - destruct o; cbn; intros H; try discriminate; auto 20.
  - intros H. destruct o; try reflexivity; exfalso; cbn in H; repeat destruct H as [H|H]; try discriminate; contradiction.
Qed.
Lemma opcode_table_spec name b : In (name, b) bch_opcodes ->
  exists o, opcode_from_u8 b = Some o /\ opcode_u8 o = b /\ opcode_name o = name.
Proof.
  assert (forallb (fun nb => match opcode_from_u8 (snd nb) with
     | Some o => (opcode_u8 o =? snd nb) && String.eqb (opcode_name o) (fst nb) | None => false end) bch_opcodes = true) as H
    by (vm_compute; reflexivity).
  intros Hin. rewrite forallb_forall in H. specialize (H _ Hin). cbn [fst snd] in H.
  destruct (opcode_from_u8 b) as [o|]; [|discriminate]. apply andb_prop in H. destruct H as [H1 H2].
  apply Z.eqb_eq in H1. apply String.eqb_eq in H2. eauto.
Qed.
Lemma opcode_in_table o : o <> FIRST_UNDEFINED_OP_VALUE -> In (opcode_name o, opcode_u8 o) bch_opcodes.
Proof.
  intros H.
  assert (existsb (fun nb => String.eqb (fst nb) (opcode_name o) && (snd nb =? opcode_u8 o)) bch_opcodes = true) as E
    by (destruct o; try reflexivity; congruence).
  apply existsb_exists in E. destruct E as ([n b] & Hin & E). cbn [fst snd] in E. apply andb_prop in E. destruct E as [E1 E2].
  apply String.eqb_eq in E1. apply Z.eqb_eq in E2. subst. assumption.
Qed.

(* ---------- C41 ---------- *)
Lemma script_num_range d : bytes_ok d -> zlen d <= 4 -> - (2 ^ 31 - 1) <= script_num d <= 2 ^ 31 - 1.
Proof.
  intros Hok Hl. unfold script_num. destruct d as [|x d]; [lia|]. cbv zeta. set (dd := x :: d) in *.
  pose proof (le_value_bound dd Hok) as Hb.
  assert (1 <= zlen dd) by (unfold dd; rewrite zlen_cons; pose proof (zlen_nonneg d); lia).
  assert (2 ^ (8 * zlen dd) = 2 * 2 ^ (8 * zlen dd - 1)) as Hp.
  { replace (8 * zlen dd) with (1 + (8 * zlen dd - 1)) at 1 by lia. rewrite Z.pow_add_r by lia. reflexivity. }
  assert (2 ^ (8 * zlen dd - 1) <= 2 ^ 31) by (apply Z.pow_le_mono_r; lia).
  destruct (Z.ltb_spec (le_value dd) (2 ^ (8 * zlen dd - 1))); lia.
Qed.
Lemma integer_new_ok v : script_int v -> Model_Integer.integer_new v = Ok v.
Proof.
  unfold script_int, Model_Integer.integer_new. change (2 ^ 31) with 2147483648. intros H.
  unfold Model_Integer.in_i32, Model_Integer.MIN_SCRIPT_INTEGER, Model_Integer.MAX_SCRIPT_INTEGER, Model_Integer.in_i128.
  change (2 ^ 31) with 2147483648.
  repeat match goal with |- context [if ?b then _ else _] => destruct b eqn:?; try reflexivity; try (exfalso; lia) end.
Qed.
Lemma to_integer_push o d : op_ok o -> means o (Push d) -> zlen d <= 4 -> op_to_integer o = Ok (Some (script_num d)).
Proof.
  intros Ho Hm Hl. inversion Hm; subst; clear Hm.
  - cbn in Ho. unfold op_to_integer. rewrite vec_to_int_short by tauto.
    rewrite integer_new_ok; [reflexivity|]. apply script_num_range; tauto.
  - reflexivity.
  - reflexivity.
  - reflexivity.
  - reflexivity.
  - reflexivity.
  - unfold op_to_integer. 
    destruct (opcode_eqb c OP_0) eqn:E1; [apply opcode_eqb_spec in E1; subst c; change (opcode_u8 OP_0) with 0 in *; lia|].
    destruct (opcode_eqb c OP_1NEGATE) eqn:E2; [apply opcode_eqb_spec in E2; subst c; change (opcode_u8 OP_1NEGATE) with 79 in *; lia|].
    cbv zeta. change (opcode_u8 OP_1) with 81. change (opcode_u8 OP_16) with 96.
    destruct ((81 <=? opcode_u8 c) && (opcode_u8 c <=? 96)) eqn:E; [|lia].
    f_equal. f_equal. unfold script_num. rewrite le_value1. change (2 ^ (8 * zlen [n] - 1)) with 128.
    destruct (Z.ltb_spec n 128); lia.
Qed.
Lemma to_integer_exec o b : means o (Exec b) -> op_to_integer o = Ok None.
Proof.
  intros Hm. inversion Hm; subst; [|reflexivity]. unfold op_to_integer.
  destruct (opcode_eqb c OP_0) eqn:E1; [apply opcode_eqb_spec in E1; subst c; change (opcode_u8 OP_0) with 0 in *; lia|].
  destruct (opcode_eqb c OP_1NEGATE) eqn:E2; [apply opcode_eqb_spec in E2; subst c; change (opcode_u8 OP_1NEGATE) with 79 in *; lia|].
  cbv zeta. change (opcode_u8 OP_1) with 81. change (opcode_u8 OP_16) with 96.
  destruct ((81 <=? opcode_u8 c) && (opcode_u8 c <=? 96)) eqn:E; [lia|reflexivity].
Qed.

(* ---------- the is_minimal flag ---------- *)
Definition head_len (d : list Z) : Z :=
  if one_op d then 1 else if zlen d <=? 75 then 1 + zlen d else if zlen d <=? 255 then 2 + zlen d
  else if zlen d <=? 65535 then 3 + zlen d else 5 + zlen d.
Lemma push_head_long d : one_op d = false ->
  push_head d = if zlen d <=? 75 then zlen d else if zlen d <=? 255 then 0x4c else if zlen d <=? 65535 then 0x4d else 0x4e.
Proof.
  destruct d as [|x [|y d]]; [discriminate| |reflexivity]. cbn [one_op]. unfold push_head.
  intros H. apply orb_false_iff in H. destruct H as [-> ->]. reflexivity.
Qed.
Lemma chunk_min c d : chunk c (Push d) -> bytes_ok c ->
  head_len d <= zlen c /\ (zlen c = head_len d <-> nth 0 c 0 = push_head d).
Proof.
  intros H Hok. pose proof (zlen_nonneg d). unfold head_len.
  inversion H as [|n d' Hn Hl|l d' Hlo Hll Hlv|l d' Hlo Hll Hlv|l d' Hlo Hll Hlv| |n Hn|]; subst; cbn [nth].
  - cbn. lia.
  - rewrite zlen_cons. destruct (one_op d) eqn:E.
    + pose proof (push_head_not d (zlen d) E ltac:(lia)). pose proof (one_op_short d E). lia.
    + rewrite (push_head_long d E). destruct (Z.leb_spec (zlen d) 75); lia.
  - assert (zlen l = 1) as Hz by (unfold zlen; lia). rewrite zlen_cons, zlen_app, Hz. destruct (one_op d) eqn:E.
    + pose proof (push_head_not d 0x4c E ltac:(lia)). lia.
    + rewrite (push_head_long d E).
      pose proof (le_value_bound l Hlo) as Hb. rewrite Hz in Hb. change (2 ^ (8 * 1)) with 256 in Hb.
      destruct (Z.leb_spec (zlen d) 75); [lia|]. destruct (Z.leb_spec (zlen d) 255); lia.
  - assert (zlen l = 2) as Hz by (unfold zlen; lia). rewrite zlen_cons, zlen_app, Hz. destruct (one_op d) eqn:E.
    + pose proof (push_head_not d 0x4d E ltac:(lia)). lia.
    + rewrite (push_head_long d E).
      pose proof (le_value_bound l Hlo) as Hb. rewrite Hz in Hb. change (2 ^ (8 * 2)) with 65536 in Hb.
      destruct (Z.leb_spec (zlen d) 75); [lia|]. destruct (Z.leb_spec (zlen d) 255); [lia|].
      destruct (Z.leb_spec (zlen d) 65535); lia.
  - assert (zlen l = 4) as Hz by (unfold zlen; lia). rewrite zlen_cons, zlen_app, Hz. destruct (one_op d) eqn:E.
    + pose proof (push_head_not d 0x4e E ltac:(lia)). lia.
    + rewrite (push_head_long d E).
      destruct (Z.leb_spec (zlen d) 75); [lia|]. destruct (Z.leb_spec (zlen d) 255); [lia|].
      destruct (Z.leb_spec (zlen d) 65535); lia.
  - cbn. lia.
  - cbn [one_op]. assert ((1 <=? n) && (n <=? 16) = true) as E by lia. rewrite E. cbn [orb].
    unfold push_head. rewrite E. change (zlen [80 + n]) with 1. lia.
Qed.
Lemma chunk_min_exists d : zlen d < 2 ^ 32 -> exists c, chunk c (Push d) /\ zlen c = head_len d.
Proof.
  intros Hl. change (2 ^ 32) with 4294967296 in Hl. exists (push_bytes d true). split; [apply push_chunk; assumption|].
  unfold push_bytes, head_len. cbn [andb]. destruct (one_op d) eqn:E; [reflexivity|].
  rewrite zlen_app. unfold nonmin_prefix. 
  destruct (Z.eqb_spec (zlen d) 0) as [Hz|]; [apply zlen_0 in Hz; subst d; discriminate|].
  destruct (Z.leb_spec (zlen d) 75); [reflexivity|]. destruct (Z.leb_spec (zlen d) 255); [reflexivity|].
  destruct (Z.leb_spec (zlen d) 65535); rewrite zlen_cons, le_bytes_zlen; lia.
Qed.

Lemma parsed_flag c o i : bytes_ok c -> chunk c i -> parsed c o ->
  forall a m, o = OPushArray a m -> chunk c (Push (ba_data a)) /\ (m = true <-> minimal_push c (ba_data a)).
Proof.
  intros Hok Hc Hp a m Ho. inversion Hp as [b Hb E1 E2|b l d Hd E1 E2]; subst.
  { exfalso. revert E2. unfold op_of_byte. destruct (opcode_from_u8 b); discriminate. }
  injection E2 as <- <-. cbn [ba_data ba_unnamed].
  assert (chunk (b :: l ++ d) (Push d)) as Hcd.
  { pose proof Hok as Hok'. apply bytes_ok_cons in Hok'. destruct Hok' as [_ Hok']. apply bytes_ok_app in Hok'.
    destruct Hd as [(-> & Hb & Hz)|[[Hb|[Hb|Hb]] Hv]].
    - now constructor.
    - injection Hb as -> Hl. apply CkData1; tauto.
    - injection Hb as -> Hl. apply CkData2; tauto.
    - injection Hb as -> Hl. apply CkData4; tauto. }
  split; [assumption|].
  destruct (chunk_min _ _ Hcd Hok) as [Hm1 Hm2]. cbn [nth] in Hm2. rewrite Z.eqb_eq.
  split.
  - intros Hh. split; [assumption|]. intros c' Hok' Hc'. destruct (chunk_min _ _ Hc' Hok') as [Hm' _].
    apply Nat2Z.inj_le. change (zlen (b :: l ++ d) <= zlen c'). rewrite (proj2 Hm2); [assumption|congruence].
  - intros [_ Hmin]. destruct (chunk_min_exists d) as (c' & Hc' & Hl').
    { destruct (nonmin_len b l d) as [_ ?]; auto. apply bytes_ok_cons in Hok. destruct Hok as [_ Hok]. apply bytes_ok_app in Hok. tauto. }
    assert (bytes_ok c') as Hok'.
    { eapply chunk_ok; [exact Hc'|]. cbn. apply bytes_ok_cons in Hok. destruct Hok as [_ Hok]. apply bytes_ok_app in Hok. tauto. }
    specialize (Hmin c' Hok' Hc'). apply Nat2Z.inj_le in Hmin. change (zlen (b :: l ++ d) <= zlen c') in Hmin.
    symmetry. apply Hm2. lia.
Qed.
