From Verif Require Import Base BaseLemmas Model_Encoding Model_ByteArray Proofs_ByteArray Model_Opcode Model_Script Spec_Script Proofs_Script Proofs_Wire Model_Address Spec_Address Proofs_Address Prop_Address Model_Destination Spec_Destination.
Local Open Scope Z_scope.

Definition pats (s : script) : list pattern_op := map (fun t => to_pattern (t_op t)) s.
Definition template (t : address_type) (h : list Z) : list pattern_op :=
  match t with
  | P2PKH => [PCode OP_DUP; PCode OP_HASH160; PArray h; PCode OP_EQUALVERIFY; PCode OP_CHECKSIG]
  | P2SH => [PCode OP_HASH160; PArray h; PCode OP_EQUAL]
  end.
Definition addr_result (prefix : list Z) (t : address_type) (h : list Z) : outcome destination :=
  do h <- expect_hash160 h; do a <- from_hash prefix t h; Ok (DAddress a).

Ltac other := right; right; right; split; [intros [] ? E; discriminate E|split; [intros ? E; discriminate E|split; [intros ? E; discriminate E|reflexivity]]].
Lemma dest_cases prefix s :
  (exists t h, pats s = template t h /\ script_destination prefix s = addr_result prefix t h) \/
  (exists pk, pats s = [PArray pk; PCode OP_CHECKSIG] /\ script_destination prefix s = Ok (P2PK pk)) \/
  (exists r, pats s = PCode OP_RETURN :: r /\ script_destination prefix s = Ok (Nulldata (map t_op (skipn 1 s)))) \/
  ((forall t h, pats s <> template t h) /\ (forall pk, pats s <> [PArray pk; PCode OP_CHECKSIG]) /\
   (forall r, pats s <> PCode OP_RETURN :: r) /\ script_destination prefix s = Ok (Unknown s)).
Proof.
  unfold script_destination. fold (pats s). generalize (map t_op (skipn 1 s)) as S. generalize (pats s) as ps. intros ps S.
  destruct ps as [|[c|b|d|b|i] ps]; try other.
  - destruct c; try other.
    + right; right; left. eexists. split; reflexivity.
    + (* DUP *)
      destruct ps as [|[c|b|d|b|i] ps]; try other. destruct c; try other.
      destruct ps as [|[c|b|d|b|i] ps]; try other.
      destruct ps as [|[c|b|d'|b|i] ps]; try other. destruct c; try other.
      destruct ps as [|[c|b|d'|b|i] ps]; try other. destruct c; try other.
      destruct ps as [|p ps]; try other.
      left. exists P2PKH, d. split; reflexivity.
    + destruct ps as [|[c|b|d|b|i] ps]; try other.
      destruct ps as [|[c|b|d'|b|i] ps]; try other. destruct c; try other.
      destruct ps as [|p ps]; try other.
      left. exists P2SH, d. split; reflexivity.
  - destruct ps as [|[c|b|d'|b|i] ps]; try other. destruct c; try other.
    destruct ps as [|p ps]; try other.
    right; left. eexists. split; reflexivity.
Qed.

Lemma template_inj t h t' h' : template t h = template t' h' -> t = t' /\ h = h'.
Proof. destruct t, t'; intros E; try discriminate E; injection E as <-; auto. Qed.

Lemma addr_result_ok prefix t h : bytes_ok h -> zlen h = 20 ->
  exists a, addr_result prefix t h = Ok (DAddress a) /\ ad_type a = t /\ ad_hash a = ba_unnamed h /\ ad_prefix a = prefix /\
    cash_addr_text prefix t h (ad_text a).
Proof.
  intros Hb Hl. unfold addr_result, expect_hash160, fixed_from_slice. rewrite Hl. cbn [Z.eqb Pos.eqb obind].
  destruct (C19_text_is_cash_addr prefix t (ba_unnamed h) Hb) as (a & E & S & A1 & A2 & A3). rewrite E. cbn [obind]. eauto 8.
Qed.
Lemma addr_result_panic prefix t h : zlen h <> 20 -> addr_result prefix t h = Panic.
Proof. intros H. unfold addr_result, expect_hash160, fixed_from_slice. rewrite (proj2 (Z.eqb_neq 20 (zlen h))) by lia. reflexivity. Qed.
Lemma addr_result_inv prefix t h d : addr_result prefix t h = Ok d -> zlen h = 20 /\ exists a, d = DAddress a.
Proof.
  destruct (Z.eq_dec (zlen h) 20) as [e|n]; [|rewrite addr_result_panic by assumption; discriminate].
  unfold addr_result. intros E. apply obind_ok in E. destruct E as (x & _ & E). apply obind_ok in E. destruct E as (y & _ & E).
  injection E as <-. eauto.
Qed.

(** patterns and ops *)
Lemma pat_code o c : to_pattern o = PCode c -> o = OCode c.
Proof. destruct o; cbn; congruence. Qed.
Lemma pat_arr o d : to_pattern o = PArray d -> exists a m, o = OPushArray a m /\ ba_data a = d.
Proof. destruct o; cbn; try congruence. intros E. injection E as <-. eauto. Qed.
Lemma pats_cons s p ps : pats s = p :: ps -> exists t r, s = t :: r /\ to_pattern (t_op t) = p /\ pats r = ps.
Proof. destruct s; [discriminate|]. unfold pats. cbn [map]. intros E. injection E as <- <-. eauto. Qed.
Lemma pats_nil s : pats s = [] -> s = [].
Proof. destruct s; [reflexivity|discriminate]. Qed.

Ltac unpat :=
  repeat match goal with
  | H : pats _ = _ :: _ |- _ => apply pats_cons in H; destruct H as (? & ? & -> & ? & H)
  | H : pats _ = [] |- _ => apply pats_nil in H; subst
  | H : to_pattern _ = PCode _ |- _ => apply pat_code in H
  | H : to_pattern _ = PArray _ |- _ => apply pat_arr in H; destruct H as (? & ? & H & ?)
  end.
Lemma template_iff s t h : pats s = template t h <-> exists a m, map t_op s = template_ops t a m /\ ba_data a = h.
Proof.
  split.
  - destruct t; cbn [template]; intros E; unpat; cbn [map template_ops];
      repeat match goal with H : t_op _ = _ |- _ => rewrite H end; eauto.
  - intros (a & m & E & <-). assert (pats s = map to_pattern (map t_op s)) as -> by (unfold pats; now rewrite map_map).
    rewrite E. destruct t; reflexivity.
Qed.

Lemma template_ser t a m : bytes_ok (ba_data a) -> zlen (ba_data a) = 20 ->
  exists x, serialize_ops (template_ops t a m) = Ok x /\ ba_data x = locking_bytes t (ba_data a).
Proof.
  intros Hb Hl.
  assert (exists x, serialize_push_bytes a m = Ok x /\ ba_data x = 20 :: ba_data a) as (x & E & D).
  { unfold serialize_push_bytes, serialize_push_prefix. rewrite Hl. cbn [Z.eqb Z.leb Z.compare Pos.compare Pos.compare_cont Pos.eqb andb negb obind].
    eexists. split; [reflexivity|]. now rewrite concat_data. }
  unfold serialize_ops. destruct t; cbn [template_ops omap serialize_op obind]; rewrite E; cbn [obind];
    eexists; (split; [reflexivity|]); rewrite from_parts_data; cbn [map concat locking_bytes app]; rewrite D; cbn [app]; rewrite ?app_nil_r; reflexivity.
Qed.

(** reading the template from bytes *)
Lemma means_exec_inv o b : means o (Exec b) -> (exists c, o = OCode c /\ opcode_u8 c = b) \/ o = OInvalid b.
Proof. intros H. inversion H; subst; eauto. Qed.
Lemma code_of_exec o c : means o (Exec (opcode_u8 c)) -> opcode_u8 c <= 0xbd -> o = OCode c.
Proof.
  intros H Hc. inversion H; subst.
  - f_equal. now apply opcode_u8_inj.
  - lia.
Qed.
Lemma parsed_push_big c o d : parsed c o -> means o (Push d) -> 2 <= zlen d -> exists a m, o = OPushArray a m /\ ba_data a = d.
Proof.
  intros Hp Hm Hl. inversion Hm; subst; try (cbn in Hl; lia); eauto.
  inversion Hp; subst. unfold op_of_byte in *. destruct (opcode_from_u8 _); discriminate.
Qed.
Lemma same_op_pat o o' : same_op o o' -> to_pattern o = to_pattern o'.
Proof. intros H; inversion H; subst; cbn; congruence. Qed.
Lemma same_ops_pats ops ops' : Forall2 same_op ops ops' -> map to_pattern ops = map to_pattern ops'.
Proof. induction 1; cbn [map]; f_equal; auto using same_op_pat. Qed.
Lemma pats_from_ops ops : pats (script_from_ops ops) = map to_pattern ops.
Proof. unfold pats, script_from_ops. rewrite map_map. reflexivity. Qed.

Ltac invm := repeat match goal with H : Forall2 _ _ (_ :: _) |- _ => inversion H; clear H; subst | H : Forall2 _ (_ :: _) _ |- _ => inversion H; clear H; subst | H : Forall2 _ _ [] |- _ => inversion H; clear H; subst | H : Forall2 _ [] _ |- _ => inversion H; clear H; subst end.

Ltac codes := repeat match goal with
  | H : means ?o (Exec ?b) |- _ =>
    first [ change b with (opcode_u8 OP_DUP) in H | change b with (opcode_u8 OP_HASH160) in H | change b with (opcode_u8 OP_EQUALVERIFY) in H
          | change b with (opcode_u8 OP_CHECKSIG) in H | change b with (opcode_u8 OP_EQUAL) in H ];
    apply code_of_exec in H; [subst o|vm_compute; discriminate] end.
Lemma read_template bs t h : bytes_ok bs -> reads_as bs (locking_instrs t h) -> 2 <= zlen h ->
  exists ops, deserialize_ops bs = Ok ops /\ map to_pattern ops = template t h.
Proof.
  intros Hok (chunks & -> & Hc) Hl. destruct (deser_chunks _ _ Hc Hok) as (ops & E & Hp & Hm). exists ops. split; [assumption|].
  destruct t; cbn [locking_instrs] in *; invm; codes; cbn [map to_pattern template];
  match goal with Hp : parsed ?c ?o, Hm : means ?o (Push h) |- _ => destruct (parsed_push_big c o h Hp Hm Hl) as (a & m & -> & <-) end; reflexivity.
Qed.
Lemma means_pat_template ops is t h : Forall2 means ops is -> map to_pattern ops = template t h -> is = locking_instrs t h.
Proof.
  intros Hm Hp. destruct t; cbn [template] in Hp;
  repeat match goal with
  | H : map to_pattern ?l = _ :: _ |- _ => destruct l; [discriminate H|]; cbn [map] in H; injection H; clear H; intros
  | H : map to_pattern ?l = [] |- _ => destruct l; [clear H|discriminate H] end; invm;
  repeat match goal with
  | H : to_pattern _ = PCode _ |- _ => apply pat_code in H; subst
  | H : to_pattern _ = PArray _ |- _ => apply pat_arr in H; destruct H as (? & ? & H & ?); subst
  end;
  repeat match goal with
  | H : means (OPushArray _ _) _ |- _ => inversion H; clear H; subst
  | H : means (OCode ?c) ?i |- _ => 
     let E := fresh in assert (i = Exec (opcode_u8 c)) as E by (eapply means_fun; [exact H|apply MExec; vm_compute; intuition congruence]); clear H; try subst i end; reflexivity.
Qed.

(** ---- P2PKH spends ---- *)
Lemma last_byte_app l b : last_byte (l ++ [b]) = Some b.
Proof. unfold last_byte. now rewrite rev_app_distr. Qed.
Lemma last_byte_inv l b : last_byte l = Some b -> exists l', l = l' ++ [b].
Proof.
  unfold last_byte. intros E. destruct (rev l) as [|x r] eqn:R; [discriminate|]. injection E as ->. exists (rev r).
  rewrite <- (rev_involutive l), R. reflexivity.
Qed.
Lemma from_bits_byte b : byte_ok b -> sighash_from_bits b = if Z.testbit b 5 then None else Some b.
Proof.
  intros H. unfold sighash_from_bits.
  assert ((Z.ldiff b sighash_all_bits =? 0) = negb (Z.testbit b 5)) as ->.
  { apply Bool.eqb_prop. revert b H. apply (byte_sweep (fun b => Bool.eqb (Z.ldiff b sighash_all_bits =? 0) (negb (Z.testbit b 5)))). vm_compute. reflexivity. }
  now destruct (Z.testbit b 5).
Qed.
Lemma spend_cases s :
  (exists sg pk, pats s = [PArray sg; PArray pk] /\ script_p2pkh_spend s =
     (if zlen pk =? 33 then match last_byte sg with None => None | Some b => match sighash_from_bits b with None => None | Some f => Some (P2PKHSpend pk f) end end else None)) \/
  ((forall sg pk, pats s <> [PArray sg; PArray pk]) /\ script_p2pkh_spend s = None).
Proof.
  unfold script_p2pkh_spend. fold (pats s). generalize (pats s) as ps. intros ps.
  destruct ps as [|[c|b|d|b|i] [|[c'|b'|d'|b'|i'] [|p ps]]]; try (right; split; [intros ? ? E; discriminate E|reflexivity]).
  left. exists d, d'. split; [reflexivity|]. destruct (zlen d' =? 33) eqn:E; [|reflexivity].
  destruct (last_byte d); [|reflexivity]. destruct (sighash_from_bits z); [|reflexivity]. unfold pubkey_from_slice_checked. now rewrite E.
Qed.
