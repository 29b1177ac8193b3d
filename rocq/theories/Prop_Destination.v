(** Properties C22, C23: address scripts and P2PKH spends. *)
From Verif Require Import Base BaseLemmas Model_Encoding Model_ByteArray Proofs_ByteArray Model_Opcode Model_Script Spec_Script Proofs_Script Proofs_Wire Model_Address Spec_Address Proofs_Address Prop_Address Model_Destination Spec_Destination Proofs_Destination.
Local Open Scope Z_scope.

Lemma address_script_ops a : map t_op (address_script a) = template_ops (ad_type a) (ad_hash a) true.
Proof. unfold address_script. now destruct (ad_type a). Qed.
Lemma ser_of_ops s x : serialize_ops (map t_op s) = Ok x -> script_ser_ops s = Ok x.
Proof. unfold script_ser_ops. now intros ->. Qed.

(** C22: the script of an address is the standard locking script, byte for byte. *)
Theorem C22_locking_script_bytes : forall a, bytes_ok (ba_data (ad_hash a)) -> zlen (ba_data (ad_hash a)) = 20 ->
  exists x, script_ser_ops (address_script a) = Ok x /\ ba_data x = locking_bytes (ad_type a) (ba_data (ad_hash a)).
Proof.
  intros a Hb Hl. destruct (template_ser (ad_type a) (ad_hash a) true Hb Hl) as (x & E & D). exists x. split; [|assumption].
  apply ser_of_ops. now rewrite address_script_ops.
Qed.
Print Assumptions C22_locking_script_bytes.

(** C22: the destination of that script is the address, under the requested prefix. *)
Theorem C22_round_trip : forall a prefix, bytes_ok (ba_data (ad_hash a)) -> zlen (ba_data (ad_hash a)) = 20 ->
  exists b, script_destination prefix (address_script a) = Ok (DAddress b) /\ ad_type b = ad_type a /\
    ba_data (ad_hash b) = ba_data (ad_hash a) /\ ad_prefix b = prefix /\ cash_addr_text prefix (ad_type a) (ba_data (ad_hash a)) (ad_text b).
Proof.
  intros a prefix Hb Hl. assert (pats (address_script a) = template (ad_type a) (ba_data (ad_hash a))) as Hp.
  { apply template_iff. exists (ad_hash a), true. split; [apply address_script_ops|reflexivity]. }
  destruct (dest_cases prefix (address_script a)) as [(t & h & E & ->)|[(pk & E & _)|[(r & E & _)|(N & _)]]]; rewrite ?Hp in *.
  - apply template_inj in E. destruct E as [<- <-]. destruct (addr_result_ok prefix (ad_type a) _ Hb Hl) as (b & E & A1 & A2 & A3 & A4).
    exists b. rewrite A2. auto.
  - destruct (ad_type a); discriminate.
  - destruct (ad_type a); discriminate.
  - exfalso. eapply N. reflexivity.
Qed.
Print Assumptions C22_round_trip.

(** C22: exactly the scripts that read as the template with a 20-byte push are reported as an address
    (for scripts as received: bytes). *)
Theorem C22_received_script_is_address_iff : forall bs prefix t h, bytes_ok (ba_data bs) ->
  (exists s b, script_deser_ops bs = Ok s /\ script_destination prefix s = Ok (DAddress b) /\ ad_type b = t /\ ba_data (ad_hash b) = h) <->
  (reads_as (ba_data bs) (locking_instrs t h) /\ zlen h = 20).
Proof.
  intros bs prefix t h Hok. pose proof (deserialize_agree bs Hok) as Hag. split.
  - intros (s & b & Es & Ed & <- & <-). unfold script_deser_ops in Es. apply obind_ok in Es. destruct Es as (ops' & Eo & Es). injection Es as <-.
    destruct (deserialize_ops_total (ba_data bs) Hok) as [(chunks & is & ops & Hc & HF & Hm & _ & E)|[_ E]]; rewrite E in Hag; [|destruct Hag; congruence].
    destruct Hag as (ops2 & E2 & Hs). rewrite Eo in E2. injection E2 as <-.
    destruct (dest_cases prefix (script_from_ops ops')) as [(t & h & Ep & E3)|[(pk & _ & E3)|[(r & _ & E3)|(_ & _ & _ & E3)]]]; rewrite E3 in Ed; try discriminate.
    rewrite pats_from_ops, <- (same_ops_pats _ _ Hs) in Ep.
    destruct (addr_result_inv _ _ _ _ Ed) as (Hl & _).
    pose proof (means_pat_template _ _ _ _ Hm Ep) as ->.
    assert (Hh : bytes_ok h).
    { rewrite Hc in Hok. clear - HF Hok.
      assert (bytes_ok (concat chunks) -> Forall2 chunk chunks (locking_instrs t h) -> exists c, bytes_ok c /\ chunk c (Push h)) as X.
      { intros Hk HH. destruct t; cbn [locking_instrs] in HH; invm; cbn [concat] in Hk; repeat (apply bytes_ok_app in Hk; destruct Hk as [? Hk]); eauto. }
      destruct (X Hok HF) as (c & Hc1 & Hc2). inversion Hc2; subst; try (apply bytes_ok_cons in Hc1; destruct Hc1 as [_ Hc1]; try (apply bytes_ok_app in Hc1; destruct Hc1); assumption); try constructor; try constructor; unfold byte_ok; lia. }
    destruct (addr_result_ok prefix t h Hh Hl) as (b' & E' & A1 & A2 & _). rewrite Ed in E'. injection E' as <-. rewrite A1, A2. cbn [ba_data]. split; [exists chunks; auto|assumption].
  - intros [Hr Hl]. destruct (read_template _ t h Hok Hr ltac:(lia)) as (ops & E & Hp). rewrite E in Hag. destruct Hag as (ops' & Eo & Hs).
    assert (Hh : bytes_ok h).
    { destruct Hr as (chunks & Hc & HF). rewrite Hc in Hok. destruct t; cbn [locking_instrs] in HF; invm; cbn [concat] in Hok;
      repeat (apply bytes_ok_app in Hok; let A := fresh "K" in destruct Hok as [A Hok]);
      match goal with H : chunk ?c (Push h), K : bytes_ok ?c |- _ => inversion H; subst; try (apply bytes_ok_cons in K; destruct K as [_ K]; try (apply bytes_ok_app in K; destruct K); assumption); try (cbn in Hl; lia) end. }
    destruct (addr_result_ok prefix t h Hh Hl) as (b & Eb & A1 & A2 & _).
    exists (script_from_ops ops'), b. split; [unfold script_deser_ops; now rewrite Eo|]. rewrite A1, A2. split; [|auto].
    rewrite (same_ops_pats _ _ Hs), <- pats_from_ops in Hp.
    destruct (dest_cases prefix (script_from_ops ops')) as [(t' & h' & Ep & ->)|[(pk & Ep & _)|[(r & Ep & _)|(N & _)]]].
    + rewrite Hp in Ep. apply template_inj in Ep. destruct Ep as [<- <-]. assumption.
    + rewrite Hp in Ep. destruct t; discriminate.
    + rewrite Hp in Ep. destruct t; discriminate.
    + exfalso. eapply N. exact Hp.
Qed.
Print Assumptions C22_received_script_is_address_iff.

(** C22: conversely, a script value reported as an address is that address' script: it serialises to
    the same bytes, and compares equal to it. *)
Theorem C22_reported_address_is_script : forall prefix s b,
  Forall op_ok (map t_op s) -> script_destination prefix s = Ok (DAddress b) ->
  (exists x, script_ser_ops s = Ok x /\ ba_data x = locking_bytes (ad_type b) (ba_data (ad_hash b))) /\
  script_eqb s (address_script b) = true /\ ad_prefix b = prefix.
Proof.
  intros prefix s b Hok Ed.
  destruct (dest_cases prefix s) as [(t & h & Ep & E3)|[(pk & _ & E3)|[(r & _ & E3)|(_ & _ & _ & E3)]]]; rewrite E3 in Ed; try discriminate.
  apply template_iff in Ep. destruct Ep as (a & m & Eo & <-). destruct (addr_result_inv _ _ _ _ Ed) as (Hl & _).
  assert (Hb : bytes_ok (ba_data a)).
  { rewrite Eo in Hok. destruct t; cbn [template_ops] in Hok; repeat (let K := fresh in let K2 := fresh in apply Forall_cons_iff in Hok; destruct Hok as [K Hok]); 
    match goal with H : op_ok (OPushArray _ _) |- _ => apply H end. }
  destruct (addr_result_ok prefix t _ Hb Hl) as (b' & E' & A1 & A2 & A3 & _). rewrite Ed in E'. injection E' as <-.
  rewrite A1, A2. cbn [ba_data].
  destruct (template_ser t a m Hb Hl) as (x & Ex & D). split; [exists x; split; [apply ser_of_ops; now rewrite Eo|assumption]|]. split; [|assumption].
  unfold address_script. rewrite A1. unfold p2pkh_script, p2sh_script. rewrite A2.
  assert (bytes_eqb (ba_data a) (ba_data a) = true) as R by (apply bytes_eqb_spec; reflexivity).
  destruct t; cbn [template_ops] in Eo;
  repeat match goal with H : map t_op ?l = _ :: _ |- _ => destruct l; [discriminate H|]; cbn [map] in H; injection H; clear H; intros | H : map t_op ?l = [] |- _ => destruct l; [clear H|discriminate H] end;
  cbn [script_eqb map]; unfold tagged_eqb; cbn [t_op tagged_from_op]; repeat match goal with H : t_op _ = _ |- _ => rewrite H; clear H end;
  cbn [op_eqb op_from_array]; unfold ba_eqb; cbn [ba_data ba_unnamed]; rewrite R; reflexivity.
Qed.
Print Assumptions C22_reported_address_is_script.

(** C22: everything else, exactly. *)
Theorem C22_null_data_iff : forall prefix s ops, script_destination prefix s = Ok (Nulldata ops) <->
  exists t r, s = t :: r /\ t_op t = OCode OP_RETURN /\ ops = map t_op r.
Proof.
  intros prefix s ops. split.
  - intros Ed. destruct (dest_cases prefix s) as [(t & h & _ & E3)|[(pk & _ & E3)|[(r & Ep & E3)|(_ & _ & _ & E3)]]]; rewrite E3 in Ed; try discriminate.
    + destruct (addr_result_inv _ _ _ _ Ed) as (_ & ? & ?). discriminate.
    + injection Ed as <-. apply pats_cons in Ep. destruct Ep as (t & r' & -> & Et & _). apply pat_code in Et. cbn [skipn]. eauto.
  - intros (t & r & -> & Et & ->). unfold script_destination. cbn [map]. rewrite Et. cbn [to_pattern skipn]. reflexivity.
Qed.
Print Assumptions C22_null_data_iff.

Theorem C22_p2pk_iff : forall prefix s pk, script_destination prefix s = Ok (P2PK pk) <->
  exists a m, map t_op s = [OPushArray a m; OCode OP_CHECKSIG] /\ ba_data a = pk.
Proof.
  intros prefix s pk. split.
  - intros Ed. destruct (dest_cases prefix s) as [(t & h & _ & E3)|[(pk' & Ep & E3)|[(r & Ep & E3)|(_ & _ & _ & E3)]]]; rewrite E3 in Ed; try discriminate.
    + destruct (addr_result_inv _ _ _ _ Ed) as (_ & ? & ?). discriminate.
    + injection Ed as <-. unpat. cbn [map]. repeat match goal with H : t_op _ = _ |- _ => rewrite H end. eauto.
  - intros (a & m & E & <-). destruct s as [|t1 [|t2 [|t3 s]]]; try discriminate. cbn [map] in E. injection E as E1 E2.
    unfold script_destination. cbn [map]. rewrite E1, E2. reflexivity.
Qed.
Print Assumptions C22_p2pk_iff.

Theorem C22_unknown_iff : forall prefix s s', script_destination prefix s = Ok (Unknown s') <->
  s' = s /\ (forall t a m, map t_op s <> template_ops t a m) /\ (forall a m, map t_op s <> [OPushArray a m; OCode OP_CHECKSIG]) /\
  (forall r, map t_op s <> OCode OP_RETURN :: r).
Proof.
  intros prefix s s'. split.
  - intros Ed. destruct (dest_cases prefix s) as [(t & h & _ & E3)|[(pk' & Ep & E3)|[(r & Ep & E3)|(N1 & N2 & N3 & E3)]]]; rewrite E3 in Ed; try discriminate.
    + destruct (addr_result_inv _ _ _ _ Ed) as (_ & ? & ?). discriminate.
    + injection Ed as <-. split; [reflexivity|].
      assert (forall l, map t_op s = l -> pats s = map to_pattern l) as X by (intros l <-; unfold pats; now rewrite map_map).
      repeat split.
      * intros t a m E. apply (N1 t (ba_data a)). apply template_iff. eauto.
      * intros a m E. apply (N2 (ba_data a)). now rewrite (X _ E).
      * intros r E. apply (N3 (map to_pattern r)). now rewrite (X _ E).
  - intros (-> & N1 & N2 & N3). destruct (dest_cases prefix s) as [(t & h & Ep & E3)|[(pk' & Ep & E3)|[(r & Ep & E3)|(_ & _ & _ & E3)]]]; [exfalso ..|assumption].
    + apply template_iff in Ep. destruct Ep as (a & m & Ep & _). eapply N1; eauto.
    + unpat. eapply N2. cbn [map]. repeat match goal with H : t_op _ = _ |- _ => rewrite H end. reflexivity.
    + apply pats_cons in Ep. destruct Ep as (t & r' & -> & Et & _). apply pat_code in Et. eapply (N3 (map t_op r')). cbn [map]. now rewrite Et.
Qed.
Print Assumptions C22_unknown_iff.

(** C22: it panics exactly on an address template whose pushed "hash" has not 20 bytes. *)
Theorem C22_panics_iff : forall prefix s, Forall op_ok (map t_op s) ->
  (script_destination prefix s = Panic <-> exists t a m, map t_op s = template_ops t a m /\ zlen (ba_data a) <> 20).
Proof.
  intros prefix s Hok. destruct (dest_cases prefix s) as [(t & h & Ep & E3)|[(pk' & Ep & E3)|[(r & Ep & E3)|(N & _ & _ & E3)]]]; rewrite E3.
  - apply template_iff in Ep. destruct Ep as (a & m & Eo & <-). split.
    + intros E. exists t, a, m. split; [assumption|]. intros Hl.
      assert (Hb : bytes_ok (ba_data a)).
      { rewrite Eo in Hok. destruct t; cbn [template_ops] in Hok; repeat (let K := fresh in apply Forall_cons_iff in Hok; destruct Hok as [K Hok]); 
        match goal with H : op_ok (OPushArray _ _) |- _ => apply H end. }
      destruct (addr_result_ok prefix t _ Hb Hl) as (b & E' & _). congruence.
    + intros (t' & a' & m' & Eo' & Hl). rewrite Eo in Eo'. apply addr_result_panic.
      destruct t, t'; try discriminate; cbn [template_ops] in Eo'; injection Eo' as <- <-; assumption.
  - split; [discriminate|]. intros (t & a & m & E & _). assert (pats s = template t (ba_data a)) as Hp by (apply template_iff; eauto).
    rewrite Ep in Hp. destruct t; discriminate.
  - split; [discriminate|]. intros (t & a & m & E & _). assert (pats s = template t (ba_data a)) as Hp by (apply template_iff; eauto).
    rewrite Ep in Hp. destruct t; discriminate.
  - split; [discriminate|]. intros (t & a & m & E & _). exfalso. apply (N t (ba_data a)). apply template_iff; eauto.
Qed.
Print Assumptions C22_panics_iff.

Theorem C22_p2pkh_script_iff : forall a s, address_p2pkh_script a = Ok s <-> ad_type a = P2PKH /\ s = address_script a.
Proof.
  intros a s. unfold address_p2pkh_script, address_script. destruct (ad_type a); split.
  - intros E. injection E as <-. auto.
  - now intros [_ ->].
  - discriminate.
  - now intros [? _].
Qed.
Print Assumptions C22_p2pkh_script_iff.

(** C22, witnesses: a received output script can make the classifier panic; and a non-standard encoding
    (which the network does not treat as pay-to-script-hash) is reported as an address. *)
Theorem C22_no_panic_refuted : exists bs s, bytes_ok bs /\ script_deser_ops (ba_unnamed bs) = Ok s /\ script_destination (text "bitcoincash") s = Panic.
Proof.
  exists [0xa9; 0x01; 0x2a; 0x87]. eexists. split; [repeat constructor; lia|]. split; [vm_compute; reflexivity|]. vm_compute. reflexivity.
Qed.
Print Assumptions C22_no_panic_refuted.
Theorem C22_only_standard_bytes_refuted : exists bs s b, bytes_ok bs /\ script_deser_ops (ba_unnamed bs) = Ok s /\
  script_destination (text "bitcoincash") s = Ok (DAddress b) /\ bs <> locking_bytes (ad_type b) (ba_data (ad_hash b)).
Proof.
  exists ([0xa9; 0x4c; 0x14] ++ ex_hash ++ [0x87]). eexists. eexists. split; [repeat constructor; cbn; lia|].
  split; [vm_compute; reflexivity|]. split; [vm_compute; reflexivity|]. discriminate.
Qed.
Print Assumptions C22_only_standard_bytes_refuted.

Example C22_nonvacuous : exists a, from_hash (text "bchtest") P2SH (ba_unnamed ex_hash) = Ok a /\
  zlen (ba_data (ad_hash a)) = 20 /\ Forall op_ok (map t_op (address_script a)) /\
  locking_bytes P2SH ex_hash = [0xa9; 0x14] ++ ex_hash ++ [0x87] /\ reads_as (locking_bytes P2SH ex_hash) (locking_instrs P2SH ex_hash).
Proof.
  eexists. split; [vm_compute; reflexivity|]. split; [reflexivity|]. split.
  - cbn [address_script ad_type p2sh_script map t_op tagged_from_op ad_hash]. repeat constructor; try discriminate; cbn; lia.
  - split; [reflexivity|]. exists [[0xa9]; 0x14 :: ex_hash; [0x87]]. split; [reflexivity|]. constructor; [constructor; lia|].
    constructor; [constructor; [lia|reflexivity]|]. constructor; [constructor; lia|constructor].
Qed.

(** C23: the input script a P2PKH signatory builds is recognised, with its public key and flags. *)
Theorem C23_spend_recognised : forall pk flags sig, length pk = 33%nat -> known_flags flags ->
  script_p2pkh_spend (p2pkh_build_script (P2PKHSignatory pk flags) sig) = Some (P2PKHSpend pk flags).
Proof.
  intros pk f sg Hl [Hf Hb]. destruct (spend_cases (p2pkh_build_script (P2PKHSignatory pk f) sg)) as [(x & y & Ep & ->)|(N & _)].
  - unfold pats, p2pkh_build_script in Ep. cbn [map sg_flags sg_pubkey tagged_named tagged_from_op t_op op_from_array to_pattern] in Ep.
    rewrite concat_data in Ep. injection Ep as <- <-. cbn [ba_data ba_unnamed ba_new].
    assert (zlen pk = 33) as -> by (unfold zlen; lia). cbn [Z.eqb Pos.eqb]. rewrite last_byte_app, Z.mod_small by lia.
    rewrite from_bits_byte by assumption. now rewrite Hb.
  - exfalso. eapply N. unfold pats, p2pkh_build_script. cbn [map sg_flags sg_pubkey tagged_named tagged_from_op t_op op_from_array to_pattern]. reflexivity.
Qed.
Print Assumptions C23_spend_recognised.

(** C23: also after the script went over the wire. *)
Theorem C23_spend_recognised_from_bytes : forall pk flags sig, length pk = 33%nat -> bytes_ok pk -> bytes_ok (ba_data sig) ->
  ba_data sig <> [] -> zlen (ba_data sig) <= MAX_SIGNATURE_SIZE -> known_flags flags ->
  exists x s, script_ser_ops (p2pkh_build_script (P2PKHSignatory pk flags) sig) = Ok x /\
    ba_data x = [zlen (ba_data sig) + 1] ++ ba_data sig ++ [flags] ++ [33] ++ pk /\
    script_deser_ops x = Ok s /\ script_p2pkh_spend s = Some (P2PKHSpend pk flags).
Proof.
  intros pk f sg Hl Hbp Hbs Hne Hmax [Hf Hb]. unfold MAX_SIGNATURE_SIZE in Hmax.
  assert (0 < zlen (ba_data sg)) as Hpos by (destruct (ba_data sg); [congruence|rewrite zlen_cons; pose proof (zlen_nonneg l); lia]).
  set (d := ba_data sg) in *.
  assert (zlen pk = 33) as Hzp by (unfold zlen; lia).
  assert (exists x, script_ser_ops (p2pkh_build_script (P2PKHSignatory pk f) sg) = Ok x /\ ba_data x = [zlen d + 1] ++ d ++ [f] ++ [33] ++ pk) as (x & Ex & Dx).
  { unfold script_ser_ops, p2pkh_build_script, serialize_ops.
    cbn [map sg_flags sg_pubkey tagged_named tagged_from_op t_op op_from_array omap serialize_op]. unfold serialize_push_bytes.
    rewrite concat_data. cbn [ba_data ba_new ba_unnamed]. fold d. rewrite Z.mod_small by lia. unfold serialize_push_prefix.
    rewrite zlen_app, zlen_cons, zlen_nil, Hzp.
    rewrite (proj2 (Z.eqb_neq (zlen d + (1 + 0)) 0)), (proj2 (Z.eqb_neq (zlen d + (1 + 0)) 1)), (proj2 (Z.leb_le (zlen d + (1 + 0)) 0x4b)) by lia.
    cbn [Z.eqb Z.leb Z.compare Pos.compare Pos.compare_cont Pos.eqb andb negb obind].
    eexists. split; [reflexivity|]. rewrite from_parts_data. cbn [map concat]. rewrite !concat_data. cbn [ba_data ba_new ba_unnamed]. fold d.
    rewrite app_nil_r. rewrite <- !app_assoc. cbn [app]. replace (zlen d + (1 + 0)) with (zlen d + 1) by lia. reflexivity. }
  assert (Hok : bytes_ok (ba_data x)).
  { rewrite Dx. apply bytes_ok_cons. split; [unfold byte_ok; lia|]. apply bytes_ok_app. split; [assumption|]. apply bytes_ok_cons. split; [assumption|].
    apply bytes_ok_cons. split; [unfold byte_ok; lia|assumption]. }
  exists x. pose proof (deserialize_agree x Hok) as Hag.
  assert (exists chunks, ba_data x = concat chunks /\ Forall2 chunk chunks [Push (d ++ [f]); Push pk]) as (chunks & Ec & HF).
  { exists [(zlen d + 1) :: (d ++ [f]); 33 :: pk]. split; [rewrite Dx; cbn [concat app]; rewrite app_nil_r, <- app_assoc; reflexivity|].
    constructor; [|constructor; [|constructor]]; constructor; try lia. rewrite zlen_app. reflexivity. }
  assert (Hok' : bytes_ok (concat chunks)) by (now rewrite <- Ec).
  destruct (deser_chunks _ _ HF Hok') as (ops & E & Hp & Hm). rewrite Ec, E in Hag. destruct Hag as (ops' & Eo & Hs).
  exists (script_from_ops ops'). repeat (split; [assumption || (unfold script_deser_ops; now rewrite Eo)|]).
  assert (map to_pattern ops = [PArray (d ++ [f]); PArray pk]) as Hpat.
  { invm. 
    match goal with Ha : parsed ?c ?o, Hb : means ?o (Push pk) |- _ => destruct (parsed_push_big c o _ Ha Hb ltac:(lia)) as (a1 & m1 & -> & D1) end.
    match goal with Ha : parsed ?c ?o, Hb : means ?o (Push (d ++ [f])) |- _ => destruct (parsed_push_big c o _ Ha Hb) as (a2 & m2 & -> & D2); [rewrite zlen_app, zlen_cons, zlen_nil; lia|] end.
    cbn [map to_pattern]. now rewrite D1, D2. }
  rewrite (same_ops_pats _ _ Hs), <- pats_from_ops in Hpat.
  destruct (spend_cases (script_from_ops ops')) as [(u & v & Ep & ->)|(N & _)]; [|exfalso; eapply N; eassumption].
  rewrite Hpat in Ep. injection Ep as <- <-. rewrite Hzp. cbn [Z.eqb Pos.eqb]. rewrite last_byte_app, from_bits_byte by assumption. now rewrite Hb.
Qed.
Print Assumptions C23_spend_recognised_from_bytes.

(** C23: nothing else is taken for a P2PKH spend. *)
Theorem C23_recognised_iff : forall s pk flags, Forall op_ok (map t_op s) ->
  (script_p2pkh_spend s = Some (P2PKHSpend pk flags) <->
   exists a m b n sig, map t_op s = [OPushArray a m; OPushArray b n] /\ ba_data a = sig ++ [flags] /\ ba_data b = pk /\ zlen pk = 33 /\ known_flags flags).
Proof.
  intros s pk f Hok. split.
  - intros E. destruct (spend_cases s) as [(u & v & Ep & E2)|(N & E2)]; rewrite E in E2; [|discriminate].
    destruct (zlen v =? 33) eqn:Hv; [|discriminate]. destruct (last_byte u) as [b|] eqn:Hu; [|discriminate].
    destruct (last_byte_inv _ _ Hu) as (sg & ->).
    unpat. cbn [map] in *. repeat match goal with H : t_op _ = _ |- _ => rewrite H in * end.
    apply Forall_cons_iff in Hok. destruct Hok as [[K _] _]. repeat match goal with H : ba_data _ = _ |- _ => rewrite H in * end.
    apply bytes_ok_app in K. destruct K as [_ K]. apply bytes_ok_cons in K. destruct K as [K _].
    rewrite from_bits_byte in E2 by assumption. destruct (Z.testbit b 5) eqn:Tb; [discriminate|]. injection E2 as -> ->.
    apply Z.eqb_eq in Hv. do 5 eexists. split; [reflexivity|]. split; [eassumption|]. split; [eassumption|]. split; [assumption|]. split; assumption.
  - intros (a & m & b & n & sg & E & D & <- & Hl & Hf & Hb). destruct (spend_cases s) as [(u & v & Ep & ->)|(N & _)].
    + assert (pats s = map to_pattern (map t_op s)) as X by (unfold pats; now rewrite map_map). rewrite Ep, E in X. cbn [map to_pattern] in X.
      injection X as -> ->. rewrite Hl, D. cbn [Z.eqb Pos.eqb]. rewrite last_byte_app, from_bits_byte by assumption. now rewrite Hb.
    + exfalso. assert (pats s = map to_pattern (map t_op s)) as X by (unfold pats; now rewrite map_map). rewrite E in X. eapply N. exact X.
Qed.
Print Assumptions C23_recognised_iff.

(** C23, witnesses: a flag byte with the undefined bit 0x20, which SigHashFlags::from_u8 lets through, is
    not recognised; nor is the placeholder-free empty signature once it went over the wire (its one-byte
    push becomes an opcode). *)
Theorem C23_unknown_flag_refuted : exists pk flags sig, length pk = 33%nat /\ byte_ok flags /\
  script_p2pkh_spend (p2pkh_build_script (P2PKHSignatory pk (sighash_from_u8 flags)) sig) = None.
Proof. exists (repeat 2 33), 0x61, (ba_unnamed [1]). split; [reflexivity|]. split; [unfold byte_ok; lia|]. vm_compute. reflexivity. Qed.
Print Assumptions C23_unknown_flag_refuted.
Theorem C23_empty_signature_refuted : exists pk flags x s, length pk = 33%nat /\ known_flags flags /\
  script_ser_ops (p2pkh_build_script (P2PKHSignatory pk flags) (ba_unnamed [])) = Ok x /\ script_deser_ops x = Ok s /\ script_p2pkh_spend s = None.
Proof.
  exists (repeat 2 33), 0x01. eexists. eexists. split; [reflexivity|]. split; [split; [lia|reflexivity]|].
  split; [vm_compute; reflexivity|]. split; [vm_compute; reflexivity|]. vm_compute. reflexivity.
Qed.
Print Assumptions C23_empty_signature_refuted.

Example C23_nonvacuous : known_flags 0x41 /\ known_flags 0xc3 /\ ~ known_flags 0x61 /\
  script_p2pkh_spend (p2pkh_build_script (P2PKHSignatory (2 :: ex_hash ++ repeat 7 12) 0x41) (ba_unnamed (repeat 48 71))) = Some (P2PKHSpend (2 :: ex_hash ++ repeat 7 12) 0x41).
Proof. repeat split; try lia. intros [_ H]. discriminate H. Qed.
