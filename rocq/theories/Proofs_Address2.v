From Verif Require Import Base BaseLemmas Model_ByteArray Proofs_ByteArray Model_Address Spec_Address Proofs_Address.
From Coq Require Import ZifyBool ZifyNat.
Local Open Scope Z_scope.

(* ---------- case ---------- *)
Definition low_ok (x : Z) : Prop := ~ 65 <= x <= 90.
Lemma lower_low x : low_ok (lower x).
Proof. unfold low_ok, lower. destruct (andb _ _) eqn:E; lia. Qed.
Lemma lower_id x : low_ok x -> lower x = x.
Proof. unfold low_ok, lower. destruct (andb _ _) eqn:E; [lia|reflexivity]. Qed.
Lemma lower_map_id l : Forall low_ok l -> map lower l = l.
Proof. induction 1 as [|x l H _ IH]; [reflexivity|]. cbn. now rewrite lower_id, IH. Qed.
Lemma lower_map_low l : Forall low_ok (map lower l).
Proof. induction l; cbn; constructor; [apply lower_low|assumption]. Qed.
Lemma same_letters_lower a b : same_letters a b <-> map lower a = map lower b.
Proof.
  split.
  - induction 1 as [|x y a b H _ IH]; [reflexivity|]. cbn. rewrite IH. f_equal. unfold lower.
    destruct (andb (65 <=? x) (x <=? 90)) eqn:E1, (andb (65 <=? y) (y <=? 90)) eqn:E2; lia.
  - revert b. induction a as [|x a IH]; intros [|y b] H; try discriminate; [constructor|]. cbn in H. injection H as H1 H2. constructor; [|now apply IH].
    unfold lower in H1. destruct (andb (65 <=? x) (x <=? 90)) eqn:E1, (andb (65 <=? y) (y <=? 90)) eqn:E2; lia.
Qed.
Lemma lower_colon x : lower x = 58 <-> x = 58.
Proof. unfold lower. destruct (andb _ _) eqn:E; lia. Qed.
Lemma lower_in_colon l : In 58 (map lower l) <-> In 58 l.
Proof. rewrite in_map_iff. split; [intros (x & H & Hi); apply (proj1 (lower_colon x)) in H; subst x; assumption|intros H; exists 58; auto]. Qed.

(* ---------- splitting ---------- *)
Lemma split_colon_some s p r : split_colon s = Some (p, r) <-> s = p ++ [58] ++ r /\ ~ In 58 p.
Proof.
  revert p r. induction s as [|x s IH]; intros p r; cbn [split_colon].
  - split; [discriminate|]. intros [H _]. destruct p; discriminate.
  - destruct (Z.eqb_spec x 58) as [->|Hx].
    + split; [intros H; injection H as <- <-; split; [reflexivity|intros []]|]. intros [H Hn]. destruct p as [|y p]; [now injection H as ->|].
      injection H as <- _. exfalso. apply Hn. now left.
    + destruct (split_colon s) as [[a b]|] eqn:E.
      * destruct (IH a b) as [I1 _]. destruct (I1 eq_refl) as [-> Hn]. split.
        -- intros H. injection H as <- <-. split; [reflexivity|]. intros [|]; [congruence|tauto].
        -- intros [H Hn2]. destruct p as [|y p]; [injection H; intros; congruence|]. injection H as <- H.
           destruct (IH p r) as [_ I2]. assert (Some (a, b) = Some (p, r)) as E2 by (apply I2; split; [assumption|intros Hi; apply Hn2; now right]). now injection E2 as -> ->.
      * split; [discriminate|]. intros [H Hn2]. destruct p as [|y p]; [injection H; intros; congruence|]. injection H as <- H.
        destruct (IH p r) as [_ I2]. assert (@None (list Z * list Z) = Some (p, r)); [|discriminate]. apply I2. split; [assumption|intros Hi; apply Hn2; now right].
Qed.
Lemma split_colon_none s : split_colon s = None <-> ~ In 58 s.
Proof.
  split.
  - intros H Hi. apply in_split in Hi. destruct Hi as (a & b & ->).
    assert (exists p r, split_colon (a ++ 58 :: b) = Some (p, r)) as (p & r & E); [|congruence]. clear H. induction a as [|x a (p & r & E)]; cbn [app split_colon]; [exists [], b; reflexivity|].
    rewrite E. destruct (x =? 58); eauto.
  - intros H. destruct (split_colon s) as [[p r]|] eqn:E; [|reflexivity]. apply split_colon_some in E. destruct E as [-> _]. exfalso. apply H. apply in_app_iff. right. now left.
Qed.
Definition split_default (s : list Z) : list Z * list Z := match split_colon s with Some pb => pb | None => (prefix_kind_str prefix_default, s) end.
Lemma split_default_iff s p c : split_default s = (p, c) <-> divided s p c.
Proof.
  unfold split_default, divided. destruct (split_colon s) as [[a b]|] eqn:E.
  - pose proof E as E'. apply split_colon_some in E'. destruct E' as [-> Hn]. split.
    + intros H. injection H as -> ->. left. auto.
    + intros [[H Hp]|[H _]]; [|exfalso; apply H; apply in_app_iff; right; now left].
      assert (split_colon (a ++ [58] ++ b) = Some (p, c)) as E2 by (apply split_colon_some; auto). congruence.
  - apply split_colon_none in E. split.
    + intros H. injection H as <- <-. right. auto.
    + intros [[-> _]|(_ & -> & ->)]; [|reflexivity]. exfalso. apply E. apply in_app_iff. right. now left.
Qed.

(* ---------- the parser ---------- *)
Lemma sym8 l : Forall (sym_ok 8) l <-> bytes_ok l.
Proof. unfold sym_ok, bytes_ok, byte_ok. reflexivity. Qed.

Inductive parse_result : Type := PLetter | PChecksum | PLength | PType | PFound (t : address_type) (h : list Z).
(** The payload of a verified symbol string. *)
Definition payload_is (syms : list Z) (r : outcome (list Z * address_type)) : Prop :=
  (length syms <> 42%nat /\ length syms <> 43%nat /\ r = Panic) \/
  ((length syms = 42%nat \/ length syms = 43%nat) /\ exists b h rest,
     bitstring 5 syms = bits 8 b ++ bitstring 8 h ++ rest /\ length h = 20%nat /\ bytes_ok h /\ byte_ok b /\
     r = if b =? 0 then Ok (h, P2PKH) else if b =? 8 then Ok (h, P2SH) else Err (EInvalidCashAddr (AInvalidAddressType b))).

Lemma parts_ok s : let '(p, c) := split_default (map lower s) in
  (forall syms, Forall2 b32_char syms c -> remainder p syms = 1 ->
     exists r, payload_is syms r /\ from_cash_addr_parts s (text "bitcoincash") = do (x, t) <- r; Ok (x, t, p)) /\
  (forall syms, Forall2 b32_char syms c -> remainder p syms <> 1 -> from_cash_addr_parts s (text "bitcoincash") = Err (EInvalidCashAddr AInvalidChecksum)) /\
  ((forall syms, ~ Forall2 b32_char syms c) -> exists k x, first_bad c k x /\ from_cash_addr_parts s (text "bitcoincash") = Err (EInvalidCashAddr (AInvalidBase32Letter (Z.of_nat k) x))).
Proof.
  destruct (split_default (map lower s)) as [p c] eqn:E. unfold from_cash_addr_parts. cbv zeta. fold (split_default (map lower s)).
  change (match split_colon (map lower s) with Some pb => pb | None => (text "bitcoincash", map lower s) end) with (split_default (map lower s)). rewrite E.
  split; [|split].
  - intros syms Hs Hr. pose proof (b32_sym _ _ Hs) as Hok. apply from_b32_iff in Hs. rewrite Hs. cbn [obind].
    apply (verify_iff p _ Hok) in Hr. rewrite Hr. cbn [negb].
    destruct (convert_ok 5 8 syms ltac:(lia) ltac:(lia) Hok) as (out & k & Ec & Hk & Hb & Ho). change (Z.of_nat 5) with 5 in Ec. change (Z.of_nat 8) with 8 in Ec. rewrite Ec.
    pose proof (f_equal (@length bool) Hb) as Hlen. rewrite app_length, !bitstring_length, repeat_length in Hlen.
    assert (length out = 27%nat <-> length syms = 42%nat \/ length syms = 43%nat) as H27 by lia.
    destruct (Nat.eq_dec (length out) 27) as [E27|N27].
    + assert (zlen out = 27) as Ez by (unfold zlen; lia). destruct (Z.ltb_spec (zlen out) 7); [lia|].
      destruct out as [|b out]; [discriminate|]. cbn [skipn nth_error]. set (h := firstn (length (b :: out) - 7) out).
      assert (length h = 20%nat) as Hh by (unfold h; rewrite firstn_length; cbn [length] in *; lia).
      assert (zlen h = 20) as -> by (unfold zlen; lia). cbn [Z.eqb Pos.eqb negb]. inversion Ho as [|? ? Hob Ho']; subst.
      exists (if b =? 0 then Ok (h, P2PKH) else if b =? 8 then Ok (h, P2SH) else Err (EInvalidCashAddr (AInvalidAddressType b))). split.
      * right. split; [tauto|]. exists b, h.
        assert (out = h ++ skipn 20 out) as Hsp by (unfold h; rewrite E27; cbn [Nat.sub]; now rewrite firstn_skipn).
        assert (length (skipn 20 out) = 6%nat) as H6 by (rewrite skipn_length; cbn [length] in *; lia).
        exists (firstn (length (bitstring 8 (skipn 20 out)) - k) (bitstring 8 (skipn 20 out))).
        split; [|split; [assumption|split; [|split; [exact Hob|reflexivity]]]].
        -- assert (bitstring 5 syms = firstn (length (bitstring 8 (b :: out)) - k) (bitstring 8 (b :: out))) as ->.
           { rewrite Hb, app_length, repeat_length. replace (length (bitstring 5 syms) + k - k)%nat with (length (bitstring 5 syms)) by lia. now rewrite firstn_app_exact. }
           rewrite Hsp at 1 2. rewrite bitstring_cons, bitstring_app. 
           assert (length (bits 8 b ++ bitstring 8 h) = 168%nat) as L168 by (rewrite app_length, bits_length, bitstring_length, Hh; reflexivity).
           rewrite app_assoc. rewrite firstn_app. rewrite (app_length (bits 8 b ++ _)), L168.
           rewrite firstn_all2 by (rewrite L168, bitstring_length, H6; lia). rewrite <- app_assoc. f_equal. f_equal. f_equal.
           rewrite bitstring_length, H6. lia.
        -- apply sym8. unfold h. apply Forall_forall. intros x Hx. rewrite Forall_forall in Ho'. apply Ho'. rewrite <- (firstn_skipn (length (b :: out) - 7) out). apply in_app_iff. left. exact Hx.
      * destruct (b =? 0); [reflexivity|]. destruct (b =? 8); reflexivity.
    + exists Panic. split; [left; split; [intros ?; apply N27; tauto|split; [intros ?; apply N27; tauto|reflexivity]]|].
      destruct (Z.ltb_spec (zlen out) 7) as [|H7]; [reflexivity|]. set (h := firstn _ _).
      assert (zlen h <> 20) as Hh.
      { unfold h, zlen. rewrite firstn_length, skipn_length. unfold zlen in H7. lia. }
      apply Z.eqb_neq in Hh. rewrite Hh. reflexivity.
  - intros syms Hs Hr. pose proof (b32_sym _ _ Hs) as Hok. apply from_b32_iff in Hs. rewrite Hs. cbn [obind].
    destruct (verify_checksum p syms) eqn:Ev; [apply (verify_iff p _ Hok) in Ev; contradiction|]. reflexivity.
  - intros Hn. destruct (from_b32_total c) as [(l & Hl)|Hl]; [apply from_b32_iff in Hl; exfalso; eapply Hn; eauto|]. destruct Hl as (k & x & Hk & Hl). exists k, x. rewrite Hl. split; [exact Hk|reflexivity].
Qed.

Lemma valid_letters_iff s p syms : valid_letters s p syms <->
  exists c, split_default (map lower s) = (p, c) /\ Forall2 b32_char syms c /\ remainder p syms = 1.
Proof.
  split.
  - intros (low & c & H1 & H2 & H3 & H4 & H5). exists c. apply same_letters_lower in H1. rewrite (lower_map_id low) in H1 by assumption. rewrite H1.
    apply split_default_iff in H3. auto.
  - intros (c & H1 & H2 & H3). exists (map lower s), c. split; [apply same_letters_lower; now rewrite (lower_map_id (map lower s)) by apply lower_map_low|].
    split; [apply lower_map_low|]. apply split_default_iff in H1. auto.
Qed.

Lemma b32_dec c : (exists syms, Forall2 b32_char syms c) \/ (forall syms, ~ Forall2 b32_char syms c).
Proof.
  destruct (from_b32_total c) as [(l & Hl)|Hl]; [left; exists l; now apply from_b32_iff|]. right. intros syms H. apply from_b32_iff in H. destruct Hl as (k & x & _ & Hl). congruence.
Qed.

(** Every text falls in exactly one of these cases. *)
Lemma from_cash_addr_cases s :
  (exists p syms t h rest, valid_letters s p syms /\ (length syms = 42%nat \/ length syms = 43%nat) /\
     bitstring 5 syms = bitstring 8 (type_byte t :: h) ++ rest /\ length h = 20%nat /\ bytes_ok h /\
     from_cash_addr s = Ok (Address t (ba_unnamed h) s p (from_prefix_str p))) \/
  (exists p syms, valid_letters s p syms /\ length syms <> 42%nat /\ length syms <> 43%nat /\ from_cash_addr s = Panic) \/
  (exists p syms b h rest, valid_letters s p syms /\ (length syms = 42%nat \/ length syms = 43%nat) /\
     bitstring 5 syms = bitstring 8 (b :: h) ++ rest /\ length h = 20%nat /\ bytes_ok h /\ byte_ok b /\ b <> 0 /\ b <> 8 /\ from_cash_addr s = Err (EInvalidCashAddr (AInvalidAddressType b))) \/
  ((forall p syms, ~ valid_letters s p syms) /\ exists e, letter_or_checksum e /\ from_cash_addr s = Err e).
Proof.
  pose proof (parts_ok s) as H. destruct (split_default (map lower s)) as [p c] eqn:E. destruct H as (H1 & H2 & H3).
  assert (forall q syms, valid_letters s q syms -> q = p /\ Forall2 b32_char syms c /\ remainder p syms = 1) as HV.
  { intros q syms Hq. apply valid_letters_iff in Hq. destruct Hq as (c' & E' & F & R). rewrite E in E'. injection E' as <- <-. auto. }
  unfold from_cash_addr. change (prefix_kind_str prefix_default) with (text "bitcoincash").
  destruct (b32_dec c) as [(syms & Hs)|Hn].
  - destruct (Z.eq_dec (remainder p syms) 1) as [Hr|Hr].
    + assert (valid_letters s p syms) as Hv by (apply valid_letters_iff; exists c; auto).
      destruct (H1 syms Hs Hr) as (r & Hp & Er). rewrite Er. destruct Hp as [(L1 & L2 & ->)|(Hl & b & h & rest & Hb & Hh & Hok & Hbb & ->)].
      * right. left. exists p, syms. auto.
      * assert (fixed_from_byte_array 20 (ba_unnamed h) = Ok (ba_unnamed h)) as Ef.
        { unfold fixed_from_byte_array, ba_len, ba_unnamed, zlen. cbn [ba_data]. rewrite Hh. reflexivity. }
        rewrite app_assoc in Hb.
        destruct (Z.eqb_spec b 0) as [->|N0].
        { left. exists p, syms, P2PKH, h, rest. cbn [obind]. rewrite Ef. cbn [obind]. repeat (split; [first [assumption|reflexivity]|]). reflexivity. }
        destruct (Z.eqb_spec b 8) as [->|N8].
        { left. exists p, syms, P2SH, h, rest. cbn [obind]. rewrite Ef. cbn [obind]. repeat (split; [first [assumption|reflexivity]|]). reflexivity. }
        right. right. left. exists p, syms, b, h, rest. repeat (split; [first [assumption|reflexivity]|]). reflexivity.
    + right. right. right. split.
      * intros q sy Hq. destruct (HV _ _ Hq) as (-> & F & R). rewrite (b32_inj _ _ _ F Hs) in R. contradiction.
      * exists (EInvalidCashAddr AInvalidChecksum). rewrite (H2 syms Hs Hr). split; [now left|reflexivity].
  - right. right. right. split.
    + intros q sy Hq. destruct (HV _ _ Hq) as (_ & F & _). eapply Hn; eauto.
    + destruct (H3 Hn) as (k & x & _ & E1). exists (EInvalidCashAddr (AInvalidBase32Letter (Z.of_nat k) x)). rewrite E1. split; [right; eauto|reflexivity].
Qed.

Lemma valid_letters_fun s p q a b : valid_letters s p a -> valid_letters s q b -> p = q /\ a = b.
Proof.
  intros H1 H2. apply valid_letters_iff in H1, H2. destruct H1 as (c & E & F & _), H2 as (d & E' & F' & _). rewrite E in E'. injection E' as <- <-.
  split; [reflexivity|]. eapply b32_inj; eauto.
Qed.
Lemma valid_letters_sym s p a : valid_letters s p a -> Forall (sym_ok 5) a.
Proof. intros (low & c & _ & _ & _ & F & _). eapply b32_sym; eauto. Qed.
Lemma type_byte_ok t : byte_ok (type_byte t).
Proof. destruct t; cbn; unfold byte_ok; lia. Qed.
Lemma bits8_app_fun syms t h rest t' h' rest' : length h = 20%nat -> length h' = 20%nat -> bytes_ok h -> bytes_ok h' -> byte_ok t -> byte_ok t' ->
  bitstring 5 syms = bitstring 8 (t :: h) ++ rest -> bitstring 5 syms = bitstring 8 (t' :: h') ++ rest' -> t = t' /\ h = h' /\ rest = rest'.
Proof.
  intros L1 L2 B1 B2 T1 T2 H1 H2. rewrite H1 in H2. apply app_inj2 in H2; [|rewrite !bitstring_length; cbn [length]; lia]. destruct H2 as [H2 ->].
  apply bitstring_inj in H2; [|lia|apply sym8; constructor; assumption|apply sym8; constructor; assumption]. injection H2 as -> ->. auto.
Qed.

Lemma from_cash_addr_ok_iff s a : from_cash_addr s = Ok a <->
  exists p syms t h rest, valid_letters s p syms /\ (length syms = 42%nat \/ length syms = 43%nat) /\
     bitstring 5 syms = bitstring 8 (type_byte t :: h) ++ rest /\ length h = 20%nat /\ bytes_ok h /\
     a = Address t (ba_unnamed h) s p (from_prefix_str p).
Proof.
  split.
  - intros H. destruct (from_cash_addr_cases s) as [(p & syms & t & h & rest & A1 & A2 & A3 & A4 & A5 & A6)|[(p & syms & _ & _ & _ & E)|[(p & syms & b & h & rest & _ & _ & _ & _ & _ & _ & _ & _ & E)|(_ & n & _ & E)]]]; try congruence.
    exists p, syms, t, h, rest. repeat (split; [assumption|]). congruence.
  - intros (p & syms & t & h & rest & A1 & A2 & A3 & A4 & A5 & ->).
    destruct (from_cash_addr_cases s) as [(p' & syms' & t' & h' & rest' & B1 & B2 & B3 & B4 & B5 & B6)|[(p' & syms' & B1 & N1 & N2 & E)|[(p' & syms' & b & h' & rest' & B1 & B2 & B3 & B4 & B5 & B6 & N0 & N8 & E)|(N & n & _ & E)]]].
    + destruct (valid_letters_fun _ _ _ _ _ A1 B1) as [<- <-]. destruct (bits8_app_fun syms (type_byte t) h rest (type_byte t') h' rest') as (Et & <- & _); auto using type_byte_ok.
      assert (t = t') as <- by (destruct t, t'; cbn in Et; congruence || reflexivity). assumption.
    + destruct (valid_letters_fun _ _ _ _ _ A1 B1) as [<- <-]. exfalso. lia.
    + destruct (valid_letters_fun _ _ _ _ _ A1 B1) as [<- <-]. exfalso.
      destruct (bits8_app_fun syms (type_byte t) h rest b h' rest') as (Et & _); auto using type_byte_ok. destruct t; cbn in Et; congruence.
    + exfalso. eapply N; eauto.
Qed.
Lemma from_cash_addr_panic_iff s : from_cash_addr s = Panic <->
  exists p syms, valid_letters s p syms /\ length syms <> 42%nat /\ length syms <> 43%nat.
Proof.
  split.
  - intros H. destruct (from_cash_addr_cases s) as [(p & syms & t & h & rest & A1 & A2 & A3 & A4 & A5 & A6)|[(p & syms & A & B & C & E)|[(p & syms & b & h & rest & _ & _ & _ & _ & _ & _ & _ & _ & E)|(_ & n & _ & E)]]]; try congruence.
    exists p, syms. auto.
  - intros (p & syms & A & N1 & N2).
    destruct (from_cash_addr_cases s) as [(p' & syms' & t' & h' & rest' & B1 & B2 & B3 & B4 & B5 & B6)|[(p' & syms' & B1 & _ & _ & E)|[(p' & syms' & b & h' & rest' & B1 & B2 & B3 & B4 & B5 & B6 & N0 & N8 & E)|(N & n & _ & E)]]].
    + destruct (valid_letters_fun _ _ _ _ _ A B1) as [<- <-]. lia.
    + assumption.
    + destruct (valid_letters_fun _ _ _ _ _ A B1) as [<- <-]. lia.
    + exfalso. eapply N; eauto.
Qed.

(* ---------- the encoder ---------- *)
Lemma to_cash_addr_ok p t h : bytes_ok h -> exists txt, to_cash_addr p t h = Ok txt /\ cash_addr_text p t h txt.
Proof.
  intros Hh. unfold to_cash_addr. change (address_type_u8 t) with (type_byte t).
  assert (Forall (sym_ok 8) (type_byte t :: h)) as H8 by (apply sym8; constructor; [apply type_byte_ok|assumption]).
  destruct (convert_ok 8 5 _ ltac:(lia) ltac:(lia) H8) as (out & k & Ec & Hk & Hb & Ho). change (Z.of_nat 5) with 5 in Ec. change (Z.of_nat 8) with 8 in Ec. rewrite Ec.
  destruct (checksum_ok p out Ho) as (C1 & C2 & C3). destruct (to_b32_ok (out ++ calculate_checksum p out)) as (cs & E & F); [apply Forall_app; auto|].
  rewrite E. cbn [obind]. eexists. split; [reflexivity|]. exists out, (calculate_checksum p out), k, cs. repeat (split; [first [reflexivity|assumption]|]). assumption.
Qed.
Lemma text_payload_fun p t h a ca pa b cb pb : (pa < 5)%nat -> (pb < 5)%nat -> Forall (sym_ok 5) (a ++ ca) -> Forall (sym_ok 5) (b ++ cb) ->
  bitstring 5 a = bitstring 8 (type_byte t :: h) ++ repeat false pa -> bitstring 5 b = bitstring 8 (type_byte t :: h) ++ repeat false pb ->
  length ca = 8%nat -> length cb = 8%nat -> remainder p (a ++ ca) = 1 -> remainder p (b ++ cb) = 1 -> a ++ ca = b ++ cb.
Proof.
  intros Ha Hb Fa Fb Ea Eb La Lb Ra Rb. apply Forall_app in Fa, Fb. destruct Fa as [Fa Fca], Fb as [Fb Fcb].
  pose proof (f_equal (@length bool) Ea) as LA. pose proof (f_equal (@length bool) Eb) as LB. rewrite app_length, repeat_length, !bitstring_length in LA, LB.
  assert (pa = pb) as -> by lia. rewrite <- Eb in Ea. apply bitstring_inj in Ea; [|lia|assumption|assumption]. subst b.
  f_equal. exact (checksum_unique p a ca cb Fa Fca Fcb La Lb Ra Rb).
Qed.
Lemma b32_chars_fun l a b : Forall2 b32_char l a -> Forall2 b32_char l b -> a = b.
Proof.
  intros H. revert b. induction H as [|s c l a Hc _ IH]; intros b Hb; inversion Hb as [|? d ? b' Hd Hb']; subst; [reflexivity|].
  f_equal; [eapply b32_fun; eauto|auto].
Qed.
Lemma cash_addr_text_unique p t h x y : cash_addr_text p t h x -> cash_addr_text p t h y -> x = y.
Proof.
  intros (a & ca & pa & cs & -> & F & P & E & L & R) (b & cb & pb & ds & -> & F' & P' & E' & L' & R').
  pose proof (text_payload_fun p t h a ca pa b cb pb P P' (b32_sym _ _ F) (b32_sym _ _ F') E E' L L' R R') as Eq. rewrite <- Eq in F'. now rewrite (b32_chars_fun _ _ _ F F').
Qed.
Lemma cash_addr_text_inj p t h p' t' h' x : ~ In 58 p -> ~ In 58 p' -> bytes_ok h -> bytes_ok h' -> length h = 20%nat -> length h' = 20%nat ->
  cash_addr_text p t h x -> cash_addr_text p' t' h' x -> p = p' /\ t = t' /\ h = h'.
Proof.
  intros N N' B B' Lh Lh' (a & ca & pa & cs & E0 & F & P & E & L & R) (b & cb & pb & ds & E0' & F' & P' & E' & L' & R').
  assert (Some (p, cs) = Some (p', ds)) as Eq.
  { rewrite <- (proj2 (split_colon_some x p cs)), <- (proj2 (split_colon_some x p' ds)); auto. }
  injection Eq as <- <-. pose proof (b32_inj _ _ _ F F') as Es.
  assert (length a = length b) as Lab by (apply (f_equal (@length Z)) in Es; rewrite !app_length in Es; lia).
  apply app_inj2 in Es; [|assumption]. destruct Es as [<- <-].
  destruct (bits8_app_fun a (type_byte t) h (repeat false pa) (type_byte t') h' (repeat false pb)) as (Et & <- & _); auto using type_byte_ok.
  split; [reflexivity|]. split; [|reflexivity]. destruct t, t'; cbn in Et; congruence || reflexivity.
Qed.
(** Reading a text back. *)
Lemma read_text p t h x s low : cash_addr_text p t h x -> bytes_ok h -> length h = 20%nat ->
  Forall low_ok p -> ~ In 58 p ->
  (low = x \/ (p = text "bitcoincash" /\ x = p ++ [58] ++ low)) -> same_letters s low ->
  from_cash_addr s = Ok (Address t (ba_unnamed h) s p (from_prefix_str p)).
Proof.
  intros (a & ca & pa & cs & E0 & F & P & E & L & R) B Lh Hp Np Hlow Hs. apply from_cash_addr_ok_iff.
  pose proof (f_equal (@length bool) E) as LA. rewrite app_length, repeat_length, !bitstring_length in LA. cbn [length] in LA.
  exists p, (a ++ ca), t, h, (repeat false pa ++ bitstring 5 ca).
  assert (Forall (fun c => low_ok c /\ c <> 58) cs) as Fc.
  { clear - F. revert F. generalize (a ++ ca) as l. intros l F. induction F as [|y c l cs [Hy Hc] _ IH]; constructor; [|assumption].
    destruct (b32_total y Hy) as (c' & _ & Hc' & _ & Hl & Hn & _). assert (c = c') as -> by (eapply b32_fun; [split; eassumption|eassumption]). split; [|assumption].
    rewrite <- Hl. apply lower_low. }
  split; [|split; [|split; [|split; [assumption|split; [assumption|reflexivity]]]]].
  - exists low, cs. split; [assumption|]. destruct Hlow as [->|[Ep Ex]].
    + subst x. split; [|split; [left; auto|auto]]. apply Forall_app. split; [assumption|]. constructor; [lia|]. eapply Forall_impl; [|exact Fc]. now intros c [? _].
    + assert (cs = low) as ->. { rewrite E0 in Ex. now apply app_inv_head, app_inv_head in Ex. }
      split; [eapply Forall_impl; [|exact Fc]; now intros c [? _]|]. split; [|auto]. right. split; [|auto].
      intros Hi. rewrite Forall_forall in Fc. destruct (Fc _ Hi) as [_ ?]. congruence.
  - left. rewrite app_length. lia.
  - now rewrite bitstring_app, E, <- app_assoc.
Qed.
(** Accepted with 42 symbols and zero padding: canonical. *)
Lemma accepted_canonical s p syms t h rest : valid_letters s p syms -> length syms = 42%nat ->
  bitstring 5 syms = bitstring 8 (type_byte t :: h) ++ false :: false :: rest -> length h = 20%nat ->
  exists x, cash_addr_text p t h x /\ (same_letters s x \/ (p = text "bitcoincash" /\ exists low, same_letters s low /\ x = p ++ [58] ++ low)).
Proof.
  intros V L E Lh. pose proof (valid_letters_sym _ _ _ V) as Ok. destruct V as (low & c & S1 & S2 & D & F & R).
  exists (p ++ [58] ++ c). split.
  - exists (firstn 34 syms), (skipn 34 syms), 2%nat, c. rewrite firstn_skipn. split; [reflexivity|]. split; [assumption|]. split; [lia|]. split; [|split; [|assumption]].
    + rewrite <- (firstn_skipn 34 syms), bitstring_app in E.
      change (false :: false :: rest) with (repeat false 2 ++ rest) in E. rewrite app_assoc in E. apply app_inj2 in E; [tauto|].
      rewrite app_length, !bitstring_length, firstn_length, repeat_length. cbn [length]. lia.
    + rewrite skipn_length. lia.
  - destruct D as [[-> _]|(N & -> & ->)]; [left; assumption|]. right. split; [reflexivity|]. exists low. auto.
Qed.

(* ---------- error detection ---------- *)
Lemma burst p a w v b : (length w <= 8)%nat -> length w = length v -> Forall (sym_ok 5) w -> Forall (sym_ok 5) v -> Forall (sym_ok 5) a ->
  remainder p (a ++ w ++ b) = remainder p (a ++ v ++ b) -> w = v.
Proof.
  intros L8 Lv Fw Fv Fa H. rewrite !remainder_app in H. rewrite !fold_left_app in H. set (c := remainder p a) in *.
  assert (0 <= c < 2 ^ 40) as Hc by now apply remainder_range.
  set (x := fold_left register w c) in *. set (y := fold_left register v c) in *.
  assert (0 <= x < 2 ^ 40) as Hx by now apply fold_range. assert (0 <= y < 2 ^ 40) as Hy by now apply fold_range.
  assert (y = Z.lxor x (Z.lxor x y)) as Ey by (rewrite <- Z.lxor_assoc, Z.lxor_nilpotent; now rewrite Z.lxor_0_l).
  rewrite Ey, fold_lin in H. assert (Lpow (length b) (Z.lxor x y) = 0) as H0.
  { set (z := Lpow _ _) in *. set (u := fold_left register b x) in *. apply (f_equal (Z.lxor u)) in H. rewrite <- Z.lxor_assoc, !Z.lxor_nilpotent, Z.lxor_0_l in H. now symmetry. }
  apply Lpow_inj0 in H0; [|apply lxor_range; lia]. apply Z.lxor_eq in H0. unfold x, y in H0. rewrite !fold_burst in H0 by (auto; lia). rewrite <- Lv in H0.
  apply (f_equal (Z.lxor (Lpow (length w) c))) in H0. rewrite <- !Z.lxor_assoc, Z.lxor_nilpotent, !Z.lxor_0_l in H0. apply be32_inj in H0; [tauto|assumption|assumption|assumption|apply Z.le_refl|apply Z.le_refl].
Qed.
Lemma Forall2_app_inv_r' {A B} (R : A -> B -> Prop) l a b : Forall2 R l (a ++ b) -> exists l1 l2, l = l1 ++ l2 /\ Forall2 R l1 a /\ Forall2 R l2 b.
Proof. intros H. apply Forall2_app_inv_r in H. destruct H as (l1 & l2 & H1 & H2 & ->). eauto. Qed.

Lemma Forall2_len {A B} {R : A -> B -> Prop} {l m} : Forall2 R l m -> length l = length m.
Proof. induction 1; cbn; congruence. Qed.
Lemma burst_letters p (pre w v post a b : list Z) : length w = length v -> (length w <= 8)%nat ->
  Forall2 b32_char a (pre ++ w ++ post) -> Forall2 b32_char b (pre ++ v ++ post) -> remainder p a = 1 -> remainder p b = 1 -> w = v.
Proof.
  intros Lw L8 Fa Fb Ra Rb. apply Forall2_app_inv_r' in Fa, Fb. destruct Fa as (a1 & a2 & -> & A1 & A2), Fb as (b1 & b2 & -> & B1 & B2).
  apply Forall2_app_inv_r' in A2, B2. destruct A2 as (a2' & a3 & -> & A2 & A3), B2 as (b2' & b3 & -> & B2 & B3).
  rewrite (b32_inj _ _ _ A1 B1) in *. rewrite (b32_inj _ _ _ A3 B3) in *. pose proof (Forall2_len A2). pose proof (Forall2_len B2).
  assert (a2' = b2') as <-.
  { apply (burst p b1 a2' b2' b3); [congruence|congruence|exact (b32_sym _ _ A2)|exact (b32_sym _ _ B2)|exact (b32_sym _ _ B1)|congruence]. }
  eapply b32_chars_fun; eauto.
Qed.
Lemma divided_prefix pre x p c : In 58 pre -> divided (pre ++ x) p c -> exists r, split_colon pre = Some (p, r) /\ c = r ++ x.
Proof.
  intros Hi [[H Hn]|[H _]]; [|exfalso; apply H; apply in_app_iff; auto].
  destruct (split_colon pre) as [[q r]|] eqn:E; [|apply split_colon_none in E; contradiction]. pose proof E as E0. apply split_colon_some in E. destruct E as [-> Hq].
  assert (Some (p, c) = Some (q, r ++ x)) as Eq. 
  { rewrite <- (proj2 (split_colon_some ((q ++ [58] ++ r) ++ x) p c)), <- (proj2 (split_colon_some ((q ++ [58] ++ r) ++ x) q (r ++ x))); [reflexivity| |auto].
    split; [now rewrite <- !app_assoc|assumption]. }
  injection Eq as -> ->. eauto.
Qed.
Lemma from_cash_addr_burst pre w v post a : from_cash_addr (pre ++ w ++ post) = Ok a -> length w = length v -> (length w <= 8)%nat ->
  (In 58 pre \/ (~ In 58 (pre ++ w ++ post) /\ ~ In 58 (pre ++ v ++ post))) -> ~ same_letters w v ->
  exists e, letter_or_checksum e /\ from_cash_addr (pre ++ v ++ post) = Err e.
Proof.
  intros H Lw L8 Hc Hd. apply from_cash_addr_ok_iff in H. destruct H as (p & sy & t & h & rest & V & _).
  assert (forall q sy', ~ valid_letters (pre ++ v ++ post) q sy') as HN.
  { intros q sy' V'. apply Hd, same_letters_lower. apply valid_letters_iff in V, V'. destruct V as (c & E & F & R), V' as (d & E' & F' & R').
    apply split_default_iff in E, E'. rewrite !map_app in E, E'. destruct Hc as [Hi|[Ni Ni']].
    - assert (In 58 (map lower pre)) as Hi' by now apply lower_in_colon. apply divided_prefix in E, E'; try assumption. destruct E as (r & Ep & ->), E' as (r' & Ep' & ->).
      rewrite Ep in Ep'. injection Ep' as <- <-. eapply burst_letters; [| |exact F|exact F'|exact R|exact R']; now rewrite ?map_length.
    - rewrite <- lower_in_colon, !map_app in Ni, Ni'. destruct E as [[E _]|(_ & -> & ->)]; [exfalso; apply Ni; rewrite E; apply in_app_iff; right; now left|].
      destruct E' as [[E' _]|(_ & -> & ->)]; [exfalso; apply Ni'; rewrite E'; apply in_app_iff; right; now left|].
      eapply burst_letters; [| |exact F|exact F'|exact R|exact R']; now rewrite ?map_length. }
  destruct (from_cash_addr_cases (pre ++ v ++ post)) as [(p' & syms' & t' & h' & rest' & B1 & _)|[(p' & syms' & B1 & _)|[(p' & syms' & b & h' & rest' & B1 & _)|(_ & n & ? & E)]]];
   [exfalso; eapply HN; eauto|exfalso; eapply HN; eauto|exfalso; eapply HN; eauto|eauto].
Qed.
