(** Properties C34, C36, C43: hexadecimal and serde forms of hashes and keys; relative lock times. *)
From Verif Require Import Base BaseLemmas Model_ByteArray Proofs_ByteArray Model_Hash Spec_Hash.
Local Open Scope Z_scope.
Local Open Scope list_scope.

Lemma hex_val_digit c v : hex_val c = Some v <-> digit c v.
Proof.
  unfold hex_val. split.
  - repeat match goal with |- context[if ?b then _ else _] => destruct b eqn:?; [intros E; injection E as <-|] end; [| | |discriminate].
    + replace c with (65 + (c - 65 + 10 - 10)) at 1 by lia. apply DigUpper. lia.
    + replace c with (97 + (c - 97 + 10 - 10)) at 1 by lia. apply DigLower. lia.
    + replace c with (48 + (c - 48)) at 1 by lia. apply DigNum. lia.
  - intros [w H|w H|w H]; repeat match goal with |- context[if ?b then _ else _] => destruct b eqn:? end; try lia; f_equal; lia.
Qed.
Lemma digit_range c v : digit c v -> 0 <= v <= 15. Proof. intros [w H|w H|w H]; lia. Qed.
Lemma pairs_ind (P : list Z -> Prop) : P [] -> (forall a, P [a]) -> (forall a b s, P s -> P (a :: b :: s)) -> forall s, P s.
Proof. intros H0 H1 H2 s. assert (H : P s /\ forall a, P (a :: s)); [|apply H]. induction s as [|x s [A B]]; split; auto. Qed.
Lemma hex_pairs_ok s d : hex_pairs s = Ok d <-> hex_text s d.
Proof.
  revert d. induction s as [| a|a b s IH] using pairs_ind; intros d.
  - cbn. split; [intros E; injection E as <-; constructor|intros H; inversion H; reflexivity].
  - cbn. split; [discriminate|intros H; inversion H].
  - cbn [hex_pairs]. split.
    + destruct (hex_val a) as [h|] eqn:Ea; [|discriminate]. destruct (hex_val b) as [l|] eqn:Eb; [|discriminate]. destruct (hex_pairs s) as [d'| |]; try discriminate. intros E. cbn [obind] in E. injection E as <-.
      replace (h * 16 + l) with (16 * h + l) by lia. constructor; [now apply hex_val_digit|now apply hex_val_digit|now apply IH].
    + intros H. inversion H as [|? ? h l ? d' Ha Hb Hs]; subst. apply hex_val_digit in Ha, Hb. rewrite Ha, Hb. apply IH in Hs. rewrite Hs. cbn [obind]. do 2 f_equal. lia.
Qed.
Lemma hex_pairs_total s : hex_pairs s <> Panic /\ forall e, hex_pairs s = Err e -> e = EFromHex.
Proof.
  induction s as [| a|a b s [IH1 IH2]] using pairs_ind; cbn [hex_pairs]; [split; discriminate|split; [discriminate|intros e E; congruence]|].
  destruct (hex_val a), (hex_val b); try (split; [discriminate|intros e E; congruence]). destruct (hex_pairs s) as [d|e|]; cbn [obind]; [split; [discriminate|discriminate]| |congruence]. split; [discriminate|]. intros x E. injection E as <-. auto.
Qed.
Lemma hex_text_even s d : hex_text s d -> Z.odd (zlen s) = false.
Proof. induction 1 as [|a b h l s d Ha Hb Hs IH]; [reflexivity|]. replace (zlen (a :: b :: s)) with (zlen s + 2 * 1) by (rewrite !zlen_cons; lia). rewrite Z.odd_add_mul_2. exact IH. Qed.
Lemma hex_decode_ok s d : hex_decode s = Ok d <-> hex_text s d.
Proof.
  unfold hex_decode. destruct (Z.odd (zlen s)) eqn:E.
  - split; [discriminate|]. intros H. apply hex_text_even in H. congruence.
  - apply hex_pairs_ok.
Qed.
Lemma hex_decode_err s : (forall d, ~ hex_text s d) -> hex_decode s = Err EFromHex.
Proof.
  intros H. destruct (hex_decode s) as [d|e|] eqn:E; [exfalso; eapply H, hex_decode_ok, E| |]; unfold hex_decode in E; destruct (Z.odd (zlen s)); try congruence; destruct (hex_pairs_total s) as [P Q]; [f_equal; auto|congruence].
Qed.
Lemma hex_digit_ok v : 0 <= v <= 15 -> digit (hex_digit v) v.
Proof. intros H. unfold hex_digit. destruct (v <? 10) eqn:E; [apply DigNum; lia|]. replace (87 + v) with (97 + (v - 10)) by lia. apply DigLower. lia. Qed.
Lemma byte_halves b : byte_ok b -> 0 <= b / 16 <= 15 /\ 0 <= b mod 16 <= 15 /\ b = 16 * (b / 16) + b mod 16.
Proof. unfold byte_ok. intros H. Z.to_euclidean_division_equations. lia. Qed.
Lemma hex_encode_text d : bytes_ok d -> hex_text (hex_encode d) d.
Proof.
  induction 1 as [|b d Hb _ IH]; [constructor|]. cbn [hex_encode]. destruct (byte_halves b Hb) as (H1 & H2 & H3). rewrite H3 at 3. constructor; [now apply hex_digit_ok|now apply hex_digit_ok|exact IH].
Qed.
Lemma hex_encode_lower d : bytes_ok d -> Forall lower_hex (hex_encode d).
Proof.
  induction 1 as [|b d Hb _ IH]; [constructor|]. cbn [hex_encode]. destruct (byte_halves b Hb) as (H1 & H2 & _). unfold lower_hex, hex_digit. 
  constructor; [destruct (b / 16 <? 10) eqn:E; lia|]. constructor; [destruct (b mod 16 <? 10) eqn:E; lia|exact IH].
Qed.
Lemma digit_fun c v w : digit c v -> digit c w -> v = w.
Proof. intros H1 H2. apply hex_val_digit in H1, H2. congruence. Qed.
Lemma hex_text_fun s d d' : hex_text s d -> hex_text s d' -> d = d'.
Proof. intros H1 H2. apply hex_decode_ok in H1, H2. congruence. Qed.
Lemma hex_text_bytes s d : hex_text s d -> bytes_ok d.
Proof. induction 1 as [|a b h l s d Ha Hb Hs IH]; [constructor|]. apply digit_range in Ha, Hb. constructor; [unfold byte_ok; lia|exact IH]. Qed.
Lemma hex_encode_len d : length (hex_encode d) = (2 * length d)%nat. Proof. induction d; cbn [hex_encode length]; lia. Qed.
Lemma hex_encode_app a b : hex_encode (a ++ b) = hex_encode a ++ hex_encode b.
Proof. induction a as [|x a IH]; [reflexivity|]. cbn [hex_encode app]. now rewrite IH. Qed.
Lemma lower_text_unique s d : hex_text s d -> Forall lower_hex s -> s = hex_encode d.
Proof.
  induction 1 as [|a b h l s d Ha Hb Hs IH]; intros HL; [reflexivity|]. inversion HL as [|? ? La HL']; subst. inversion HL' as [|? ? Lb HL'']; subst. cbn [hex_encode]. pose proof (digit_range _ _ Ha). pose proof (digit_range _ _ Hb).
  assert ((16 * h + l) / 16 = h) as -> by (Z.to_euclidean_division_equations; lia). assert ((16 * h + l) mod 16 = l) as -> by (Z.to_euclidean_division_equations; lia).
  assert (K : forall c v, digit c v -> lower_hex c -> c = hex_digit v).
  { intros c v Hd Hc. unfold hex_digit. destruct Hd as [v W|v W|v W]; unfold lower_hex in Hc; destruct (v <? 10) eqn:E; lia. }
  rewrite <- (K a h), <- (K b l), <- IH; auto.
Qed.

(** ** C34 *)
(** The two texts of a hash: the lower-case hexadecimal texts of its bytes, and of its bytes in reverse. *)
Theorem C34_texts : forall h, bytes_ok (ba_data h) ->
  (forall s, s = hash_to_hex_be h <-> hex_text s (ba_data h) /\ Forall lower_hex s) /\
  (forall s, s = hash_to_hex_le h <-> hex_text s (rev (ba_data h)) /\ Forall lower_hex s) /\
  hash_display h = hash_to_hex_le h.
Proof.
  intros h H. unfold hash_to_hex_be, hash_to_hex_le, hash_to_vec_le, hash_display. assert (bytes_ok (rev (ba_data h))) as HR by now apply bytes_ok_rev.
  split; [|split; [|reflexivity]]; intros s; (split; [intros ->; split; [now apply hex_encode_text|now apply hex_encode_lower]|intros [H1 H2]; now apply lower_text_unique]).
Qed.
Print Assumptions C34_texts.
Theorem C34_texts_reversed : forall h, pairs (hash_to_hex_le h) = rev (pairs (hash_to_hex_be h)).
Proof.
  intros h. unfold hash_to_hex_le, hash_to_hex_be, hash_to_vec_le. induction (ba_data h) as [|x d IH]; [reflexivity|]. cbn [rev hex_encode pairs]. rewrite hex_encode_app. rewrite <- IH. cbn [hex_encode].
  generalize (hex_digit (x / 16)) as p, (hex_digit (x mod 16)) as q. intros p q. clear. assert (forall l, pairs (hex_encode l ++ [p; q]) = pairs (hex_encode l) ++ [[p; q]]) as H; [|apply H]. induction l as [|y l IH]; [reflexivity|]. cbn [hex_encode app pairs]. now rewrite IH.
Qed.
Print Assumptions C34_texts_reversed.
Theorem C34_round_trip : forall n h, bytes_ok (ba_data h) -> zlen (ba_data h) = n ->
  hash_from_hex_le n (hash_to_hex_le h) = Ok (ba_unnamed (ba_data h)) /\ hash_from_hex_be n (hash_to_hex_be h) = Ok (ba_unnamed (ba_data h)) /\
  hash_from_slice_le n (hash_to_vec_le h) = Ok (ba_unnamed (ba_data h)) /\ hash_from_slice n (ba_data h) = Ok (ba_unnamed (ba_data h)).
Proof.
  intros n h H HL. assert (bytes_ok (rev (ba_data h))) as HR by now apply bytes_ok_rev. unfold hash_from_hex_le, hash_from_hex_be, hash_to_hex_le, hash_to_hex_be, hash_from_slice_le, hash_to_vec_le, hash_from_slice, fixed_from_slice.
  rewrite !(proj2 (hex_decode_ok _ _) (hex_encode_text _ H)), !(proj2 (hex_decode_ok _ _) (hex_encode_text _ HR)). cbn [obind]. rewrite !rev_involutive, HL, Z.eqb_refl. auto.
Qed.
Print Assumptions C34_round_trip.
(** Exactly the hexadecimal texts of the right length are accepted, in either case; everything else is an error. *)
Theorem C34_accepted_iff : forall n s h,
  (hash_from_hex_be n s = Ok h <-> exists d, hex_text s d /\ zlen d = n /\ h = ba_unnamed d) /\
  (hash_from_hex_le n s = Ok h <-> exists d, hex_text s (rev d) /\ zlen d = n /\ h = ba_unnamed d) /\
  hash_from_hex_be n s <> Panic /\ hash_from_hex_le n s <> Panic.
Proof.
  intros n s h. unfold hash_from_hex_be, hash_from_hex_le, hash_from_slice, fixed_from_slice. destruct (hex_decode s) as [d|e|] eqn:E.
  - apply hex_decode_ok in E. cbn [obind]. split; [|split; [|split; match goal with |- context[if ?c then _ else _] => destruct c; discriminate end]].
    + destruct (n =? zlen d) eqn:EL; (split; [intros X|intros (d' & H1 & H2 & ->)]); try discriminate; [injection X as <-; exists d; split; [exact E|split; [lia|reflexivity]]| |]; rewrite (hex_text_fun _ _ _ E H1) in *; [reflexivity|lia].
    + destruct (n =? zlen (rev d)) eqn:EL; (split; [intros X|intros (d' & H1 & H2 & ->)]); try discriminate.
      * injection X as <-. exists (rev d). rewrite rev_involutive. split; [exact E|split; [lia|reflexivity]].
      * rewrite (hex_text_fun _ _ _ E H1), rev_involutive. reflexivity.
      * rewrite (hex_text_fun _ _ _ E H1), rev_involutive in EL. lia.
  - cbn [obind]. split; [|split; [|split; discriminate]]; (split; [discriminate|]); intros (d & H1 & _); apply hex_decode_ok in H1; congruence.
  - exfalso. unfold hex_decode in E. destruct (Z.odd (zlen s)); [discriminate|]. destruct (hex_pairs_total s). congruence.
Qed.
Print Assumptions C34_accepted_iff.
Theorem C34_texts_injective : forall h h', bytes_ok (ba_data h) -> bytes_ok (ba_data h') ->
  hash_to_hex_le h = hash_to_hex_le h' \/ hash_to_hex_be h = hash_to_hex_be h' -> ba_data h = ba_data h'.
Proof.
  intros h h' H H' [E|E]; unfold hash_to_hex_le, hash_to_hex_be, hash_to_vec_le in E.
  - assert (rev (ba_data h) = rev (ba_data h')) as R. { eapply hex_text_fun; [apply hex_encode_text; now apply bytes_ok_rev|]. rewrite E. apply hex_encode_text. now apply bytes_ok_rev. } rewrite <- (rev_involutive (ba_data h)), R. apply rev_involutive.
  - eapply hex_text_fun; [now apply hex_encode_text|]. rewrite E. now apply hex_encode_text.
Qed.
Print Assumptions C34_texts_injective.
(** A digest records its message; it does not panic if the hash function gives [n] bytes. *)
Theorem C34_digest : forall H n f msg, zlen (H (ba_data msg)) = n ->
  hash_digest H n f msg = Ok (BA (H (ba_data msg)) None f (Some [msg])).
Proof. intros H n f msg HL. unfold hash_digest, fixed_from_byte_array, ba_apply_function, ba_len. cbn [ba_data]. now rewrite HL, Z.eqb_refl. Qed.
Print Assumptions C34_digest.
Definition ex_hash20 : barray := ba_unnamed (map (fun k => 13 * Z.of_nat k) (seq 0 20)).
Example C34_nonvacuous : bytes_ok (ba_data ex_hash20) /\ zlen (ba_data ex_hash20) = 20 /\
  hash_from_hex_le 20 (hash_to_hex_le ex_hash20) = Ok ex_hash20 /\ hash_to_hex_le ex_hash20 <> hash_to_hex_be ex_hash20 /\
  hash_from_hex_be 2 [65; 98; 48; 57] = Ok (ba_unnamed [0xab; 0x09]) /\
  hash_from_hex_be 2 [65; 98; 48] = Err EFromHex /\ hash_from_hex_be 2 [65; 98; 48; 71] = Err EFromHex /\ hash_from_hex_be 2 [65; 98] = Err (EInvalidSlice 2 1).
Proof.
  split; [cbn; repeat (constructor; [unfold byte_ok; lia|]); constructor|]. split; [reflexivity|]. split; [vm_compute; reflexivity|]. split; [vm_compute; discriminate|]. repeat split; vm_compute; reflexivity.
Qed.

(** ** C43 *)
(** Text form (JSON and other human-readable formats) of fixed-size arrays, hashes (written in reverse), plain
    arrays and public keys. *)
Theorem C43_hash_text_round_trip : forall n be h, bytes_ok (ba_data h) -> zlen (ba_data h) = n ->
  exists s, fixed_to_text n be h = Ok s /\ hex_text s (if be then ba_data h else rev (ba_data h)) /\ fixed_from_text n be s = Ok (ba_unnamed (ba_data h)).
Proof.
  intros n be h H HL. unfold fixed_to_text, fixed_from_text, copy_from_slice. rewrite HL, Z.eqb_refl. cbn [obind]. assert (bytes_ok (rev (ba_data h))) as HR by now apply bytes_ok_rev.
  eexists. split; [reflexivity|]. destruct be; (split; [now apply hex_encode_text|]).
  - rewrite (proj2 (hex_decode_ok _ _) (hex_encode_text _ H)). cbn [obind]. rewrite HL, Z.eqb_refl. reflexivity.
  - rewrite (proj2 (hex_decode_ok _ _) (hex_encode_text _ HR)). cbn [obind]. rewrite rev_involutive, HL, Z.eqb_refl. reflexivity.
Qed.
Print Assumptions C43_hash_text_round_trip.
Theorem C43_hash_text_iff : forall n be s,
  (forall h, fixed_from_text n be s = Ok h <-> exists d, hex_text s d /\ zlen d = n /\ h = ba_unnamed (if be then d else rev d)) /\
  ((forall d, ~ hex_text s d) <-> exists e, fixed_from_text n be s = Err e).
Proof.
  intros n be s. unfold fixed_from_text, copy_from_slice. destruct (hex_decode s) as [d|e|] eqn:E.
  - apply hex_decode_ok in E. cbn [obind]. assert (zlen (if be then d else rev d) = zlen d) as HL by (destruct be; [reflexivity|unfold zlen; now rewrite rev_length]). split.
    + intros h. rewrite HL. destruct (zlen d =? n) eqn:EL; cbn [obind]; (split; [intros X|intros (d' & H1 & H2 & ->)]); try discriminate; try (rewrite (hex_text_fun _ _ _ E H1) in *; first [reflexivity|lia]). injection X as <-. exists d. split; [exact E|]. split; [lia|reflexivity].
    + split; [intros H; exfalso; exact (H d E)|]. intros (e & X). destruct (zlen _ =? n); discriminate.
  - assert (forall d, ~ hex_text s d) as N by (intros d H; apply hex_decode_ok in H; congruence). cbn [obind]. split; [|split; [eauto|intros _; exact N]].
    intros h. split; [discriminate|]. intros (d & H & _). exfalso. exact (N d H).
  - exfalso. unfold hex_decode in E. destruct (Z.odd (zlen s)); [discriminate|]. destruct (hex_pairs_total s). congruence.
Qed.
Print Assumptions C43_hash_text_iff.
(** Reading a hexadecimal text of any other length as a hash panics. *)
Theorem C43_hash_text_panics_refuted : forall n be s, fixed_from_text n be s = Panic <-> exists d, hex_text s d /\ zlen d <> n.
Proof.
  intros n be s. destruct (C43_hash_text_iff n be s) as [H1 H2]. unfold fixed_from_text, copy_from_slice in *. destruct (hex_decode s) as [d|e|] eqn:E.
  - apply hex_decode_ok in E. cbn [obind]. assert (zlen (if be then d else rev d) = zlen d) as -> by (destruct be; [reflexivity|unfold zlen; now rewrite rev_length]).
    destruct (zlen d =? n) eqn:EL; cbn [obind]; (split; [intros X|intros (d' & X1 & X2)]); try discriminate; try reflexivity; [rewrite (hex_text_fun _ _ _ E X1) in *; lia|]. exists d. split; [exact E|lia].
  - cbn [obind]. split; [discriminate|]. intros (d & X & _). apply hex_decode_ok in X. congruence.
  - exfalso. unfold hex_decode in E. destruct (Z.odd (zlen s)); [discriminate|]. destruct (hex_pairs_total s). congruence.
Qed.
Print Assumptions C43_hash_text_panics_refuted.
Theorem C43_array_text : forall a, bytes_ok (ba_data a) -> array_from_text (array_to_text a) = Ok (ba_unnamed (ba_data a)).
Proof. intros a H. unfold array_from_text, array_to_text. now rewrite (proj2 (hex_decode_ok _ _) (hex_encode_text _ H)). Qed.
Print Assumptions C43_array_text.
Theorem C43_pubkey_text : forall s pk,
  (bytes_ok pk -> zlen pk = 33 -> pubkey_from_text (pubkey_to_text pk) = Ok pk) /\
  (pubkey_from_text s = Ok pk <-> hex_text s pk /\ zlen pk = 33) /\ pubkey_from_text s <> Panic.
Proof.
  intros s pk. unfold pubkey_from_text, pubkey_to_text. split; [|split].
  - intros H HL. rewrite (proj2 (hex_decode_ok _ _) (hex_encode_text _ H)). cbn [obind]. now rewrite HL.
  - destruct (hex_decode s) as [d|e|] eqn:E; cbn [obind].
    + apply hex_decode_ok in E. destruct (zlen d =? 33) eqn:EL; (split; [intros X|intros [X1 X2]]); try discriminate; try (rewrite (hex_text_fun _ _ _ E X1) in *; first [reflexivity|lia]). injection X as <-. split; [exact E|lia].
    + split; [discriminate|]. intros [X _]. apply hex_decode_ok in X. congruence.
    + split; [discriminate|]. intros [X _]. apply hex_decode_ok in X. congruence.
  - destruct (hex_decode s) as [d|e|] eqn:E; cbn [obind]; [destruct (zlen d =? 33); discriminate|discriminate|]. exfalso. unfold hex_decode in E. destruct (Z.odd (zlen s)); [discriminate|]. destruct (hex_pairs_total s). congruence.
Qed.
Print Assumptions C43_pubkey_text.
Theorem C43_pubkey_slice : forall s,
  (zlen s = 33 -> pubkey_from_slice s = Ok s /\ pubkey_from_slice_checked s = Some s) /\
  (zlen s <> 33 -> pubkey_from_slice s = Panic /\ pubkey_from_slice_checked s = None).
Proof. intros s. unfold pubkey_from_slice, copy_from_slice, pubkey_from_slice_checked. split; intros H; [rewrite H; auto|]. rewrite (proj2 (Z.eqb_neq _ _) H). auto. Qed.
Print Assumptions C43_pubkey_slice.
Example C43_nonvacuous : (exists s, fixed_to_text 20 false ex_hash20 = Ok s /\ fixed_from_text 20 false s = Ok ex_hash20 /\ pubkey_from_text s = Err EInvalidPubkey) /\
  fixed_from_text 20 false [48; 48] = Panic /\ fixed_from_text 20 false [48; 48; 122; 122] = Err EFromHex.
Proof. split; [eexists; split; [vm_compute; reflexivity|]|]; split; vm_compute; reflexivity. Qed.

(** ** C36 *)
Lemma small_bits v i : 0 <= v < 65536 -> 16 <= i -> Z.testbit v i = false.
Proof. intros Hv Hi. destruct (Z.eq_dec v 0) as [->|]; [apply Z.testbit_0_l|]. apply Z.bits_above_log2; [lia|]. assert (Z.log2 v < 16) by (apply Z.log2_lt_pow2; lia). lia. Qed.
Lemma seconds_value s : 0 <= s < 65536 -> csv_sequence (Seconds512 s) = s + 2 ^ 22.
Proof.
  intros H. cbn [csv_sequence]. change CSV_TYPE_FLAG with (2 ^ 22). assert (Z.land s (2 ^ 22) = 0).
  { apply Z.bits_inj'. intros i Hi. rewrite Z.land_spec, Z.bits_0. destruct (Z.lt_ge_cases i 16); [rewrite (Z.pow2_bits_false 22 i) by lia; apply andb_false_r|rewrite small_bits by lia; reflexivity]. }
  rewrite <- Z.lxor_lor by assumption. symmetry. now apply Z.add_nocarry_lxor.
Qed.
Theorem C36_bip68 : forall c, csv_ok c -> bip68 (csv_sequence c) = meant c /\ 0 <= csv_sequence c < 2 ^ 31.
Proof.
  intros [h|s]; cbn [csv_ok meant]; unfold u16_ok; change (2 ^ 16) with 65536; intros H.
  - cbn [csv_sequence]. unfold bip68. rewrite !small_bits, Z.mod_small by lia. split; [reflexivity|lia].
  - pose proof (seconds_value s H) as E. unfold bip68. cbn [csv_sequence] in *. rewrite Z.lor_spec, (Z.lor_spec s CSV_TYPE_FLAG 22), !small_bits by lia. change (Z.testbit CSV_TYPE_FLAG 31) with false. change (Z.testbit CSV_TYPE_FLAG 22) with true. rewrite orb_true_r. cbn [orb].
    rewrite E. change (2 ^ 22) with (64 * 65536). rewrite Z.mod_add, Z.mod_small by lia. split; [reflexivity|]. change (2 ^ 31) with 2147483648. lia.
Qed.
Print Assumptions C36_bip68.
Theorem C36_injective : forall c c', csv_ok c -> csv_ok c' -> csv_sequence c = csv_sequence c' -> c = c'.
Proof. intros c c' H H' E. destruct (C36_bip68 c H) as [A _], (C36_bip68 c' H') as [B _]. rewrite E, B in A. destruct c, c'; cbn [meant] in A; congruence. Qed.
Print Assumptions C36_injective.
(** Longer delays of one kind have larger sequence numbers, and every block delay is below every time delay. *)
Theorem C36_ordered : forall x y, u16_ok x -> u16_ok y ->
  (x < y <-> csv_sequence (Blockheight x) < csv_sequence (Blockheight y)) /\ (x < y <-> csv_sequence (Seconds512 x) < csv_sequence (Seconds512 y)) /\ csv_sequence (Blockheight x) < csv_sequence (Seconds512 y).
Proof.
  unfold u16_ok. change (2 ^ 16) with 65536. intros x y Hx Hy. rewrite !seconds_value by assumption. cbn [csv_sequence]. change (2 ^ 22) with 4194304. lia.
Qed.
Print Assumptions C36_ordered.
Example C36_nonvacuous : csv_ok (Seconds512 65535) /\ bip68 (csv_sequence (Seconds512 65535)) = Units512 65535 /\ csv_sequence (Seconds512 1) = 0x400001 /\ bip68 0xffffffff = NoLock.
Proof. split; [cbn; unfold u16_ok; lia|]. repeat split; vm_compute; reflexivity. Qed.
